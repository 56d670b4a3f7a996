(** Stores that hold the same things answer alike. *)
From Coq Require Import List NArith ZArith Bool Lia ZifyBool ZifyNat ZifyN Permutation.
From Verif Require Import Base BaseFacts Text TextFacts Keys KeysFacts Trust TrustFacts Certificate CertFacts Relation
  Storage StorageFacts Graph SearchFacts PathFacts Spec SpecFacts GraphFacts StateFacts ChainFacts.
Import ListNotations.
Open Scope N_scope.

Section WithCrypto.
Variable C : crypto.

Record alike (s s' : state) : Prop := mk_alike {
  al_wf : wf C s;
  al_wf' : wf C s';
  al_rels : forall x, In x (rels s) <-> In x (rels s');
  al_roots : forall k, root_factor (roots s) k = root_factor (roots s') k
}.

Lemma factor_in : forall ros k, In k (map fst ros) <-> root_factor ros k <> None.
Proof.
  intros ros k. split.
  - intros H. apply root_factor_some in H. destruct H as (f & ->). discriminate.
  - unfold root_factor. destruct (find (fun kf => pk_eqb (fst kf) k) ros) as [[k' f']|] eqn:F; [|intros H; exfalso; apply H; reflexivity].
    intros _. apply find_some in F. destruct F as [Hin E]. cbn in E. apply pk_eqb_eq in E. subst k'. apply (in_map fst) in Hin. exact Hin.
Qed.

Lemma alike_sym : forall s s', alike s s' -> alike s' s.
Proof. intros s s' [W W' R F]. split; auto; intros; symmetry; auto. Qed.

Lemma alike_certs_incl : forall s s' pk, alike s s' -> incl (certs_of s pk) (certs_of s' pk).
Proof.
  intros s s' pk [W W' R F] c H. apply (certs_of_path C) in H; [|exact W]. apply (certs_of_path C); [exact W'|].
  destruct H as [L La Ro Li Si Un]. split; auto.
  - destruct Ro as (t & H1 & H2 & H3). exists t. split; [exact H1|]. split; [|apply R; exact H3].
    apply factor_in. rewrite <- F. apply factor_in. exact H2.
  - intros i g t Hg Ht. apply R. eapply Li; eassumption.
  - intros i j a b v Hij N Ha Hb Hv. apply (Un i j a b v Hij N Ha Hb). apply R. exact Hv.
Qed.
Lemma alike_certs : forall s s' pk, alike s s' -> Permutation (certs_of s pk) (certs_of s' pk).
Proof.
  intros s s' pk A. apply NoDup_Permutation.
  - apply found_certs_nodup. apply (wf_nodup C). apply A.
  - apply found_certs_nodup. apply (wf_nodup C). apply A.
  - intros c. split; apply alike_certs_incl; [exact A|apply alike_sym; exact A].
Qed.

Lemma filter_permutation : forall A (p : A -> bool) l l', Permutation l l' -> Permutation (filter p l) (filter p l').
Proof.
  intros A p l l' P. induction P as [|x l l' P IH|x y l|l l1 l2 P1 IH1 P2 IH2]; cbn.
  - constructor.
  - destruct (p x); [constructor|]; exact IH.
  - destruct (p x), (p y); try apply Permutation_refl. apply perm_swap.
  - eapply Permutation_trans; eassumption.
Qed.
Lemma alike_certs_from : forall s s' pk i, alike s s' -> Permutation (certs_from_of s pk i) (certs_from_of s' pk i).
Proof. intros. unfold certs_from_of. apply filter_permutation. apply alike_certs. assumption. Qed.

Lemma min_factor_perm : forall ros cs cs', Permutation cs cs' -> forall acc, min_factor ros cs acc = min_factor ros cs' acc.
Proof.
  intros ros cs cs' P. unfold min_factor.
  induction P as [|x l l' P IH|x y l|l l1 l2 P1 IH1 P2 IH2]; intros acc; cbn [fold_left]; auto.
  - f_equal. lia.
  - rewrite IH1. apply IH2.
Qed.
Lemma min_factor_ext : forall ros ros' cs, (forall k, root_factor ros k = root_factor ros' k) -> forall acc, min_factor ros cs acc = min_factor ros' cs acc.
Proof.
  intros ros ros' cs F. unfold min_factor. induction cs as [|c cs IH]; intros acc; cbn [fold_left]; [reflexivity|].
  rewrite IH. f_equal. f_equal. unfold cert_factor. destruct c; [reflexivity|]. rewrite F. reflexivity.
Qed.
Lemma certs_weight_alike : forall ros ros' cs cs', (forall k, root_factor ros k = root_factor ros' k) -> Permutation cs cs' ->
  certs_weight ros cs = certs_weight ros' cs'.
Proof.
  intros ros ros' cs cs' F P. unfold certs_weight. destruct cs as [|c cs].
  - apply Permutation_nil in P. subst. reflexivity.
  - destruct cs' as [|c' cs']; [apply Permutation_sym, Permutation_nil in P; discriminate|].
    rewrite (min_factor_ext ros ros' _ F), (min_factor_perm ros' _ _ P). reflexivity.
Qed.
Lemma alike_weight : forall s s' pk, alike s s' -> weight_of s pk = weight_of s' pk.
Proof.
  intros s s' pk A. unfold weight_of, root_weight. rewrite (al_roots _ _ A).
  rewrite (certs_weight_alike _ _ _ _ (al_roots _ _ A) (alike_certs _ _ pk A)). reflexivity.
Qed.
Lemma alike_weight_from : forall s s' pk i, alike s s' -> weight_from_of s pk i = weight_from_of s' pk i.
Proof.
  intros s s' pk i A. unfold weight_from_of. apply certs_weight_alike; [apply A|apply alike_certs_from; exact A].
Qed.

Lemma factor_app : forall ros k kf, root_factor (ros ++ [kf]) k =
  match root_factor ros k with Some f => Some f | None => if pk_eqb (fst kf) k then Some (snd kf) else None end.
Proof.
  intros ros k kf. unfold root_factor. induction ros as [|x ros IH]; cbn [app find].
  - destruct kf as [k' f]. cbn. destruct (pk_eqb k' k); reflexivity.
  - destruct (pk_eqb (fst x) k); [destruct x; reflexivity|exact IH].
Qed.

Lemma alike_apply : forall s s' w, alike s s' -> write_ok C w -> alike (apply_w s w) (apply_w s' w).
Proof.
  intros s s' w A Ok_w. split; [apply apply_wf; [apply A|exact Ok_w]|apply apply_wf; [apply A|exact Ok_w]| |].
  - destruct w as [now|x|k f]; cbn [apply_w rels]; intros y.
    + rewrite !in_gc, (al_rels _ _ A). reflexivity.
    + rewrite (in_upd (rels s)) by (apply (wf_nodup C); apply A). rewrite (in_upd (rels s')) by (apply (wf_nodup C); apply A).
      pose proof (al_rels _ _ A) as R. split; (intros [[N H]|[(Y & H & B)|[E H]]];
        [left; split; [exact N|apply R; exact H]
        |right; left; split; [exact Y|]; split; [apply R; exact H|exact B]
        |right; right; split; [exact E|]; intros z Hz; apply H; apply R; exact Hz]).
    + apply A.
  - destruct w as [now|x|k f]; cbn [apply_w roots]; intros y; try apply A.
    rewrite !factor_app, (al_roots _ _ A). reflexivity.
Qed.
Lemma alike_run : forall ws s s', alike s s' -> Forall (write_ok C) ws -> alike (run_ws ws s) (run_ws ws s').
Proof.
  induction ws as [|w ws IH]; intros s s' A F; [exact A|]. inversion F; subst. apply (IH (apply_w s w) (apply_w s' w)); [|assumption].
  apply alike_apply; assumption.
Qed.
Lemma alike_gc : forall s s' now, alike s s' -> alike (apply_w s (W_gc now)) (apply_w s' (W_gc now)).
Proof. intros. apply alike_apply; [assumption|exact I]. Qed.

Lemma alike_revs : forall s s' pk, alike s s' -> Permutation (revs_of (rels s) pk) (revs_of (rels s') pk).
Proof.
  intros s s' pk A. assert (P : Permutation (rels s) (rels s')).
  { apply NoDup_Permutation; [| |apply A].
    - eapply NoDup_map_inv. apply (wf_nodup C). apply A.
    - eapply NoDup_map_inv. apply (wf_nodup C). apply A. }
  unfold revs_of. apply (filter_permutation _ (fun x => pk_eqb (rel_issued_for x) pk)) in P.
  revert P. generalize (filter (fun x => pk_eqb (rel_issued_for x) pk) (rels s)), (filter (fun x => pk_eqb (rel_issued_for x) pk) (rels s')).
  intros l l' P. induction P as [|x l l' P IH|x y l|l l1 l2 P1 IH1 P2 IH2]; cbn.
  - constructor.
  - destruct x; [|constructor]; exact IH.
  - destruct x, y; try apply Permutation_refl. apply perm_swap.
  - eapply Permutation_trans; eassumption.
Qed.

Lemma alike_next_weight : forall s s' b f, alike s s' -> next_weight_of s b f = next_weight_of s' b f.
Proof. intros. unfold next_weight_of. rewrite (alike_weight _ _ b H). reflexivity. Qed.
Lemma alike_add_trust : forall s s' t b now, alike s s' -> add_trust_sem C s t b now = add_trust_sem C s' t b now.
Proof.
  intros s s' t b now A. unfold add_trust_sem. destruct (trust_verify C t b now); try reflexivity.
  cbv zeta. rewrite (alike_next_weight _ _ b (issued_for t) (alike_gc _ _ now A)). reflexivity.
Qed.
Lemma alike_add_chain : forall c s s' b now, alike s s' -> Forall (trust_typed C) c -> pk_valid C b ->
  add_chain_sem C s c b now = add_chain_sem C s' c b now.
Proof.
  induction c as [|t c IH]; intros s s' b now A T V; [reflexivity|]. inversion T; subst. cbn [add_chain_sem].
  pose proof (add_trust_sem_writes C s t b now ltac:(assumption) V) as W.
  rewrite <- (alike_add_trust _ _ t b now A). destruct (add_trust_sem C s t b now) as [[w|e| |] ws]; try reflexivity.
  rewrite (IH (run_ws ws s) (run_ws ws s') (issued_for t) now); [reflexivity| |assumption|].
  - apply alike_run; assumption.
  - match goal with H : trust_typed C t |- _ => apply H end.
Qed.

End WithCrypto.
