(** Over any storage that keeps the contract, the library runs in step with the SQLite storage. *)
From Coq Require Import List NArith ZArith Bool Lia Permutation.
From Verif Require Import Base BaseFacts Text Keys KeysFacts Trust TrustFacts Certificate Relation Storage StorageFacts Graph SearchFacts PathFacts
  Spec SpecFacts GraphFacts StateFacts ChainFacts AlikeFacts MachineSpec GraphThms MoreThms Scan ScanSpec ScanFacts ScanThms AnyStore AnyStoreSpec.
Import ListNotations.
Open Scope N_scope.

Lemma trusts_to_auths : forall k l, trusts_to k l = auths_of l k.
Proof. intros k l. unfold trusts_to, auths_of, only_auths. induction l as [|[a|v] l IH]; cbn [flat_map filter rel_issued_for]; [reflexivity| |]; [destruct (pk_eqb (issued_for (auth_trust a)) k)|destruct (pk_eqb (rev_pk v) k)]; cbn [flat_map app]; rewrite IH; reflexivity. Qed.
Lemma revocations_of_revs : forall k l, revocations_of k l = revs_of l k.
Proof. intros k l. unfold revocations_of, revs_of, only_revs. induction l as [|[a|v] l IH]; cbn [flat_map filter rel_issued_for]; [reflexivity| |]; [destruct (pk_eqb (issued_for (auth_trust a)) k)|destruct (pk_eqb (rev_pk v) k)]; cbn [flat_map app]; rewrite IH; reflexivity. Qed.
Lemma plain_from_secs : forall d, plain_time d -> from_secs (secs d) = d.
Proof. intros [s n] [H _]. cbn in H. subst n. reflexivity. Qed.
Lemma plain_whole : forall x, plain x -> whole x = x.
Proof.
  intros [[[f e sg i] b]|[k r b sg]]; cbn [plain].
  - intros [H1 H2]. cbn [auth_trust expires_at issued_at] in H1, H2. unfold whole, whole_trust. cbn [auth_trust expires_at issued_at issued_for trust_sig issued_by].
    rewrite (plain_from_secs e H1), (plain_from_secs i H2). reflexivity.
  - intros H. cbn [revoked_at] in H. unfold whole. cbn [rev_pk revoked_at revoked_by rev_sig]. rewrite (plain_from_secs r H). reflexivity.
Qed.

Section WithContract.
Variable C : crypto.
Variables St Er : Type.
Variable T : storage St Er.
Variable good : St -> Prop.
Variable contents : St -> list relation.
Variable factor : St -> public_key -> option N.
Variable size : St -> nat.
Hypothesis K : keeps C St Er T good contents factor size.

(** ** Reading *)
Section Reads.
Variable L : list relation.
Variable F : public_key -> option N.
Hypothesis Valid : forall x, In x L -> pk_valid C (rel_issued_for x) /\ pk_valid C (rel_issued_by x).
Definition held_at (s : St) : Prop := good s /\ contents s = L /\ forall k, factor s k = F k.
Definition Rd {A} (m : AM St Er A) (Q : A -> Prop) : Prop := forall s, held_at s ->
  exists s', held_at s' /\ ((exists a, m s = (Ok a, s') /\ Q a) \/ exists e, m s = (Err (X_storage e), s')).
Lemma rd_ret : forall A (a : A) (Q : A -> Prop), Q a -> Rd (aret a) Q.
Proof. intros A a Q H s G. exists s. split; [exact G|]. left. exists a. auto. Qed.
Lemma rd_bind : forall A B (m : AM St Er A) (f : A -> AM St Er B) (Q : A -> Prop) Q', Rd m Q -> (forall a, Q a -> Rd (f a) Q') -> Rd (abind m f) Q'.
Proof.
  intros A B m f Q Q' H H' s G. destruct (H s G) as (s1 & G1 & [(a & E & Qa)|(e & E)]); unfold abind; rewrite E.
  - exact (H' a Qa s1 G1).
  - exists s1. split; [exact G1|]. right. exists e. reflexivity.
Qed.
Lemma rd_read : forall A (m : St -> result Er A * St) (P : St -> A -> Prop) (Q : A -> Prop), reads St Er good contents factor m P ->
  (forall s a, held_at s -> P s a -> Q a) -> Rd (ast m) Q.
Proof.
  intros A m P Q R H s G. pose proof (R s (proj1 G)) as X. unfold ast. destruct (m s) as [[a|e| |] s']; cbn [map_err]; try contradiction.
  - destruct X as (Pa & G' & Ec & Ef). exists s'. split.
    + split; [exact G'|]. split; [rewrite Ec; apply G|]. intros k. rewrite Ef. apply G.
    + left. exists a. split; [reflexivity|]. exact (H s a G Pa).
  - destruct X as (G' & Ec & Ef). exists s'. split.
    + split; [exact G'|]. split; [rewrite Ec; apply G|]. intros k. rewrite Ef. apply G.
    + right. exists e. reflexivity.
Qed.
Lemma rd_trusts : forall k, pk_valid C k -> Rd (ast (s_get_authorizations T k)) (fun l => l = auths_of L k).
Proof. intros k V. eapply rd_read; [apply K; exact V|]. intros s a G ->. cbv beta. destruct G as (_ & -> & _). apply trusts_to_auths. Qed.
Lemma rd_revocations : forall k, pk_valid C k -> Rd (ast (s_get_revocations T k)) (fun l => l = revs_of L k).
Proof. intros k V. eapply rd_read; [apply K; exact V|]. intros s a G ->. cbv beta. destruct G as (_ & -> & _). apply revocations_of_revs. Qed.
Lemma rd_factor : forall k, pk_valid C k -> Rd (ast (s_get_root_weight_factor T k)) (fun f => f = F k).
Proof. intros k V. eapply rd_read; [apply K; exact V|]. intros s a G ->. cbv beta. apply G. Qed.
Lemma rd_roots : Rd (ast (s_root_keys T)) (fun l => forall k, In k l <-> F k <> None).
Proof. eapply rd_read; [apply K|]. intros s l G H k. rewrite (H k). destruct G as (_ & _ & G). rewrite (G k). reflexivity. Qed.
Lemma rd_extend : forall c l, (forall a, In a l -> pk_valid C (issued_by a)) -> Rd (a_extend_chain St Er T c l) (fun r => r = ext_with L c l).
Proof.
  intros c l. induction l as [|a l IH]; intros V; cbn [a_extend_chain]; [apply rd_ret; reflexivity|]. unfold ext_with. cbn [filter].
  specialize (IH (fun x I => V x (or_intror I))). destruct (can_be_extended_by c (issued_by a)); [|exact IH].
  eapply rd_bind; [apply rd_revocations, V; left; reflexivity|]. intros rs ->. eapply rd_bind; [exact IH|]. intros r ->. apply rd_ret. reflexivity.
Qed.
Definition open_ends (q : search_state) : Prop := forall c, In c (fst q) -> pk_valid C (issued_by (ch_last c)).
Lemma auths_valid : forall k a, In a (auths_of L k) -> pk_valid C (issued_by a).
Proof. intros k a I. apply in_auths_of in I. apply (Valid (RAuth a)), I. Qed.
Lemma open_step : forall rks q, open_ends q -> open_ends (sstep L rks q).
Proof.
  intros rks [[|c l] t] O x I; unfold sstep in I; cbn [fst snd] in I; [destruct I|]. apply in_app_or in I. destruct I as [I|I].
  - apply O. right. exact I.
  - unfold ext, ext_with in I. apply in_map_iff in I. destruct I as (a & <- & I). apply filter_In in I. rewrite ch_last_push. eapply auths_valid. apply I.
Qed.
Lemma open_iter : forall n rks q, open_ends q -> open_ends (iter n (sstep L rks) q).
Proof. induction n as [|n IH]; intros rks q O; [exact O|]. cbn [iter]. apply IH, open_step. exact O. Qed.
Lemma rd_step : forall rks q, open_ends q -> Rd (a_search_step St Er T rks q) (fun r => r = sstep L rks q).
Proof.
  intros rks q O. unfold a_search_step, sstep. destruct (fst q) as [|c l] eqn:E; [apply rd_ret; reflexivity|].
  eapply rd_bind; [apply rd_trusts, O; rewrite E; left; reflexivity|]. intros as_ ->.
  eapply rd_bind; [apply rd_extend; intros a; apply auths_valid|]. intros r ->. apply rd_ret. reflexivity.
Qed.
Lemma rd_run : forall n rks q, open_ends q -> Rd (a_search_run St Er T n rks q) (fun r => r = iter (2 ^ n) (sstep L rks) q).
Proof.
  induction n as [|n IH]; intros rks q O; cbn [a_search_run]; [apply rd_step; exact O|].
  rewrite Nat.pow_succ_r'. replace (2 * 2 ^ n)%nat with (2 ^ n + 2 ^ n)%nat by lia. rewrite iter_add.
  eapply rd_bind; [apply IH; exact O|]. intros r ->. destruct (fst (iter (2 ^ n) (sstep L rks) q)) eqn:E.
  - apply rd_ret. rewrite (iter_fix _ _ (2 ^ n) (iter (2 ^ n) (sstep L rks) q)) by (apply sstep_idle; exact E). reflexivity.
  - apply IH, open_iter. exact O.
Qed.
Lemma fuel_more : forall n pk, (length L <= n)%nat -> (length (levels L pk (2 * length L + 2)) <= 2 ^ ((2 * S n + 3) * S n))%nat.
Proof.
  intros n pk H. etransitivity; [apply (fuel_enough L pk (mk_db (repeat (mk_row 0 [] [] 0 0 []) (length L)) [])); cbn [tbl_relations]; apply repeat_length|].
  unfold search_fuel. cbn [tbl_relations]. rewrite repeat_length. apply Nat.pow_le_mono_r; [lia|]. nia.
Qed.
Lemma rd_search : forall pk rks, pk_valid C pk -> Rd (a_bf_search_paths St Er T size pk rks) (fun r => r = found_paths L rks pk).
Proof.
  intros pk rks V. unfold a_bf_search_paths. eapply rd_bind; [apply rd_trusts; exact V|]. intros as_ ->. eapply rd_bind; [apply rd_revocations; exact V|]. intros rs ->. cbv zeta.
  change (map (fun a => ch_new a (revs_of L pk)) (auths_of L pk)) with (level L pk 0).
  assert (O : open_ends (level L pk 0, [])).
  { intros c I. cbn [fst level] in I. apply in_map_iff in I. destruct I as (a & <- & I). cbn. eapply auths_valid. exact I. }
  eapply rd_bind with (Q := fun r => r = ([], found_paths L rks pk)).
  - intros s G. assert (E : iter (2 ^ a_search_fuel St size s) (sstep L rks) (level L pk 0, []) = ([], found_paths L rks pk)).
    { rewrite (iter_past L rks _ (length (levels L pk (2 * length L + 2)))).
      - rewrite sstep_levels, level_dies. reflexivity.
      - unfold a_search_fuel. apply fuel_more. destruct G as (G & <- & _). apply K. exact G.
      - rewrite sstep_levels. cbn [fst]. apply level_dies. }
    rewrite <- E. apply rd_run; assumption.
  - intros r ->. cbn [fst snd]. apply rd_ret. reflexivity.
Qed.
Lemma terminates_same : forall rks rks' c, (forall k, In k rks <-> In k rks') -> chain_terminates rks c = chain_terminates rks' c.
Proof.
  intros rks rks' c H. unfold chain_terminates. f_equal. f_equal. apply eq_true_iff_eq. rewrite !existsb_pk. apply H.
Qed.
Lemma found_same : forall rks rks' pk, (forall k, In k rks <-> In k rks') -> found_paths L rks pk = found_paths L rks' pk.
Proof. intros rks rks' pk H. unfold found_paths. f_equal. apply filter_ext. intros c. apply terminates_same. exact H. Qed.
(** What follows the removal of expired trusts in [get_all_certs]. *)
Lemma rd_certs : forall ros pk, (forall k, F k = root_factor ros k) -> pk_valid C pk ->
  Rd (let# roots := ast (s_root_keys T) in let# paths := a_bf_search_paths St Er T size pk roots in
      aret (filter (fun c : certificate => Nat.ltb 1 (length c)) (map (fun p => rev (map auth_trust p)) paths))) (fun cs => cs = certs_of (mk_state L ros) pk).
Proof.
  intros ros pk HF V. eapply rd_bind; [apply rd_roots|]. intros rks H. eapply rd_bind; [apply rd_search; exact V|]. intros ps ->. apply rd_ret.
  unfold certs_of. cbn [rels GraphFacts.roots]. rewrite (found_same rks (map fst ros)); [|intros k; rewrite (H k), (HF k), factor_in; reflexivity].
  fold (found_certs L (map fst ros) pk). apply filter_all. intros c I. apply Nat.ltb_lt. eapply found_certs_len. exact I.
Qed.
Lemma rd_min : forall ros cs acc, (forall k, F k = root_factor ros k) -> (forall kf, In kf ros -> pk_valid C (fst kf)) ->
  (forall c, In c cs -> exists t c', c = t :: c' /\ In (issued_for t) (map fst ros)) ->
  Rd (a_certs_min_factor St Er T cs acc) (fun r => r = min_factor ros cs acc).
Proof.
  intros ros cs acc HF V. revert acc. induction cs as [|c cs IH]; intros acc Hc; cbn [a_certs_min_factor]; [apply rd_ret; reflexivity|].
  destruct (Hc c (or_introl eq_refl)) as (t & c' & -> & Hr). destruct (root_factor_some _ _ Hr) as (f & Hf).
  assert (Vt : pk_valid C (issued_for t)) by (apply in_map_iff in Hr; destruct Hr as (kf & <- & I); apply V; exact I).
  eapply rd_bind; [apply rd_factor; exact Vt|]. intros x ->. rewrite HF, Hf. unfold min_factor. cbn [fold_left]. unfold cert_factor at 2. rewrite Hf.
  apply IH. intros x I. apply Hc. right. exact I.
Qed.
Lemma rd_factors : forall ros cs, (forall k, F k = root_factor ros k) -> (forall kf, In kf ros -> pk_valid C (fst kf)) ->
  (forall c, In c cs -> exists t c', c = t :: c' /\ In (issued_for t) (map fst ros)) ->
  Rd (a_certificates_weight_factor St Er T cs) (fun r => r = match cs with [] => None | _ => Some (min_factor ros cs u32_max) end).
Proof.
  intros ros cs HF V Hc. unfold a_certificates_weight_factor. destruct cs as [|c cs]; [apply rd_ret; reflexivity|].
  eapply rd_bind; [apply (rd_min ros); assumption|]. intros r ->. apply rd_ret. reflexivity.
Qed.
End Reads.

(** ** In step *)
Variable len : public_key -> N.
Record ok (s : St) (q : state) : Prop := mk_ok {
  ok_good : good s;
  ok_wf : wf C q;
  ok_rels : forall x, In x (contents s) <-> In x (rels q);
  ok_factor : forall k, factor s k = root_factor (roots q) k;
  ok_plain : forall x, In x (rels q) -> plain x;
  ok_len : forall k f, root_factor (roots q) k = Some f -> f = get_weight_factor (len k)
}.
Definition Sim {A A'} (s : St) (q : state) (m : AM St Er A) (n : M graph_error A') (Rel : state -> A -> A' -> Prop) : Prop :=
  match m s with
  | (Ok a, s') => exists a' q' tr, Rel q' a a' /\ ok s' q' /\ Traced SQL (db_of q) n tr (Ok a') (db_of q')
  | (Err (X_other e), s') => exists q' tr, ok s' q' /\ Traced SQL (db_of q) n tr (Err e) (db_of q')
  | (Err (X_storage _), s') => exists q' k, ok s' q' /\ n (mk_world (db_of q) (Some k)) = (Err SQL, mk_world (db_of q') (Some 0%nat))
  | _ => False
  end.
Lemma sim_ret : forall A A' s q (a : A) (a' : A') (Rel : state -> A -> A' -> Prop), ok s q -> Rel q a a' -> Sim s q (aret a) (ret a') Rel.
Proof. intros. unfold Sim, aret. exists a', q, []. split; [assumption|]. split; [assumption|]. apply traced_ret. Qed.
Lemma traced_skip : forall A B d (n : M graph_error A) tr a d1 (g : A -> M graph_error B) k,
  Traced SQL d n tr (Ok a) d1 -> mbind n g (mk_world d (Some (length tr + k)%nat)) = g a (mk_world d1 (Some k)).
Proof.
  intros A B d n tr a d1 g k H. unfold mbind. rewrite (H (Some (length tr + k)%nat)). assert (E : nth_error tr (length tr + k) = None) by (apply nth_error_None; lia).
  rewrite E. replace (length tr + k - length tr)%nat with k by lia. reflexivity.
Qed.
Lemma sim_bind : forall A A' B B' s q (m : AM St Er A) (n : M graph_error A') (f : A -> AM St Er B) (g : A' -> M graph_error B') Rel Rel',
  Sim s q m n Rel -> (forall s' q' a a', ok s' q' -> Rel q' a a' -> Sim s' q' (f a) (g a') Rel') -> Sim s q (abind m f) (mbind n g) Rel'.
Proof.
  intros A A' B B' s q m n f g Rel Rel' H H'. unfold Sim, abind in *. destruct (m s) as [[a|[e|e]| |] s1]; try contradiction.
  - destruct H as (a' & q1 & tr & R & O & Tr). specialize (H' s1 q1 a a' O R). unfold Sim in H'. destruct (f a s1) as [[b|[e|e]| |] s2]; try contradiction.
    + destruct H' as (b' & q2 & tr' & R' & O' & Tr'). exists b', q2, (tr ++ tr'). split; [exact R'|]. split; [exact O'|]. eapply traced_bind; eassumption.
    + destruct H' as (q2 & k & O' & E). exists q2, (length tr + k)%nat. split; [exact O'|]. rewrite (traced_skip _ _ _ _ _ _ _ _ _ Tr). exact E.
    + destruct H' as (q2 & tr' & O' & Tr'). exists q2, (tr ++ tr'). split; [exact O'|]. eapply traced_bind; eassumption.
  - destruct H as (q1 & k & O & E). exists q1, k. split; [exact O|]. unfold mbind. rewrite E. reflexivity.
  - destruct H as (q1 & tr & O & Tr). exists q1, tr. split; [exact O|]. apply traced_stop. exact Tr.
Qed.
Lemma ok_at : forall s q, ok s q -> held_at (contents s) (root_factor (roots q)) s.
Proof. intros s q O. split; [apply O|]. split; [reflexivity|apply O]. Qed.
Lemma at_ok : forall s s' q, ok s q -> held_at (contents s) (root_factor (roots q)) s' -> ok s' q.
Proof. intros s s' q O (G & E & F). destruct O. split; auto. rewrite E. auto. Qed.
Lemma ok_valid : forall s q, ok s q -> forall x, In x (contents s) -> pk_valid C (rel_issued_for x) /\ pk_valid C (rel_issued_by x).
Proof. intros s q O x I. apply (ok_rels _ _ O) in I. pose proof (wf_rels C q (ok_wf _ _ O)) as W. rewrite Forall_forall in W. destruct (W x I) as (V1 & V2 & _). auto. Qed.
Lemma sim_read : forall A A' s q (m : AM St Er A) (n : M graph_error A') Q tr a' (Rel : state -> A -> A' -> Prop), ok s q ->
  Rd (contents s) (root_factor (roots q)) m Q -> Traced SQL (db_of q) n (db_of q :: tr) (Ok a') (db_of q) -> (forall a, Q a -> Rel q a a') -> Sim s q m n Rel.
Proof.
  intros A A' s q m n Q tr a' Rel O R Tr H. destruct (R s (ok_at _ _ O)) as (s' & G & [(a & E & Qa)|(e & E)]); unfold Sim; rewrite E.
  - exists a', q, (db_of q :: tr). split; [apply H; exact Qa|]. split; [exact (at_ok _ _ _ O G)|exact Tr].
  - exists q, 0%nat. split; [exact (at_ok _ _ _ O G)|]. rewrite (Tr (Some 0%nat)). reflexivity.
Qed.
(** A state with the contents of the storage, in their order. *)
Lemma ok_alike : forall s q, ok s q -> alike C q (mk_state (contents s) (roots q)).
Proof.
  intros s q O. pose proof (ok_wf _ _ O) as W. split; [exact W| |intros x; symmetry; apply O|reflexivity]. split; cbn [rels roots]; [|apply K; apply O|apply W].
  apply Forall_forall. intros x I. pose proof (wf_rels C q W) as W1. rewrite Forall_forall in W1. apply W1, (ok_rels _ _ O). exact I.
Qed.
Lemma sim_factor : forall s q k, ok s q -> pk_valid C k -> Sim s q (ast (s_get_root_weight_factor T k)) (st (get_root_weight_factor k)) (fun q' a a' => a = a').
Proof. intros s q k O V. eapply sim_read; [exact O|apply rd_factor; exact V|apply (factor_traced C); apply O|]. intros a ->. reflexivity. Qed.
Lemma sim_gc : forall s q now, ok s q -> secs now < i64_bound -> Sim s q (ast (s_remove_expired T now)) (st (remove_expired now)) (fun _ _ _ => True).
Proof.
  intros s q now O B. assert (P : Forall plain (contents s)) by (apply Forall_forall; intros x I; apply (ok_plain _ _ O), (ok_rels _ _ O); exact I).
  pose proof (k_expired _ _ _ _ _ _ _ _ K now B s (ok_good _ _ O) P) as X. unfold Sim, ast. destruct (s_remove_expired T now s) as [[u|e| |] s']; cbn [map_err]; try contradiction.
  - destruct X as (G & Hc & Hf). exists tt, (apply_w q (W_gc now)), [db_of q]. split; [exact I|]. split; [|apply gc_traced]. split.
    + exact G.
    + apply apply_wf; [apply O|exact I].
    + intros x. rewrite Hc. cbn [apply_w rels]. rewrite in_gc, (ok_rels _ _ O). split; intros [H1 H2]; (split; [exact H1|]); pose proof (ok_plain _ _ O x H1) as Px.
      * intros X. destruct x as [[t b]|v]; [|exact X]. apply (db_expired_small now) in X; [|apply Px|exact B]. specialize (H2 (mk_auth t b) eq_refl). cbn [auth_trust] in H2. lia.
      * intros [t b] ->. cbn [plain] in Px. destruct (N.lt_ge_cases (secs now) (secs (expires_at (auth_trust (mk_auth t b))))) as [Y|Y]; [exact Y|]. exfalso. apply H2. apply db_expired_small; [apply Px|exact B|exact Y].
    + intros k. rewrite Hf. apply O.
    + intros x I. cbn [apply_w rels] in I. apply in_gc in I. apply (ok_plain _ _ O). apply I.
    + apply (ok_len _ _ O).
  - destruct X as (G & Hc & Hf). exists q, 0%nat. split; [|rewrite (gc_traced q now (Some 0%nat)); reflexivity]. destruct O. split; auto; intros; [rewrite Hc; auto|rewrite Hf; auto].
Qed.
Lemma sim_update : forall s q (m : St -> result Er unit * St) x, ok s q -> rel_typed C x -> plain x -> writes St Er good contents factor m (fun _ => True) (took St contents factor x) ->
  Sim s q (ast m) (st (update_relation C x)) (fun _ _ _ => True).
Proof.
  intros s q m x O Tx Px W. pose proof (W s (ok_good _ _ O) I) as X. destruct (update_traced C q x (ok_wf _ _ O) Tx) as (tr & Tr). unfold Sim, ast. destruct (m s) as [[u|e| |] s']; cbn [map_err]; try contradiction.
  - destruct X as (G & Hc & Hf). exists tt, (apply_w q (W_upd x)), tr. split; [exact I|]. split; [|exact Tr]. split.
    + exact G.
    + apply apply_wf; [apply O|exact Tx].
    + intros y. rewrite Hc. cbn [apply_w rels]. rewrite in_upd by (apply (wf_nodup C), O). rewrite (plain_whole x Px), (ok_rels _ _ O).
      split; (intros [H|[H|[-> H]]]; [left; exact H|right; left; exact H|right; right; split; [reflexivity|]]); intros z Hz; apply H; apply (ok_rels _ _ O); exact Hz.
    + intros k. rewrite Hf. apply O.
    + intros y I. cbn [apply_w rels] in I. rewrite in_upd in I by (apply (wf_nodup C), O). rewrite (plain_whole x Px) in I. destruct I as [[_ I]|[(_ & I & _)|[-> _]]]; [apply (ok_plain _ _ O); exact I|apply (ok_plain _ _ O); exact I|exact Px].
    + apply (ok_len _ _ O).
  - destruct X as (G & Hc & Hf). exists q, 0%nat. split; [destruct O; split; auto; intros; [rewrite Hc; auto|rewrite Hf; auto]|].
    unfold st, mmap_err, update_relation, get_relation, mbind, sql. reflexivity.
Qed.
Lemma sim_root : forall s q k n, ok s q -> pk_valid C k -> n = len k -> Sim s q (a_set_root St Er T k n) (set_root k n) (fun _ _ _ => True).
Proof.
  intros s q k n O V En. assert (B : get_weight_factor n <= 16) by (unfold get_weight_factor, MAX_WEIGHT_FACTOR; lia).
  assert (May : factor s k = None \/ factor s k = Some (get_weight_factor n)).
  { rewrite (ok_factor _ _ O). destruct (root_factor (roots q) k) as [f|] eqn:E; [right; rewrite (ok_len _ _ O _ _ E), En; reflexivity|left; reflexivity]. }
  pose proof (k_set_root _ _ _ _ _ _ _ _ K k _ V B s (ok_good _ _ O) May) as X.
  assert (Tr : Traced SQL (db_of q) (set_root k n) [db_of q] (Ok tt) (db_of (apply_w q (W_root k (get_weight_factor n))))).
  { eapply traced_as; [apply traced_st; eapply traced_sql; reflexivity|]. exact (Runs_none _ _ _ _ _ _ _ _ (root_does C q k n (ok_wf _ _ O) V)). }
  unfold Sim, a_set_root, ast. destruct (s_set_root_weight_factor T k (get_weight_factor n) s) as [[u|e| |] s']; cbn [map_err]; try contradiction.
  - destruct X as (G & Hc & Hk & Hf). exists tt, (apply_w q (W_root k (get_weight_factor n))), [db_of q]. split; [exact I|]. split; [|exact Tr].
    assert (E : forall k', root_factor (roots q ++ [(k, get_weight_factor n)]) k' = factor s' k').
    { intros k'. rewrite factor_app. cbn [fst snd]. destruct (pk_eqb k k') eqn:E.
      - apply pk_eqb_eq in E. subst k'. rewrite Hk. rewrite <- (ok_factor _ _ O). destruct May as [-> | ->]; reflexivity.
      - assert (N : k' <> k) by (intros ->; rewrite pk_eqb_refl in E; discriminate). rewrite (Hf k' N), (ok_factor _ _ O). destruct (root_factor (roots q) k'); reflexivity. }
    split.
    + exact G.
    + apply apply_wf; [apply O|]. split; [exact V|]. unfold u32_bound. lia.
    + intros x. rewrite Hc. apply O.
    + intros k'. cbn [apply_w roots]. rewrite E. reflexivity.
    + intros x Hx. apply (ok_plain _ _ O). exact Hx.
    + intros k' f. cbn [apply_w roots]. rewrite factor_app. cbn [fst snd]. destruct (root_factor (roots q) k') as [f'|] eqn:R.
      * intros Y. injection Y as <-. apply (ok_len _ _ O). exact R.
      * destruct (pk_eqb k k') eqn:Ek; [|discriminate]. intros Y. injection Y as <-. apply pk_eqb_eq in Ek. subst k' n. reflexivity.
  - destruct X as (G & Hc & Hf). exists q, 0%nat. split; [|rewrite (Tr (Some 0%nat)); reflexivity]. destruct O. split; auto; intros; [rewrite Hc; auto|rewrite Hf; auto].
Qed.
Lemma sim_weaken : forall A A' s q (m : AM St Er A) (n : M graph_error A') (Rel Rel' : state -> A -> A' -> Prop), Sim s q m n Rel -> (forall q' a a', Rel q' a a' -> Rel' q' a a') -> Sim s q m n Rel'.
Proof.
  intros A A' s q m n Rel Rel' H W. unfold Sim in *. destruct (m s) as [[a|[e|e]| |] s1]; try assumption. destruct H as (a' & q1 & tr & R & O & Tr). exists a', q1, tr. auto.
Qed.
(** ** The calls *)
Definition certs_rel (pk : public_key) (q : state) (cs cs' : list certificate) : Prop := Permutation cs cs' /\ cs' = certs_of q pk.
Lemma sim_certs : forall s q pk now, ok s q -> pk_valid C pk -> secs now < i64_bound -> Sim s q (a_get_all_certs St Er T size pk now) (get_all_certs C pk now) (certs_rel pk).
Proof.
  intros s q pk now O V B. unfold a_get_all_certs, get_all_certs. eapply sim_bind; [apply sim_gc; assumption|]. clear s q O. intros s q [] [] O _. cbv beta.
  eapply sim_read; [exact O|apply (rd_certs _ _ (ok_valid _ _ O) (roots q)); [reflexivity|exact V]| |].
  - change (db_of q :: ?x) with ([db_of q] ++ x). eapply traced_bind; [apply roots_traced; apply O|]. eapply traced_bind; [apply search_traced; apply O|]. apply traced_ret.
  - intros cs ->. cbv beta. fold (found_certs (rels q) (map fst (roots q)) pk). rewrite filter_all by (intros c I; apply Nat.ltb_lt; eapply found_certs_len; exact I).
    fold (certs_of q pk). split; [|reflexivity]. apply (alike_certs C), alike_sym, ok_alike. exact O.
Qed.
Definition from_rel (pk i : public_key) (q : state) (cs cs' : list certificate) : Prop := Permutation cs cs' /\ cs' = certs_from_of q pk i.
Lemma sim_certs_from : forall s q pk i now, ok s q -> pk_valid C pk -> secs now < i64_bound -> Sim s q (a_get_all_certs_from St Er T size pk i now) (get_all_certs_from C pk i now) (from_rel pk i).
Proof.
  intros s q pk i now O V B. unfold a_get_all_certs_from, get_all_certs_from. eapply sim_bind; [apply sim_certs; assumption|]. clear s q O. intros s q cs cs' O [P ->].
  apply sim_ret; [exact O|]. split; [apply filter_permutation; exact P|reflexivity].
Qed.
Lemma sim_factors : forall s q cs cs', ok s q -> Permutation cs cs' -> (forall c, In c cs' -> exists t c', c = t :: c' /\ In (issued_for t) (map fst (roots q))) ->
  Sim s q (a_certificates_weight_factor St Er T cs) (certificates_weight_factor cs') (fun _ a a' => a = a').
Proof.
  intros s q cs cs' O P H. destruct cs as [|c cs].
  - apply Permutation_nil in P. subst cs'. apply sim_ret; [exact O|reflexivity].
  - destruct cs' as [|c' cs']; [apply Permutation_sym, Permutation_nil in P; discriminate|].
    eapply sim_read; [exact O|apply (rd_factors _ _ (roots q) (c :: cs)); [reflexivity| |]|apply (factors_traced C q (c' :: cs')); [apply O|exact H]|].
    + intros kf I. pose proof (wf_roots C q (ok_wf _ _ O)) as W. rewrite Forall_forall in W. apply W. exact I.
    + intros x I. apply H. eapply Permutation_in; [exact P|exact I].
    + intros x ->. cbv beta iota. f_equal. apply min_factor_perm. exact P.
Qed.
Lemma sim_weight : forall s q pk now, ok s q -> pk_valid C pk -> secs now < i64_bound -> Sim s q (a_weight St Er T size pk now) (weight C pk now) (fun _ a a' => a = a').
Proof.
  intros s q pk now O V B. unfold a_weight, weight. eapply sim_bind; [apply sim_factor; assumption|]. clear s q O. intros s q rf rf' O <-. cbv zeta.
  eapply sim_bind; [apply sim_certs; assumption|]. clear s q O. intros s q cs cs' O [P ->].
  eapply sim_bind; [apply sim_factors; [exact O|exact P|]; intros c I; eapply certs_root; [apply O|exact I]|]. clear s q P O. intros s q f f' O <-. apply sim_ret; [exact O|reflexivity].
Qed.
Lemma sim_weight_from : forall s q pk i now, ok s q -> pk_valid C pk -> secs now < i64_bound -> Sim s q (a_weight_from St Er T size pk i now) (weight_from C pk i now) (fun _ a a' => a = a').
Proof.
  intros s q pk i now O V B. unfold a_weight_from, weight_from.
  eapply sim_bind; [apply sim_certs_from; assumption|]. clear s q O. intros s q cs cs' O [P ->].
  eapply sim_bind; [apply sim_factors; [exact O|exact P|]; intros c I; unfold certs_from_of in I; apply filter_In in I; eapply certs_root; [apply O|apply I]|]. clear s q P O. intros s q f f' O <-. apply sim_ret; [exact O|reflexivity].
Qed.
Lemma sim_next : forall s q b f now, ok s q -> pk_valid C b -> secs now < i64_bound -> Sim s q (a_get_next_weight St Er T size b f now) (get_next_weight C b f now) (fun _ a a' => a = a').
Proof. intros s q b f now O V B. unfold a_get_next_weight, get_next_weight. eapply sim_bind; [apply sim_weight; assumption|]. clear s q O. intros s q w w' O <-. apply sim_ret; [exact O|reflexivity]. Qed.
Lemma sim_lift : forall A s q (r : result graph_error A), ok s q -> (exists a, r = Ok a) \/ (exists e, r = Err e) -> Sim s q (alift r) (lift r) (fun q' a a' => a = a').
Proof.
  intros A s q r O [(a & ->)|(e & ->)]; unfold Sim, alift; cbn [map_err].
  - exists a, q, []. split; [reflexivity|]. split; [exact O|]. apply traced_pure.
  - exists q, []. split; [exact O|]. apply traced_pure.
Qed.
Lemma sim_add_trust : forall s q t b now, ok s q -> trust_typed C t -> plain_trust t -> pk_valid C b -> secs now < i64_bound -> Sim s q (a_add_trust C St Er T size t b now) (add_trust C t b now) (fun _ a a' => a = a').
Proof.
  intros s q t b now O Tt P V B. unfold a_add_trust, add_trust. eapply sim_bind.
  { apply sim_lift; [exact O|]. destruct (trust_verify_total C t b now) as [-> |(e & ->)]; cbn [map_err]; [left|right]; eexists; reflexivity. }
  clear s q O. intros s q u u' O <-. eapply sim_bind; [apply sim_next; assumption|]. clear s q O. intros s q w w' O <-. destruct (w =? 0); [apply sim_ret; [exact O|reflexivity]|].
  eapply sim_bind; [apply (sim_update _ _ _ (RAuth (mk_auth t b))); [exact O|apply trust_rel_typed; assumption|exact P|apply K; assumption]|].
  clear s q O. intros s q v v' O _. apply sim_ret; [exact O|reflexivity].
Qed.
Lemma sim_add_chain : forall c s q b now, ok s q -> Forall (trust_typed C) c -> Forall plain_trust c -> pk_valid C b -> secs now < i64_bound -> Sim s q (a_add_chain C St Er T size c b now) (add_chain C c b now) (fun _ a a' => a = a').
Proof.
  induction c as [|t c IH]; intros s q b now O F P V B; cbn [a_add_chain add_chain]; [apply sim_ret; [exact O|reflexivity]|]. inversion F as [|? ? Ft F']; subst. inversion P as [|? ? Pt P']; subst.
  eapply sim_bind; [apply sim_add_trust; assumption|]. clear s q O. intros s q w w' O _. apply IH; try assumption. apply Ft.
Qed.
Lemma sim_map : forall A A' s q (f : A -> graph_reply) (f' : A' -> graph_reply) (m : AM St Er A) (n : M graph_error A') (Rel : state -> A -> A' -> Prop),
  Sim s q m n Rel -> (forall q' a a', Rel q' a a' -> same_answer (Ok (f a)) (Ok (f' a'))) -> Sim s q (amap St Er f m) (mmap f' n) (fun _ x x' => same_answer (Ok x) (Ok x')).
Proof. intros A A' s q f f' m n Rel H W. unfold amap, mmap. eapply sim_bind; [exact H|]. intros s' q' a a' O R. apply sim_ret; [exact O|]. eapply W. exact R. Qed.
Lemma sim_call : forall s q c, ok s q -> call_typed C c -> plain_call c -> lengths_as len c -> Sim s q (any_do C St Er T size c) (graph_do C c) (fun _ x x' => same_answer (Ok x) (Ok x')).
Proof.
  intros s q c O Tc P Ln. destruct c; cbn [any_do graph_do call_typed plain_call lengths_as] in *.
  - eapply sim_map; [apply sim_root; [exact O|apply Tc|exact Ln]|]. reflexivity.
  - eapply sim_map; [apply sim_add_trust; tauto|]. intros q' a a' ->. reflexivity.
  - eapply sim_map with (Rel := fun _ a a' => a = a'); [|reflexivity]. destruct Tc as [Tc _]. destruct P as [P B]. destruct c as [|t c]; cbn [a_add add]; [apply (sim_lift _ _ _ (Err GE_EmptyChain)); [exact O|right; eexists; reflexivity]|].
    apply sim_add_chain; try assumption. inversion Tc as [|? ? Tt _]; subst. apply Tt.
  - eapply sim_map; [apply sim_weight; tauto|]. intros q' a a' ->. reflexivity.
  - eapply sim_map; [apply sim_weight_from; tauto|]. intros q' a a' ->. reflexivity.
  - eapply sim_map; [apply sim_certs; tauto|]. intros q' a a' [X _]. exact X.
  - eapply sim_map; [apply sim_certs_from; tauto|]. intros q' a a' [X _]. exact X.
  - eapply sim_map with (Rel := fun _ _ _ => True); [|reflexivity]. unfold a_revoke, revoke. eapply sim_bind.
    { apply sim_lift; [exact O|]. destruct (revocation_verify_total C v) as [-> |(e & ->)]; cbn [map_err]; [left|right]; eexists; reflexivity. }
    clear s q O. intros s q u u' O _. apply (sim_update _ _ _ (RRev v)); [exact O|apply revocation_rel_typed; exact Tc|exact P|apply K; assumption].
  - eapply sim_map with (Rel := fun _ a a' => Permutation a a'); [|intros q' a a' X; exact X]. unfold a_get_revocations, graph_get_revocations.
    eapply sim_read; [exact O|apply rd_revocations; exact Tc|apply revocations_traced; apply O|]. intros l ->. change (contents s) with (rels (mk_state (contents s) (roots q))). apply (alike_revs C), alike_sym, ok_alike. exact O.
Qed.
End WithContract.
