(** Adding a family of certificates. *)
From Coq Require Import List NArith ZArith Bool Lia.
From Verif Require Import Base BaseFacts Text Keys KeysFacts Trust Certificate Relation Storage Graph Service Spec SpecFacts ServiceSpec
  StorageFacts SearchFacts PathFacts GraphFacts StateFacts ChainFacts AddFacts Aqua AquaSpec Boot BootSpec.
Import ListNotations.
Open Scope N_scope.

Lemma in_chain_auths : forall c t b, in_chain c t b <-> In (mk_auth t b) (cert_auths c).
Proof.
  intros c t b. split.
  - intros (i & Ht & g & Hg & <-). unfold at_pos in *. destruct i as [|i].
    + change (0 - 1)%nat with 0%nat in Hg. rewrite Ht in Hg. injection Hg as <-. eapply nth_error_In. apply cert_auths_nth_0. exact Ht.
    + replace (S i - 1)%nat with i in Hg by lia. eapply nth_error_In. apply cert_auths_nth_S. exists t, g. split; [first [exact Hg|exact Ht]|]. split; [first [exact Hg|exact Ht]|reflexivity].
  - intros H. apply In_nth_error in H. destruct H as (i & H). destruct (cert_auths_nth _ _ _ H) as (P & g & Pg & Eg). cbn [auth_trust issued_by] in *.
    exists i. split; [exact P|]. exists g. split; [exact Pg|]. symmetry. exact Eg.
Qed.

Section Family.
Variable C : crypto.
Variables (d0 : db) (k0 : public_key) (m : N) (l : list (certificate * duration)).
Hypothesis F : good_family C d0 k0 m l.
Hypothesis Ht : forall c now, In (c, now) l -> call_typed C (G_add c now).

(** [D] are relations already in. *)
Record held (s : state) (D : relation -> Prop) : Prop := mk_held {
  h_inv : inv C s;
  h_root : root_max_len (db_of s) k0 m;
  h_newer : forall c now a z, In (c, now) l -> In a (cert_auths c) -> In z (rels s) -> same_keys (RAuth a) z ->
     before (rel_issued_at z) (rel_issued_at (RAuth a)) \/ z = whole (RAuth a);
  h_revs : forall c now v, In (c, now) l -> In (RRev v) (rels s) -> In (revoked_by v) (map issued_for c) -> In (rev_pk v) (map issued_for c) -> False;
  h_done : forall x, D x -> In x (rels s);
  h_src : forall x, In x (rels s) -> stored d0 x \/ exists c now a, In (c, now) l /\ In a (cert_auths c) /\ x = whole (RAuth a);
  h_roots : forall k n, root_max_len (db_of s) k n <-> root_max_len d0 k n \/ (k = k0 /\ n = m)
}.
Definition ours (x : relation) : Prop := exists c now a, In (c, now) l /\ In a (cert_auths c) /\ x = whole (RAuth a).

Lemma agree : forall c now c' now' a a', In (c, now) l -> In (c', now') l -> In a (cert_auths c) -> In a' (cert_auths c') -> same_keys (RAuth a) (RAuth a') -> a = a'.
Proof.
  intros c now c' now' [t b] [t' b'] Hc Hc' Ha Ha' [K1 K2]. cbn in K1, K2. subst b'. f_equal.
  apply (gf_agree _ _ _ _ _ F c now c' now' t t' b); try assumption; apply in_chain_auths; assumption.
Qed.
Lemma same_whole : forall x y, same_keys x (whole y) <-> same_keys x y.
Proof. intros [a|v] [b|w]; reflexivity. Qed.

Lemma held_write : forall s D c now w, held s D -> (forall x, D x -> ours x) -> In (c, now) l -> write_of C (G_add c now) w -> write_ok C w -> held (apply_w s w) D.
Proof.
  intros s D c now w [I R Nw V Dn Sr Rt] Do Hc Wr Wo. pose proof (inv_step C s w _ I Wr Wo) as I'. destruct w as [now'|x|pk f].
  - cbn [write_of call_time] in Wr. injection Wr as <-. split; try assumption.
    + intros c' n' a z Hc' Ha Hz. apply in_gc in Hz. apply (Nw c' n'); [exact Hc'|exact Ha|apply Hz].
    + intros c' n' v Hc' Hv. apply in_gc in Hv. apply (V c' n' v Hc'). apply Hv.
    + intros x Hx. apply in_gc. split; [apply Dn; exact Hx|]. destruct (Do x Hx) as (c' & n' & a & Hc' & Ha & ->).
      apply In_nth_error in Ha. destruct Ha as (i & Ha). destruct (cert_auths_nth _ _ _ Ha) as (Pa & _). apply nth_error_In in Pa.
      pose proof (gf_alive _ _ _ _ _ F c' n' c now _ Hc' Hc Pa) as A. intros X. cbn [whole] in X. apply db_expired_small in X; cbn [whole_trust expires_at from_secs secs] in *; lia.
    + intros x Hx. apply in_gc in Hx. apply Sr. apply Hx.
  - destruct x as [a|v]; [|destruct Wr as [Wr _]; discriminate Wr].
    assert (Ha : In a (cert_auths c)). { destruct Wr as [Wr _]. cbn in Wr. destruct a as [t b]. exact Wr. }
    assert (ND : NoDup (map (fun x => (rel_issued_for x, rel_issued_by x)) (rels s))) by (apply (wf_nodup C); apply I).
    assert (UI : forall y, In y (rels (apply_w s (W_upd (RAuth a)))) -> In y (rels s) \/ y = whole (RAuth a)).
    { intros y Hy. cbn [apply_w rels] in Hy. apply in_upd in Hy; [|exact ND]. destruct Hy as [[_ H]|[(_ & H & _)|[H _]]]; auto. }
    split; try assumption.
    + intros c' n' b z Hc' Hb Hz K. destruct (UI z Hz) as [H| ->]; [apply (Nw c' n'); assumption|]. right.
      apply same_whole in K. rewrite (agree c' n' c now b a Hc' Hc Hb Ha K). reflexivity.
    + intros c' n' v Hc' Hv. destruct (UI _ Hv) as [H|H]; [apply (V c' n' v Hc' H)|discriminate H].
    + intros x Hx. destruct (Do x Hx) as (c' & n' & b & Hc' & Hb & ->).
      destruct (same_pair (RAuth a) (RAuth b)) eqn:P.
      * apply same_pair_keys in P. rewrite <- (agree c now c' n' a b Hc Hc' Ha Hb P). cbn [apply_w rels]. apply upd_whole; [exact ND|].
        intros z Hz K. apply (Nw c now); assumption.
      * apply same_pair_keys_false in P. cbn [apply_w rels]. apply in_upd; [exact ND|]. left. split; [rewrite same_whole; exact P|apply Dn; exact Hx].
    + intros x Hx. destruct (UI x Hx) as [H| ->]; [apply Sr; exact H|]. right. exists c, now, a. auto.
  - destruct Wr as (n & Wr & _). discriminate Wr.
Qed.
Lemma held_writes : forall ws s D c now, held s D -> (forall x, D x -> ours x) -> In (c, now) l -> (forall w, In w ws -> write_of C (G_add c now) w /\ write_ok C w) -> held (run_ws ws s) D.
Proof.
  induction ws as [|w ws IH]; intros s D c now H Do Hc W; [exact H|]. cbn [run_ws fold_left]. apply (IH _ D c now); [|exact Do|exact Hc|intros w' Hw; apply W; right; exact Hw].
  destruct (W w (or_introl eq_refl)). eapply held_write; eassumption.
Qed.

(** One certificate. *)
Lemma held_add : forall s D c now, held s D -> (forall x, D x -> ours x) -> In (c, now) l ->
  fst (sem C s (G_add c now)) = Ok GR_unit /\
  held (run_ws (snd (sem C s (G_add c now))) s) (fun x => D x \/ exists a, In a (cert_auths c) /\ x = whole (RAuth a)).
Proof.
  intros s D c now H Do Hc. pose proof (Ht c now Hc) as T. destruct (gf_shape _ _ _ _ _ F c now Hc) as (L2 & Lm & K0 & ND).
  assert (Bn : secs now < i64_bound).
  { destruct K0 as (t & Htt & _). apply nth_error_In in Htt. pose proof (gf_alive _ _ _ _ _ F c now c now t Hc Hc Htt). lia. }
  assert (Hm : m <= 16) by (eapply max_len_le; exact (h_root _ _ H)).
  assert (Hv : forall a, In a (cert_auths c) -> trust_verify C (auth_trust a) (issued_by a) now = Ok tt).
  { intros a Ha. apply In_nth_error in Ha. destruct Ha as (i & Ha). destruct (cert_auths_nth _ _ _ Ha) as (P & g & Pg & Eg).
    destruct (gf_good _ _ _ _ _ F c now i Hc) as (t & k & Gt & (g' & Gg & Gk) & Sg & Ex); [apply nth_error_Some; congruence|].
    unfold at_pos in *. rewrite P in Gt. injection Gt as <-. rewrite Pg in Gg. injection Gg as <-.
    apply trust_verify_exact. split; [exact Ex|]. rewrite Eg, Gk. exact Sg. }
  assert (Rd : ready C c m k0 s 0).
  { split; [apply H| | |intros v Hv'; apply (h_revs _ _ H c now v Hc Hv')|apply H].
    - intros i a _ Hi. lia.
    - intros i a z Ha _ Hz K. apply (h_newer _ _ H c now a z Hc); [eapply nth_error_In; exact Ha|exact Hz|exact K]. }
  pose proof (fun w Hw => conj (sem_write_of C s (G_add c now) w Hw) (proj1 (Forall_forall _ _) (sem_writes C s _ T) w Hw)) as W.
  pose proof (held_writes _ s D c now H Do Hc W) as H'. clear W.
  cbn [sem] in *. unfold add_sem in *. destruct c as [|t0 c']; [cbn in L2; lia|].
  assert (Lm' : N.of_nat (length (t0 :: c')) <= m + 1) by lia. destruct T as [T _].
  assert (Hexp : forall t, In t (t0 :: c') -> secs now < secs (expires_at t) < i64_bound) by (intros t Hi; apply (gf_alive _ _ _ _ _ F _ now _ now t Hc Hc Hi)).
  destruct (ready_chain C (t0 :: c') now m k0 Lm' Hm K0 ND Hexp Bn T Hv (t0 :: c') (issued_for t0) s 0 eq_refl Rd eq_refl) as [X Y].
  destruct (add_chain_sem C s (t0 :: c') (issued_for t0) now) as [r ws]. cbn [fst snd] in *. subst r. split; [reflexivity|].
  destruct H' as [I R Nw V Dn Sr Rt]. split; try assumption. intros x [Hx|(a & Ha & ->)]; [apply Dn; exact Hx|].
  apply In_nth_error in Ha. destruct Ha as (i & Ha). destruct Y as [_ Yd _ _ _]. apply (Yd i a Ha). rewrite <- cert_auths_length. apply nth_error_Some. congruence.
Qed.

(** All of them, one after the other. *)
Definition add_all (d : db) (ls : list (certificate * duration)) : db :=
  fold_left (fun d cn => snd (graph_step C d (G_add (fst cn) (snd cn), None))) ls d.
Lemma held_all : forall ls s D, incl ls l -> held s D -> (forall x, D x -> ours x) ->
  (forall pre c now post, ls = pre ++ (c, now) :: post -> fst (graph_step C (add_all (db_of s) pre) (G_add c now, None)) = Ok GR_unit) /\
  exists s', add_all (db_of s) ls = db_of s' /\ held s' (fun x => D x \/ exists c now a, In (c, now) ls /\ In a (cert_auths c) /\ x = whole (RAuth a)).
Proof.
  induction ls as [|[c now] ls IH]; intros s D Hi H Do.
  - split; [intros [|p pre] c now post E; discriminate E|]. exists s. split; [reflexivity|]. destruct H as [I R Nw V Dn Sr Rt]. split; try assumption.
    intros x [Hx|(c & now & a & [] & _)]. apply Dn. exact Hx.
  - assert (Hc : In (c, now) l) by (apply Hi; left; reflexivity). destruct (held_add s D c now H Do Hc) as [E1 H1].
    pose proof (step_none C s (G_add c now) (h_inv _ _ H) (Ht c now Hc)) as St.
    set (D1 := fun x => D x \/ exists a, In a (cert_auths c) /\ x = whole (RAuth a)) in *. set (s1 := run_ws (snd (sem C s (G_add c now))) s) in *.
    destruct (IH s1 D1) as [A (s' & B & H')].
    { intros y Hy. apply Hi. right. exact Hy. } { exact H1. } { intros x [Hx|(a & Ha & ->)]; [apply Do; exact Hx|]. exists c, now, a. auto. }
    split.
    + intros [|p pre] c2 now2 post E.
      * injection E as -> -> ->. cbn [add_all fold_left]. rewrite St. exact E1.
      * injection E as <- ->. cbn [add_all fold_left fst snd]. rewrite St. cbn [snd]. apply (A pre c2 now2 post eq_refl).
    + exists s'. split; [cbn [add_all fold_left fst snd]; rewrite St; exact B|]. destruct H' as [I R Nw V Dn Sr Rt]. split; try assumption.
      intros x [Hx|(c2 & n2 & a & [E|Hin] & Ha & ->)]; apply Dn.
      * left. left. exact Hx.
      * injection E as -> ->. left. right. eauto.
      * right. exists c2, n2, a. auto.
Qed.

(** What is stored then: every certificate counts. *)
Lemma held_returns : forall s c now pk now', held s ours -> In (c, now) l -> key_at c (length c - 1) pk ->
  (forall t, In t c -> secs now' < secs (expires_at t)) -> In (map whole_trust c) (certs_of (apply_w s (W_gc now')) pk).
Proof.
  intros s c now pk now' H Hc Kl He. destruct (gf_shape _ _ _ _ _ F c now Hc) as (L2 & Lm & K0 & ND).
  assert (Bn : secs now' < i64_bound).
  { destruct K0 as (t & Htt & _). apply nth_error_In in Htt. pose proof (gf_alive _ _ _ _ _ F c now c now t Hc Hc Htt). specialize (He t Htt). lia. }
  assert (Hexp : forall t, In t c -> secs now < secs (expires_at t) < i64_bound) by (intros t Hi; apply (gf_alive _ _ _ _ _ F c now c now t Hc Hc Hi)).
  assert (Hm : m <= 16) by (eapply max_len_le; exact (h_root _ _ H)). assert (Lm' : N.of_nat (length c) <= m + 1) by lia.
  assert (Bn0 : secs now < i64_bound) by (destruct K0 as (t & Htt & _); apply nth_error_In in Htt; specialize (Hexp t Htt); lia).
  assert (Hv : forall a, In a (cert_auths c) -> trust_verify C (auth_trust a) (issued_by a) now = Ok tt).
  { intros a Ha. apply In_nth_error in Ha. destruct Ha as (i & Ha). destruct (cert_auths_nth _ _ _ Ha) as (P & g & Pg & Eg).
    destruct (gf_good _ _ _ _ _ F c now i Hc) as (t & k & Gt & (g' & Gg & Gk) & Sg & Ex); [apply nth_error_Some; congruence|].
    unfold at_pos in *. rewrite P in Gt. injection Gt as <-. rewrite Pg in Gg. injection Gg as <-.
    apply trust_verify_exact. split; [exact Ex|]. rewrite Eg, Gk. exact Sg. }
  assert (Rd : ready C c m k0 s (length c)).
  { split; [apply H| | |intros v Hv'; apply (h_revs _ _ H c now v Hc Hv')|apply H].
    - intros i a Ha Hi. apply (h_done _ _ H). exists c, now, a. split; [exact Hc|]. split; [eapply nth_error_In; exact Ha|reflexivity].
    - intros i a z Ha _ Hz K. apply (h_newer _ _ H c now a z Hc); [eapply nth_error_In; exact Ha|exact Hz|exact K]. }
  assert (Z : ready C c m k0 (apply_w s (W_gc now')) (length c)) by (apply (ready_gc C c now m k0 Lm' Hm Hexp Bn0 Hv); assumption).
  destruct Kl as (t & Kt & <-).
  assert (Q : In (firstn (length c) (map whole_trust c)) (certs_of (apply_w s (W_gc now')) (issued_for t))) by (apply (ready_cert C c now m k0 Lm' Hm K0 ND Hexp Bn0 _ (length c) (length c) t Z); [lia|lia|exact Kt]).
  rewrite <- (map_length whole_trust c) in Q. rewrite firstn_all in Q. exact Q.
Qed.
End Family.
