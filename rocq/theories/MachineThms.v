(** Proofs that the library is the abstract machine. *)
From Coq Require Import List NArith ZArith Bool Lia ZifyBool ZifyNat ZifyN Permutation.
From Verif Require Import Base BaseFacts Text TextFacts Keys KeysFacts Trust TrustFacts Certificate CertFacts Relation
  Storage StorageFacts Graph SearchFacts PathFacts Spec SpecFacts GraphFacts StateFacts ChainFacts AddFacts ImportFacts HistFacts
  Toy ToyFacts Witness GraphThms ReadmeSpec ReadmeThms InfluenceSpec InfluenceThms MachineSpec.
Import ListNotations.
Open Scope N_scope.

(** ** The machine does not look below its state *)
Lemma same_refl : forall m, same_machine m m.
Proof. intros m. split; intros; reflexivity. Qed.
Lemma same_sym : forall m n, same_machine m n -> same_machine n m.
Proof. intros m n [H1 H2]. split; intros; symmetry; auto. Qed.
Lemma same_trans : forall m n o, same_machine m n -> same_machine n o -> same_machine m o.
Proof. intros m n o [H1 H2] [H3 H4]. split; intros; [rewrite H1; apply H3|rewrite H2; apply H4]. Qed.
Lemma collect_same : forall m n now, same_machine m n -> same_machine (m_collect m now) (m_collect n now).
Proof. intros m n now [H1 H2]. split; cbn; [|exact H2]. intros x. rewrite H1. reflexivity. Qed.
Lemma import_same : forall m n x, same_machine m n -> same_machine (m_import m x) (m_import n x).
Proof.
  intros m n x [H1 H2]. split; cbn; [|exact H2]. intros y. rewrite H1.
  assert (E : (forall z, holds m z -> same_keys x z -> before (rel_issued_at z) (rel_issued_at x)) <->
              (forall z, holds n z -> same_keys x z -> before (rel_issued_at z) (rel_issued_at x))).
  { split; intros H z Hz; apply H; apply H1; exact Hz. }
  rewrite E. reflexivity.
Qed.
Lemma set_root_same : forall m n k l, same_machine m n -> same_machine (m_set_root m k l) (m_set_root n k l).
Proof.
  intros m n k l [H1 H2]. split; cbn; [exact H1|]. intros k' l'. rewrite H2.
  assert (E : (forall j, ~ root_of m k j) <-> (forall j, ~ root_of n k j)) by (split; intros H j Hj; apply (H j); apply H2; exact Hj).
  rewrite E. reflexivity.
Qed.
Lemma chain_same1 : forall m n pk c, same_machine m n -> m_chain m pk c -> m_chain n pk c.
Proof.
  intros m n pk c [E1 E2] (H1 & H2 & H3 & H4 & H5 & H6). split; [exact H1|]. split; [exact H2|]. split; [|split; [|split; [exact H5|]]].
  - intros t Ht. destruct (H3 t Ht) as [(l & Hl) Hh]. split; [exists l; apply E2; exact Hl|apply E1; exact Hh].
  - intros i g t Hg Ht. apply E1. exact (H4 i g t Hg Ht).
  - intros i j v Hij Hv. apply H6; [exact Hij|apply E1; exact Hv].
Qed.
Lemma chain_same : forall m n pk c, same_machine m n -> (m_chain m pk c <-> m_chain n pk c).
Proof. intros m n pk c E. split; apply chain_same1; [exact E|apply same_sym; exact E]. Qed.
Lemma worth_same : forall m n c v, same_machine m n -> m_worth m c v -> m_worth n c v.
Proof. intros m n c v [_ E] (t & l & H1 & H2 & H3). exists t, l. split; [exact H1|]. split; [apply E; exact H2|exact H3]. Qed.

Lemma greatest_ext : forall (P Q : N -> Prop) w, (forall v, P v <-> Q v) -> greatest P w -> greatest Q w.
Proof.
  intros P Q w E [H1 H2]. split; [intros v Hv; apply H1; apply E; exact Hv|].
  destruct H2 as [H|[-> H]]; [left; apply E; exact H|right; split; [reflexivity|]]. intros v Hv. apply (H v). apply E. exact Hv.
Qed.
Lemma greatest_one : forall P v w, greatest P v -> greatest P w -> v = w.
Proof.
  intros P v w [A1 A2] [B1 B2]. destruct A2 as [A2|[-> A2]]; destruct B2 as [B2|[-> B2]].
  - specialize (A1 w B2). specialize (B1 v A2). lia.
  - exfalso. exact (B2 v A2).
  - exfalso. exact (A2 w B2).
  - reflexivity.
Qed.
Lemma weight_values : forall m n pk v, same_machine m n ->
  ((exists l, root_of m pk l /\ v = 2 ^ l) \/ (exists c, m_chain m pk c /\ m_worth m c v)) ->
  ((exists l, root_of n pk l /\ v = 2 ^ l) \/ (exists c, m_chain n pk c /\ m_worth n c v)).
Proof.
  intros m n pk v E [(l & H1 & H2)|(c & H1 & H2)]; [left; exists l; split; [apply E; exact H1|exact H2]|right].
  exists c. split; [exact (chain_same1 m n pk c E H1)|exact (worth_same m n c v E H2)].
Qed.
Lemma m_weight_same : forall m n pk w, same_machine m n -> m_weight m pk w -> m_weight n pk w.
Proof.
  intros m n pk w E. apply greatest_ext. intros v. split; apply weight_values; [exact E|apply same_sym; exact E].
Qed.
Lemma from_values : forall m n pk i v, same_machine m n ->
  (exists c, m_chain m pk c /\ (exists k, key_at c k i) /\ m_worth m c v) -> (exists c, m_chain n pk c /\ (exists k, key_at c k i) /\ m_worth n c v).
Proof.
  intros m n pk i v E (c & H1 & H2 & H3). exists c. split; [exact (chain_same1 m n pk c E H1)|]. split; [exact H2|exact (worth_same m n c v E H3)].
Qed.
Lemma m_weight_from_same : forall m n pk i w, same_machine m n -> m_weight_from m pk i w -> m_weight_from n pk i w.
Proof. intros m n pk i w E. apply greatest_ext. intros v. split; apply from_values; [exact E|apply same_sym; exact E]. Qed.
Lemma passes_one : forall m n b k p q, same_machine m n -> m_passes m b k p -> m_passes n b k q -> p = q.
Proof.
  intros m n b k p q E (w & W & H) (w' & W' & H'). rewrite (greatest_one _ _ _ (m_weight_same m n b w E W) W') in H.
  destruct H as [[K ->]|[K ->]]; destruct H' as [[K' ->]|[K' ->]]; congruence.
Qed.

Lemma last_same : forall ms ns m n, Forall2 same_machine ms ns -> same_machine m n -> same_machine (last ms m) (last ns n).
Proof.
  intros ms ns m n H. induction H as [|x y ms ns Hx H IH]; intros E; [exact E|]. destruct H as [|x' y' ms ns Hx' H].
  - exact Hx.
  - apply IH. exact E.
Qed.

Lemma add_trust_one : forall C m n t b now a a' ms ns, same_machine m n -> m_add_trust C m t b now a ms -> m_add_trust C n t b now a' ns ->
  a = a' /\ Forall2 same_machine ms ns.
Proof.
  intros C m n t b now a a' ms ns E H H'. pose proof (collect_same m n now E) as Ec.
  inversion H as [Na|Ac Pa|p Ac Pa L]; subst; inversion H' as [Na'|Ac' Pa'|p' Ac' Pa' L']; subst; try contradiction.
  - split; [reflexivity|constructor].
  - split; [reflexivity|]. constructor; [exact Ec|constructor].
  - pose proof (passes_one _ _ _ _ _ _ Ec Pa Pa'). lia.
  - pose proof (passes_one _ _ _ _ _ _ Ec Pa Pa'). lia.
  - rewrite (passes_one _ _ _ _ _ _ Ec Pa Pa'). split; [reflexivity|]. constructor; [exact Ec|]. constructor; [apply import_same; exact Ec|constructor].
Qed.
Lemma add_all_one : forall C now m c b a ms, m_add_all C now m c b a ms -> forall n a' ns, same_machine m n -> m_add_all C now n c b a' ns ->
  a = a' /\ Forall2 same_machine ms ns.
Proof.
  intros C now m c b a ms H. induction H as [m b|m t c b ms H|m t c b p ms a ms' H H2 IH]; intros n a' ns E H'.
  - inversion H'; subst. split; [reflexivity|constructor].
  - inversion H' as [|? ? ? ? ? K|? ? ? ? p ns1 ? ns2 K K2]; subst.
    + exact (add_trust_one C m n t b now _ _ _ _ E H K).
    + destruct (add_trust_one C m n t b now _ _ _ _ E H K) as [X _]. discriminate.
  - inversion H' as [|? ? ? ? ? K|? ? ? ? p' ns1 ? ns2 K K2]; subst.
    + destruct (add_trust_one C m n t b now _ _ _ _ E H K) as [X _]. discriminate.
    + destruct (add_trust_one C m n t b now _ _ _ _ E H K) as [_ F]. destruct (IH _ _ _ (last_same _ _ _ _ F E) K2) as [-> F2].
      split; [reflexivity|]. apply Forall2_app; assumption.
Qed.
(** The machine gives one answer and goes one way. *)
Lemma call_one : forall C m n c a b ms ns, same_machine m n -> m_call C m c a ms -> m_call C n c b ns ->
  same_reply a b /\ Forall2 same_machine ms ns.
Proof.
  intros C m n c a b ms ns E H H'.
  assert (Eq : forall a b, a = b -> same_reply a b) by (intros x y ->; destruct y; cbn; try reflexivity; intros; reflexivity).
  destruct H; inversion H'; subst; try contradiction.
  - split; [reflexivity|]. constructor; [apply set_root_same; exact E|constructor].
  - edestruct add_trust_one as [X Y]; [exact E|eassumption|eassumption|]. split; [apply Eq; exact X|exact Y].
  - split; [reflexivity|constructor].
  - match goal with K : m_add_all _ _ m _ _ _ _, K' : m_add_all _ _ n _ _ _ _ |- _ => destruct (add_all_one _ _ _ _ _ _ _ K _ _ _ E K') as [X Y] end. split; [apply Eq; exact X|exact Y].
  - split; [|constructor; [apply collect_same; exact E|constructor]]. cbn. f_equal.
    eapply greatest_one; [eapply m_weight_same; [apply collect_same; exact E|eassumption]|eassumption].
  - split; [|constructor; [apply collect_same; exact E|constructor]]. cbn. f_equal.
    eapply greatest_one; [eapply m_weight_from_same; [apply collect_same; exact E|eassumption]|eassumption].
  - split; [|constructor; [apply collect_same; exact E|constructor]]. intros c. apply chain_same. apply collect_same. exact E.
  - split; [|constructor; [apply collect_same; exact E|constructor]]. intros c.
    rewrite (chain_same _ _ pk c (collect_same m n now E)). reflexivity.
  - split; [reflexivity|]. constructor; [apply import_same; exact E|constructor].
  - split; [reflexivity|constructor].
  - split; [|constructor]. intros v. rewrite (proj1 E (RRev v)). reflexivity.
Qed.

(** ** States and the machine *)
Fixpoint trail (ws : list write) (s : state) : list state :=
  match ws with
  | [] => []
  | w :: ws' => apply_w s w :: trail ws' (apply_w s w)
  end.
Lemma trail_last : forall ws s, last (trail ws s) s = run_ws ws s.
Proof.
  assert (G : forall ws s s0, last (trail ws s) s0 = match ws with [] => s0 | _ => run_ws ws s end).
  { induction ws as [|w ws IH]; intros s s0; [reflexivity|]. cbn [trail]. destruct ws as [|w' ws]; [reflexivity|].
    change (last (apply_w s w :: trail (w' :: ws) (apply_w s w)) s0) with (last (trail (w' :: ws) (apply_w s w)) s0). rewrite IH. reflexivity. }
  intros ws s. rewrite G. destruct ws; reflexivity.
Qed.
Lemma trail_in : forall ws s k, In (run_ws (firstn k ws) s) (s :: trail ws s).
Proof.
  induction ws as [|w ws IH]; intros s k; [rewrite firstn_nil; left; reflexivity|]. destruct k as [|k]; [left; reflexivity|].
  right. cbn [trail firstn]. exact (IH (apply_w s w) k).
Qed.
Lemma trail_app : forall ws ws' s, trail (ws ++ ws') s = trail ws s ++ trail ws' (run_ws ws s).
Proof. induction ws as [|w ws IH]; intros ws' s; [reflexivity|]. cbn [app trail]. rewrite IH. reflexivity. Qed.

Lemma ordered_cons : forall (x : certificate) l,
  (forall i j a b, (i < j)%nat -> nth_error (x :: l) i = Some a -> nth_error (x :: l) j = Some b -> (length a <= length b)%nat) <->
  (forall y, In y l -> (length x <= length y)%nat) /\
  (forall i j a b, (i < j)%nat -> nth_error l i = Some a -> nth_error l j = Some b -> (length a <= length b)%nat).
Proof.
  intros x l. split.
  - intros H. split.
    + intros y Hy. apply In_nth_error in Hy. destruct Hy as (j & Hj). exact (H 0%nat (S j) x y (Nat.lt_0_succ j) eq_refl Hj).
    + intros i j a b L Ha Hb. apply (H (S i) (S j) a b); [lia|exact Ha|exact Hb].
  - intros [H1 H2] [|i] [|j] a b L Ha Hb; try lia.
    + injection Ha as <-. apply H1. exact (nth_error_In l j Hb).
    + apply (H2 i j a b); [lia|exact Ha|exact Hb].
Qed.
Lemma ordered_filter : forall (p : certificate -> bool) l,
  (forall i j a b, (i < j)%nat -> nth_error l i = Some a -> nth_error l j = Some b -> (length a <= length b)%nat) ->
  (forall i j a b, (i < j)%nat -> nth_error (filter p l) i = Some a -> nth_error (filter p l) j = Some b -> (length a <= length b)%nat).
Proof.
  intros p l. induction l as [|x l IH]; intros H; [exact H|]. apply ordered_cons in H. destruct H as [H1 H2]. cbn [filter].
  destruct (p x); [|exact (IH H2)]. apply ordered_cons. split; [|exact (IH H2)]. intros y Hy. apply filter_In in Hy. apply H1. apply Hy.
Qed.

Section Sim.
Variable C : crypto.
Definition sim (s : state) (m : machine) : Prop := same_machine (contents (db_of s)) m.
Lemma sim_holds : forall s m x, wf C s -> sim s m -> (holds m x <-> In x (rels s)).
Proof. intros s m x W [H _]. rewrite <- (H x). cbn [contents holds]. apply (stored_in C). exact W. Qed.
Lemma sim_gc : forall s m now, inv C s -> sim s m -> sim (apply_w s (W_gc now)) (m_collect m now).
Proof.
  intros s m now I [H1 H2]. destruct (collected_gc C s now (inv_wf C s I)) as [R X]. split; cbn [contents m_collect holds root_of].
  - intros x. rewrite (X x), <- (H1 x). reflexivity.
  - intros k l. rewrite <- (H2 k l). cbn [contents root_of]. unfold root_max_len. rewrite R. reflexivity.
Qed.
Lemma sim_upd : forall s m x, inv C s -> rel_typed C x -> sim s m -> sim (apply_w s (W_upd x)) (m_import m x).
Proof.
  intros s m x I T E. destruct (imported_upd C s x (inv_wf C s I) T) as [R X].
  apply (same_trans _ (m_import (contents (db_of s)) x)); [|apply import_same; exact E]. split; cbn [contents m_import holds root_of].
  - exact X.
  - intros k l. unfold root_max_len. rewrite R. reflexivity.
Qed.
Lemma sim_root : forall s m k n, inv C s -> sim s m -> sim (apply_w s (W_root k (get_weight_factor n))) (m_set_root m k n).
Proof.
  intros s m k n I E. apply (same_trans _ (m_set_root (contents (db_of s)) k n)); [|apply set_root_same; exact E].
  assert (F : get_weight_factor n <= 16) by (unfold get_weight_factor, MAX_WEIGHT_FACTOR; lia).
  destruct (root_set_write C s k _ I F) as (R & _ & X).
  replace (16 - get_weight_factor n) with (N.min n 16) in X by (unfold get_weight_factor, MAX_WEIGHT_FACTOR; lia).
  split; cbn [contents m_set_root holds root_of].
  - intros [a|v]; reflexivity.
  - intros k' l. rewrite (X k' l).
    assert (N : ~ is_root (db_of s) k <-> forall l', ~ root_max_len (db_of s) k l').
    { rewrite (is_root_max_len C s k I). split; [intros H l' Hl; apply H; eauto|intros H (l' & Hl); exact (H l' Hl)]. }
    rewrite N. tauto.
Qed.
Lemma sim_chain : forall s m pk c, inv C s -> sim s m -> (In c (certs_of s pk) <-> m_chain m pk c).
Proof.
  intros s m pk c I E. rewrite <- (chain_same _ _ pk c E). rewrite (certs_of_exact C s pk c (inv_wf C s I)). split.
  - intros [(H1 & H2 & H3 & H4 & H5) H6]. split; [exact H1|]. split; [exact H2|]. split; [|split; [exact H4|split; [exact H5|]]].
    + intros t Ht. destruct (H3 t Ht) as [X Y]. split; [apply (is_root_max_len C s _ I); exact X|exact Y].
    + intros i j v L Hv Ki Kj. apply (H6 i j). split; [exact L|]. exists v. auto.
  - intros (H1 & H2 & H3 & H4 & H5 & H6). split.
    + split; [exact H1|]. split; [exact H2|]. split; [|split; [exact H4|exact H5]].
      intros t Ht. destruct (H3 t Ht) as [X Y]. split; [apply (is_root_max_len C s _ I); exact X|exact Y].
    + intros i j (L & v & Hv & Ki & Kj). exact (H6 i j v L Hv Ki Kj).
Qed.
Lemma sim_worth : forall s m c v, sim s m -> (cert_weight (db_of s) c v <-> m_worth m c v).
Proof.
  intros s m c v [_ E]. split; intros (t & l & H1 & H2 & H3); exists t, l; (split; [exact H1|]; split; [apply E; exact H2|exact H3]).
Qed.
Lemma sim_weight : forall s m pk, inv C s -> fits s -> sim s m -> m_weight m pk (weight_of s pk).
Proof.
  intros s m pk I F E. eapply greatest_ext; [|exact (weight_of_greatest C s pk I F)]. intros v. unfold key_weight. split.
  - intros [(l & H1 & H2)|(c & H1 & H2)]; [left; exists l; split; [apply E; exact H1|exact H2]|right].
    exists c. split; [apply (sim_chain s m pk c I E); exact H1|apply (sim_worth s m c v E); exact H2].
  - intros [(l & H1 & H2)|(c & H1 & H2)]; [left; exists l; split; [apply E; exact H1|exact H2]|right].
    exists c. split; [apply (sim_chain s m pk c I E); exact H1|apply (sim_worth s m c v E); exact H2].
Qed.
Lemma sim_from : forall s m pk i c, inv C s -> sim s m -> (In c (certs_from_of s pk i) <-> m_chain m pk c /\ exists n, key_at c n i).
Proof.
  intros s m pk i c I E. rewrite in_certs_from, (sim_chain s m pk c I E). split; intros [H1 X]; (split; [exact H1|]).
  - destruct X as (t & Ht & Et). apply In_nth_error in Ht. destruct Ht as (n & Ht). exists n, t. auto.
  - destruct X as (n & t & Ht & Et). exists t. split; [exact (nth_error_In _ _ Ht)|exact Et].
Qed.
Lemma sim_weight_from : forall s m pk i, inv C s -> fits s -> sim s m -> m_weight_from m pk i (weight_from_of s pk i).
Proof.
  intros s m pk i I F E. eapply greatest_ext; [|exact (weight_from_of_greatest C s pk i I F)]. intros v. split.
  - intros (c & H1 & H2). apply (sim_from s m pk i c I E) in H1. destruct H1 as [H1 H3]. exists c. split; [exact H1|]. split; [exact H3|apply (sim_worth s m c v E); exact H2].
  - intros (c & H1 & H2 & H3). exists c. split; [apply (sim_from s m pk i c I E); auto|apply (sim_worth s m c v E); exact H3].
Qed.
Lemma sim_passes : forall s m b k, inv C s -> fits s -> sim s m -> m_passes m b k (next_weight_of s b k).
Proof.
  intros s m b k I F E. exists (weight_of s b). split; [exact (sim_weight s m b I F E)|]. unfold next_weight_of.
  destruct (pk_eqb b k) eqn:K; [left; apply pk_eqb_eq in K; auto|right]. split; [|reflexivity]. intros X. apply pk_eqb_eq in X. congruence.
Qed.

Lemma upd_length : forall rs x, (length (upd rs x) <= S (length rs))%nat.
Proof.
  intros rs x. assert (P : (length (put (rel_trunc x) rs) <= S (length rs))%nat).
  { unfold put. rewrite app_length. cbn [length]. pose proof (filter_length _ (fun y => negb (same_pair (rel_trunc x) y)) rs). lia. }
  unfold upd. destruct (find_rel _ _ _); [|exact P]. destruct (duration_ltb _ _); [exact P|lia].
Qed.
Definition room (s : state) (n : nat) : Prop := N.of_nat (length (rels s) + n) + 17 < u32_bound.
Lemma gc_length : forall s now, (length (rels (apply_w s (W_gc now))) <= length (rels s))%nat.
Proof. intros s now. cbn [apply_w rels]. unfold gc. apply filter_length. Qed.
Lemma room_gc : forall s now n, room s n -> room (apply_w s (W_gc now)) n.
Proof. intros s now n R. unfold room in *. pose proof (gc_length s now). lia. Qed.
Lemma room_fits : forall s n, room s n -> fits s.
Proof. intros s n R. unfold room, fits in *. lia. Qed.

Lemma add_trust_sim : forall s m t b now n, inv C s -> trust_typed C t -> pk_valid C b -> room s (S n) -> sim s m ->
  exists a ms, m_add_trust C m t b now a ms /\ shows (map_ok GR_weight (fst (add_trust_sem C s t b now))) a /\
    Forall2 sim (trail (snd (add_trust_sem C s t b now)) s) ms /\ inv C (run_ws (snd (add_trust_sem C s t b now)) s) /\
    room (run_ws (snd (add_trust_sem C s t b now)) s) n.
Proof.
  intros s m t b now n I T V R E. unfold add_trust_sem. destruct (trust_verify_total C t b now) as [Ev|(e & Ev)]; rewrite Ev.
  - assert (A : acceptable C b t now) by (apply trust_verify_exact in Ev; split; apply Ev).
    pose proof (sim_gc s m now I E) as Eg. pose proof (inv_gc C s now I) as Ig. pose proof (room_gc s now _ R) as Rg.
    pose proof (sim_passes _ _ b (issued_for t) Ig (room_fits _ _ Rg) Eg) as P. cbv zeta.
    destruct (next_weight_of (apply_w s (W_gc now)) b (issued_for t) =? 0) eqn:Z; cbn [fst snd].
    + apply N.eqb_eq in Z. rewrite Z in P. exists (A_weight 0), [m_collect m now]. split; [apply at_ignored; assumption|]. split; [reflexivity|].
      split; [constructor; [exact Eg|constructor]|]. split; [exact Ig|]. cbn [run_ws fold_left]. unfold room in *. lia.
    + apply N.eqb_neq in Z. eexists (A_weight _), [m_collect m now; m_import (m_collect m now) (RAuth (mk_auth t b))].
      split; [apply at_stored; [exact A|exact P|lia]|]. split; [reflexivity|].
      pose proof (trust_rel_typed C t b T V) as Tr.
      split; [constructor; [exact Eg|constructor; [|constructor]]; apply sim_upd; assumption|]. cbn [run_ws fold_left]. split.
      * apply (inv_step C _ _ (G_add_trust t b now)); [exact Ig| |exact Tr]. split; [split; reflexivity|]. exists now. split; [reflexivity|exact Ev].
      * unfold room in *. pose proof (upd_length (rels (apply_w s (W_gc now))) (RAuth (mk_auth t b))). cbn [apply_w rels] in *. lia.
  - exists A_refused, []. split; [|split; [eexists; reflexivity|split; [constructor|split; [exact I|]]]].
    + apply at_refused. intros [A1 A2]. assert (X : trust_verify C t b now = Ok tt) by (apply trust_verify_exact; split; assumption). congruence.
    + cbn [snd run_ws fold_left]. unfold room in *. lia.
Qed.
Lemma Forall2_last : forall ss ms s m, Forall2 sim ss ms -> sim s m -> sim (last ss s) (last ms m).
Proof.
  intros ss ms s m H. induction H as [|x y ss ms Hx H IH]; intros E; [exact E|]. destruct H as [|x' y' ss ms Hx' H]; [exact Hx|].
  apply IH. exact E.
Qed.
Lemma add_chain_sim : forall now c s m b n, inv C s -> Forall (trust_typed C) c -> pk_valid C b -> room s (length c + n) -> sim s m ->
  exists a ms, m_add_all C now m c b a ms /\ shows (map_ok (fun _ => GR_unit) (fst (add_chain_sem C s c b now))) a /\
    Forall2 sim (trail (snd (add_chain_sem C s c b now)) s) ms /\ inv C (run_ws (snd (add_chain_sem C s c b now)) s) /\
    room (run_ws (snd (add_chain_sem C s c b now)) s) n.
Proof.
  intros now c. induction c as [|t c IH]; intros s m b n I T V R E; cbn [add_chain_sem].
  - exists A_done, []. split; [constructor|]. split; [reflexivity|]. split; [constructor|]. split; [exact I|exact R].
  - inversion T as [|? ? Tt Tc]; subst. destruct (add_trust_sim s m t b now (length c + n) I Tt V R E) as (a & ms & H1 & H2 & H3 & H4 & H5).
    destruct (add_trust_sem_total C s t b now) as [(w & X)|(e & X)]; destruct (add_trust_sem C s t b now) as [r ws]; cbn [fst snd] in *; subst r.
    + cbn [map_ok] in H2. assert (Ea : a = A_weight w).
      { destruct a; cbn [shows] in H2; try discriminate; try (destruct H2 as (? & H2); try discriminate; destruct H2; discriminate). injection H2 as ->. reflexivity. }
      subst a. pose proof (Forall2_last _ _ s m H3 E) as El. rewrite trail_last in El.
      destruct (IH (run_ws ws s) (last ms m) (issued_for t) n H4 Tc (proj1 Tt) H5 El) as (a & ms' & K1 & K2 & K3 & K4 & K5).
      destruct (add_chain_sem C (run_ws ws s) c (issued_for t) now) as [r ws']. cbn [fst snd] in *.
      exists a, (ms ++ ms'). split; [exact (all_next C now m t c b w ms a ms' H1 K1)|]. split; [exact K2|]. rewrite trail_app, run_ws_app.
      split; [apply Forall2_app; assumption|]. split; assumption.
    + cbn [map_ok] in H2. assert (Ea : a = A_refused).
      { destruct a; cbn [shows] in H2; try discriminate; try reflexivity; destruct H2 as (? & H2 & _); discriminate. }
      subst a. exists A_refused, ms. split; [apply all_stop; exact H1|]. cbn [fst snd map_ok]. split; [exists e; reflexivity|]. split; [exact H3|]. split; [exact H4|].
      unfold room in *. lia.
Qed.
Lemma revs_nodup : forall s pk, wf C s -> NoDup (revs_of (rels s) pk).
Proof.
  intros s pk W. pose proof (wf_nodup C s W) as ND. apply NoDup_map_inv' in ND. unfold revs_of, only_revs.
  induction (rels s) as [|x l IH]; [constructor|]. inversion ND as [|? ? Nx ND']; subst. cbn [filter].
  destruct (pk_eqb (rel_issued_for x) pk); [|apply IH; exact ND']. cbn [flat_map]. destruct x as [a|v]; cbn [app]; [apply IH; exact ND'|].
  constructor; [|apply IH; exact ND']. intros H. apply in_flat_map in H. destruct H as (y & Hy & Hv). apply filter_In in Hy.
  destruct y as [a|v']; [destruct Hv|]. destruct Hv as [->|[]]. apply Nx. apply Hy.
Qed.
Lemma revs_in : forall rs pk v, In v (revs_of rs pk) <-> In (RRev v) rs /\ rev_pk v = pk.
Proof.
  intros rs pk v. unfold revs_of, only_revs. rewrite in_flat_map. split.
  - intros (x & Hx & Hv). apply filter_In in Hx. destruct Hx as [Hx K]. destruct x as [a|v']; [destruct Hv|]. destruct Hv as [->|[]].
    split; [exact Hx|]. apply pk_eqb_eq in K. exact K.
  - intros [H K]. exists (RRev v). split; [|left; reflexivity]. apply filter_In. split; [exact H|]. apply pk_eqb_eq. exact K.
Qed.
Lemma call_sim : forall s m c n, inv C s -> call_typed C c -> room s (offered c + n) -> sim s m ->
  exists a ms, m_call C m c a ms /\ shows (fst (sem C s c)) a /\ Forall2 sim (trail (snd (sem C s c)) s) ms /\
    forall k, room (run_ws (firstn k (snd (sem C s c))) s) n.
Proof.
  intros s m c n I T R E.
  assert (R0 : room s n) by (unfold room in *; lia).
  assert (Rq : forall now k, room (run_ws (firstn k [W_gc now]) s) n).
  { intros now [|[|k]]; [exact R0|exact (room_gc s now n R0)|exact (room_gc s now n R0)]. }
  assert (Re : forall k, room (run_ws (firstn k []) s) n) by (intros [|k]; exact R0).
  assert (Ordered : forall pk now i j x y, (i < j)%nat -> nth_error (certs_of (apply_w s (W_gc now)) pk) i = Some x ->
    nth_error (certs_of (apply_w s (W_gc now)) pk) j = Some y -> (length x <= length y)%nat) by (intros pk now; apply found_certs_sorted).
  assert (ND : forall pk now, NoDup (certs_of (apply_w s (W_gc now)) pk)).
  { intros pk now. apply found_certs_nodup. apply (wf_nodup C). apply gc_wf. apply I. }
  destruct c; cbn [sem].
  - exists A_done, [m_set_root m pk max_chain_len]. split; [constructor|]. split; [reflexivity|].
    split; [constructor; [apply sim_root; assumption|constructor]|]. intros [|[|k]]; exact R0.
  - destruct T as (T1 & T2 & T3). destruct (add_trust_sim s m t by_pk now n I T1 T2 R E) as (a & ms & H1 & H2 & H3 & H4 & H5).
    assert (Rk : forall k, room (run_ws (firstn k (snd (add_trust_sem C s t by_pk now))) s) n).
    { revert H5. unfold add_trust_sem. destruct (trust_verify C t by_pk now); try (intros _; exact Re). cbv zeta. destruct (_ =? 0); cbn [snd]; [intros _; exact (Rq now)|].
      intros H5 [|[|k]]; [exact R0|exact (room_gc s now n R0)|]. cbn [firstn]. rewrite firstn_nil. exact H5. }
    destruct (add_trust_sem C s t by_pk now) as [r ws]. cbn [fst snd] in *. exists a, ms. split; [constructor; exact H1|]. auto.
  - destruct T as (T1 & T2). destruct c as [|t c].
    + exists A_refused, []. split; [constructor|]. split; [eexists; reflexivity|]. split; [constructor|exact Re].
    + cbn [add_sem]. inversion T1 as [|? ? Tt Tc]; subst.
      destruct (add_chain_sim now (t :: c) s m (issued_for t) n I T1 (proj1 Tt) R E) as (a & ms & H1 & H2 & H3 & H4 & H5).
      assert (Rk : forall k, room (run_ws (firstn k (snd (add_chain_sem C s (t :: c) (issued_for t) now))) s) n).
      { clear - R. revert R. generalize (t :: c). generalize (issued_for t). clear t c. intros b c. revert s b.
        induction c as [|t c IH]; intros s b R k; cbn [add_chain_sem].
        - cbn [snd]. rewrite firstn_nil. exact R.
        - cbn [length offered] in R.
          assert (X : forall k, room (run_ws (firstn k (snd (add_trust_sem C s t b now))) s) (length c + n)).
          { assert (Rs : room s (length c + n)) by (unfold room in *; cbn [length] in R; lia).
            unfold add_trust_sem. destruct (trust_verify C t b now); try (intros [|k']; exact Rs). cbv zeta. destruct (_ =? 0); cbn [snd].
            - intros [|[|k']]; [exact Rs|exact (room_gc _ _ _ Rs)|exact (room_gc _ _ _ Rs)].
            - intros [|[|k']]; [exact Rs|exact (room_gc _ _ _ Rs)|]. cbn [firstn]. rewrite firstn_nil. cbn [run_ws fold_left].
              pose proof (room_gc s now _ R) as Rg. unfold room in *. pose proof (upd_length (rels (apply_w s (W_gc now))) (RAuth (mk_auth t b))).
              cbn [apply_w rels length] in *. lia. }
          assert (Y : forall k, room (run_ws (firstn k (snd (add_trust_sem C s t b now))) s) n) by (intros k'; specialize (X k'); unfold room in *; lia).
          destruct (add_trust_sem C s t b now) as [r ws]. cbn [fst snd] in *. destruct r as [w|e| |]; try exact (Y k).
          assert (Xl : room (run_ws ws s) (length c + n)) by (specialize (X (length ws)); rewrite firstn_all in X; exact X).
          specialize (IH (run_ws ws s) (issued_for t) Xl). destruct (add_chain_sem C (run_ws ws s) c (issued_for t) now) as [r ws'].
          cbn [fst snd] in *. rewrite firstn_app, run_ws_app. destruct (Nat.le_gt_cases (length ws) k) as [L|L].
          + rewrite (firstn_all2 ws L). apply IH.
          + replace (k - length ws)%nat with 0%nat by lia. exact (Y k). }
      destruct (add_chain_sem C s (t :: c) (issued_for t) now) as [r ws]. cbn [fst snd] in *. exists a, ms. split; [constructor; exact H1|]. auto.
  - exists (A_weight (weight_of (apply_w s (W_gc now)) pk)), [m_collect m now]. pose proof (sim_gc s m now I E) as Eg.
    split; [constructor; apply sim_weight; [apply inv_gc; exact I|apply fits_gc; exact (room_fits _ _ R)|exact Eg]|]. split; [reflexivity|].
    split; [constructor; [exact Eg|constructor]|exact (Rq now)].
  - exists (A_weight (weight_from_of (apply_w s (W_gc now)) pk issuer)), [m_collect m now]. pose proof (sim_gc s m now I E) as Eg.
    split; [constructor; apply sim_weight_from; [apply inv_gc; exact I|apply fits_gc; exact (room_fits _ _ R)|exact Eg]|]. split; [reflexivity|].
    split; [constructor; [exact Eg|constructor]|exact (Rq now)].
  - eexists (A_certs _), [m_collect m now]. pose proof (sim_gc s m now I E) as Eg. split; [constructor|].
    split; [|split; [constructor; [exact Eg|constructor]|exact (Rq now)]].
    eexists. split; [reflexivity|]. split; [apply ND|]. split; [|exact (Ordered pk now)].
    intros c. exact (sim_chain _ _ pk c (inv_gc C s now I) Eg).
  - eexists (A_certs _), [m_collect m now]. pose proof (sim_gc s m now I E) as Eg. split; [constructor|].
    split; [|split; [constructor; [exact Eg|constructor]|exact (Rq now)]].
    eexists. split; [reflexivity|]. split; [unfold certs_from_of; apply NoDup_filter; apply ND|]. split; [|unfold certs_from_of; apply ordered_filter; exact (Ordered pk now)].
    intros c. exact (sim_from _ _ pk issuer c (inv_gc C s now I) Eg).
  - unfold revoke_sem. destruct (revocation_verify_total C v) as [Ev|(e & Ev)]; rewrite Ev; cbn [map_ok fst snd].
    + exists A_done, [m_import m (RRev v)]. split; [constructor; apply revocation_verify_exact; exact Ev|]. split; [reflexivity|].
      split; [constructor; [apply sim_upd; [exact I|exact (revocation_rel_typed C v T)|exact E]|constructor]|].
      assert (X : room (apply_w s (W_upd (RRev v))) n).
      { unfold room in *. pose proof (upd_length (rels s) (RRev v)). cbn [apply_w rels offered] in *. lia. }
      intros [|[|k]]; [exact R0|exact X|exact X].
    + exists A_refused, []. split; [apply c_revoke_refused; intros X; apply revocation_verify_exact in X; congruence|].
      split; [exists (GE_RevokeCheck e); reflexivity|]. split; [constructor|exact Re].
  - eexists (A_revs _), []. split; [constructor|]. split; [|split; [constructor|exact Re]].
    eexists. split; [reflexivity|]. split; [exact (revs_nodup s pk (inv_wf C s I))|]. intros v. rewrite revs_in, (sim_holds s m (RRev v) (inv_wf C s I) E). reflexivity.
Qed.
Lemma step_sim : forall s m c fu n, inv C s -> call_typed C c -> room s (offered c + n) -> sim s m ->
  exists a ms s' m', m_call C m c a ms /\ snd (graph_step C (db_of s) (c, fu)) = db_of s' /\ inv C s' /\ room s' n /\ sim s' m' /\
    ((shows (fst (graph_step C (db_of s) (c, fu))) a /\ m' = last ms m) \/
     (fu <> None /\ fst (graph_step C (db_of s) (c, fu)) = Err (GE_InternalStorage SE_SQLite) /\ In m' (m :: ms))).
Proof.
  intros s m c fu n I T R E. destruct (call_sim s m c n I T R E) as (a & ms & H1 & H2 & H3 & H4).
  destruct (graph_step_sem C s c fu (inv_wf C s I) T) as [Es|(Nf & k & Es)]; rewrite Es; cbn [fst snd].
  - exists a, ms, (run_ws (snd (sem C s c)) s), (last ms m). split; [exact H1|]. split; [reflexivity|]. split; [exact (sem_inv_all C s c I T)|].
    split; [specialize (H4 (length (snd (sem C s c)))); rewrite firstn_all in H4; exact H4|].
    split; [rewrite <- trail_last; apply Forall2_last; assumption|]. left. split; [exact H2|reflexivity].
  - pose proof (trail_in (snd (sem C s c)) s k) as X.
    assert (Y : exists m', In m' (m :: ms) /\ sim (run_ws (firstn k (snd (sem C s c))) s) m').
    { revert X. generalize (run_ws (firstn k (snd (sem C s c))) s). intros s' [<-|X]; [exists m; split; [left; reflexivity|exact E]|].
      clear - H3 X. induction H3 as [|x y ss ms Hx H IH]; [destruct X|]. destruct X as [->|X]; [exists y; split; [right; left; reflexivity|exact Hx]|].
      destruct (IH X) as (m' & [->|K] & Em); [exists m'; split; [left; reflexivity|exact Em]|exists m'; split; [right; right; exact K|exact Em]]. }
    destruct Y as (m' & Y1 & Y2). exists a, ms, (run_ws (firstn k (snd (sem C s c))) s), m'. split; [exact H1|]. split; [reflexivity|].
    split; [exact (sem_inv C s c I T k)|]. split; [apply H4|]. split; [exact Y2|]. right. split; [exact Nf|]. split; [reflexivity|exact Y1].
Qed.
Lemma run_sim : forall es s m, inv C s -> typed_history C es -> room s (list_sum (map (fun e => offered (fst e)) es)) -> sim s m ->
  exists as_ m', m_run C m es as_ m' /\ Forall2 shows (answers C (db_of s) es) as_ /\ same_machine (contents (graph_history C (db_of s) es)) m'.
Proof.
  induction es as [|[c fu] es IH]; intros s m I T R E.
  - exists [], m. split; [constructor|]. split; [constructor|exact E].
  - inversion T as [|? ? Tc Te]; subst. cbn [map list_sum fold_right fst] in R.
    destruct (step_sim s m c fu _ I Tc R E) as (a & ms & s' & m' & H1 & H2 & H3 & H4 & H5 & H6).
    destruct (IH s' m' H3 Te H4 H5) as (as_ & m2 & K1 & K2 & K3).
    assert (Eh : graph_history C (db_of s) ((c, fu) :: es) = graph_history C (db_of s') es) by (rewrite <- H2; reflexivity).
    cbn [answers]. rewrite H2, Eh. destruct H6 as [[H6 ->]|(Nf & H6 & H7)].
    + exists (a :: as_), m2. split; [exact (run_call C m c fu es a ms as_ m2 H1 K1)|]. split; [constructor; assumption|exact K3].
    + destruct fu as [n|]; [|contradiction]. exists (A_refused :: as_), m2. split; [exact (run_fail C m c n es a ms m' as_ m2 H1 H7 K1)|].
      split; [constructor; [exists (GE_InternalStorage SE_SQLite); exact H6|exact K2]|exact K3].
Qed.
End Sim.

(** ** C155 *)
(** Every history of calls, with the database failing in any of them: the answers are answers of the machine, and the store ends with
    what the machine ends with. *)
Lemma p_C155_library_is_machine : forall C d es, reachable C d -> typed_history C es -> few d es ->
  exists as_ m, m_run C (contents d) es as_ m /\ Forall2 shows (answers C d es) as_ /\ same_machine (contents (graph_history C d es)) m.
Proof.
  intros C d es R T F. apply reachable_inv in R. destruct R as (s & -> & I). apply run_sim; [exact I|exact T| |apply same_refl].
  unfold few in F. cbn [db_of tbl_relations] in F. rewrite map_length in F. exact F.
Qed.
(** From an empty store, the machine starts empty. *)
Lemma p_C155_from_the_start : forall C es, typed_history C es -> few empty_db es ->
  exists as_ m, m_run C empty_machine es as_ m /\ Forall2 shows (answers C empty_db es) as_ /\ same_machine (contents (graph_history C empty_db es)) m.
Proof.
  intros C es T F. apply (run_sim C es empty_state empty_machine (inv_empty C) T F). split.
  - intros [a|v]; cbn; (split; [|contradiction]); [intros (_ & _ & [])|intros (_ & [])].
  - intros k l. cbn. split; [|contradiction]. intros (w & H & _). discriminate.
Qed.
Lemma shows_same : forall r a b, shows r a -> same_reply a b -> shows r b.
Proof.
  intros r [| |w|P|P] [| |w'|Q|Q] H E; cbn [same_reply] in E; try discriminate; try exact H.
  - injection E as ->. exact H.
  - destruct H as (cs & H1 & H2 & H3 & H4). exists cs. split; [exact H1|]. split; [exact H2|]. split; [|exact H4]. intros c. rewrite H3. apply E.
  - destruct H as (vs & H1 & H2 & H3). exists vs. split; [exact H1|]. split; [exact H2|]. intros v. rewrite H3. apply E.
Qed.
(** The machine has no choice while nothing fails. *)
Lemma p_C155_machine_deterministic : forall C cs m n as_ bs m' n', same_machine m n -> m_run C m (no_failures cs) as_ m' -> m_run C n (no_failures cs) bs n' ->
  Forall2 same_reply as_ bs /\ same_machine m' n'.
Proof.
  intros C cs. induction cs as [|c cs IH]; intros m n as_ bs m' n' E H H'; cbn [no_failures map] in *.
  - inversion H; inversion H'; subst. split; [constructor|exact E].
  - inversion H as [|? ? ? ? a ms as1 ? K1 K2|]; inversion H' as [|? ? ? ? b ns bs1 ? L1 L2|]; subst.
    destruct (call_one C m n c a b ms ns E K1 L1) as [X Y].
    destruct (IH _ _ _ _ _ _ (last_same ms ns m n Y E) K2 L2) as [Z Z']. split; [constructor; assumption|exact Z'].
Qed.
(** So whatever the machine answers is what the library answers. *)
Lemma p_C155_machine_is_library : forall C d cs as_ m, reachable C d -> Forall (call_typed C) cs -> few d (no_failures cs) ->
  m_run C (contents d) (no_failures cs) as_ m ->
  Forall2 shows (answers C d (no_failures cs)) as_ /\ same_machine (contents (graph_history C d (no_failures cs))) m.
Proof.
  intros C d cs as_ m R T F H. assert (Th : typed_history C (no_failures cs)).
  { unfold no_failures. apply Forall_forall. intros x Hx. apply in_map_iff in Hx. destruct Hx as (c & <- & Hc). rewrite Forall_forall in T. exact (T c Hc). }
  destruct (p_C155_library_is_machine C d (no_failures cs) R Th F) as (bs & n & K1 & K2 & K3).
  destruct (p_C155_machine_deterministic C cs _ _ _ _ _ _ (same_refl (contents d)) K1 H) as [X Y]. split; [|exact (same_trans _ _ _ K3 Y)].
  clear - K2 X. revert as_ X. induction K2 as [|r b rs bs Hr H IH]; intros as_ X; inversion X; subst; constructor; [|apply IH; assumption].
  eapply shows_same; eassumption.
Qed.
Lemma shows_done : forall a, shows (Ok GR_unit) a -> a = A_done.
Proof. intros [| |w|P|P] H; cbn in H; try discriminate; try reflexivity; destruct H as (? & H); try discriminate; destruct H; discriminate. Qed.
Lemma shows_weight : forall w a, shows (Ok (GR_weight w)) a -> a = A_weight w.
Proof. intros v [| |w|P|P] H; cbn in H; try discriminate; try (destruct H as (? & H); try discriminate; destruct H; discriminate). injection H as ->. reflexivity. Qed.
Lemma shows_refused : forall e a, shows (Err e) a -> a = A_refused.
Proof. intros e [| |w|P|P] H; cbn in H; try discriminate; try reflexivity; destruct H as (? & H & _); discriminate. Qed.
(** Adding A's trust fails in the database at first, then succeeds; A's revocation of itself counts for nothing. *)
Definition tried : list (graph_call * option nat) :=
  [(G_set_root (toy_key R) 4, None); (G_add_trust (toy_trust R R 1000 1) (toy_key R) (at_ 5), None);
   (G_add_trust (toy_trust R A 900 1) (toy_key R) (at_ 5), Some 3%nat); (G_add_trust (toy_trust R A 900 1) (toy_key R) (at_ 5), None);
   (G_revoke (toy_rev A A 7), None); (G_weight (toy_key A) (at_ 10), None)].
Example e_C155_run : typed_history (toy false) tried /\ few empty_db tried /\
  exists m, m_run (toy false) empty_machine tried [A_done; A_weight 16; A_refused; A_weight 8; A_done; A_weight 8] m /\ holds m (RRev (toy_rev A A 7)).
Proof.
  assert (T : typed_history W tried) by (unfold tried, typed_history; repeat (constructor; [cbn [fst]; typed1|]); constructor).
  assert (F : few empty_db tried) by (vm_compute; reflexivity). split; [exact T|]. split; [exact F|].
  destruct (p_C155_from_the_start W tried T F) as (as_ & m & H1 & H2 & H3). exists m. split.
  - assert (E : answers W empty_db tried = [Ok GR_unit; Ok (GR_weight 16); Err (GE_InternalStorage SE_SQLite); Ok (GR_weight 8); Ok GR_unit; Ok (GR_weight 8)])
      by (vm_compute; reflexivity).
    rewrite E in H2. clear E H3.
    repeat match goal with H : Forall2 shows (_ :: _) _ |- _ => inversion H; clear H; subst end.
    match goal with H : Forall2 shows [] _ |- _ => inversion H; subst end.
    repeat match goal with
    | H : shows (Ok GR_unit) _ |- _ => apply shows_done in H; subst
    | H : shows (Ok (GR_weight _)) _ |- _ => apply shows_weight in H; subst
    | H : shows (Err _) _ |- _ => apply shows_refused in H; subst
    end. exact H1.
  - apply H3. cbn [contents holds stored]. split; [split; vm_compute; reflexivity|]. vm_compute. repeat (first [left; reflexivity|right]).
Qed.
