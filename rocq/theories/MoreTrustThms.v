(** Proofs about nodes that hear of more trusts. *)
From Coq Require Import List NArith ZArith Bool Lia ZifyBool ZifyNat ZifyN Permutation.
From Verif Require Import Base BaseFacts Text TextFacts Keys KeysFacts Trust TrustFacts Certificate CertFacts Relation
  Storage StorageFacts Graph SearchFacts PathFacts Spec SpecFacts GraphFacts StateFacts ChainFacts AddFacts ImportFacts HistFacts
  Toy ToyFacts Witness GraphThms ReadmeSpec ReadmeThms InfluenceSpec InfluenceThms MachineSpec MoreTrustSpec.
From Verif Require GossipThms ClockThms CopyThms.
Import ListNotations.
Open Scope N_scope.

Section Below.
Variable C : crypto.
(** The trusts in play. *)
Variable K : public_key -> trust -> Prop.
Hypothesis Short : forall b t, K b t -> secs (expires_at t) < i64_bound.
Hypothesis Longer : forall b t t', K b t -> K b t' -> issued_for t = issued_for t' -> secs (issued_at t) <= secs (issued_at t') -> secs (expires_at t) <= secs (expires_at t').

Definition in_play (d : db) : Prop := forall b t, stored_trust d b t -> exists t0, K b t0 /\ t = whole_trust t0.
Record below (d d' : db) : Prop := mk_below {
  bl_roots : tbl_roots d' = tbl_roots d;
  bl_trusts : forall b t, stored_trust d b t -> exists t', stored_trust d' b t' /\ issued_for t' = issued_for t /\
     secs (issued_at t) <= secs (issued_at t') /\ secs (expires_at t) <= secs (expires_at t');
  bl_revs : forall v, stored_revocation d' v -> exists u, stored_revocation d u /\ rev_pk u = rev_pk v /\ revoked_by u = revoked_by v /\ secs (revoked_at v) <= secs (revoked_at u);
  bl_here : in_play d; bl_there : in_play d' }.


Lemma before_iff : forall a b, before a b <-> secs a < secs b \/ (secs a = secs b /\ nanos a < nanos b).
Proof. reflexivity. Qed.
Definition single (d : db) : Prop := forall x y, stored d x -> stored d y -> same_keys x y -> x = y.
Lemma stored_nanos : forall d x, stored d x -> nanos (rel_issued_at x) = 0.
Proof. intros d [a|v] H; cbn in *; [apply H|apply H]. Qed.
Definition asks_pair (d : db) : Prop := forall x, (exists z, stored d z /\ same_keys x z) \/ (forall z, stored d z -> ~ same_keys x z).

Lemma older_chain : forall d d' z z' x, stored d z -> stored d' z' -> secs (rel_issued_at z) <= secs (rel_issued_at z') -> before (rel_issued_at z') (rel_issued_at x) -> before (rel_issued_at z) (rel_issued_at x).
Proof. clear C K Short Longer. intros d d' z z' x H H' L B. apply stored_nanos in H. apply stored_nanos in H'. unfold before in *. lia. Qed.
Lemma unexpired_mono : forall now b t t', secs (expires_at t') < i64_bound -> secs (expires_at t) <= secs (expires_at t') -> ~ db_expired now (RAuth (mk_auth t b)) -> ~ db_expired now (RAuth (mk_auth t' b)).
Proof.
  clear C K Short Longer. intros now b t t' H L. cbn [db_expired auth_trust]. rewrite (ClockThms.i64_small (secs (expires_at t))), (ClockThms.i64_small (secs (expires_at t'))) by lia. lia.
Qed.
Lemma in_play_short : forall d b t, in_play d -> stored_trust d b t -> secs (expires_at t) < i64_bound.
Proof. intros d b t P H. destruct (P b t H) as (t0 & K0 & ->). exact (Short b t0 K0). Qed.
Lemma in_play_longer : forall d d' b t t', in_play d -> in_play d' -> stored_trust d b t -> stored_trust d' b t' -> issued_for t = issued_for t' ->
  secs (issued_at t) <= secs (issued_at t') -> secs (expires_at t) <= secs (expires_at t').
Proof.
  intros d d' b t t' P P' H H' E L. destruct (P b t H) as (u & K0 & ->). destruct (P' b t' H') as (u' & K1 & ->). exact (Longer b u u' K0 K1 E L).
Qed.

Lemma below_collect : forall d d' now e e', below d d' -> collected d now e -> collected d' now e' -> below e e'.
Proof.
  intros d d' now e e' [Ro Tr Rv P P'] [Re Ce] [Re' Ce']. constructor.
  - congruence.
  - intros b t H. apply (Ce (RAuth (mk_auth t b))) in H. destruct H as [H X]. destruct (Tr b t H) as (t' & H' & E & L1 & L2).
    exists t'. split; [|auto]. apply (Ce' (RAuth (mk_auth t' b))). split; [exact H'|]. apply (unexpired_mono now b t t'); [exact (in_play_short d' b t' P' H')|exact L2|exact X].
  - intros v H. apply (Ce' (RRev v)) in H. destruct H as [H _]. destruct (Rv v H) as (u & Hu & X). exists u. split; [|exact X]. apply (Ce (RRev u)). split; [exact Hu|exact (fun F => F)].
  - intros b t H. apply (Ce (RAuth (mk_auth t b))) in H. exact (P b t (proj1 H)).
  - intros b t H. apply (Ce' (RAuth (mk_auth t b))) in H. exact (P' b t (proj1 H)).
Qed.
Lemma below_collect_here : forall d d' now e, below d d' -> collected d now e -> below e d'.
Proof.
  intros d d' now e [Ro Tr Rv P P'] [Re Ce]. constructor.
  - congruence.
  - intros b t H. apply (Ce (RAuth (mk_auth t b))) in H. exact (Tr b t (proj1 H)).
  - intros v H. destruct (Rv v H) as (u & Hu & X). exists u. split; [|exact X]. apply (Ce (RRev u)). split; [exact Hu|exact (fun F => F)].
  - intros b t H. apply (Ce (RAuth (mk_auth t b))) in H. exact (P b t (proj1 H)).
  - exact P'.
Qed.
Lemma in_play_import : forall d x e, in_play d -> (forall a, x = RAuth a -> K (issued_by a) (auth_trust a)) -> imported d x e -> in_play e.
Proof.
  intros d x e P Kx [_ Im] b t H. apply (Im (RAuth (mk_auth t b))) in H. destruct H as [[_ H]|[[_ [H _]]|[H _]]]; [exact (P b t H)|exact (P b t H)|].
  destruct x as [a|v]; [|discriminate H]. cbn [whole] in H. injection H as -> ->. exists (auth_trust a). split; [apply Kx; reflexivity|reflexivity].
Qed.
Lemma same_sym_keys : forall x y z, same_keys x y -> same_keys x z -> same_keys y z.
Proof. intros x y z [A B] [A' B']. split; congruence. Qed.

(** Both import the same trust. *)
Lemma below_trust : forall d d' t b e e', below d d' -> single d -> single d' -> asks_pair d' -> K b t ->
  imported d (RAuth (mk_auth t b)) e -> imported d' (RAuth (mk_auth t b)) e' -> below e e'.
Proof.
  intros d d' t b e e' [Ro Tr Rv P P'] Si Si' Ap Kt Im Im'. set (x := RAuth (mk_auth t b)) in *.
  assert (Pe : in_play e) by (apply (in_play_import d x e P); [intros a E; injection E as <-; exact Kt|exact Im]).
  assert (Pe' : in_play e') by (apply (in_play_import d' x e' P'); [intros a E; injection E as <-; exact Kt|exact Im']).
  destruct Im as [Re Ie]. destruct Im' as [Re' Ie']. constructor; [congruence| | |exact Pe|exact Pe'].
  - intros b0 t0 H. apply (Ie (RAuth (mk_auth t0 b0))) in H. destruct H as [[N H]|[[S [H B]]|[E O]]].
    + destruct (Tr b0 t0 H) as (t' & H' & E & L). exists t'. split; [|split; assumption]. apply (Ie' (RAuth (mk_auth t' b0))). left. split; [|exact H'].
      intros [A1 A2]. apply N. split; [cbn in *; congruence|exact A2].
    + destruct (Tr b0 t0 H) as (t' & H' & E & L). exists t'. split; [|split; assumption]. apply (Ie' (RAuth (mk_auth t' b0))). right. left.
      split; [destruct S as [A1 A2]; split; [cbn in *; congruence|exact A2]|]. split; [exact H'|]. intros B'. apply B.
      exact (older_chain d d' (RAuth (mk_auth t0 b0)) (RAuth (mk_auth t' b0)) x H H' (proj1 L) B').
    + cbn [whole x] in E. injection E as -> ->. cbn [auth_trust issued_by] in *.
      destruct (Ap x) as [(z & Hz & Sz)|No].
      * destruct (before_dec (rel_issued_at z) (rel_issued_at x)) as [B|B].
        -- exists (whole_trust t). split; [|split; [reflexivity|split; lia]]. apply (Ie' (RAuth (mk_auth (whole_trust t) b))). right. right. split; [reflexivity|].
           intros y Hy Sy. rewrite (Si' y z Hy Hz (same_sym_keys _ _ _ Sy Sz)). exact B.
        -- destruct z as [[t' b']|v].
           ++ destruct Sz as [A1 A2]. cbn in A1, A2. subst b'. exists t'. split; [apply (Ie' (RAuth (mk_auth t' b))); right; left; split; [split; [exact A1|reflexivity]|split; [exact Hz|exact B]]|].
              split; [symmetry; exact A1|]. assert (L : secs (issued_at t) <= secs (issued_at t')) by (unfold before in B; cbn in B; lia).
              split; [exact L|]. destruct (P' b t' Hz) as (u & Ku & ->). cbn in *. exact (Longer b t u Kt Ku A1 L).
           ++ exfalso. destruct (Rv v Hz) as (u & Hu & E1 & E2 & L). apply B. apply (older_chain d' d (RRev v) (RRev u) x Hz Hu L). apply O; [exact Hu|].
              destruct Sz as [A1 A2]. split; cbn in *; congruence.
      * exists (whole_trust t). split; [|split; [reflexivity|split; lia]]. apply (Ie' (RAuth (mk_auth (whole_trust t) b))). right. right. split; [reflexivity|].
        intros y Hy Sy. contradiction (No y Hy Sy).
  - intros v H. apply (Ie' (RRev v)) in H. destruct H as [[N H]|[[S [H B]]|[E _]]]; [| |discriminate E].
    + destruct (Rv v H) as (u & Hu & E1 & E2 & L). exists u. split; [|auto]. apply (Ie (RRev u)). left. split; [|exact Hu]. intros [A1 A2]. apply N. split; cbn in *; congruence.
    + destruct (Rv v H) as (u & Hu & E1 & E2 & L). exists u. split; [|auto]. apply (Ie (RRev u)). right. left. split; [destruct S as [A1 A2]; split; cbn in *; congruence|]. split; [exact Hu|].
      intros B'. apply B. exact (older_chain d' d (RRev v) (RRev u) x H Hu L B').
Qed.
(** Only the second imports a trust. *)
Lemma below_trust_there : forall d d' t b e', below d d' -> single d' -> K b t -> imported d' (RAuth (mk_auth t b)) e' -> below d e'.
Proof.
  intros d d' t b e' [Ro Tr Rv P P'] Si' Kt Im'. set (x := RAuth (mk_auth t b)) in *.
  assert (Pe' : in_play e') by (apply (in_play_import d' x e' P'); [intros a E; injection E as <-; exact Kt|exact Im']).
  destruct Im' as [Re' Ie']. constructor; [congruence| | |exact P|exact Pe'].
  - intros b0 t0 H. destruct (Tr b0 t0 H) as (t' & H' & E & L1 & L2).
    destruct (pk_eq_dec (issued_for t) (issued_for t')) as [K1|K1]; [destruct (pk_eq_dec b b0) as [K2|K2]|].
    + subst b0. assert (Sk : same_keys x (RAuth (mk_auth t' b))) by (split; [exact K1|reflexivity]).
      destruct (before_dec (issued_at t') (issued_at t)) as [B|B].
      * exists (whole_trust t). split; [apply (Ie' (RAuth (mk_auth (whole_trust t) b))); right; right; split; [reflexivity|]; intros z Hz Sz; rewrite (Si' z (RAuth (mk_auth t' b)) Hz H' (same_sym_keys _ _ _ Sz Sk)); exact B|].
        split; [cbn; congruence|]. assert (L : secs (issued_at t') <= secs (issued_at t)) by (unfold before in B; lia). cbn. split; [lia|].
        destruct (P' b t' H') as (u & Ku & ->). cbn in *. pose proof (Longer b u t Ku Kt (eq_sym K1) L). lia.
      * exists t'. split; [|auto]. apply (Ie' (RAuth (mk_auth t' b))). right. left. split; [exact Sk|]. split; [exact H'|exact B].
    + exists t'. split; [|auto]. apply (Ie' (RAuth (mk_auth t' b0))). left. split; [intros [_ X]; exact (K2 X)|exact H'].
    + exists t'. split; [|auto]. apply (Ie' (RAuth (mk_auth t' b0))). left. split; [intros [X _]; exact (K1 X)|exact H'].
  - intros v H. apply (Ie' (RRev v)) in H. destruct H as [[_ H]|[[_ [H _]]|[E _]]]; [exact (Rv v H)|exact (Rv v H)|discriminate E].
Qed.
(** Both import the same revocation. *)
Lemma below_rev : forall d d' v e e', below d d' -> single d -> asks_pair d ->
  imported d (RRev v) e -> imported d' (RRev v) e' -> below e e'.
Proof.
  intros d d' v e e' [Ro Tr Rv P P'] Si Ap Im Im'. set (x := RRev v) in *.
  assert (Pe : in_play e) by (apply (in_play_import d x e P); [intros a E; discriminate E|exact Im]).
  assert (Pe' : in_play e') by (apply (in_play_import d' x e' P'); [intros a E; discriminate E|exact Im']).
  destruct Im as [Re Ie]. destruct Im' as [Re' Ie']. constructor; [congruence| | |exact Pe|exact Pe'].
  - intros b0 t0 H. apply (Ie (RAuth (mk_auth t0 b0))) in H. destruct H as [[N H]|[[S [H B]]|[E _]]]; [| |discriminate E].
    + destruct (Tr b0 t0 H) as (t' & H' & E & L). exists t'. split; [|split; assumption]. apply (Ie' (RAuth (mk_auth t' b0))). left. split; [|exact H'].
      intros [A1 A2]. apply N. split; [cbn in *; congruence|exact A2].
    + destruct (Tr b0 t0 H) as (t' & H' & E & L). exists t'. split; [|split; assumption]. apply (Ie' (RAuth (mk_auth t' b0))). right. left.
      split; [destruct S as [A1 A2]; split; [cbn in *; congruence|exact A2]|]. split; [exact H'|]. intros B'. apply B.
      exact (older_chain d d' (RAuth (mk_auth t0 b0)) (RAuth (mk_auth t' b0)) x H H' (proj1 L) B').
  - intros v0 H. apply (Ie' (RRev v0)) in H. destruct H as [[N H]|[[S [H B]]|[E O]]].
    + destruct (Rv v0 H) as (u & Hu & E1 & E2 & L). exists u. split; [|auto]. apply (Ie (RRev u)). left. split; [|exact Hu]. intros [A1 A2]. apply N. split; cbn in *; congruence.
    + destruct (Rv v0 H) as (u & Hu & E1 & E2 & L). exists u. split; [|auto]. apply (Ie (RRev u)). right. left. split; [destruct S as [A1 A2]; split; cbn in *; congruence|]. split; [exact Hu|].
      intros B'. apply B. exact (older_chain d' d (RRev v0) (RRev u) x H Hu L B').
    + cbn [whole x] in E. injection E as ->.
      assert (W : (forall z, stored d z -> same_keys x z -> before (rel_issued_at z) (rel_issued_at x)) -> exists u, stored_revocation e u /\ rev_pk u = rev_pk v /\ revoked_by u = revoked_by v /\ secs (revoked_at v) <= secs (revoked_at u)).
      { intros O'. exists (mk_rev (rev_pk v) (from_secs (secs (revoked_at v))) (revoked_by v) (rev_sig v)). split; [apply (Ie (RRev (mk_rev (rev_pk v) (from_secs (secs (revoked_at v))) (revoked_by v) (rev_sig v)))); right; right; split; [reflexivity|exact O']|].
        cbn. split; [reflexivity|]. split; [reflexivity|lia]. }
      destruct (Ap x) as [(z & Hz & Sz)|No]; [|apply W; intros z Hz Sz; contradiction (No z Hz Sz)].
      destruct (before_dec (rel_issued_at z) (rel_issued_at x)) as [B|B].
      * apply W. intros y Hy Sy. rewrite (Si y z Hy Hz (same_sym_keys _ _ _ Sy Sz)). exact B.
      * destruct z as [[t0 b0]|u].
        -- exfalso. destruct (Tr b0 t0 Hz) as (t' & H' & E & L & _). apply B. apply (older_chain d d' (RAuth (mk_auth t0 b0)) (RAuth (mk_auth t' b0)) x Hz H' L). apply O; [exact H'|].
           destruct Sz as [A1 A2]. split; cbn in *; congruence.
        -- exists u. split; [apply (Ie (RRev u)); right; left; split; [exact Sz|split; [exact Hz|exact B]]|]. destruct Sz as [A1 A2]. cbn in *. split; [congruence|]. split; [congruence|]. unfold before in B. lia.
Qed.
(** Only the first imports a revocation. *)
Lemma below_rev_here : forall d d' v e, below d d' -> single d -> imported d (RRev v) e -> below e d'.
Proof.
  intros d d' v e [Ro Tr Rv P P'] Si Im. set (x := RRev v) in *.
  assert (Pe : in_play e) by (apply (in_play_import d x e P); [intros a E; discriminate E|exact Im]).
  destruct Im as [Re Ie]. constructor; [congruence| | |exact Pe|exact P'].
  - intros b0 t0 H. apply (Ie (RAuth (mk_auth t0 b0))) in H. destruct H as [[N H]|[[S [H B]]|[E _]]]; [exact (Tr b0 t0 H)|exact (Tr b0 t0 H)|discriminate E].
  - intros v0 H. destruct (Rv v0 H) as (u & Hu & E1 & E2 & L).
    destruct (pk_eq_dec (rev_pk v) (rev_pk u)) as [K1|K1]; [destruct (pk_eq_dec (revoked_by v) (revoked_by u)) as [K2|K2]|].
    + assert (Sk : same_keys x (RRev u)) by (split; assumption). destruct (before_dec (revoked_at u) (revoked_at v)) as [B|B].
      * exists (mk_rev (rev_pk v) (from_secs (secs (revoked_at v))) (revoked_by v) (rev_sig v)).
        split; [apply (Ie (RRev (mk_rev (rev_pk v) (from_secs (secs (revoked_at v))) (revoked_by v) (rev_sig v)))); right; right; split; [reflexivity|]; intros y Hy Sy; rewrite (Si y (RRev u) Hy Hu (same_sym_keys _ _ _ Sy Sk)); exact B|].
        cbn. split; [congruence|]. split; [congruence|]. unfold before in B. lia.
      * exists u. split; [|auto]. apply (Ie (RRev u)). right. left. split; [exact Sk|]. split; [exact Hu|exact B].
    + exists u. split; [|auto]. apply (Ie (RRev u)). left. split; [intros [_ X]; exact (K2 X)|exact Hu].
    + exists u. split; [|auto]. apply (Ie (RRev u)). left. split; [intros [X _]; exact (K1 X)|exact Hu].
Qed.
End Below.

Lemma reachable_single : forall C d, reachable C d -> single d.
Proof. intros C d R x y Hx Hy S. exact (p_C30_one_relation_per_pair C d x y R Hx Hy S). Qed.
Lemma reachable_asks : forall C d, reachable C d -> asks_pair d.
Proof.
  intros C d R x. apply reachable_inv in R. destruct R as (s & -> & I). destruct (CopyThms.some_pair x (rels s)) as [(z & Hz & S)|N0].
  - left. exists z. split; [apply (stored_in C); [apply I|exact Hz]|exact S].
  - right. intros z Hz S. apply (stored_in C) in Hz; [|apply I]. exact (N0 z Hz S).
Qed.
Lemma few_small : forall d es, few d es -> small d.
Proof. intros d es F. unfold few in F. unfold small. lia. Qed.
Lemma query_collects : forall C d q now, reachable C d -> call_typed C q -> is_query q -> call_time q = Some now -> collected d now (snd (graph_step C d (q, None))).
Proof.
  intros C d q now R T Q E. apply reachable_inv in R. destruct R as (s & -> & I). rewrite (step_none C s q I T). cbn [snd].
  assert (X : snd (sem C s q) = [W_gc now]).
  { destruct q; try contradiction Q; try discriminate E; cbn [call_time] in E; injection E as ->; reflexivity. }
  rewrite X. apply (collected_gc C). apply I.
Qed.
Lemma revs_keep : forall C d k, reachable C d -> call_typed C (G_get_revocations k) -> snd (graph_step C d (G_get_revocations k, None)) = d.
Proof. intros C d k R T. apply reachable_inv in R. destruct R as (s & -> & I). rewrite (step_none C s _ I T). reflexivity. Qed.
Lemma collected_refl : forall d now e, collected d now e -> collected e now e.
Proof. intros d now e [_ H]. split; [reflexivity|]. intros x. split; [intros X; split; [exact X|apply H in X; apply X]|intros [X _]; exact X]. Qed.

Section Steps.
Variable C : crypto.
Variable K : public_key -> trust -> Prop.
Hypothesis Short : forall b t, K b t -> secs (expires_at t) < i64_bound.
Hypothesis Longer : forall b t t', K b t -> K b t' -> issued_for t = issued_for t' -> secs (issued_at t) <= secs (issued_at t') -> secs (expires_at t) <= secs (expires_at t').
Notation below := (below K).

Lemma below_live : forall d d' now b t, below d d' -> live d now b t -> exists t2, live d' now b t2 /\ issued_for t2 = issued_for t.
Proof.
  intros d d' now b t B [H X]. destruct (bl_trusts K d d' B b t H) as (t' & H' & E & _ & L). exists t'. split; [|exact E]. split; [exact H'|].
  exact (unexpired_mono now b t t' (in_play_short K Short d' b t' (bl_there K d d' B) H') L X).
Qed.
Lemma below_weight : forall d d' pk now fu fu' w w' e e', below d d' -> reachable C d -> reachable C d' -> small d -> small d' -> call_typed C (G_weight pk now) ->
  graph_step C d (G_weight pk now, fu) = (Ok (GR_weight w), e) -> graph_step C d' (G_weight pk now, fu') = (Ok (GR_weight w'), e') -> w <= w'.
Proof.
  intros d d' pk now fu fu' w w' e e' B R R' S S' T E E'. apply (raised d d' now (bl_roots K d d' B)) with (C := C) (pk := pk) (fu := fu) (fu' := fu') (e1 := e) (e2 := e'); try assumption.
  - intros b t L. exact (below_live d d' now b t B L).
  - intros v Hv. destruct (bl_revs K d d' B v Hv) as (u & Hu & E1 & E2 & _). exists u. auto.
Qed.
Lemma below_certs : forall d d' pk now fu fu' cs cs' e e', below d d' -> reachable C d -> reachable C d' -> call_typed C (G_get_all_certs pk now) ->
  graph_step C d (G_get_all_certs pk now, fu) = (Ok (GR_certs cs), e) -> graph_step C d' (G_get_all_certs pk now, fu') = (Ok (GR_certs cs'), e') ->
  forall c, In c cs -> exists c', In c' cs' /\ map issued_for c' = map issued_for c.
Proof.
  intros d d' pk now fu fu' cs cs' e e' B R R' T E E' c Hc. apply (certs_are C d pk now fu cs e R T E) in Hc.
  destruct (raise_chain d d' now (bl_roots K d d' B) (fun b t => below_live d d' now b t B)) with (2 := Hc) as (c' & Hc' & Ek).
  - intros v Hv. destruct (bl_revs K d d' B v Hv) as (u & Hu & E1 & E2 & _). exists u. auto.
  - exists c'. split; [apply (certs_are C d' pk now fu' cs' e' R' T E'); exact Hc'|exact Ek].
Qed.

(** One trust: nothing, or collected and then imported or not. *)
Lemma trust_step : forall d t b now, reachable C d -> call_typed C (G_add_trust t b now) ->
  (trust_verify C t b now <> Ok tt /\ snd (graph_step C d (G_add_trust t b now, None)) = d) \/
  (trust_verify C t b now = Ok tt /\ exists w d1, graph_step C d (G_weight b now, None) = (Ok (GR_weight w), d1) /\ collected d now d1 /\ reachable C d1 /\
    let nw := if pk_eqb b (issued_for t) then w else w / 2 in
    (nw = 0 /\ snd (graph_step C d (G_add_trust t b now, None)) = d1) \/ (nw <> 0 /\ imported d1 (RAuth (mk_auth t b)) (snd (graph_step C d (G_add_trust t b now, None))))).
Proof.
  intros d t b now R T. destruct (p_C38_add_trust_exact C d t b now R T) as [Hn Hs]. pose proof T as (_ & Tb & Tn). assert (Tw : call_typed C (G_weight b now)) by (split; assumption).
  destruct (trust_verify_total C t b now) as [V|(e & V)].
  - right. split; [exact V|]. destruct (Hs V) as (w & d1 & w' & d' & Ew & Ea & Q & Z & Nz). exists w, d1. split; [exact Ew|].
    split; [pose proof (query_collects C d (G_weight b now) now R Tw I eq_refl) as X; rewrite Ew in X; exact X|].
    split; [pose proof (reachable_step C d (G_weight b now) None R Tw) as X; rewrite Ew in X; exact X|].
    cbv zeta. rewrite Ea. cbn [snd]. assert (Ew' : (if pk_eqb b (issued_for t) then w else w / 2) = w').
    { destruct (pk_eqb b (issued_for t)) eqn:Ek; [apply pk_eqb_eq in Ek|]; destruct Q as [[Q ->]|[Q ->]]; try reflexivity; [contradiction|].
      exfalso. subst b. rewrite (proj2 (pk_eqb_eq _ _) eq_refl) in Ek. discriminate Ek. }
    rewrite Ew'. destruct (N.eq_dec w' 0) as [E0|N0]; [left; split; [exact E0|exact (Z E0)]|right; split; [exact N0|exact (Nz N0)]].
  - left. split; [rewrite V; discriminate|]. rewrite (Hn e V). reflexivity.
Qed.
Definition brought (c : graph_call) : Prop := forall t b, offers_trust c t b -> signed_trust C b t -> K b t.

Lemma below_add_trust : forall d d' t b now, below d d' -> reachable C d -> reachable C d' -> small d -> small d' -> call_typed C (G_add_trust t b now) -> brought (G_add_trust t b now) ->
  below (snd (graph_step C d (G_add_trust t b now, None))) (snd (graph_step C d' (G_add_trust t b now, None))).
Proof.
  intros d d' t b now B R R' S S' T Br. pose proof T as (_ & Tb & Tn). assert (Tw : call_typed C (G_weight b now)) by (split; assumption).
  destruct (trust_step d t b now R T) as [[V ->]|(V & w & d1 & Ew & Col & R1 & X)].
  - destruct (trust_step d' t b now R' T) as [[_ ->]|(V' & _)]; [exact B|contradiction].
  - destruct (trust_step d' t b now R' T) as [[V' _]|(_ & w' & d1' & Ew' & Col' & R1' & X')]; [contradiction|]. cbv zeta in X, X'.
    assert (Kt : K b t) by (apply Br; [split; reflexivity|apply trust_verify_exact in V; apply V]).
    pose proof (below_weight d d' b now None None w w' d1 d1' B R R' S S' Tw Ew Ew') as L.
    pose proof (below_collect K Short d d' now d1 d1' B Col Col') as B1.
    assert (Ln : (if pk_eqb b (issued_for t) then w else w / 2) <= (if pk_eqb b (issued_for t) then w' else w' / 2)).
    { destruct (pk_eqb b (issued_for t)); [exact L|]. apply N.div_le_mono; lia. }
    destruct X as [[_ ->]|[N0 Im]].
    + destruct X' as [[_ ->]|[_ Im']]; [exact B1|]. exact (below_trust_there K Short Longer d1 d1' t b _ B1 (reachable_single C d1' R1') Kt Im').
    + destruct X' as [[Z _]|[_ Im']]; [lia|]. exact (below_trust K Short Longer d1 d1' t b _ _ B1 (reachable_single C d1 R1) (reachable_single C d1' R1') (reachable_asks C d1' R1') Kt Im Im').
Qed.
(** The first has collected what expired by now. *)
Lemma below_add_trust_there : forall d d' t b now, below d d' -> collected d now d -> reachable C d' -> call_typed C (G_add_trust t b now) -> brought (G_add_trust t b now) ->
  below d (snd (graph_step C d' (G_add_trust t b now, None))).
Proof.
  intros d d' t b now B Col R' T Br.
  destruct (trust_step d' t b now R' T) as [[_ ->]|(V & w' & d1' & Ew' & Col' & R1' & X')]; [exact B|]. cbv zeta in X'.
  assert (Kt : K b t) by (apply Br; [split; reflexivity|apply trust_verify_exact in V; apply V]).
  pose proof (below_collect K Short d d' now d d1' B Col Col') as B1.
  destruct X' as [[_ ->]|[_ Im']]; [exact B1|]. exact (below_trust_there K Short Longer d d1' t b _ B1 (reachable_single C d1' R1') Kt Im').
Qed.
Definition is_add_trust (now : duration) (c : graph_call) : Prop := exists t b, c = G_add_trust t b now.
Lemma below_adds : forall now l d d', Forall (is_add_trust now) l -> Forall (call_typed C) l -> Forall brought l -> below d d' -> reachable C d -> reachable C d' ->
  few d (no_failures l) -> few d' (no_failures l) -> below (graph_history C d (no_failures l)) (graph_history C d' (no_failures l)).
Proof.
  intros now l. induction l as [|c l IH]; intros d d' Ha Ht Hb B R R' F F'; [exact B|].
  inversion Ha as [|? ? (t & b & ->) Ha']; subst. inversion Ht as [|? ? T Ht']; subst. inversion Hb as [|? ? Br Hb']; subst.
  change (below (graph_history C (snd (graph_step C d (G_add_trust t b now, None))) (no_failures l)) (graph_history C (snd (graph_step C d' (G_add_trust t b now, None))) (no_failures l))).
  assert (T1 : typed_history C [(G_add_trust t b now, None)]) by (constructor; [exact T|constructor]).
  apply IH; try assumption.
  - apply below_add_trust; try assumption; [exact (few_small _ _ F)|exact (few_small _ _ F')].
  - exact (reachable_step C d _ None R T).
  - exact (reachable_step C d' _ None R' T).
  - exact (GossipThms.few_app C [(G_add_trust t b now, None)] (no_failures l) d R T1 F).
  - exact (GossipThms.few_app C [(G_add_trust t b now, None)] (no_failures l) d' R' T1 F').
Qed.
Lemma below_adds_there : forall now l d d', Forall (is_add_trust now) l -> Forall (call_typed C) l -> Forall brought l -> below d d' -> collected d now d -> reachable C d' ->
  below d (graph_history C d' (no_failures l)).
Proof.
  intros now l. induction l as [|c l IH]; intros d d' Ha Ht Hb B Col R'; [exact B|].
  inversion Ha as [|? ? (t & b & ->) Ha']; subst. inversion Ht as [|? ? T Ht']; subst. inversion Hb as [|? ? Br Hb']; subst.
  change (below d (graph_history C (snd (graph_step C d' (G_add_trust t b now, None))) (no_failures l))). apply IH; try assumption.
  - apply below_add_trust_there; assumption.
  - exact (reachable_step C d' _ None R' T).
Qed.
End Steps.

(** What adding a certificate does is what adding some first part of its trusts does, the same part in every store. *)
Lemma add_part : forall C c now, call_typed C (G_add c now) -> exists l, Forall (is_add_trust now) l /\ Forall (call_typed C) l /\ (length l <= length c)%nat /\
  (forall x, In x l -> forall t b, offers_trust x t b -> offers_trust (G_add c now) t b) /\
  forall d, reachable C d -> snd (graph_step C d (G_add c now, None)) = graph_history C d (no_failures l).
Proof.
  intros C c now T. destruct c as [|t0 c].
  - exists []. split; [constructor|]. split; [constructor|]. split; [cbn; lia|]. split; [intros x []|]. intros d R. rewrite (p_C42_add_empty C d now R (proj2 T)). reflexivity.
  - pose proof T as [T1 T2]. inversion T1 as [|? ? Tt Tc]; subst. assert (Tk : pk_valid C (issued_for t0)) by apply Tt.
    pose proof (chain_calls_typed C (t0 :: c) (issued_for t0) now T1 Tk T2) as TC.
    assert (Add : forall l b, Forall (is_add_trust now) (chain_calls l b now)).
    { induction l as [|t l IH]; intros b; cbn [chain_calls]; constructor; [exists t, b; reflexivity|apply IH]. }
    assert (Len : forall l b, length (chain_calls l b now) = length l) by (induction l as [|t l IH]; intros b; cbn; [reflexivity|rewrite IH; reflexivity]).
    assert (Off : forall x, In x (chain_calls (t0 :: c) (issued_for t0) now) -> forall t b, offers_trust x t b -> offers_trust (G_add (t0 :: c) now) t b).
    { assert (Gen : forall l g, forall x, In x (chain_calls l (issued_for g) now) -> forall t b, offers_trust x t b ->
        exists i h, at_pos (g :: l) i h /\ at_pos (g :: l) (S i) t /\ b = issued_for h).
      { induction l as [|u l IH]; intros g x Hx t b O; [contradiction|]. destruct Hx as [<-|Hx].
        - destruct O as [-> ->]. exists 0%nat, g. repeat split; reflexivity.
        - destruct (IH u x Hx t b O) as (i & h & A & B & E). exists (S i), h. split; [exact A|]. split; [exact B|exact E]. }
      intros x [<-|Hx] t b O; [destruct O as [-> ->]; left; split; reflexivity|]. right. exact (Gen c t0 x Hx t b O). }
    set (calls := chain_calls (t0 :: c) (issued_for t0) now) in *.
    assert (Pre : exists n, forall d, reachable C d -> snd (graph_step C d (G_add (t0 :: c) now, None)) = graph_history C d (no_failures (firstn n calls))).
    { assert (Cut : (Forall (fun a => trust_verify C (auth_trust a) (issued_by a) now = Ok tt) (with_issuers (issued_for t0) (t0 :: c))) \/
        exists n, exists a e, nth_error (with_issuers (issued_for t0) (t0 :: c)) n = Some a /\ trust_verify C (auth_trust a) (issued_by a) now = Err e /\
          Forall (fun a => trust_verify C (auth_trust a) (issued_by a) now = Ok tt) (firstn n (with_issuers (issued_for t0) (t0 :: c)))).
      { induction (with_issuers (issued_for t0) (t0 :: c)) as [|a l IH]; [left; constructor|].
        destruct (trust_verify_total C (auth_trust a) (issued_by a) now) as [V|(e & V)].
        - destruct IH as [F|(n & a' & e & X1 & X2 & X3)]; [left; constructor; assumption|right]. exists (S n), a', e. split; [exact X1|]. split; [exact X2|]. cbn [firstn]. constructor; assumption.
        - right. exists 0%nat, a, e. split; [reflexivity|]. split; [exact V|constructor]. }
      assert (Sem : forall s, inv C s -> snd (graph_step C (db_of s) (G_add (t0 :: c) now, None)) = db_of (run_ws (snd (add_chain_sem C s (t0 :: c) (issued_for t0) now)) s)).
      { intros s I. rewrite (step_none C s _ I T). cbn [snd sem]. unfold add_sem. destruct (add_chain_sem C s (t0 :: c) (issued_for t0) now) as [r ws]; destruct r; reflexivity. }
      destruct Cut as [F|(n & a & e & Ha & V & F)].
      - exists (length calls). intros d R. apply reachable_inv in R. destruct R as (s & -> & I). rewrite firstn_all, (Sem s I).
        destruct (add_chain_calls C (t0 :: c) s (issued_for t0) now) as [(_ & _ & ->)|(n & a & e & Ha & V & _)]; [exact (eq_sym (run_calls_history C calls s I TC))|].
        exfalso. rewrite Forall_forall in F. pose proof (F a (nth_error_In _ _ Ha)) as V'. rewrite V in V'. discriminate V'.
      - exists n. intros d R. apply reachable_inv in R. destruct R as (s & -> & I). rewrite (Sem s I).
        destruct (add_chain_calls C (t0 :: c) s (issued_for t0) now) as [(F' & _)|(n' & a' & e' & Ha' & V' & F' & _ & ->)].
        + exfalso. rewrite Forall_forall in F'. pose proof (F' a (nth_error_In _ _ Ha)) as V'. rewrite V in V'. discriminate V'.
        + assert (n' = n).
          { destruct (Nat.lt_trichotomy n n') as [L|[E|L]]; [exfalso| symmetry; exact E|exfalso].
            - rewrite Forall_forall in F'. assert (X : In a (firstn n' (with_issuers (issued_for t0) (t0 :: c)))) by (apply (nth_error_In _ n); apply nth_firstn; split; assumption).
              pose proof (F' a X) as Y. rewrite V in Y. discriminate Y.
            - rewrite Forall_forall in F. assert (X : In a' (firstn n (with_issuers (issued_for t0) (t0 :: c)))) by (apply (nth_error_In _ n'); apply nth_firstn; split; assumption).
              pose proof (F a' X) as Y. rewrite V' in Y. discriminate Y. }
          subst n'. symmetry. apply run_calls_history; [exact I|]. apply Forall_forall. intros x Hx. apply in_firstn in Hx. rewrite Forall_forall in TC. exact (TC x Hx). }
    destruct Pre as (n & Pre). exists (firstn n calls).
    split; [apply Forall_forall; intros x Hx; apply in_firstn in Hx; pose proof (Add (t0 :: c) (issued_for t0)) as A0; rewrite Forall_forall in A0; exact (A0 x Hx)|].
    split; [apply Forall_forall; intros x Hx; apply in_firstn in Hx; rewrite Forall_forall in TC; exact (TC x Hx)|].
    split; [rewrite firstn_length; unfold calls; rewrite Len; lia|].
    split; [intros x Hx; apply in_firstn in Hx; exact (Off x Hx)|exact Pre].
Qed.

Section Main.
Variable C : crypto.
Variable K : public_key -> trust -> Prop.
Hypothesis Short : forall b t, K b t -> secs (expires_at t) < i64_bound.
Hypothesis Longer : forall b t t', K b t -> K b t' -> issued_for t = issued_for t' -> secs (issued_at t) <= secs (issued_at t') -> secs (expires_at t) <= secs (expires_at t').
Notation below := (below K).

Lemma below_root : forall d d' k n, below d d' -> reachable C d -> reachable C d' -> call_typed C (G_set_root k n) ->
  below (snd (graph_step C d (G_set_root k n, None))) (snd (graph_step C d' (G_set_root k n, None))).
Proof.
  intros d d' k n B R R' T. apply reachable_inv in R. destruct R as (s & -> & I). apply reachable_inv in R'. destruct R' as (s' & -> & I').
  rewrite (step_none C s _ I T), (step_none C s' _ I' T). cbn [sem snd run_ws fold_left apply_w]. destruct B as [B1 B2 B3 B4 B5].
  constructor; try assumption. cbn [tbl_roots db_of roots] in *. rewrite !map_app. f_equal. exact B1.
Qed.
Lemma few_add : forall d c now l cs, (length l <= length c)%nat -> Forall (is_add_trust now) l -> few d (no_failures (G_add c now :: cs)) -> few d (no_failures l).
Proof.
  intros d c now l cs L A F. unfold few in *. cbn [no_failures map fst offered] in F.
  assert (X : list_sum (map (fun e : graph_call * option nat => offered (fst e)) (no_failures l)) = length l).
  { clear F L. induction A as [|x l (t & b & ->) A IH]; [reflexivity|]. cbn [length]. rewrite <- IH. reflexivity. }
  rewrite X. change (list_sum (?a :: ?l)) with (a + list_sum l)%nat in F. lia.
Qed.
Lemma below_same : forall d d' c, below d d' -> reachable C d -> reachable C d' -> call_typed C c -> brought C K c -> few d (no_failures [c]) -> few d' (no_failures [c]) ->
  below (snd (graph_step C d (c, None))) (snd (graph_step C d' (c, None))).
Proof.
  intros d d' c B R R' T Br F F'. destruct c as [k n|t b now|ch now|k now|k i now|k now|k i now|v|k].
  - apply below_root; assumption.
  - apply (below_add_trust C K Short Longer); try assumption; [exact (few_small _ _ F)|exact (few_small _ _ F')].
  - destruct (add_part C ch now T) as (l & A & Tl & Le & Off & H). rewrite (H d R), (H d' R').
    apply (below_adds C K Short Longer now); try assumption; [|exact (few_add d ch now l [] Le A F)|exact (few_add d' ch now l [] Le A F')].
    apply Forall_forall. intros x Hx t b O Sg. exact (Br t b (Off x Hx t b O) Sg).
  - apply (below_collect K Short d d' now); [exact B|apply query_collects; try assumption; exact I || reflexivity..].
  - apply (below_collect K Short d d' now); [exact B|apply query_collects; try assumption; exact I || reflexivity..].
  - apply (below_collect K Short d d' now); [exact B|apply query_collects; try assumption; exact I || reflexivity..].
  - apply (below_collect K Short d d' now); [exact B|apply query_collects; try assumption; exact I || reflexivity..].
  - destruct (p_C30_revoke_imports C d v R T) as [H1 H2], (p_C30_revoke_imports C d' v R' T) as [H1' H2'].
    destruct (revocation_verify_total C v) as [V|(e & V)].
    + apply revocation_verify_exact in V. destruct (H1 V) as (e & -> & Im), (H1' V) as (e' & -> & Im').
      exact (below_rev K d d' v e e' B (reachable_single C d R) (reachable_asks C d R) Im Im').
    + assert (N0 : ~ signed_revocation C v) by (intros X; apply revocation_verify_exact in X; rewrite V in X; discriminate X).
      destruct (H2 N0) as (x & ->), (H2' N0) as (x' & ->). exact B.
  - rewrite (revs_keep C d k R T), (revs_keep C d' k R' T). exact B.
Qed.
Lemma below_misses : forall d d' v, below d d' -> reachable C d -> call_typed C (G_revoke v) -> below (snd (graph_step C d (G_revoke v, None))) d'.
Proof.
  intros d d' v B R T. destruct (p_C30_revoke_imports C d v R T) as [H1 H2]. destruct (revocation_verify_total C v) as [V|(e & V)].
  - apply revocation_verify_exact in V. destruct (H1 V) as (e & -> & Im). exact (below_rev_here K d d' v e B (reachable_single C d R) Im).
  - assert (N0 : ~ signed_revocation C v) by (intros X; apply revocation_verify_exact in X; rewrite V in X; discriminate X). destruct (H2 N0) as (x & ->). exact B.
Qed.
Lemma below_not_asked : forall d d' q, below d d' -> reachable C d -> call_typed C q -> is_query q -> below (snd (graph_step C d (q, None))) d'.
Proof.
  intros d d' q B R T Q. destruct (call_time q) as [now|] eqn:E.
  - exact (below_collect_here K d d' now _ B (query_collects C d q now R T Q E)).
  - destruct q; try contradiction Q; try discriminate E. rewrite (revs_keep C d _ R T). exact B.
Qed.
Lemma below_hears : forall d d' q c now, below d d' -> reachable C d -> reachable C d' -> call_typed C q -> call_typed C c -> brought C K c -> is_query q ->
  call_time q = Some now -> call_time c = Some now -> below (snd (graph_step C d (q, None))) (snd (graph_step C d' (c, None))).
Proof.
  intros d d' q c now B R R' Tq Tc Br Q Eq Ec. pose proof (query_collects C d q now R Tq Q Eq) as Col. pose proof (collected_refl d now _ Col) as Col2.
  pose proof (below_collect_here K d d' now _ B Col) as B1.
  destruct c as [k n|t b now'|ch now'|k now'|k i now'|k now'|k i now'|v|k]; try discriminate Ec; injection Ec as ->.
  - exact (below_add_trust_there C K Short Longer _ d' t b now B1 Col2 R' Tc Br).
  - destruct (add_part C ch now Tc) as (l & A & Tl & Le & Off & H). rewrite (H d' R').
    apply (below_adds_there C K Short Longer now); try assumption. apply Forall_forall. intros x Hx t b O Sg. exact (Br t b (Off x Hx t b O) Sg).
  - apply (below_collect K Short d d' now); [exact B|exact Col|apply query_collects; try assumption; exact I || reflexivity..].
  - apply (below_collect K Short d d' now); [exact B|exact Col|apply query_collects; try assumption; exact I || reflexivity..].
  - apply (below_collect K Short d d' now); [exact B|exact Col|apply query_collects; try assumption; exact I || reflexivity..].
  - apply (below_collect K Short d d' now); [exact B|exact Col|apply query_collects; try assumption; exact I || reflexivity..].
Qed.
Lemma few_head : forall d c cs, few d (no_failures (c :: cs)) -> few d (no_failures [c]).
Proof. intros d c cs F. unfold few in *. cbn [no_failures map] in *. change (list_sum (?a :: ?l)) with (a + list_sum l)%nat in F. cbn [list_sum fold_right]. lia. Qed.
Lemma few_tail : forall d c cs, reachable C d -> call_typed C c -> few d (no_failures (c :: cs)) -> few (snd (graph_step C d (c, None))) (no_failures cs).
Proof.
  intros d c cs R T F. apply (GossipThms.few_app C [(c, None)] (no_failures cs) d R); [|exact F]. constructor; [exact T|constructor].
Qed.
Lemma below_run : forall cs cs', trusts_more cs cs' -> forall d d', below d d' -> reachable C d -> reachable C d' ->
  Forall (call_typed C) cs -> Forall (call_typed C) cs' -> Forall (brought C K) cs' -> few d (no_failures cs) -> few d' (no_failures cs') ->
  below (graph_history C d (no_failures cs)) (graph_history C d' (no_failures cs')).
Proof.
  intros cs cs' H. induction H as [|c cs cs' H IH|v cs cs' H IH|q cs cs' Q H IH|q c now cs cs' Q Eq Ec H IH]; intros d d' B R R' Tc Tc' Br F F'; [exact B|..];
    inversion Tc as [|? ? T1 T2]; subst.
  - inversion Tc' as [|? ? T1' T2']; subst. inversion Br as [|? ? Br1 Br2]; subst.
    apply (IH (snd (graph_step C d (c, None))) (snd (graph_step C d' (c, None)))); try assumption; try (apply reachable_step; assumption); try (apply few_tail; assumption).
    apply below_same; try assumption; eapply few_head; eassumption.
  - apply (IH (snd (graph_step C d (G_revoke v, None))) d'); try assumption; try (apply reachable_step; assumption); try (apply few_tail; assumption). apply below_misses; assumption.
  - apply (IH (snd (graph_step C d (q, None))) d'); try assumption; try (apply reachable_step; assumption); try (apply few_tail; assumption). apply below_not_asked; assumption.
  - inversion Tc' as [|? ? T1' T2']; subst. inversion Br as [|? ? Br1 Br2]; subst.
    apply (IH (snd (graph_step C d (q, None))) (snd (graph_step C d' (c, None)))); try assumption; try (apply reachable_step; assumption); try (apply few_tail; assumption).
    apply (below_hears d d' q c now); assumption.
Qed.
End Main.

Lemma whole_stored : forall d b t, stored_trust d b t -> t = whole_trust t.
Proof.
  intros d b [f [es en] sg [is_ inn]] (H1 & H2 & _). unfold whole_secs in *. cbn in *. destruct H1 as [_ ->], H2 as [_ ->]. reflexivity.
Qed.
Lemma below_start : forall C d cs, below (known C d cs) d d.
Proof.
  intros C d cs. assert (P : in_play (known C d cs) d) by (intros b t H; exists t; split; [left; exact H|exact (whole_stored d b t H)]).
  constructor; try assumption; [reflexivity| |].
  - intros b t H. exists t. split; [exact H|]. split; [reflexivity|]. split; lia.
  - intros v H. exists v. split; [exact H|]. split; [reflexivity|]. split; [reflexivity|lia].
Qed.
Lemma heard_more : forall C d cs cs', reachable C d -> Forall (call_typed C) cs -> Forall (call_typed C) cs' -> few d (no_failures cs) -> few d (no_failures cs') ->
  trusts_more cs cs' -> renewals_extend C d cs' ->
  below (known C d cs') (graph_history C d (no_failures cs)) (graph_history C d (no_failures cs')).
Proof.
  intros C d cs cs' R T T' F F' H [X1 X2]. apply (below_run C (known C d cs') X1 X2 cs cs' H); try assumption; [apply below_start|].
  apply Forall_forall. intros c Hc t b O Sg. right. exists c. split; [exact Hc|]. split; [exact O|exact Sg].
Qed.
Lemma typed_none : forall C cs, Forall (call_typed C) cs -> typed_history C (no_failures cs).
Proof. intros C cs H. unfold typed_history, no_failures. apply Forall_map. exact H. Qed.

(** ** C194 *)
(** A node that misses revocations and hears of more trusts gives every key at least the weight the other gives it. *)
Lemma p_C194_no_lower : forall C d cs cs' pk now, reachable C d -> Forall (call_typed C) cs -> Forall (call_typed C) cs' -> few d (no_failures cs) -> few d (no_failures cs') ->
  trusts_more cs cs' -> renewals_extend C d cs' -> call_typed C (G_weight pk now) ->
  exists w w', answer_after C d cs (G_weight pk now) = Ok (GR_weight w) /\ answer_after C d cs' (G_weight pk now) = Ok (GR_weight w') /\ w <= w'.
Proof.
  intros C d cs cs' pk now R T T' F F' H X Tw. pose proof (heard_more C d cs cs' R T T' F F' H X) as B.
  pose proof (typed_none C cs T) as Th. pose proof (typed_none C cs' T') as Th'.
  assert (R1 : reachable C (graph_history C d (no_failures cs))) by (apply history_reachable; assumption).
  assert (R2 : reachable C (graph_history C d (no_failures cs'))) by (apply history_reachable; assumption).
  assert (A : forall e, reachable C e -> exists w, fst (graph_step C e (G_weight pk now, None)) = Ok (GR_weight w)).
  { intros e Re. apply reachable_inv in Re. destruct Re as (s & -> & I). rewrite (step_none C s _ I Tw). cbn [fst sem]. eexists. reflexivity. }
  destruct (A _ R1) as (w & E), (A _ R2) as (w' & E'). exists w, w'. split; [exact E|]. split; [exact E'|].
  unfold answer_after in *. destruct (graph_step C (graph_history C d (no_failures cs)) (G_weight pk now, None)) as [r e] eqn:G. destruct (graph_step C (graph_history C d (no_failures cs')) (G_weight pk now, None)) as [r' e'] eqn:G'.
  cbn [fst] in E, E'. subst r r'.
  apply (below_weight C (known C d cs') (proj1 X) _ _ pk now None None w w' e e' B R1 R2); try assumption; eapply few_small; apply CopyThms.few_after; eassumption.
Qed.
(** And every certificate the other returns for a key, it returns too, with the same keys. *)
Lemma p_C194_same_keys : forall C d cs cs' pk now, reachable C d -> Forall (call_typed C) cs -> Forall (call_typed C) cs' -> few d (no_failures cs) -> few d (no_failures cs') ->
  trusts_more cs cs' -> renewals_extend C d cs' -> call_typed C (G_get_all_certs pk now) ->
  exists l l', answer_after C d cs (G_get_all_certs pk now) = Ok (GR_certs l) /\ answer_after C d cs' (G_get_all_certs pk now) = Ok (GR_certs l') /\
  forall c, In c l -> exists c', In c' l' /\ map issued_for c' = map issued_for c.
Proof.
  intros C d cs cs' pk now R T T' F F' H X Tw. pose proof (heard_more C d cs cs' R T T' F F' H X) as B.
  pose proof (typed_none C cs T) as Th. pose proof (typed_none C cs' T') as Th'.
  assert (R1 : reachable C (graph_history C d (no_failures cs))) by (apply history_reachable; assumption).
  assert (R2 : reachable C (graph_history C d (no_failures cs'))) by (apply history_reachable; assumption).
  assert (A : forall e, reachable C e -> exists w, fst (graph_step C e (G_get_all_certs pk now, None)) = Ok (GR_certs w)).
  { intros e Re. apply reachable_inv in Re. destruct Re as (s & -> & I). rewrite (step_none C s _ I Tw). cbn [fst sem]. eexists. reflexivity. }
  destruct (A _ R1) as (w & E), (A _ R2) as (w' & E'). exists w, w'. split; [exact E|]. split; [exact E'|].
  unfold answer_after in *. destruct (graph_step C (graph_history C d (no_failures cs)) (G_get_all_certs pk now, None)) as [r e] eqn:G. destruct (graph_step C (graph_history C d (no_failures cs')) (G_get_all_certs pk now, None)) as [r' e'] eqn:G'.
  cbn [fst] in E, E'. subst r r'.
  exact (below_certs C (known C d cs') (proj1 X) _ _ pk now None None w w' e e' B R1 R2 Tw G G').
Qed.

(** What two nodes hear, after the same beginning: the second misses A's revocation of D and hears that R trusts B. *)
Definition heard_a : list graph_call := [G_revoke (toy_rev A D 9); G_weight (toy_key B) (at_ 10); G_add_trust (toy_trust A D 600 3) (toy_key A) (at_ 11)].
Definition heard_b : list graph_call := [G_add_trust (toy_trust R B 900 1) (toy_key R) (at_ 10); G_add_trust (toy_trust A D 600 3) (toy_key A) (at_ 11)].
Lemma heard_a_typed : Forall (call_typed W) heard_a.
Proof. unfold heard_a. typed1. Qed.
Lemma heard_b_typed : Forall (call_typed W) heard_b.
Proof. unfold heard_b. typed1. Qed.
Lemma heard_store : forall cs, Forall (call_typed W) cs -> graph_history W (db_of (after faq)) (no_failures cs) = db_of (after (faq ++ cs)).
Proof. intros cs T. unfold after at 2, run_calls. rewrite fold_left_app. exact (run_calls_history W cs (after faq) (after_inv _ faq_typed) T). Qed.
Lemma heard_answer : forall cs c r, Forall (call_typed W) cs -> call_typed W c -> fst (sem W (after (faq ++ cs)) c) = r -> answer_after W (db_of (after faq)) cs c = r.
Proof.
  intros cs c r T Tc E. unfold answer_after. rewrite (heard_store cs T). apply after_answer; [|exact Tc|exact E]. apply Forall_app. split; [exact faq_typed|exact T].
Qed.
(** After the first D has weight 0 and B weight 4, after the second D has 4 and B has 8. *)
Example e_C194_heard : reachable (toy false) (db_of (after faq)) /\ trusts_more heard_a heard_b /\ renewals_extend (toy false) (db_of (after faq)) heard_b /\
  few (db_of (after faq)) (no_failures heard_a) /\ few (db_of (after faq)) (no_failures heard_b) /\
  answer_after (toy false) (db_of (after faq)) heard_a (G_weight (toy_key B) (at_ 12)) = Ok (GR_weight 4) /\
  answer_after (toy false) (db_of (after faq)) heard_b (G_weight (toy_key B) (at_ 12)) = Ok (GR_weight 8) /\
  answer_after (toy false) (db_of (after faq)) heard_a (G_weight (toy_key D) (at_ 12)) = Ok (GR_weight 0) /\
  answer_after (toy false) (db_of (after faq)) heard_b (G_weight (toy_key D) (at_ 12)) = Ok (GR_weight 4).
Proof.
  split; [apply after_reachable; exact faq_typed|]. split; [|split; [|split; [|split; [|split; [|split; [|split]]]]]].
  - apply tm_misses. apply (tm_hears _ _ (at_ 10)); [exact I|reflexivity|reflexivity|]. apply tm_same. apply tm_end.
  - assert (Kn : forall b t, known (toy false) (db_of (after faq)) heard_b b t -> In (b, t) [(toy_key R, toy_trust R R 1000 1); (toy_key R, toy_trust R A 900 1);
      (toy_key A, toy_trust A B 800 1); (toy_key B, toy_trust B D 700 1); (toy_key R, toy_trust R B 900 1); (toy_key A, toy_trust A D 600 3)]).
    { intros b t [H|(c & Hc & O & _)].
      - apply (stored_trust_in W) in H; [|apply after_inv; exact faq_typed]. rewrite faq_rels in H. repeat (destruct H as [H|H]; [injection H as <- <-; cbn [In]; tauto|]). contradiction H.
      - destruct Hc as [<-|[<-|[]]]; destruct O as [-> ->]; cbn [In]; tauto. }
    split.
    + intros b t H. apply Kn in H. repeat (destruct H as [H|H]; [injection H as <- <-; reflexivity|]). contradiction H.
    + intros b t t' H H' E L. apply Kn in H. apply Kn in H'. revert E L.
      repeat (destruct H as [H|H]; [injection H as <- <-; repeat (destruct H' as [H'|H']; [pose proof (f_equal fst H') as Hb; pose proof (f_equal snd H') as Ht; cbn [fst snd] in Hb, Ht; subst t'; clear H'; first [vm_compute in Hb; discriminate Hb | intros E _; first [vm_compute in E; discriminate E | vm_compute; discriminate]]|]); contradiction H'|]). contradiction H.
  - vm_compute. reflexivity.
  - vm_compute. reflexivity.
  - apply heard_answer; [exact heard_a_typed|typed1|vm_compute; reflexivity].
  - apply heard_answer; [exact heard_b_typed|typed1|vm_compute; reflexivity].
  - apply heard_answer; [exact heard_a_typed|typed1|vm_compute; reflexivity].
  - apply heard_answer; [exact heard_b_typed|typed1|vm_compute; reflexivity].
Qed.
(** The condition on renewals is needed: hearing of a renewal that expires sooner takes a weight away later. *)
Lemma p_C194_sooner_renewal_lowers : exists C d cs cs' pk now w, crypto_laws C /\ reachable C d /\ Forall (call_typed C) cs /\ Forall (call_typed C) cs' /\
  few d (no_failures cs) /\ few d (no_failures cs') /\ trusts_more cs cs' /\ call_typed C (G_weight pk now) /\ w <> 0 /\
  answer_after C d cs (G_weight pk now) = Ok (GR_weight w) /\ answer_after C d cs' (G_weight pk now) = Ok (GR_weight 0).
Proof.
  exists W, (db_of (after faq)), [G_weight (toy_key A) (at_ 10)], [G_add_trust (toy_trust R A 20 5) (toy_key R) (at_ 10)], (toy_key A), (at_ 30), 8.
  assert (Ta : Forall (call_typed W) [G_weight (toy_key A) (at_ 10)]) by typed1.
  assert (Tb : Forall (call_typed W) [G_add_trust (toy_trust R A 20 5) (toy_key R) (at_ 10)]) by typed1.
  split; [apply toy_laws|]. split; [apply after_reachable; exact faq_typed|]. split; [exact Ta|]. split; [exact Tb|].
  split; [vm_compute; reflexivity|]. split; [vm_compute; reflexivity|].
  split; [apply (tm_hears _ _ (at_ 10)); [exact I|reflexivity|reflexivity|apply tm_end]|]. split; [typed1|]. split; [discriminate|].
  split; (apply heard_answer; [assumption|typed1|vm_compute; reflexivity]).
Qed.

(** ** C77 *)
Lemma picks_filter : forall A (P : A -> Prop) f l, (forall x, In x l -> f x = true <-> P x) -> picks P l (filter f l).
Proof.
  intros A P f l. induction l as [|x l IH]; intros H; [constructor|]. cbn [filter]. destruct (f x) eqn:E.
  - apply picks_keep; [apply H; [left; reflexivity|exact E]|apply IH; intros y Hy; apply H; right; exact Hy].
  - apply picks_drop; [intros X; apply H in X; [congruence|left; reflexivity]|apply IH; intros y Hy; apply H; right; exact Hy].
Qed.
(** [get_all_certs_from] keeps the certificates of [get_all_certs] in which another key than the last is the issuer's, in their order, and drops the others. *)
Lemma p_C77_same_order : forall C d pk i now fu fu' cs cs' d1 d2, reachable C d -> call_typed C (G_get_all_certs_from pk i now) -> pk <> i ->
  graph_step C d (G_get_all_certs pk now, fu) = (Ok (GR_certs cs), d1) ->
  graph_step C d (G_get_all_certs_from pk i now, fu') = (Ok (GR_certs cs'), d2) ->
  picks (fun c => exists n, (S n < length c)%nat /\ key_at c n i) cs cs'.
Proof.
  intros C d pk i now fu fu' cs cs' d1 d2 R T Ne E1 E2. pose proof (p_C46_from_issued_by_partial C d pk i now fu fu' cs cs' d1 d2 R T Ne E1 E2) as M.
  apply reachable_inv in R. destruct R as (s & -> & I). pose proof T as (Tk & Ti & Tn).
  apply step_ok in E1; [|exact I|exact (conj Tk Tn)]. apply step_ok in E2; [|exact I|exact T]. cbn [sem fst] in *.
  destruct E1 as [E1 _]. destruct E2 as [E2 _]. injection E1 as <-. injection E2 as <-. unfold certs_from_of in *.
  apply picks_filter. intros c Hc. pose proof (M c) as Mc. rewrite filter_In in Mc. tauto.
Qed.
Example e_C77_order : toy_key B <> toy_key A /\ picks (fun c => exists n, (S n < length c)%nat /\ key_at c n (toy_key A)) [way1; way2] [way2].
Proof.
  split; [discriminate|]. assert (L : reachable W (db_of (after two_ways))) by (apply after_reachable; exact two_ways_typed).
  eapply (p_C77_same_order W (db_of (after two_ways)) (toy_key B) (toy_key A) (at_ 10) None None); [exact L|typed1|discriminate|..].
  - apply after_step; [exact two_ways_typed|typed1|exact two_ways_certs].
  - apply after_step; [exact two_ways_typed|typed1|exact two_ways_from].
Qed.
