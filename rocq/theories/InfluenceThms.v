(** Proofs about influence. *)
From Coq Require Import List NArith ZArith Bool Lia ZifyBool ZifyNat ZifyN Permutation.
From Verif Require Import Base BaseFacts Text TextFacts Keys KeysFacts Trust TrustFacts Certificate CertFacts Relation
  Storage StorageFacts Graph SearchFacts PathFacts Spec SpecFacts GraphFacts StateFacts ChainFacts AddFacts ImportFacts HistFacts
  Toy ToyFacts Witness GraphThms ReadmeSpec ReadmeThms InfluenceSpec.
Import ListNotations.
Open Scope N_scope.

(** Chains of live trusts. *)
Definition live_chain (d : db) (now : duration) (pk : public_key) (c : certificate) : Prop :=
  (2 <= length c)%nat /\
  key_at c (length c - 1) pk /\
  (forall t, at_pos c 0 t -> is_root d (issued_for t) /\ live d now (issued_for t) t) /\
  (forall i g t, at_pos c i g -> at_pos c (S i) t -> live d now (issued_for g) t) /\
  (forall i j k, (i < j)%nat -> key_at c i k -> key_at c j k -> j = S i /\ (0 < i)%nat).
Definition counting (d : db) (now : duration) (pk : public_key) (c : certificate) : Prop :=
  live_chain d now pk c /\ forall i j, revokes_at d c i j -> direct_issuer_pos c j.

Section Answers.
Variable C : crypto.

Lemma collected_chain : forall d now d' pk c, collected d now d' -> (root_chain d' pk c <-> live_chain d now pk c).
Proof.
  intros d now d' pk c [Ro Col].
  assert (L : forall b t, stored_trust d' b t <-> live d now b t) by (intros b t; exact (Col (RAuth (mk_auth t b)))).
  assert (Ir : forall k, is_root d' k <-> is_root d k) by (intros k; unfold is_root; rewrite Ro; reflexivity).
  split; intros (H1 & H2 & H3 & H4 & H5); (split; [exact H1|]; split; [exact H2|]; split; [|split; [|exact H5]]).
  - intros t Ht. destruct (H3 t Ht) as [X Y]. split; [apply Ir; exact X|apply L; exact Y].
  - intros i g t Hg Ht. apply L. exact (H4 i g t Hg Ht).
  - intros t Ht. destruct (H3 t Ht) as [X Y]. split; [apply Ir; exact X|apply L; exact Y].
  - intros i g t Hg Ht. apply L. exact (H4 i g t Hg Ht).
Qed.
Lemma collected_revokes : forall d now d' c i j, collected d now d' -> (revokes_at d' c i j <-> revokes_at d c i j).
Proof.
  intros d now d' c i j [_ Col].
  assert (V : forall v, stored_revocation d' v <-> stored_revocation d v).
  { intros v. pose proof (Col (RRev v)) as X. cbn [stored db_expired] in X. tauto. }
  split; intros (H & v & Hv & K); (split; [exact H|]; exists v; split; [apply V; exact Hv|exact K]).
Qed.
Lemma certs_are : forall d pk now fu cs d', reachable C d -> call_typed C (G_get_all_certs pk now) ->
  graph_step C d (G_get_all_certs pk now, fu) = (Ok (GR_certs cs), d') -> forall c, In c cs <-> counting d now pk c.
Proof.
  intros d pk now fu cs d' R T E c. destruct (p_C24_certificates_exact C d pk now fu cs d' R T E) as [Col X]. rewrite X.
  rewrite (collected_chain d now d' pk c Col). unfold counting. split; intros [H1 H2]; (split; [exact H1|]); intros i j H; apply (H2 i j); apply (collected_revokes d now d' c i j Col); exact H.
Qed.
Lemma certs_answer : forall d pk now, reachable C d -> call_typed C (G_get_all_certs pk now) ->
  exists cs d', graph_step C d (G_get_all_certs pk now, None) = (Ok (GR_certs cs), d').
Proof. intros d pk now R T. destruct (p_C23_queries_succeed C d _ R T I) as (x & d' & E & X). destruct x; try contradiction X. eauto. Qed.
Lemma certs_from_answer : forall d pk i now, reachable C d -> call_typed C (G_get_all_certs_from pk i now) ->
  exists cs d', graph_step C d (G_get_all_certs_from pk i now, None) = (Ok (GR_certs cs), d').
Proof. intros d pk i now R T. destruct (p_C23_queries_succeed C d _ R T I) as (x & d' & E & X). destruct x; try contradiction X. eauto. Qed.
Lemma weight_answer : forall d pk now, reachable C d -> call_typed C (G_weight pk now) ->
  exists w d', graph_step C d (G_weight pk now, None) = (Ok (GR_weight w), d').
Proof. intros d pk now R T. destruct (p_C23_queries_succeed C d _ R T I) as (x & d' & E & X). destruct x; try contradiction X. eauto. Qed.
Lemma weight_from_answer : forall d pk i now, reachable C d -> call_typed C (G_weight_from pk i now) ->
  exists w d', graph_step C d (G_weight_from pk i now, None) = (Ok (GR_weight w), d').
Proof. intros d pk i now R T. destruct (p_C23_queries_succeed C d _ R T I) as (x & d' & E & X). destruct x; try contradiction X. eauto. Qed.

Lemma certs_from_nodup : forall d pk i now fu cs d', reachable C d -> call_typed C (G_get_all_certs_from pk i now) ->
  graph_step C d (G_get_all_certs_from pk i now, fu) = (Ok (GR_certs cs), d') -> NoDup cs.
Proof.
  intros d pk i now fu cs d' R T E. apply reachable_inv in R. destruct R as (s & -> & I).
  apply step_ok in E; [|exact I|exact T]. destruct E as [E _]. cbn [sem fst] in E. injection E as <-. unfold certs_from_of. apply NoDup_filter.
  apply found_certs_nodup. apply (wf_nodup C). apply gc_wf. apply I.
Qed.
Lemma greatest_le : forall (P Q : N -> Prop) v w, (forall x, P x -> exists y, Q y /\ x <= y) -> greatest P v -> greatest Q w -> v <= w.
Proof.
  intros P Q v w H [_ [Pv|[-> _]]] [Qw _]; [|lia]. destruct (H v Pv) as (y & Qy & L). specialize (Qw y Qy). lia.
Qed.
(** The weight, by counting chains. *)
Lemma weight_is : forall d pk now fu w d', reachable C d -> call_typed C (G_weight pk now) -> small d -> graph_step C d (G_weight pk now, fu) = (Ok (GR_weight w), d') ->
  greatest (fun v => (exists m, root_max_len d pk m /\ v = 2 ^ m) \/ exists c, counting d now pk c /\ cert_weight d c v) w.
Proof.
  intros d pk now fu w d' R T Sm E. destruct (certs_answer d pk now R T) as (cs & d1 & Ec).
  destruct (p_C35_weight_is_best_chain C d pk now None fu cs w d1 d' R T Sm Ec E) as (_ & [G1 G2] & _). pose proof (certs_are d pk now None cs d1 R T Ec) as X. split.
  - intros v [Hv|(c & Hc & Hv)]; apply G1; [left; exact Hv|right]. exists c. split; [apply X; exact Hc|exact Hv].
  - destruct G2 as [[Hv|(c & Hc & Hv)]|[-> Z]]; [left; left; exact Hv|left; right; exists c; split; [apply X; exact Hc|exact Hv]|].
    right. split; [reflexivity|]. intros v [Hv|(c & Hc & Hv)]; apply (Z v); [left; exact Hv|right]. exists c. split; [apply X; exact Hc|exact Hv].
Qed.

Section Two.
Variables (d d2 : db) (pk : public_key) (now : duration).
Hypotheses (R : reachable C d) (R2 : reachable C d2) (Ro : tbl_roots d2 = tbl_roots d).
Lemma len_same : forall k m, root_max_len d2 k m <-> root_max_len d k m.
Proof. intros k m. unfold root_max_len. rewrite Ro. reflexivity. Qed.
Lemma root_same : forall k, is_root d2 k <-> is_root d k.
Proof. intros k. unfold is_root. rewrite Ro. reflexivity. Qed.
Lemma weight_same : forall c v, cert_weight d2 c v <-> cert_weight d c v.
Proof. intros c v. unfold cert_weight. split; intros (t & m & H1 & H2 & H3); exists t, m; (split; [exact H1|]; split; [apply len_same; exact H2|exact H3]). Qed.
Hypotheses (Same : forall c, counting d2 now pk c <-> counting d now pk c) (Sm : small d) (Sm2 : small d2).
Lemma same_answers : forall q, call_typed C q -> about pk now q -> same_answer (fst (graph_step C d (q, None))) (fst (graph_step C d2 (q, None))).
Proof.
  assert (Certs : forall T : call_typed C (G_get_all_certs pk now), exists cs cs2 d1 d3, graph_step C d (G_get_all_certs pk now, None) = (Ok (GR_certs cs), d1) /\
    graph_step C d2 (G_get_all_certs pk now, None) = (Ok (GR_certs cs2), d3) /\ forall c, In c cs <-> In c cs2).
  { intros T. destruct (certs_answer d pk now R T) as (cs & d1 & E1). destruct (certs_answer d2 pk now R2 T) as (cs2 & d3 & E2).
    exists cs, cs2, d1, d3. split; [exact E1|]. split; [exact E2|]. intros c.
    rewrite (certs_are d pk now None cs d1 R T E1), (certs_are d2 pk now None cs2 d3 R2 T E2), Same. reflexivity. }
  assert (From : forall i (T : call_typed C (G_get_all_certs_from pk i now)), exists cs cs2 d1 d3, graph_step C d (G_get_all_certs_from pk i now, None) = (Ok (GR_certs cs), d1) /\
    graph_step C d2 (G_get_all_certs_from pk i now, None) = (Ok (GR_certs cs2), d3) /\ NoDup cs /\ NoDup cs2 /\ forall c, In c cs <-> In c cs2).
  { intros i T. assert (Tc : call_typed C (G_get_all_certs pk now)) by (destruct T as (X & _ & Y); split; assumption).
    destruct (Certs Tc) as (as1 & as2 & e1 & e2 & A1 & A2 & As).
    destruct (certs_from_answer d pk i now R T) as (cs & d1 & E1). destruct (certs_from_answer d2 pk i now R2 T) as (cs2 & d3 & E2).
    exists cs, cs2, d1, d3. split; [exact E1|]. split; [exact E2|].
    split; [exact (certs_from_nodup d pk i now None cs d1 R T E1)|]. split; [exact (certs_from_nodup d2 pk i now None cs2 d3 R2 T E2)|]. intros c.
    rewrite (p_C46_from_is_filter C d pk i now None None as1 cs e1 d1 R T A1 E1), (p_C46_from_is_filter C d2 pk i now None None as2 cs2 e2 d3 R2 T A2 E2), As. reflexivity. }
  intros q T [->|[->|[(i & ->)|(i & ->)]]].
  - destruct (weight_answer d pk now R T) as (w & d1 & E1). destruct (weight_answer d2 pk now R2 T) as (w2 & d3 & E2). rewrite E1, E2. cbn [fst same_answer].
    pose proof (weight_is d pk now None w d1 R T Sm E1) as G1. pose proof (weight_is d2 pk now None w2 d3 R2 T Sm2 E2) as G2.
    assert (w <= w2); [|assert (w2 <= w); [|f_equal; f_equal; lia]].
    + apply (greatest_le _ _ _ _ (fun x H => ex_intro _ x (conj (match H with
        | or_introl (ex_intro _ m (conj Hm Hv)) => or_introl (ex_intro _ m (conj (proj2 (len_same pk m) Hm) Hv))
        | or_intror (ex_intro _ c (conj Hc Hv)) => or_intror (ex_intro _ c (conj (proj2 (Same c) Hc) (proj2 (weight_same c x) Hv))) end) (N.le_refl x))) G1 G2).
    + apply (greatest_le _ _ _ _ (fun x H => ex_intro _ x (conj (match H with
        | or_introl (ex_intro _ m (conj Hm Hv)) => or_introl (ex_intro _ m (conj (proj1 (len_same pk m) Hm) Hv))
        | or_intror (ex_intro _ c (conj Hc Hv)) => or_intror (ex_intro _ c (conj (proj1 (Same c) Hc) (proj1 (weight_same c x) Hv))) end) (N.le_refl x))) G2 G1).
  - destruct (Certs T) as (cs & cs2 & d1 & d3 & E1 & E2 & X). rewrite E1, E2. cbn [fst same_answer].
    apply NoDup_Permutation; [exact (proj1 (p_C47_certificates_ordered C d pk now None cs d1 R T E1))|exact (proj1 (p_C47_certificates_ordered C d2 pk now None cs2 d3 R2 T E2))|exact X].
  - destruct (weight_from_answer d pk i now R T) as (w & d1 & E1). destruct (weight_from_answer d2 pk i now R2 T) as (w2 & d3 & E2). rewrite E1, E2. cbn [fst same_answer].
    destruct (From i T) as (cs & cs2 & e1 & e2 & A1 & A2 & _ & _ & X).
    pose proof (p_C46_weight_from_exact C d pk i now None None cs w e1 d1 R T Sm A1 E1) as G1. pose proof (p_C46_weight_from_exact C d2 pk i now None None cs2 w2 e2 d3 R2 T Sm2 A2 E2) as G2.
    assert (w <= w2); [|assert (w2 <= w); [|f_equal; f_equal; lia]].
    + apply (greatest_le _ _ _ _ (fun x H => match H with ex_intro _ c (conj Hc Hv) =>
        ex_intro _ x (conj (ex_intro _ c (conj (proj1 (X c) Hc) (proj2 (weight_same c x) Hv))) (N.le_refl x)) end) G1 G2).
    + apply (greatest_le _ _ _ _ (fun x H => match H with ex_intro _ c (conj Hc Hv) =>
        ex_intro _ x (conj (ex_intro _ c (conj (proj2 (X c) Hc) (proj1 (weight_same c x) Hv))) (N.le_refl x)) end) G2 G1).
  - destruct (From i T) as (cs & cs2 & e1 & e2 & A1 & A2 & N1 & N2 & X). rewrite A1, A2. cbn [fst same_answer]. apply NoDup_Permutation; assumption.
Qed.
End Two.
End Answers.

(** ** Histories that touch nothing relevant *)
Section Keeps.
Variables (C : crypto) (Q : relation -> Prop) (now : duration).
Hypothesis Qk : forall x y, same_keys x y -> Q x -> Q y.
Lemma same_keys_sym : forall x y, same_keys x y -> same_keys y x.
Proof. intros x y [A B]. split; congruence. Qed.
Lemma expired_later : forall t x, in_order t now -> db_expired t x -> db_expired now x.
Proof.
  intros t [a|v] [H1 H2] E; [|exact E]. cbn [db_expired] in *. unfold i64_bound in *.
  assert (S1 : forall n, n < 9223372036854775808 -> i64_of_u64 n = Z.of_N n).
  { intros n Hn. unfold i64_of_u64. destruct (N.ltb_spec n i64_bound) as [|X]; [reflexivity|unfold i64_bound in X; lia]. }
  rewrite (S1 (secs t)) in E by lia. rewrite (S1 (secs now)) by lia. lia.
Qed.
Lemma effects_keep : forall c es d d', (forall k n, c <> G_set_root k n) -> (forall t, call_time c = Some t -> in_order t now) ->
  (forall x, offers c x -> ~ Q x) -> Forall (effect_allowed c) es -> effects_on d es d' ->
  tbl_roots d' = tbl_roots d /\ forall x, Q x -> ~ db_expired now x -> (stored d' x <-> stored d x).
Proof.
  intros c es d d' Hr Ht Ho Al Ef. induction Ef as [d|d e d1 es d' E1 Ef IH]; [split; [reflexivity|tauto]|].
  inversion Al as [|? ? A1 A2]; subst. destruct (IH A2) as [Ro X].
  assert (Y : tbl_roots d1 = tbl_roots d /\ forall x, Q x -> ~ db_expired now x -> (stored d1 x <-> stored d x)).
  { destruct e as [t|x|k m]; cbn [effect_allowed effect_on] in A1, E1.
    - destruct E1 as [Ro1 Col]. split; [exact Ro1|]. intros x Hx Ne. rewrite Col. split; [intros [H _]; exact H|]. intros H. split; [exact H|].
      intros Ex. apply Ne. exact (expired_later t x (Ht t A1) Ex).
    - destruct E1 as [Ro1 Im]. split; [exact Ro1|]. intros y Hy Ne. rewrite Im. assert (N : ~ same_keys x y).
      { intros Sk. apply (Ho x A1). exact (Qk y x (same_keys_sym x y Sk) Hy). }
      split; [intros [[_ H]|[[Sk _]|[-> _]]]; [exact H|contradiction|exfalso; apply N; destruct x; split; reflexivity]|]. intros H. left. split; assumption.
    - destruct A1 as (n & -> & _). exfalso. exact (Hr k n eq_refl). }
  destruct Y as [Ro1 Y]. split; [congruence|]. intros x Hx Ne. rewrite X, Y by assumption. reflexivity.
Qed.
Lemma step_effects_any : forall d c fu, reachable C d -> call_typed C c -> exists es, Forall (effect_allowed c) es /\ effects_on d es (snd (graph_step C d (c, fu))).
Proof.
  intros d c fu R T. destruct (p_C48_failures_are_safe C d c R T) as (es & Al & Ef & X). destruct (graph_step C d (c, fu)) as [r d'] eqn:E.
  destruct (X fu r d' E) as [H|(_ & k & H)].
  - exists es. split; [exact Al|]. rewrite <- H in Ef. exact Ef.
  - exists (firstn k es). split; [|exact H]. apply Forall_forall. intros e He. rewrite Forall_forall in Al. apply Al.
    rewrite <- (firstn_skipn k es). apply in_or_app. left. exact He.
Qed.
Lemma history_keeps : forall es d, reachable C d -> typed_history C es -> only_offers (fun x => ~ Q x) now es ->
  tbl_roots (graph_history C d es) = tbl_roots d /\ forall x, Q x -> ~ db_expired now x -> (stored (graph_history C d es) x <-> stored d x).
Proof.
  induction es as [|[c fu] es IH]; intros d R Th Oo; [split; [reflexivity|tauto]|]. inversion Th as [|? ? T1 T2]; subst. cbn [fst] in T1.
  change (graph_history C d ((c, fu) :: es)) with (graph_history C (snd (graph_step C d (c, fu))) es).
  destruct (Oo c fu (or_introl eq_refl)) as (O1 & O2 & O3).
  destruct (step_effects_any d c fu R T1) as (ef & Al & Ef). destruct (effects_keep c ef d _ O1 O2 O3 Al Ef) as [Ro1 X1].
  destruct (IH (snd (graph_step C d (c, fu))) (reachable_step C d c fu R T1) T2) as [Ro X]; [intros c' fu' H; apply (Oo c' fu'); right; exact H|].
  split; [congruence|]. intros x Hx Ne. rewrite X, X1 by assumption. reflexivity.
Qed.
End Keeps.

(** ** C149 *)
Section Linked.
Variables (d d2 : db) (now : duration).
Hypotheses (Ro : tbl_roots d2 = tbl_roots d).
Hypothesis H : forall x, linked d now (rel_issued_by x) -> ~ db_expired now x -> (stored d2 x <-> stored d x).
Lemma live_same : forall b t, linked d now b -> (live d2 now b t <-> live d now b t).
Proof.
  intros b t Lb. unfold live. pose proof (H (RAuth (mk_auth t b)) Lb) as X. change (stored d2 (RAuth (mk_auth t b))) with (stored_trust d2 b t) in X.
  change (stored d (RAuth (mk_auth t b))) with (stored_trust d b t) in X. tauto.
Qed.
Lemma chain_linked : forall pk c, live_chain d2 now pk c -> forall i t, at_pos c i t -> linked d now (issued_for t).
Proof.
  intros pk c (_ & _ & P0 & Ps & _). induction i as [|i IH]; intros t Ht.
  - apply linked_root. apply (root_same d d2 Ro). apply P0. exact Ht.
  - destruct (nth_error_Some_ex _ c i) as (g & Hg); [pose proof (at_len _ _ _ _ Ht); lia|].
    apply (linked_by d now (issued_for g)); [exact (IH g Hg)|]. apply live_same; [exact (IH g Hg)|]. exact (Ps i g t Hg Ht).
Qed.
Lemma chain_transfer : forall pk c, live_chain d2 now pk c -> live_chain d now pk c.
Proof.
  intros pk c Hc. pose proof (chain_linked pk c Hc) as L. destruct Hc as (H1 & H2 & H3 & H4 & H5). split; [exact H1|]. split; [exact H2|]. split; [|split; [|exact H5]].
  - intros t Ht. destruct (H3 t Ht) as [X Y]. split; [apply (root_same d d2 Ro); exact X|]. apply live_same; [exact (L 0%nat t Ht)|exact Y].
  - intros i g t Hg Ht. apply live_same; [exact (L i g Hg)|]. exact (H4 i g t Hg Ht).
Qed.
Lemma revokes_same : forall pk c i j, live_chain d2 now pk c -> (revokes_at d2 c i j <-> revokes_at d c i j).
Proof.
  intros pk c i j Hc. assert (V : forall v, key_at c i (revoked_by v) -> (stored_revocation d2 v <-> stored_revocation d v)).
  { intros v (t & Ht & Et). apply (H (RRev v)); [|intros []]. cbn [rel_issued_by]. rewrite <- Et. exact (chain_linked pk c Hc i t Ht). }
  split; intros (Hij & v & Hv & K1 & K2); (split; [exact Hij|]; exists v; split; [apply (V v K1); exact Hv|split; assumption]).
Qed.
End Linked.
Lemma counting_linked : forall d d2 now pk c, tbl_roots d2 = tbl_roots d ->
  (forall x, linked d now (rel_issued_by x) -> ~ db_expired now x -> (stored d2 x <-> stored d x)) -> (counting d2 now pk c <-> counting d now pk c).
Proof.
  intros d d2 now pk c Ro H. split; intros [Hc Hr].
  - split; [exact (chain_transfer d d2 now Ro H pk c Hc)|]. intros i j X. apply (Hr i j). apply (revokes_same d d2 now Ro H pk c i j Hc). exact X.
  - assert (Hc2 : live_chain d2 now pk c).
    { pose proof (chain_linked d d now eq_refl (fun x _ _ => iff_refl _) pk c Hc) as L. destruct Hc as (H1 & H2 & H3 & H4 & H5).
      split; [exact H1|]. split; [exact H2|]. split; [|split; [|exact H5]].
      - intros t Ht. destruct (H3 t Ht) as [X Y]. split; [apply (root_same d d2 Ro); exact X|]. apply (live_same d d2 now H); [exact (L 0%nat t Ht)|exact Y].
      - intros i g t Hg Ht. apply (live_same d d2 now H); [exact (L i g Hg)|]. exact (H4 i g t Hg Ht). }
    split; [exact Hc2|]. intros i j X. apply (Hr i j). apply (revokes_same d d2 now Ro H pk c i j Hc2). exact X.
Qed.
(** Whatever keys without a path of trusts from a root sign and bring in, no answer changes. *)
Lemma p_C149_strangers : forall C d es now pk q, reachable C d -> typed_history C es ->
  only_offers (fun x => ~ linked d now (rel_issued_by x)) now es -> small d -> small (graph_history C d es) -> call_typed C q -> about pk now q ->
  same_answer (fst (graph_step C d (q, None))) (fst (graph_step C (graph_history C d es) (q, None))).
Proof.
  intros C d es now pk q R Th Oo Sm Sm2 T Ab.
  assert (Qk : forall x y, same_keys x y -> linked d now (rel_issued_by x) -> linked d now (rel_issued_by y)) by (intros x y [_ E]; rewrite E; auto).
  destruct (history_keeps C (fun x => linked d now (rel_issued_by x)) now Qk es d R Th Oo) as [Ro X].
  apply (same_answers C d _ pk now R (history_reachable C d es R Th) Ro); [|exact Sm|exact Sm2|exact T|exact Ab].
  intros c. apply (counting_linked d _ now pk c Ro X).
Qed.
(** Such a key has no certificates and no weight. *)
Lemma p_C149_stranger_weight : forall C d pk now fu fu' cs w d1 d2, reachable C d -> call_typed C (G_weight pk now) -> small d -> ~ linked d now pk ->
  graph_step C d (G_get_all_certs pk now, fu) = (Ok (GR_certs cs), d1) -> graph_step C d (G_weight pk now, fu') = (Ok (GR_weight w), d2) -> cs = [] /\ w = 0.
Proof.
  intros C d pk now fu fu' cs w d1 d2 R T Sm Nl E1 E2. assert (Z : cs = []).
  { destruct cs as [|c cs]; [reflexivity|]. exfalso. apply Nl. destruct (proj1 (certs_are C d pk now fu _ d1 R T E1 c) (or_introl eq_refl)) as [Hc _].
    pose proof Hc as (_ & (t & Ht & <-) & _). exact (chain_linked d d now eq_refl (fun x _ _ => iff_refl _) _ c Hc _ t Ht). }
  split; [exact Z|]. destruct (p_C35_weight_is_best_chain C d pk now fu fu' cs w d1 d2 R T Sm E1 E2) as (_ & _ & Y). apply Y. split; [|exact Z].
  intros Hr. apply Nl. apply linked_root. exact Hr.
Qed.

(** The chain R, A, B, D of the README; nobody else is linked. *)
Lemma faq_live : forall b t, live (db_of (after faq)) (at_ 10) b t -> (b = toy_key R /\ t = toy_trust R R 1000 1) \/ (b = toy_key R /\ t = toy_trust R A 900 1) \/
  (b = toy_key A /\ t = toy_trust A B 800 1) \/ (b = toy_key B /\ t = toy_trust B D 700 1).
Proof.
  intros b t [H _]. pose proof (proj1 (stored_trust_in W _ b t (inv_wf W _ (after_inv _ faq_typed))) H) as X. rewrite faq_rels in X. clear H.
  destruct X as [X|[X|[X|[X|[]]]]]; injection X as E1 E2; subst b t; [left|right; left|right; right; left|right; right; right]; split; reflexivity.
Qed.
Lemma faq_roots : forall k, is_root (db_of (after faq)) k -> k = toy_key R.
Proof.
  assert (Ro : roots (after faq) = [(toy_key R, 12)]) by (vm_compute; reflexivity).
  intros k H. rewrite is_root_in, Ro in H. destruct H as [H|[]]. symmetry. exact H.
Qed.
Lemma faq_linked : forall k, linked (db_of (after faq)) (at_ 10) k -> In k [toy_key R; toy_key A; toy_key B; toy_key D].
Proof.
  intros k H. destruct H as [k H|b t _ H]; [left; symmetry; apply faq_roots; exact H|].
  apply faq_live in H. destruct H as [[_ ->]|[[_ ->]|[[_ ->]|[_ ->]]]]; [left|right; left|right; right; left|right; right; right; left]; reflexivity.
Qed.
(** Key 9 signs a trust for itself, one for B, and a revocation of A, and adds and revokes; B keeps the weight 4. *)
Definition by_nine : list graph_call := [G_add_trust (toy_trust 9 9 900 2) (toy_key 9) (at_ 6); G_add_trust (toy_trust 9 B 900 2) (toy_key 9) (at_ 7); G_revoke (toy_rev 9 A 8)].
Example e_C149_nine : ~ linked (db_of (after faq)) (at_ 10) (toy_key 9) /\ typed_history (toy false) (no_failures by_nine) /\
  only_offers (fun x => ~ linked (db_of (after faq)) (at_ 10) (rel_issued_by x)) (at_ 10) (no_failures by_nine) /\
  small (graph_history (toy false) (db_of (after faq)) (no_failures by_nine)) /\ stored_revocation (graph_history (toy false) (db_of (after faq)) (no_failures by_nine)) (toy_rev 9 A 8) /\
  fst (graph_step (toy false) (db_of (after faq)) (G_weight (toy_key B) (at_ 10), None)) = Ok (GR_weight 4).
Proof.
  assert (N9 : ~ linked (db_of (after faq)) (at_ 10) (toy_key 9)).
  { intros H. apply faq_linked in H. repeat (destruct H as [H|H]; [discriminate H|]). exact H. }
  assert (Tn : Forall (call_typed W) by_nine) by (unfold by_nine; typed1).
  assert (Tb : Forall (call_typed W) (faq ++ by_nine)) by (apply Forall_app; split; [exact faq_typed|exact Tn]).
  assert (E : graph_history (toy false) (db_of (after faq)) (no_failures by_nine) = db_of (after (faq ++ by_nine))).
  { unfold after at 2, run_calls. rewrite fold_left_app. exact (run_calls_history W by_nine (after faq) (after_inv _ faq_typed) Tn). }
  split; [exact N9|]. split; [|split; [|split; [|split]]].
  - unfold no_failures. apply Forall_map. exact Tn.
  - intros c fu H. unfold by_nine, no_failures in H. cbn [map] in H. destruct H as [H|[H|[H|[]]]]; injection H as <- <-; (split; [intros k n X; discriminate X|]; split).
    + intros t X. injection X as <-. split; vm_compute; [discriminate|reflexivity].
    + intros [a|v] X; [|discriminate X]. destruct X as [_ X]. cbn [rel_issued_by]. rewrite X. exact N9.
    + intros t X. injection X as <-. split; vm_compute; [discriminate|reflexivity].
    + intros [a|v] X; [|discriminate X]. destruct X as [_ X]. cbn [rel_issued_by]. rewrite X. exact N9.
    + intros t X. discriminate X.
    + intros [a|v] X; [destruct X|]. injection X as <-. exact N9.
  - rewrite E. vm_compute. reflexivity.
  - rewrite E. apply after_rev; [exact Tb|in_tac].
  - apply after_answer; [exact faq_typed|typed1|vm_compute; reflexivity].
Qed.

(** ** C150 *)
(** The last trust can be left out if the key has signed it itself. *)
Lemma at_firstn : forall A (c : list A) n i t, at_pos (firstn n c) i t <-> (i < n)%nat /\ at_pos c i t.
Proof.
  intros A c. induction c as [|x c IH]; intros n i t; unfold at_pos in *.
  - rewrite firstn_nil. split; [destruct i; discriminate|]. intros [_ H]. exact H.
  - destruct n as [|n]; [cbn; split; [destruct i; discriminate|lia]|]. destruct i as [|i]; cbn [firstn nth_error]; [split; [intros H; split; [lia|exact H]|tauto]|].
    rewrite IH. split; intros [H1 H2]; (split; [lia|exact H2]).
Qed.
Lemma key_firstn : forall (c : certificate) n i k, key_at (firstn n c) i k <-> (i < n)%nat /\ key_at c i k.
Proof.
  intros c n i k. split.
  - intros (t & Ht & E). apply at_firstn in Ht. destruct Ht as [Hi Ht]. split; [exact Hi|exists t; auto].
  - intros (Hi & t & Ht & E). exists t. split; [apply at_firstn; auto|exact E].
Qed.
Lemma chain_prefix : forall d now pk c n k, live_chain d now pk c -> (2 <= n)%nat -> (n <= length c)%nat -> key_at c (n - 1) k -> live_chain d now k (firstn n c).
Proof.
  intros d now pk c n k (H1 & H2 & H3 & H4 & H5) L2 Ln K. assert (Len : length (firstn n c) = n) by (rewrite firstn_length; lia).
  split; [lia|]. split; [rewrite Len; apply key_firstn; split; [lia|exact K]|]. split; [|split].
  - intros t Ht. apply at_firstn in Ht. apply H3. apply Ht.
  - intros i g t Hg Ht. apply at_firstn in Hg. apply at_firstn in Ht. exact (H4 i g t (proj2 Hg) (proj2 Ht)).
  - intros i j b Hij Ki Kj. apply key_firstn in Ki. apply key_firstn in Kj. exact (H5 i j b Hij (proj2 Ki) (proj2 Kj)).
Qed.
Lemma prefix_revokes : forall d c n i j, revokes_at d (firstn n c) i j -> (j < n)%nat /\ revokes_at d c i j.
Proof.
  intros d c n i j (Hij & v & Hv & Ki & Kj). apply key_firstn in Ki. apply key_firstn in Kj. split; [apply Kj|]. split; [exact Hij|]. exists v. split; [exact Hv|].
  split; [apply Ki|apply Kj].
Qed.
Lemma shorten : forall d now pk c, counting d now pk c ->
  exists c', counting d now pk c' /\ not_through pk c' /\ (length c' <= length c)%nat /\ (forall t, at_pos c 0 t -> at_pos c' 0 t).
Proof.
  intros d now pk c [Hc Hr]. pose proof Hc as (L & (u & Hu & Eu) & _ & _ & Nr).
  assert (Dec : not_through pk c \/ exists i, (S i < length c)%nat /\ key_at c i pk).
  { destruct (in_dec pk_eq_dec pk (map issued_for (firstn (length c - 1) c))) as [Hi|Hi].
    - right. apply in_map_iff in Hi. destruct Hi as (t & Et & Ht). apply In_nth_error in Ht. destruct Ht as (i & Ht). apply at_firstn in Ht. exists i.
      split; [lia|]. exists t. split; [apply Ht|exact Et].
    - left. intros i Hi2 (t & Ht & Et). apply Hi. apply in_map_iff. exists t. split; [exact Et|]. apply (nth_error_In _ i). apply at_firstn. split; [lia|exact Ht]. }
  destruct Dec as [Nt|(i & Hi & K)].
  - exists c. split; [split; assumption|]. split; [exact Nt|]. split; [lia|auto].
  - assert (Kl : key_at c (length c - 1) pk) by (exists u; auto).
    destruct (Nr i (length c - 1)%nat pk ltac:(lia) K Kl) as [E0 Pos].
    set (n := (length c - 1)%nat) in *. assert (Ei : i = (n - 1)%nat) by lia. subst i.
    exists (firstn n c). assert (Len : length (firstn n c) = n) by (rewrite firstn_length; lia).
    split; [split|]; [apply (chain_prefix d now pk c n pk Hc); [lia|lia|exact K]| |].
    + intros a j X. exfalso. apply prefix_revokes in X. destruct X as [Hj X]. pose proof (Hr a j X) as Dp. unfold direct_issuer_pos in Dp.
      destruct X as (Haj & v & Hv & Ka & Kj). assert (j = (n - 1)%nat) as -> by lia.
      assert (Same : rev_pk v = pk) by (destruct Kj as (y & Hy & <-); destruct K as (z & Hz & <-); unfold at_pos in *; congruence).
      assert (Y : direct_issuer_pos c n). { apply (Hr a n). split; [lia|]. exists v. split; [exact Hv|]. split; [exact Ka|]. rewrite Same. exact Kl. }
      unfold direct_issuer_pos in Y. lia.
    + split; [|split; [lia|intros t Ht; apply at_firstn; split; [lia|exact Ht]]].
      intros i Hi2 Ki. rewrite Len in Hi2. apply key_firstn in Ki. destruct (Nr i n pk ltac:(lia) (proj2 Ki) Kl) as [Z _]. lia.
Qed.
Lemma counting_own : forall d d2 now pk c, tbl_roots d2 = tbl_roots d -> (forall x, rel_issued_by x <> pk -> ~ db_expired now x -> (stored d2 x <-> stored d x)) ->
  not_through pk c -> counting d now pk c -> counting d2 now pk c.
Proof.
  intros d d2 now pk c Ro H Nt [(H1 & H2 & H3 & H4 & H5) Hr].
  assert (Lv : forall b t, b <> pk -> live d now b t -> live d2 now b t).
  { intros b t Nb [X Y]. split; [|exact Y]. apply (H (RAuth (mk_auth t b))); assumption. }
  split.
  - split; [exact H1|]. split; [exact H2|]. split; [|split; [|exact H5]].
    + intros t Ht. destruct (H3 t Ht) as [X Y]. split; [apply (root_same d d2 Ro); exact X|]. apply Lv; [|exact Y]. intros E. apply (Nt 0%nat); [lia|]. exists t. auto.
    + intros i g t Hg Ht. apply Lv; [|exact (H4 i g t Hg Ht)]. intros E. apply (Nt i); [exact (at_len _ _ _ _ Ht)|]. exists g. auto.
  - intros i j (Hij & v & Hv & Ki & Kj). apply (Hr i j). split; [exact Hij|]. exists v. split; [|split; assumption]. apply (H (RRev v)); [|intros []|exact Hv].
    intros E. cbn [rel_issued_by] in E. apply (Nt i); [pose proof (key_len _ _ _ Kj); lia|]. rewrite <- E. exact Ki.
Qed.
Lemma own_le : forall C d d2 now pk fu fu' w w' d1 d3, reachable C d -> reachable C d2 -> call_typed C (G_weight pk now) -> small d -> small d2 -> tbl_roots d2 = tbl_roots d ->
  (forall x, rel_issued_by x <> pk -> ~ db_expired now x -> (stored d2 x <-> stored d x)) ->
  graph_step C d (G_weight pk now, fu) = (Ok (GR_weight w), d1) -> graph_step C d2 (G_weight pk now, fu') = (Ok (GR_weight w'), d3) -> w <= w'.
Proof.
  intros C d d2 now pk fu fu' w w' d1 d3 R R2 T Sm Sm2 Ro H E1 E2.
  apply (greatest_le _ _ _ _) with (2 := weight_is C d pk now fu w d1 R T Sm E1) (3 := weight_is C d2 pk now fu' w' d3 R2 T Sm2 E2).
  intros v [(m & Hm & Hv)|(c & Hc & (t & m & Ht & Hm & ->))].
  - exists v. split; [left; exists m; split; [apply (len_same d d2 Ro); exact Hm|exact Hv]|lia].
  - destruct (shorten d now pk c Hc) as (c' & Hc' & Nt & L & H0). exists (chain_weight m (length c' - 1)). split; [|apply chain_weight_mono; lia].
    right. exists c'. split; [exact (counting_own d d2 now pk c' Ro H Nt Hc')|]. exists t, m. split; [exact (H0 t Ht)|]. split; [apply (len_same d d2 Ro); exact Hm|reflexivity].
Qed.
(** Nothing a key signs changes its own weight. *)
Lemma p_C150_own_weight : forall C d es now pk fu fu' w w' d1 d2, reachable C d -> typed_history C es -> only_offers (fun x => rel_issued_by x = pk) now es ->
  small d -> small (graph_history C d es) -> call_typed C (G_weight pk now) ->
  graph_step C d (G_weight pk now, fu) = (Ok (GR_weight w), d1) -> graph_step C (graph_history C d es) (G_weight pk now, fu') = (Ok (GR_weight w'), d2) -> w' = w.
Proof.
  intros C d es now pk fu fu' w w' d1 d2 R Th Oo Sm Sm2 T E1 E2. pose proof (history_reachable C d es R Th) as R2.
  assert (Qk : forall x y, same_keys x y -> rel_issued_by x <> pk -> rel_issued_by y <> pk) by (intros x y [_ E]; rewrite E; auto).
  assert (Oo' : only_offers (fun x => ~ (rel_issued_by x <> pk)) now es).
  { intros c f H. destruct (Oo c f H) as (O1 & O2 & O3). split; [exact O1|]. split; [exact O2|]. intros x Hx N. exact (N (O3 x Hx)). }
  destruct (history_keeps C _ now Qk es d R Th Oo') as [Ro X].
  pose proof (own_le C d _ now pk fu fu' w w' d1 d2 R R2 T Sm Sm2 Ro X E1 E2) as A.
  pose proof (own_le C _ d now pk fu' fu w' w d2 d1 R2 R T Sm2 Sm (eq_sym Ro) (fun x N1 N2 => iff_sym (X x N1 N2)) E2 E1) as B. lia.
Qed.
(** Nor its certificates, but for those it has itself signed a trust of. *)
Lemma p_C150_own_certificates : forall C d es now pk fu fu' cs cs' d1 d2 c, reachable C d -> typed_history C es -> only_offers (fun x => rel_issued_by x = pk) now es ->
  call_typed C (G_get_all_certs pk now) -> graph_step C d (G_get_all_certs pk now, fu) = (Ok (GR_certs cs), d1) ->
  graph_step C (graph_history C d es) (G_get_all_certs pk now, fu') = (Ok (GR_certs cs'), d2) -> not_through pk c -> (In c cs' <-> In c cs).
Proof.
  intros C d es now pk fu fu' cs cs' d1 d2 c R Th Oo T E1 E2 Nt. pose proof (history_reachable C d es R Th) as R2.
  assert (Qk : forall x y, same_keys x y -> rel_issued_by x <> pk -> rel_issued_by y <> pk) by (intros x y [_ E]; rewrite E; auto).
  assert (Oo' : only_offers (fun x => ~ (rel_issued_by x <> pk)) now es).
  { intros q f H. destruct (Oo q f H) as (O1 & O2 & O3). split; [exact O1|]. split; [exact O2|]. intros x Hx N. exact (N (O3 x Hx)). }
  destruct (history_keeps C _ now Qk es d R Th Oo') as [Ro X].
  rewrite (certs_are C d pk now fu cs d1 R T E1), (certs_are C _ pk now fu' cs' d2 R2 T E2). split.
  - exact (counting_own _ d now pk c (eq_sym Ro) (fun x N1 N2 => iff_sym (X x N1 N2)) Nt).
  - exact (counting_own d _ now pk c Ro X Nt).
Qed.

(** B trusts itself and revokes A above it; it keeps the weight 4 and gets a longer certificate. *)
Definition by_b : list graph_call := [G_add_trust (toy_trust B B 900 2) (toy_key B) (at_ 6); G_revoke (toy_rev B A 8)].
Example e_C150_b : typed_history (toy false) (no_failures by_b) /\ only_offers (fun x => rel_issued_by x = toy_key B) (at_ 10) (no_failures by_b) /\
  graph_history (toy false) (db_of (after faq)) (no_failures by_b) = db_of (after (faq ++ by_b)) /\ small (db_of (after (faq ++ by_b))) /\
  fst (graph_step (toy false) (db_of (after faq)) (G_weight (toy_key B) (at_ 10), None)) = Ok (GR_weight 4) /\
  fst (graph_step (toy false) (db_of (after (faq ++ by_b))) (G_weight (toy_key B) (at_ 10), None)) = Ok (GR_weight 4) /\
  fst (graph_step (toy false) (db_of (after faq)) (G_get_all_certs (toy_key B) (at_ 10), None)) = Ok (GR_certs [way2]) /\
  fst (graph_step (toy false) (db_of (after (faq ++ by_b))) (G_get_all_certs (toy_key B) (at_ 10), None)) = Ok (GR_certs [way2; way2 ++ [toy_trust B B 900 2]]).
Proof.
  assert (Tn : Forall (call_typed W) by_b) by (unfold by_b; typed1).
  assert (Tb : Forall (call_typed W) (faq ++ by_b)) by (apply Forall_app; split; [exact faq_typed|exact Tn]).
  split; [unfold no_failures; apply Forall_map; exact Tn|]. split; [|split; [|split]].
  - intros c fu H. unfold by_b, no_failures in H. cbn [map] in H. destruct H as [H|[H|[]]]; injection H as <- <-; (split; [intros k n X; discriminate X|]; split).
    + intros t X. injection X as <-. split; vm_compute; [discriminate|reflexivity].
    + intros [a|v] X; [|discriminate X]. destruct X as [_ X]. exact X.
    + intros t X. discriminate X.
    + intros [a|v] X; [destruct X|]. injection X as <-. reflexivity.
  - unfold after at 2, run_calls. rewrite fold_left_app. exact (run_calls_history W by_b (after faq) (after_inv _ faq_typed) Tn).
  - vm_compute. reflexivity.
  - split; [|split; [|split]]; (apply after_answer; [first [exact faq_typed|exact Tb]|typed1|vm_compute; reflexivity]).
Qed.

(** ** C151 *)
Lemma counting_leads1 : forall d d2 now pk c, tbl_roots d2 = tbl_roots d ->
  (forall x, leads d now pk (rel_issued_for x) -> ~ db_expired now x -> (stored d2 x <-> stored d x)) -> forall D, D = d \/ D = d2 ->
  live_chain D now pk c -> forall i t, at_pos c i t -> leads d now pk (issued_for t).
Proof.
  intros d d2 now pk c Ro H D HD (H1 & (u & Hu & Eu) & _ & H4 & _).
  assert (Lv : forall b t, leads d now pk (issued_for t) -> live D now b t -> live d now b t).
  { intros b t Lt [X Y]. split; [|exact Y]. destruct HD as [->| ->]; [exact X|]. apply (H (RAuth (mk_auth t b))); assumption. }
  assert (G : forall n i t, (i + n = length c - 1)%nat -> at_pos c i t -> leads d now pk (issued_for t)).
  { induction n as [|n IH]; intros i t Hi Ht.
    - assert (i = (length c - 1)%nat) as -> by lia. unfold at_pos in *. replace t with u by congruence. rewrite Eu. apply leads_here.
    - destruct (nth_error_Some_ex _ c (S i)) as (x & Hx); [lia|]. apply (leads_over d now pk (issued_for t) x).
      + apply Lv; [apply (IH (S i)); [lia|exact Hx]|]. exact (H4 i t x Ht Hx).
      + apply (IH (S i)); [lia|exact Hx]. }
  intros i t Ht. apply (G (length c - 1 - i)%nat i t); [|exact Ht]. pose proof (at_len _ _ _ _ Ht). lia.
Qed.
Lemma counting_leads : forall d d2 now pk c, tbl_roots d2 = tbl_roots d ->
  (forall x, leads d now pk (rel_issued_for x) -> ~ db_expired now x -> (stored d2 x <-> stored d x)) -> (counting d2 now pk c <-> counting d now pk c).
Proof.
  intros d d2 now pk c Ro H.
  assert (Rr : forall k, is_root d2 k <-> is_root d k) by exact (root_same d d2 Ro).
  assert (St : forall b t, leads d now pk (issued_for t) -> (live d2 now b t <-> live d now b t)).
  { intros b t Lt. unfold live. pose proof (H (RAuth (mk_auth t b)) Lt) as X. change (stored d2 (RAuth (mk_auth t b))) with (stored_trust d2 b t) in X.
    change (stored d (RAuth (mk_auth t b))) with (stored_trust d b t) in X. tauto. }
  assert (Sv : forall v, leads d now pk (rev_pk v) -> (stored_revocation d2 v <-> stored_revocation d v)) by (intros v Lv; apply (H (RRev v)); [exact Lv|intros []]).
  split; intros [Hc Hr].
  - pose proof (counting_leads1 d d2 now pk c Ro H d2 (or_intror eq_refl) Hc) as L. destruct Hc as (H1 & H2 & H3 & H4 & H5). split.
    + split; [exact H1|]. split; [exact H2|]. split; [|split; [|exact H5]].
      * intros t Ht. destruct (H3 t Ht) as [X Y]. split; [apply Rr; exact X|]. apply St; [exact (L 0%nat t Ht)|exact Y].
      * intros i g t Hg Ht. apply St; [exact (L (S i) t Ht)|]. exact (H4 i g t Hg Ht).
    + intros i j (Hij & v & Hv & Ki & (t & Ht & Et)). apply (Hr i j). split; [exact Hij|]. exists v. split; [|split; [exact Ki|exists t; auto]].
      apply Sv; [|exact Hv]. rewrite <- Et. exact (L j t Ht).
  - pose proof (counting_leads1 d d2 now pk c Ro H d (or_introl eq_refl) Hc) as L. destruct Hc as (H1 & H2 & H3 & H4 & H5). split.
    + split; [exact H1|]. split; [exact H2|]. split; [|split; [|exact H5]].
      * intros t Ht. destruct (H3 t Ht) as [X Y]. split; [apply Rr; exact X|]. apply St; [exact (L 0%nat t Ht)|exact Y].
      * intros i g t Hg Ht. apply St; [exact (L (S i) t Ht)|]. exact (H4 i g t Hg Ht).
    + intros i j (Hij & v & Hv & Ki & (t & Ht & Et)). apply (Hr i j). split; [exact Hij|]. exists v. split; [|split; [exact Ki|exists t; auto]].
      apply Sv; [|exact Hv]. rewrite <- Et. exact (L j t Ht).
Qed.
(** What is said about keys from which no path of trusts leads to [pk] changes no answer about [pk]. *)
Lemma p_C151_elsewhere : forall C d es now pk q, reachable C d -> typed_history C es ->
  only_offers (fun x => ~ leads d now pk (rel_issued_for x)) now es -> small d -> small (graph_history C d es) -> call_typed C q -> about pk now q ->
  same_answer (fst (graph_step C d (q, None))) (fst (graph_step C (graph_history C d es) (q, None))).
Proof.
  intros C d es now pk q R Th Oo Sm Sm2 T Ab.
  assert (Qk : forall x y, same_keys x y -> leads d now pk (rel_issued_for x) -> leads d now pk (rel_issued_for y)) by (intros x y [E _]; rewrite E; auto).
  destruct (history_keeps C (fun x => leads d now pk (rel_issued_for x)) now Qk es d R Th Oo) as [Ro X].
  apply (same_answers C d _ pk now R (history_reachable C d es R Th) Ro); [|exact Sm|exact Sm2|exact T|exact Ab].
  intros c. apply (counting_leads d _ now pk c Ro X).
Qed.

(** No path leads from D to A, so that B revokes D and R trusts D changes nothing for A. *)
Definition about_d : list graph_call := [G_revoke (toy_rev B D 8); G_add_trust (toy_trust R D 900 2) (toy_key R) (at_ 9)].
Lemma faq_leads : forall k, leads (db_of (after faq)) (at_ 10) (toy_key A) k -> In k [toy_key R; toy_key A].
Proof.
  intros k H. induction H as [|b t L H IH]; [right; left; reflexivity|]. apply faq_live in L.
  destruct L as [[-> ->]|[[-> ->]|[[-> ->]|[-> ->]]]]; [left; reflexivity|left; reflexivity|right; left; reflexivity|].
  exfalso. destruct IH as [X|[X|[]]]; discriminate X.
Qed.
Example e_C151_d : ~ leads (db_of (after faq)) (at_ 10) (toy_key A) (toy_key D) /\ typed_history (toy false) (no_failures about_d) /\
  only_offers (fun x => ~ leads (db_of (after faq)) (at_ 10) (toy_key A) (rel_issued_for x)) (at_ 10) (no_failures about_d) /\
  small (graph_history (toy false) (db_of (after faq)) (no_failures about_d)) /\
  fst (graph_step (toy false) (db_of (after faq)) (G_weight (toy_key A) (at_ 10), None)) = Ok (GR_weight 8).
Proof.
  assert (Nd : ~ leads (db_of (after faq)) (at_ 10) (toy_key A) (toy_key D)).
  { intros H. apply faq_leads in H. repeat (destruct H as [H|H]; [discriminate H|]). exact H. }
  assert (Tn : Forall (call_typed W) about_d) by (unfold about_d; typed1).
  assert (E : graph_history (toy false) (db_of (after faq)) (no_failures about_d) = db_of (after (faq ++ about_d))).
  { unfold after at 2, run_calls. rewrite fold_left_app. exact (run_calls_history W about_d (after faq) (after_inv _ faq_typed) Tn). }
  split; [exact Nd|]. split; [unfold no_failures; apply Forall_map; exact Tn|]. split; [|split].
  - intros c fu H. unfold about_d, no_failures in H. cbn [map] in H. destruct H as [H|[H|[]]]; injection H as <- <-; (split; [intros k n X; discriminate X|]; split).
    + intros t X. discriminate X.
    + intros [a|v] X; [destruct X|]. injection X as <-. exact Nd.
    + intros t X. injection X as <-. split; vm_compute; [discriminate|reflexivity].
    + intros [a|v] X; [|discriminate X]. destruct X as [X _]. cbn [rel_issued_for]. rewrite X. exact Nd.
  - rewrite E. vm_compute. reflexivity.
  - apply after_answer; [exact faq_typed|typed1|vm_compute; reflexivity].
Qed.

(** ** C152 *)
Lemma before_dec : forall a b, before a b \/ ~ before a b.
Proof.
  intros a b. unfold before. destruct (N.ltb_spec (secs a) (secs b)) as [H|H]; [left; left; exact H|].
  destruct (N.eqb_spec (secs a) (secs b)) as [E|E]; [|right; lia]. destruct (N.ltb_spec (nanos a) (nanos b)) as [G|G]; [left; right; auto|right; lia].
Qed.
Lemma revoke_shrinks : forall C d v d2 now pk c, reachable C d -> imported d (RRev v) d2 -> counting d2 now pk c -> counting d now pk c.
Proof.
  intros C d v d2 now pk c R [Ro Im] [(H1 & H2 & H3 & H4 & H5) Hr].
  assert (Lv : forall b t, live d2 now b t -> live d now b t).
  { intros b t [X Y]. split; [|exact Y]. apply (Im (RAuth (mk_auth t b))) in X. destruct X as [[_ X]|[[_ [X _]]|[X _]]]; [exact X|exact X|discriminate X]. }
  split.
  - split; [exact H1|]. split; [exact H2|]. split; [|split; [|exact H5]].
    + intros t Ht. destruct (H3 t Ht) as [X Y]. split; [apply (root_same d d2 Ro); exact X|apply Lv; exact Y].
    + intros i g t Hg Ht. apply Lv. exact (H4 i g t Hg Ht).
  - intros i j (Hij & u & Hu & Ki & Kj). apply (Hr i j). split; [exact Hij|].
    destruct (pk_eq_dec (rev_pk v) (rev_pk u)) as [E1|N1]; [destruct (pk_eq_dec (revoked_by v) (revoked_by u)) as [E2|N2]|].
    + destruct (before_dec (revoked_at u) (revoked_at v)) as [B|B].
      * exists (mk_rev (rev_pk v) (from_secs (secs (revoked_at v))) (revoked_by v) (rev_sig v)). split; [|cbn [revoked_by rev_pk]; rewrite E1, E2; split; assumption].
        apply (Im (RRev (mk_rev (rev_pk v) (from_secs (secs (revoked_at v))) (revoked_by v) (rev_sig v)))). right. right. split; [reflexivity|]. intros z Hz Sz.
        rewrite (p_C30_one_relation_per_pair C d z (RRev u) R Hz Hu); [exact B|]. destruct Sz as [S1 S2]. cbn [rel_issued_for rel_issued_by] in S1, S2. split; cbn [rel_issued_for rel_issued_by]; congruence.
      * exists u. split; [|split; assumption]. apply (Im (RRev u)). right. left. split; [split; assumption|]. split; [exact Hu|exact B].
    + exists u. split; [|split; assumption]. apply (Im (RRev u)). left. split; [intros [_ S2]; exact (N2 S2)|exact Hu].
    + exists u. split; [|split; assumption]. apply (Im (RRev u)). left. split; [intros [S1 _]; exact (N1 S1)|exact Hu].
Qed.
(** A revocation only takes certificates away and raises no weight, of any key at any time. *)
Lemma p_C152_revoke_lowers : forall C d v fu d2 now pk f1 f2 f3 f4 cs cs' w w' e1 e2 e3 e4, reachable C d -> revocation_typed C v -> small d -> small d2 -> call_typed C (G_weight pk now) ->
  graph_step C d (G_revoke v, fu) = (Ok GR_unit, d2) ->
  graph_step C d (G_get_all_certs pk now, f1) = (Ok (GR_certs cs), e1) -> graph_step C d2 (G_get_all_certs pk now, f2) = (Ok (GR_certs cs'), e2) ->
  graph_step C d (G_weight pk now, f3) = (Ok (GR_weight w), e3) -> graph_step C d2 (G_weight pk now, f4) = (Ok (GR_weight w'), e4) ->
  incl cs' cs /\ w' <= w.
Proof.
  intros C d v fu d2 now pk f1 f2 f3 f4 cs cs' w w' e1 e2 e3 e4 R Tv Sm Sm2 T Er E1 E2 E3 E4.
  assert (R2 : reachable C d2) by (pose proof (reachable_step C d (G_revoke v) fu R Tv) as X; rewrite Er in X; exact X).
  assert (Im : imported d (RRev v) d2).
  { destruct (p_C30_revoke_imports C d v R Tv) as [Hs Hn]. destruct (p_C48_failures_are_safe C d (G_revoke v) R Tv) as (es & _ & _ & X).
    destruct (X fu _ _ Er) as [Y|[Y _]]; [|discriminate Y].
    destruct (pk_verify C (revoked_by v) (revocation_message C v) (rev_sig v)) as [[]|e| |] eqn:V.
    - destruct (Hs V) as (d' & Es & Im). rewrite Es in Y. injection Y as ->. exact Im.
    - destruct (Hn ltac:(unfold signed_revocation; rewrite V; discriminate)) as (e' & Es). rewrite Es in Y. discriminate Y.
    - destruct (Hn ltac:(unfold signed_revocation; rewrite V; discriminate)) as (e' & Es). rewrite Es in Y. discriminate Y.
    - destruct (Hn ltac:(unfold signed_revocation; rewrite V; discriminate)) as (e' & Es). rewrite Es in Y. discriminate Y. }
  pose proof (revoke_shrinks C d v d2 now pk) as Sh. destruct Im as [Ro Im0]. pose proof (conj Ro Im0 : imported d (RRev v) d2) as Im. split.
  - intros c Hc. apply (certs_are C d pk now f1 cs e1 R T E1). apply (Sh c R Im). apply (certs_are C d2 pk now f2 cs' e2 R2 T E2). exact Hc.
  - apply (greatest_le _ _ _ _) with (2 := weight_is C d2 pk now f4 w' e4 R2 T Sm2 E4) (3 := weight_is C d pk now f3 w e3 R T Sm E3).
    intros x [(m & Hm & Hx)|(c & Hc & Hx)]; (exists x; split; [|lia]).
    + left. exists m. split; [apply (len_same d d2 Ro); exact Hm|exact Hx].
    + right. exists c. split; [exact (Sh c R Im Hc)|apply (weight_same d d2 Ro); exact Hx].
Qed.

(** If every live trust has one of the same keys in the other store, and nothing else is revoked there, every chain has one of the same keys there. *)
Section Raise.
Variables (d d2 : db) (now : duration).
Hypotheses (Ro : tbl_roots d2 = tbl_roots d).
Hypothesis Up : forall b t, live d now b t -> exists t2, live d2 now b t2 /\ issued_for t2 = issued_for t.
Hypothesis Down : forall v, stored_revocation d2 v -> exists u, stored_revocation d u /\ rev_pk u = rev_pk v /\ revoked_by u = revoked_by v.
Lemma raise_from : forall c b, (forall t, at_pos c 0 t -> live d now b t) -> (forall i g t, at_pos c i g -> at_pos c (S i) t -> live d now (issued_for g) t) ->
  exists c2, map issued_for c2 = map issued_for c /\ (forall t, at_pos c2 0 t -> live d2 now b t) /\ (forall i g t, at_pos c2 i g -> at_pos c2 (S i) t -> live d2 now (issued_for g) t).
Proof.
  induction c as [|x c IH]; intros b H0 Hs; [exists []; split; [reflexivity|split; [intros t X; discriminate X|intros i g t X; destruct i; discriminate X]]|].
  destruct (Up b x (H0 x eq_refl)) as (x2 & L2 & E2). destruct (IH (issued_for x)) as (c2 & Ek & G0 & Gs).
  { intros t Ht. exact (Hs 0%nat x t eq_refl Ht). }
  { intros i g t Hg Ht. exact (Hs (S i) g t Hg Ht). }
  exists (x2 :: c2). split; [cbn [map]; congruence|]. split; [intros t Ht; injection Ht as <-; exact L2|].
  intros i g t Hg Ht. destruct i as [|i]; [injection Hg as <-; rewrite E2; exact (G0 t Ht)|exact (Gs i g t Hg Ht)].
Qed.
Lemma same_key_at : forall (c c2 : certificate) i k, map issued_for c2 = map issued_for c -> key_at c i k -> key_at c2 i k.
Proof.
  intros c c2 i k E (t & Ht & Et). pose proof (map_nth_error issued_for i c Ht) as X. rewrite <- E in X. unfold key_at, at_pos.
  destruct (nth_error c2 i) as [u|] eqn:Eu; [|apply nth_error_None in Eu; assert (nth_error (map issued_for c2) i = None) by (apply nth_error_None; rewrite map_length; exact Eu); congruence].
  rewrite (map_nth_error issued_for i c2 Eu) in X. exists u. split; [reflexivity|]. congruence.
Qed.
Lemma raise_chain : forall pk c, counting d now pk c -> exists c2, counting d2 now pk c2 /\ map issued_for c2 = map issued_for c.
Proof.
  intros pk c [(H1 & H2 & H3 & H4 & H5) Hr]. destruct c as [|x c]; [cbn in H1; lia|].
  destruct (raise_from (x :: c) (issued_for x)) as (c2 & Ek & G0 & Gs); [intros t Ht; injection Ht as <-; apply (H3 x eq_refl)|exact H4|].
  assert (Len : length c2 = length (x :: c)) by (rewrite <- (map_length issued_for c2), Ek, map_length; reflexivity).
  assert (K21 : forall i k, key_at c2 i k -> key_at (x :: c) i k) by (intros i k; apply same_key_at; symmetry; exact Ek).
  assert (K12 : forall i k, key_at (x :: c) i k -> key_at c2 i k) by (intros i k; apply same_key_at; exact Ek).
  exists c2. split; [|exact Ek]. split.
  - split; [rewrite Len; exact H1|]. split; [rewrite Len; apply K12; exact H2|]. split; [|split; [exact Gs|]].
    + intros t Ht. assert (K : key_at (x :: c) 0 (issued_for t)) by (apply K21; exists t; auto). destruct K as (y & Hy & Ey). injection Hy as <-.
      rewrite <- Ey. split; [apply (root_same d d2 Ro); apply (H3 x eq_refl)|]. exact (G0 t Ht).
    + intros i j k Hij Ki Kj. apply (H5 i j k Hij); apply K21; assumption.
  - intros i j (Hij & v & Hv & Ki & Kj). unfold direct_issuer_pos. rewrite Len. apply (Hr i j). split; [exact Hij|]. destruct (Down v Hv) as (u & Hu & E1 & E2).
    exists u. split; [exact Hu|]. rewrite E1, E2. split; apply K21; assumption.
Qed.
Lemma raise_weight : forall c c2 v, map issued_for c2 = map issued_for c -> cert_weight d c v -> cert_weight d2 c2 v.
Proof.
  intros c c2 v E (t & m & Ht & Hm & ->). assert (K : key_at c2 0 (issued_for t)) by (apply (same_key_at c c2 0 _ E); exists t; auto). destruct K as (u & Hu & Eu).
  exists u, m. split; [exact Hu|]. split; [rewrite Eu; apply (len_same d d2 Ro); exact Hm|]. rewrite <- (map_length issued_for c2), E, map_length. reflexivity.
Qed.
Lemma raised : forall C pk fu fu' w w' e1 e2, reachable C d -> reachable C d2 -> small d -> small d2 -> call_typed C (G_weight pk now) ->
  graph_step C d (G_weight pk now, fu) = (Ok (GR_weight w), e1) -> graph_step C d2 (G_weight pk now, fu') = (Ok (GR_weight w'), e2) -> w <= w'.
Proof.
  intros C pk fu fu' w w' e1 e2 R R2 Sm Sm2 T E1 E2.
  apply (greatest_le _ _ _ _) with (2 := weight_is C d pk now fu w e1 R T Sm E1) (3 := weight_is C d2 pk now fu' w' e2 R2 T Sm2 E2).
  intros x [(m & Hm & Hx)|(c & Hc & Hx)]; (exists x; split; [|lia]).
  - left. exists m. split; [apply (len_same d d2 Ro); exact Hm|exact Hx].
  - right. destruct (raise_chain pk c Hc) as (c2 & Hc2 & Ek). exists c2. split; [exact Hc2|exact (raise_weight c c2 x Ek Hx)].
Qed.
End Raise.
(** A trust that expires later than now, and before 2^63 seconds, lowers the weight of no key. *)
Lemma p_C152_trust_raises : forall C d t b now v d2 pk fu fu' w w' e1 e2, reachable C d -> call_typed C (G_add_trust t b now) -> small d -> small d2 -> call_typed C (G_weight pk now) ->
  secs now < secs (expires_at t) < i64_bound -> graph_step C d (G_add_trust t b now, None) = (Ok (GR_weight v), d2) ->
  graph_step C d (G_weight pk now, fu) = (Ok (GR_weight w), e1) -> graph_step C d2 (G_weight pk now, fu') = (Ok (GR_weight w'), e2) -> w <= w'.
Proof.
  intros C d t b now v d2 pk fu fu' w w' e1 e2 R Tt Sm Sm2 T Ex Ea E1 E2.
  assert (R2 : reachable C d2) by (pose proof (reachable_step C d (G_add_trust t b now) None R Tt) as X; rewrite Ea in X; exact X).
  pose proof Tt as (_ & Tb & Tn). assert (Twb : call_typed C (G_weight b now)) by (split; assumption).
  destruct (p_C38_add_trust_exact C d t b now R Tt) as [Hn Hs].
  destruct (trust_verify_total C t b now) as [V|(e & V)]; [|rewrite (Hn e V) in Ea; discriminate Ea].
  destruct (Hs V) as (wb & d1 & w2 & d' & Eb & Ea' & _ & Z & Nz). rewrite Ea in Ea'. injection Ea' as <- <-.
  destruct (certs_answer C d b now R Twb) as (cs & dc & Ec).
  destruct (p_C35_weight_is_best_chain C d b now None None cs wb dc d1 R Twb Sm Ec Eb) as (-> & _).
  destruct (p_C24_certificates_exact C d b now None cs d1 R Twb Ec) as [[Ro1 Col] _].
  destruct (N.eq_dec v 0) as [E0|N0].
  - specialize (Z E0). subst d2. apply (raised d d1 now Ro1) with (C := C) (pk := pk) (fu := fu) (fu' := fu') (e1 := e1) (e2 := e2); try assumption.
    + intros a x [X Y]. exists x. split; [|reflexivity]. split; [apply (Col (RAuth (mk_auth x a))); split; assumption|exact Y].
    + intros u Hu. apply (Col (RRev u)) in Hu. exists u. split; [apply Hu|split; reflexivity].
  - destruct (Nz N0) as [Ro2 Im]. assert (R1 : reachable C d1) by (pose proof (reachable_step C d (G_weight b now) None R Twb) as X; rewrite Eb in X; exact X).
    apply (raised d d2 now (eq_trans Ro2 Ro1)) with (C := C) (pk := pk) (fu := fu) (fu' := fu') (e1 := e1) (e2 := e2); try assumption.
    + intros a x [X Y]. assert (X1 : stored d1 (RAuth (mk_auth x a))) by (apply Col; split; assumption).
      destruct (pk_eq_dec (issued_for t) (issued_for x)) as [K1|K1]; [destruct (pk_eq_dec b a) as [K2|K2]|].
      * assert (Sk : same_keys (RAuth (mk_auth t b)) (RAuth (mk_auth x a))) by (split; assumption).
        destruct (before_dec (issued_at x) (issued_at t)) as [B|B].
        -- exists (whole_trust t). split; [|exact K1]. subst a. split.
           ++ apply (Im (RAuth (mk_auth (whole_trust t) b))). right. right. split; [reflexivity|]. intros z Hz Sz.
              rewrite (p_C30_one_relation_per_pair C d1 z (RAuth (mk_auth x b)) R1 Hz X1); [exact B|]. destruct Sz as [S1 S2], Sk as [S3 S4]. split; congruence.
           ++ cbn [db_expired auth_trust whole_trust expires_at]. unfold i64_bound in Ex.
              assert (S1 : forall n, n < 9223372036854775808 -> i64_of_u64 n = Z.of_N n).
              { intros n Hn'. unfold i64_of_u64. destruct (N.ltb_spec n i64_bound) as [|Y']; [reflexivity|unfold i64_bound in Y'; lia]. }
              change (secs (from_secs (secs (expires_at t)))) with (secs (expires_at t)). rewrite !S1 by lia. lia.
        -- exists x. split; [|reflexivity]. split; [|exact Y]. apply (Im (RAuth (mk_auth x a))). right. left. split; [exact Sk|]. split; [exact X1|exact B].
      * exists x. split; [|reflexivity]. split; [|exact Y]. apply (Im (RAuth (mk_auth x a))). left. split; [intros [_ S2]; exact (K2 S2)|exact X1].
      * exists x. split; [|reflexivity]. split; [|exact Y]. apply (Im (RAuth (mk_auth x a))). left. split; [intros [S1 _]; exact (K1 S1)|exact X1].
    + intros u Hu. apply (Im (RRev u)) in Hu. exists u. split; [|split; reflexivity].
      destruct Hu as [[_ Hu]|[[_ [Hu _]]|[Hu _]]]; [apply (Col (RRev u)) in Hu; apply Hu|apply (Col (RRev u)) in Hu; apply Hu|discriminate Hu].
Qed.

(** An expiry too far away does lower it: R renews its trust for A until 2^63 seconds, and A, which had weight 8, has none. *)
Lemma p_C152_far_expiry_lowers : exists C d t b now v d2 pk w e1 e2, crypto_laws C /\ reachable C d /\ call_typed C (G_add_trust t b now) /\ call_typed C (G_weight pk now) /\ small d /\
  secs now < secs (expires_at t) /\ graph_step C d (G_add_trust t b now, None) = (Ok (GR_weight v), d2) /\
  graph_step C d (G_weight pk now, None) = (Ok (GR_weight w), e1) /\ graph_step C d2 (G_weight pk now, None) = (Ok (GR_weight 0), e2) /\ w <> 0.
Proof.
  exists W, (db_of (after faq)), (toy_trust R A 9223372036854775808 5), (toy_key R), (at_ 10), 8, (db_of (after (faq ++ [G_add_trust (toy_trust R A 9223372036854775808 5) (toy_key R) (at_ 10)]))).
  exists (toy_key A), 8, (db_of (after (faq ++ [G_weight (toy_key A) (at_ 10)]))).
  exists (db_of (after ((faq ++ [G_add_trust (toy_trust R A 9223372036854775808 5) (toy_key R) (at_ 10)]) ++ [G_weight (toy_key A) (at_ 10)]))).
  split; [apply toy_laws|]. split; [apply after_reachable; exact faq_typed|]. split; [typed1|]. split; [typed1|]. split; [vm_compute; reflexivity|]. split; [vm_compute; reflexivity|].
  split; [apply after_step; [exact faq_typed|typed1|vm_compute; reflexivity]|]. split; [apply after_step; [exact faq_typed|typed1|vm_compute; reflexivity]|].
  split; [|discriminate]. apply after_step; [apply Forall_app; split; [exact faq_typed|typed1]|typed1|vm_compute; reflexivity].
Qed.
(** A trust by R takes B from 4 to 8, a revocation by A takes D from 2 to 0. *)
Example e_C152_both : call_typed (toy false) (G_add_trust (toy_trust R B 900 1) (toy_key R) (at_ 10)) /\
  fst (graph_step (toy false) (db_of (after faq)) (G_add_trust (toy_trust R B 900 1) (toy_key R) (at_ 10), None)) = Ok (GR_weight 8) /\
  fst (graph_step (toy false) (db_of (after faq)) (G_weight (toy_key B) (at_ 10), None)) = Ok (GR_weight 4) /\
  fst (graph_step (toy false) (db_of (after (faq ++ [G_add_trust (toy_trust R B 900 1) (toy_key R) (at_ 10)]))) (G_weight (toy_key B) (at_ 10), None)) = Ok (GR_weight 8) /\
  fst (graph_step (toy false) (db_of (after faq)) (G_revoke (toy_rev A D 9), None)) = Ok GR_unit /\
  fst (graph_step (toy false) (db_of (after faq)) (G_weight (toy_key D) (at_ 10), None)) = Ok (GR_weight 2) /\
  fst (graph_step (toy false) (db_of (after (faq ++ [G_revoke (toy_rev A D 9)]))) (G_weight (toy_key D) (at_ 10), None)) = Ok (GR_weight 0).
Proof.
  split; [typed1|]. repeat match goal with |- _ /\ _ => split end; (apply after_answer; [first [exact faq_typed|apply Forall_app; split; [exact faq_typed|typed1]]|typed1|vm_compute; reflexivity]).
Qed.

(** ** C153 *)
Lemma key_unique : forall (c : certificate) i a b, key_at c i a -> key_at c i b -> a = b.
Proof. intros c i a b (t & Ht & <-) (u & Hu & <-). unfold at_pos in *. congruence. Qed.
Lemma root_max_len_root : forall d k m, root_max_len d k m -> is_root d k.
Proof.
  intros d k m (w & H & _). unfold is_root. induction (tbl_roots d) as [|[t z] l IH]; [discriminate H|]. cbn [first_row map fst] in *.
  destruct (bytes_eqb t (key_text k)) eqn:E; [left; apply bytes_eqb_eq; exact E|right; apply IH; exact H].
Qed.
Lemma live_valid : forall C s now b t, inv C s -> live (db_of s) now b t -> pk_valid C b /\ pk_valid C (issued_for t).
Proof.
  intros C s now b t Is [H _]. apply (stored_trust_in C s b t (inv_wf C s Is)) in H. pose proof (wf_rels C s (inv_wf C s Is)) as F.
  rewrite Forall_forall in F. specialize (F _ H). unfold rel_wf in F. cbn in F. tauto.
Qed.
(** A prefix of a counting chain counts for its last key, if that key is not revoked. *)
Lemma prefix_counts : forall d now pk c n k, counting d now pk c -> (2 <= n)%nat -> (n < length c)%nat -> key_at c (n - 1) k ->
  (forall v, stored_revocation d v -> rev_pk v <> k) -> counting d now k (firstn n c).
Proof.
  intros d now pk c n k [Hc Hr] L2 Ln K Nv. split; [apply (chain_prefix d now pk c n k Hc); [exact L2|lia|exact K]|].
  intros i j X. exfalso. apply prefix_revokes in X. destruct X as [Hj X]. pose proof (Hr i j X) as Dp. unfold direct_issuer_pos in Dp.
  destruct X as (_ & v & Hv & _ & Kj). apply (Nv v Hv). assert (j = (n - 1)%nat) as -> by lia. exact (key_unique c _ _ _ Kj K).
Qed.
(** A weight above 1 comes from a key of at least twice the weight that trusts the key, if none of those who trust it are revoked. *)
Lemma p_C153_half_at_most : forall C d pk now fu w d1, reachable C d -> call_typed C (G_weight pk now) -> small d -> ~ is_root d pk ->
  (forall v t, stored_revocation d v -> live d now (rev_pk v) t -> issued_for t <> pk) ->
  graph_step C d (G_weight pk now, fu) = (Ok (GR_weight w), d1) -> 1 < w ->
  exists b t w' d2, b <> pk /\ live d now b t /\ issued_for t = pk /\ graph_step C d (G_weight b now, None) = (Ok (GR_weight w'), d2) /\ 2 * w <= w'.
Proof.
  intros C d pk now fu w d1 R T Sm Nr Nv E Hw. destruct (weight_is C d pk now fu w d1 R T Sm E) as [_ [[(m & Hm & _)|(c & Hc & Hcw)]|[-> _]]]; [| |lia].
  - exfalso. apply Nr. apply (root_max_len_root d pk m Hm).
  - destruct (shorten d now pk c Hc) as (c' & Hc' & Nt & L & H0). destruct Hcw as (t0 & m & Ht0 & Hm & Ew).
    pose proof (weight_is C d pk now fu w d1 R T Sm E) as [Gw _].
    assert (Ew' : w = chain_weight m (length c' - 1)).
    { assert (chain_weight m (length c' - 1) <= w) by (apply Gw; right; exists c'; split; [exact Hc'|]; exists t0, m; split; [exact (H0 t0 Ht0)|split; [exact Hm|reflexivity]]).
      assert (w <= chain_weight m (length c' - 1)) by (rewrite Ew; apply chain_weight_mono; lia). lia. }
    pose proof Hc' as [(L2 & (u & Hu & Eu) & P0 & Ps & _) _]. destruct (nth_error_Some_ex _ c' (length c' - 2)) as (g & Hg); [lia|].
    assert (Lg : live d now (issued_for g) u) by (apply (Ps (length c' - 2)%nat); [exact Hg|replace (S (length c' - 2)) with (length c' - 1)%nat by lia; exact Hu]).
    assert (Kg : key_at c' (length c' - 2) (issued_for g)) by (exists g; auto).
    assert (Vg : pk_valid C (issued_for g)) by (apply reachable_inv in R; destruct R as (s & -> & Is); exact (proj1 (live_valid C s now (issued_for g) u Is Lg))).
    assert (Tg : call_typed C (G_weight (issued_for g) now)) by (destruct T as [_ Tn]; split; assumption).
    destruct (weight_answer C d (issued_for g) now R Tg) as (w' & d2 & E2). exists (issued_for g), u, w', d2.
    split; [intros X; apply (Nt (length c' - 2)%nat); [lia|rewrite <- X; exact Kg]|]. split; [exact Lg|]. split; [exact Eu|]. split; [exact E2|].
    pose proof (weight_is C d (issued_for g) now None w' d2 R Tg Sm E2) as [Gg _].
    assert (Dbl : 2 * w = chain_weight m (length c' - 2)).
    { rewrite Ew' in *. unfold chain_weight in *. assert (m - N.of_nat (length c' - 1) <> 0) by (intros Z; rewrite Z in Hw; cbn in Hw; lia).
      replace (m - N.of_nat (length c' - 2)) with (N.succ (m - N.of_nat (length c' - 1))) by lia. rewrite N.pow_succ_r'. reflexivity. }
    rewrite Dbl. apply Gg. destruct (Nat.eq_dec (length c') 2) as [Z|Z].
    + left. exists m. assert (g = t0) as -> by (pose proof (H0 t0 Ht0) as Y; rewrite Z in Hg; unfold at_pos in *; cbn in *; congruence). split; [exact Hm|].
      rewrite Z. unfold chain_weight. cbn. f_equal. lia.
    + right. exists (firstn (length c' - 1) c'). split.
      * apply (prefix_counts d now pk c'); [exact Hc'|lia|lia|replace (length c' - 1 - 1)%nat with (length c' - 2)%nat by lia; exact Kg|].
        intros v Hv X. apply (Nv v u Hv); [rewrite X; exact Lg|exact Eu].
      * exists t0, m. split; [apply at_firstn; split; [lia|exact (H0 t0 Ht0)]|]. split; [exact Hm|]. rewrite firstn_length.
        replace (Nat.min (length c' - 1) (length c') - 1)%nat with (length c' - 2)%nat by lia. reflexivity.
Qed.

(** Not so if the one who trusts is revoked: D has weight 4, and B, the only one who trusts it, none. *)
Lemma p_C153_needs_unrevoked : exists C d pk now w d1, crypto_laws C /\ reachable C d /\ call_typed C (G_weight pk now) /\ small d /\ ~ is_root d pk /\
  graph_step C d (G_weight pk now, None) = (Ok (GR_weight w), d1) /\ 1 < w /\
  forall b t, live d now b t -> issued_for t = pk -> exists d2, graph_step C d (G_weight b now, None) = (Ok (GR_weight 0), d2).
Proof.
  exists W, (db_of (after long)), (toy_key D), (at_ 10), 4, (db_of (after (long ++ [G_weight (toy_key D) (at_ 10)]))).
  split; [apply toy_laws|]. split; [apply after_reachable; exact long_typed|]. split; [typed1|]. split; [vm_compute; reflexivity|].
  split; [|split; [|split]].
  - assert (Ro : roots (after long) = [(toy_key R, 11)]) by (vm_compute; reflexivity). rewrite is_root_in, Ro. intros [H|[]]. discriminate H.
  - apply after_step; [exact long_typed|typed1|vm_compute; reflexivity].
  - reflexivity.
  - intros b t [H _] Et. pose proof (proj1 (stored_trust_in W _ b t (inv_wf W _ (after_inv _ long_typed))) H) as X. clear H.
    assert (Rl : rels (after long) = [RAuth (mk_auth (toy_trust R R 1000 1) (toy_key R)); RAuth (mk_auth (toy_trust R A 900 1) (toy_key R));
      RAuth (mk_auth (toy_trust A B 800 1) (toy_key A)); RAuth (mk_auth (toy_trust B D 700 1) (toy_key B)); RRev (toy_rev R B 9)]) by (vm_compute; reflexivity).
    rewrite Rl in X. clear Rl. destruct X as [X|[X|[X|[X|[X|[]]]]]]; [| | | |discriminate X]; injection X as E1 E2; subst b t; try discriminate Et.
    exists (db_of (after (long ++ [G_weight (toy_key B) (at_ 10)]))). apply after_step; [exact long_typed|typed1|vm_compute; reflexivity].
Qed.
(** In the README's chain, B has weight 4 and A, who trusts it, 8. *)
Example e_C153_b : ~ is_root (db_of (after faq)) (toy_key B) /\ (forall v, ~ stored_revocation (db_of (after faq)) v) /\
  fst (graph_step (toy false) (db_of (after faq)) (G_weight (toy_key B) (at_ 10), None)) = Ok (GR_weight 4).
Proof.
  split; [intros H; apply faq_roots in H; discriminate H|]. split.
  - intros v Hv. pose proof (proj1 (stored_rev_in W _ v (inv_wf W _ (after_inv _ faq_typed))) Hv) as X. rewrite faq_rels in X.
    repeat (destruct X as [X|X]; [discriminate X|]). exact X.
  - apply after_answer; [exact faq_typed|typed1|vm_compute; reflexivity].
Qed.

(** ** C154 *)
(** The first key of [c] in the set. *)
Lemma first_in : forall (K : public_key -> Prop), (forall k, K k \/ ~ K k) -> forall (c : certificate) n k, key_at c n k -> K k ->
  exists p e, (p <= n)%nat /\ key_at c p e /\ K e /\ forall i a, (i < p)%nat -> key_at c i a -> ~ K a.
Proof.
  intros K Dec c. induction n as [n IH] using lt_wf_ind. intros k Hk Kk.
  assert (X : (forall i a, (i < n)%nat -> key_at c i a -> ~ K a) \/ exists i a, (i < n)%nat /\ key_at c i a /\ K a).
  { clear IH Hk. induction n as [|n IHn]; [left; intros i a Hi; lia|]. destruct IHn as [N|(i & a & Hi & Ka & Y)]; [|right; exists i, a; split; [lia|auto]].
    destruct (nth_error c n) as [t|] eqn:Et.
    - destruct (Dec (issued_for t)) as [Y|Y]; [right; exists n, (issued_for t); split; [lia|]; split; [exists t; auto|exact Y]|].
      left. intros i a Hi Ka. destruct (Nat.eq_dec i n) as [->|Ni]; [|apply (N i a); [lia|exact Ka]]. destruct Ka as (u & Hu & <-). unfold at_pos in Hu. replace u with t by congruence. exact Y.
    - left. intros i a Hi Ka. destruct (Nat.eq_dec i n) as [->|Ni]; [|apply (N i a); [lia|exact Ka]]. destruct Ka as (u & Hu & _). unfold at_pos in Hu. congruence. }
  destruct X as [N|(i & a & Hi & Ka & Y)]; [exists n, k; split; [lia|auto]|].
  destruct (IH i Hi a Ka Y) as (p & e & Hp & Z). exists p, e. split; [lia|exact Z].
Qed.
(** Of a set of keys without roots none weighs more than the heaviest of those that a key outside the set trusts, if these are not revoked. *)
Lemma p_C154_made_up_keys : forall C d now ks M pk fu w d1, reachable C d -> small d -> (forall k, In k ks -> ~ is_root d k) ->
  (forall b t fu' w' d2, live d now b t -> ~ In b ks -> In (issued_for t) ks ->
     (forall v, stored_revocation d v -> rev_pk v <> issued_for t) /\ (graph_step C d (G_weight (issued_for t) now, fu') = (Ok (GR_weight w'), d2) -> w' <= M)) ->
  In pk ks -> call_typed C (G_weight pk now) -> graph_step C d (G_weight pk now, fu) = (Ok (GR_weight w), d1) -> w <= M.
Proof.
  intros C d now ks M pk fu w d1 R Sm Nr Bd Kp T E. set (K := fun k => In k ks). assert (Dec : forall k, K k \/ ~ K k) by (intros k; destruct (in_dec pk_eq_dec k ks); [left|right]; assumption).
  change (K pk) in Kp. destruct (weight_is C d pk now fu w d1 R T Sm E) as [_ [[(m & Hm & _)|(c & Hc & (t0 & m & Ht0 & Hm & Ew))]|[-> _]]]; [| |lia].
  - exfalso. apply (Nr pk Kp). apply (root_max_len_root d pk m Hm).
  - pose proof Hc as [(L2 & Kl & P0 & Ps & _) _]. destruct (first_in K Dec c (length c - 1) pk Kl Kp) as (p & e & Hp & Ke & Ye & Hb).
    destruct p as [|p]; [exfalso; destruct Ke as (x & Hx & <-); apply (Nr (issued_for x) Ye); apply P0; exact Hx|].
    destruct Ke as (x & Hx & Ex). destruct (nth_error_Some_ex _ c p) as (g & Hg); [pose proof (at_len _ _ _ _ Hx); lia|].
    pose proof (Ps p g x Hg Hx) as Lx. assert (Ng : ~ K (issued_for g)) by (apply (Hb p); [lia|exists g; auto]). subst e.
    destruct (Nat.eq_dec (S p) (length c - 1)) as [Z|Z].
    + assert (issued_for x = pk) as <- by (apply (key_unique c (S p)); [exists x; auto|rewrite Z; exact Kl]). exact (proj2 (Bd _ x fu w d1 Lx Ng Ye) E).
    + assert (Vx : pk_valid C (issued_for x)) by (apply reachable_inv in R; destruct R as (s & -> & Is); exact (proj2 (live_valid C s now (issued_for g) x Is Lx))).
      assert (Tx : call_typed C (G_weight (issued_for x) now)) by (destruct T as [_ Tn]; split; assumption).
      destruct (weight_answer C d (issued_for x) now R Tx) as (w' & d2 & E2). destruct (Bd _ x None w' d2 Lx Ng Ye) as [Nv Le]. specialize (Le E2).
      pose proof (weight_is C d (issued_for x) now None w' d2 R Tx Sm E2) as [Gx _].
      assert (chain_weight m (S p) <= w'); [|assert (w <= chain_weight m (S p)) by (rewrite Ew; apply chain_weight_mono; lia); lia].
      apply Gx. right. exists (firstn (S (S p)) c). split.
      * apply (prefix_counts d now pk c); [exact Hc|lia|lia|replace (S (S p) - 1)%nat with (S p) by lia; exists x; auto|exact Nv].
      * exists t0, m. split; [apply at_firstn; split; [lia|exact Ht0]|]. split; [exact Hm|]. rewrite firstn_length. f_equal. lia.
Qed.
(** B and D, of which only B is trusted from outside: B has weight 4 and D 2. *)
Example e_C154_bd : let ks := [toy_key B; toy_key D] in let d := db_of (after faq) in
  (forall k, In k ks -> ~ is_root d k) /\ (forall v, ~ stored_revocation d v) /\
  (forall b t, live d (at_ 10) b t -> ~ In b ks -> In (issued_for t) ks -> issued_for t = toy_key B) /\
  fst (graph_step (toy false) d (G_weight (toy_key B) (at_ 10), None)) = Ok (GR_weight 4) /\ fst (graph_step (toy false) d (G_weight (toy_key D) (at_ 10), None)) = Ok (GR_weight 2).
Proof.
  intros ks d. split; [|split; [|split; [|split]]].
  - intros k Hk H. apply faq_roots in H. subst k. destruct Hk as [X|[X|[]]]; discriminate X.
  - exact (proj1 (proj2 e_C153_b)).
  - intros b t L Nb Ht. apply faq_live in L. destruct L as [[-> ->]|[[-> ->]|[[-> ->]|[-> ->]]]].
    + exfalso. destruct Ht as [X|[X|[]]]; discriminate X.
    + exfalso. destruct Ht as [X|[X|[]]]; discriminate X.
    + reflexivity.
    + exfalso. apply Nb. left. reflexivity.
  - apply after_answer; [exact faq_typed|typed1|vm_compute; reflexivity].
  - apply after_answer; [exact faq_typed|typed1|vm_compute; reflexivity].
Qed.
