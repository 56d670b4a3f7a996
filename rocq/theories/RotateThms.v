(** Replacing a key by another: C203. *)
From Coq Require Import List NArith ZArith Bool Lia ZifyBool ZifyNat ZifyN.
From Verif Require AquaThms.
From Verif Require Import Base BaseFacts Text Keys KeysFacts Trust TrustFacts Certificate Relation Storage StorageFacts Graph SearchFacts PathFacts
  Spec SpecFacts StateFacts GraphFacts GraphThms MoreThms InfluenceSpec InfluenceThms ReadmeThms MachineSpec MachineThms VisitorThms BlowupThms CopySpec CopyThms
  BackSpec BackThms RotateSpec Witness Toy ToyFacts.
Import ListNotations.
Open Scope N_scope.

Section Rotate.
Variable C : crypto.

Lemma between_keys : forall b k x y, same_keys x y -> between b k x -> between b k y.
Proof. intros b k x y [E1 E2] [F1 F2]. split; congruence. Qed.
Lemma live_not_expired : forall now t b, secs now < i64_bound -> secs now < secs (expires_at t) < i64_bound -> ~ db_expired now (RAuth (mk_auth (whole_trust t) b)).
Proof.
  intros now t b Hn [H1 H2]. cbn [db_expired auth_trust].
  replace (secs (expires_at (whole_trust t))) with (secs (expires_at t)) by (destruct t; reflexivity). unfold i64_of_u64, i64_bound in *.
  destruct (secs now <? 9223372036854775808) eqn:E1; [|lia]. destruct (secs (expires_at t) <? 9223372036854775808) eqn:E2; lia.
Qed.

(** Trusts for pairs the store has nothing about are stored if they are taken on, and stay. *)
Lemma taken_stored : forall now ts d, reachable C d -> Forall (call_typed C) (giving ts) -> 
  NoDup (map (fun x => (snd (fst x), issued_for (fst (fst x)))) ts) ->
  (forall t b s, In (t, b, s) ts -> in_order s now /\ secs now < secs (expires_at t) < i64_bound /\ forall z, stored d z -> ~ between b (issued_for t) z) ->
  all_taken C d ts -> forall t b s, In (t, b, s) ts -> stored (graph_history C d (no_failures (giving ts))) (RAuth (mk_auth (whole_trust t) b)).
Proof.
  intros now ts. induction ts as [|[[t b] s] ts IH]; intros d R T Nd H A t0 b0 s0 I; [destruct I|].
  cbn [giving map fst snd] in T. inversion T as [|? ? T1 T2]; subst. inversion Nd as [|? ? N1 N2]; subst. cbn [fst snd] in N1.
  unfold all_taken in A. cbn [giving map no_failures answers fst snd] in A. inversion A as [|? ? A1 A2]; subst. destruct A1 as (w & A1 & Nz).
  destruct (H t b s (or_introl eq_refl)) as (O1 & O2 & O3).
  destruct (p_C38_add_trust_exact C d t b s R T1) as [X1 X2].
  destruct (trust_verify_total C t b s) as [V|(e & V)]; [|rewrite (X1 e V) in A1; discriminate A1].
  destruct (X2 V) as (w0 & dq & w' & d1 & W1 & W2 & _ & _ & W5). rewrite W2 in A1. cbn [fst] in A1. injection A1 as ->. specialize (W5 Nz).
  assert (Cq : collected d s dq) by exact (AquaThms.queries_collect C d b s w0 dq R (proj1 (proj2 T1)) (proj2 (proj2 T1)) W1). destruct Cq as [_ Cq].
  assert (R1 : reachable C d1) by (replace d1 with (snd (graph_step C d (G_add_trust t b s, None))) by (rewrite W2; reflexivity); apply reachable_step; assumption).
  assert (Fr : forall z, stored dq z -> same_keys (RAuth (mk_auth t b)) z -> before (rel_issued_at z) (issued_at t)).
  { intros z Hz [E1 E2]. exfalso. apply (O3 z); [apply Cq; exact Hz|]. split; symmetry; assumption. }
  pose proof (imported_newest _ _ _ W5 Fr) as St.
  change (graph_history C d (no_failures (giving ((t, b, s) :: ts)))) with (graph_history C (snd (graph_step C d (G_add_trust t b s, None))) (no_failures (giving ts))).
  change (Forall (fun r => exists w, r = Ok (GR_weight w) /\ w <> 0) (answers C (snd (graph_step C d (G_add_trust t b s, None))) (no_failures (giving ts)))) in A2.
  rewrite W2 in A2 |- *. cbn [snd] in A2 |- *.
  destruct I as [I|I].
  - injection I as <- <- <-.
    destruct (history_keeps C (between b (issued_for t)) now (between_keys b (issued_for t)) (no_failures (giving ts)) d1 R1) as [_ K].
    + unfold typed_history, no_failures. rewrite Forall_map. exact T2.
    + intros c fu J. apply in_map_iff in J. destruct J as (c' & E & J). injection E as -> <-. apply in_map_iff in J. destruct J as ([[t' b'] s'] & <- & J). cbn [fst snd].
      split; [discriminate|]. split; [intros u E; injection E as <-; apply (H t' b' s' (or_intror J))|].
      intros x Hx [F1 F2]. destruct x as [[tx bx]|v]; [|discriminate Hx]. destruct Hx as [E1 E2]. cbn [auth_trust issued_by rel_issued_by rel_issued_for] in E1, E2, F1, F2.
      apply N1. apply in_map_iff. exists (t', b', s'). cbn [fst snd]. split; [congruence|exact J].
    + apply K; [destruct t; split; reflexivity|apply live_not_expired; [apply O1|exact O2]|]. apply St. right. reflexivity.
  - refine (IH d1 R1 T2 N2 _ A2 t0 b0 s0 I). intros t' b' s' J. destruct (H t' b' s' (or_intror J)) as (P1 & P2 & P3). split; [exact P1|]. split; [exact P2|].
    intros z Hz Bz. apply St in Hz. destruct Hz as [(_ & Hz)| ->]; [apply (P3 z); [apply Cq; exact Hz|exact Bz]|]. destruct Bz as [F1 F2]. cbn [whole rel_issued_by rel_issued_for auth_trust issued_by] in F1, F2.
    apply N1. apply in_map_iff. exists (t', b', s'). cbn [fst snd]. split; [|exact J]. replace (issued_for (whole_trust t)) with (issued_for t) in F2 by (destruct t; reflexivity). congruence.
Qed.

(** Chains with the new key in place of the old one. *)
Section Swap.
Variables (A B : machine) (old new : public_key).
Hypothesis Apart : old <> new.
Hypothesis Roots : forall k l, root_of B k l <-> root_of A k l.
Hypothesis Not_root : forall l, ~ root_of A old l.
Hypothesis Unknown_root : forall l, ~ root_of A new l.
Hypothesis Unknown : forall x, holds A x -> rel_issued_by x <> new /\ rel_issued_for x <> new.
Hypothesis Trusts : forall b t, holds A (RAuth (mk_auth t b)) -> exists t' b', holds B (RAuth (mk_auth t' b')) /\ stands_for old new b b' /\ stands_for old new (issued_for t) (issued_for t').
Hypothesis Revs : forall v, holds B (RRev v) -> holds A (RRev v) \/ rev_pk v = old.

Lemma stands_one : forall k k1 k2, stands_for old new k k1 -> stands_for old new k k2 -> k1 = k2.
Proof. intros k k1 k2 [[E ->]|[E ->]] [[F ->]|[F ->]]; congruence. Qed.
Lemma stands_back : forall k1 k2 k, stands_for old new k1 k -> stands_for old new k2 k -> k1 <> new -> k2 <> new -> k1 = k2.
Proof. intros k1 k2 k [[-> E1]|[E1 ->]] [[-> E2]|[E2 E3]] N1 N2; congruence. Qed.
Lemma swap_list : forall c b b', Forall (fun a => holds A (RAuth a)) (with_issuers b c) -> stands_for old new b b' ->
  exists c', Forall (fun a => holds B (RAuth a)) (with_issuers b' c') /\ Forall2 (stands_for old new) (map issued_for c) (map issued_for c').
Proof.
  induction c as [|t c IH]; intros b b' H Sb.
  - exists []. split; constructor.
  - cbn [with_issuers] in H. inversion H as [|? ? H1 H2]; subst. destruct (Trusts b t H1) as (t' & b1 & Ht & S1 & S2). rewrite (stands_one _ _ _ S1 Sb) in Ht.
    destruct (IH (issued_for t) (issued_for t') H2 S2) as (c' & I1 & I2). exists (t' :: c'). cbn [with_issuers map]. split; constructor; assumption.
Qed.
Lemma swap_length : forall l l', Forall2 (stands_for old new) l l' -> length l = length l'.
Proof. intros l l' F. induction F as [|x y l l' F1 F2 IH]; [reflexivity|]. cbn [length]. rewrite IH. reflexivity. Qed.
Lemma at_swap : forall l l' i k', Forall2 (stands_for old new) l l' -> nth_error l' i = Some k' -> exists k, nth_error l i = Some k /\ stands_for old new k k'.
Proof.
  intros l l' i k' F. revert i. induction F as [|x y l l' F1 F2 IH]; intros [|i] H; try discriminate H; [injection H as <-; exists x; auto|apply IH; exact H].
Qed.
Lemma key_map : forall (c : certificate) i k, key_at c i k <-> nth_error (map issued_for c) i = Some k.
Proof.
  intros c i k. rewrite nth_error_map. unfold key_at, at_pos. destruct (nth_error c i) as [t|]; cbn [option_map].
  - split; [intros (t' & E & F); injection E as <-; f_equal; exact F|intros E; injection E as E; exists t; auto].
  - split; [intros (t' & E & _); discriminate E|intros E; discriminate E].
Qed.
Lemma chain_all : forall pk c, m_chain A pk c -> exists t c0, c = t :: c0 /\ Forall (fun a => holds A (RAuth a)) (with_issuers (issued_for t) c).
Proof.
  intros pk c (H1 & _ & H3 & H4 & _). destruct c as [|t c]; [cbn in H1; lia|]. exists t, c. split; [reflexivity|]. apply Forall_forall. intros a I. apply In_nth_error in I.
  destruct I as ([|i] & I); [cbn in I; injection I as <-; apply (H3 t eq_refl)|]. apply with_issuers_nth in I. destruct I as (u & g & Hu & Hg & ->). exact (H4 i g u Hg Hu).
Qed.
Lemma swap_chain : forall pk pk' c, m_chain A pk c -> stands_for old new pk pk' ->
  exists c', m_chain B pk' c' /\ Forall2 (stands_for old new) (map issued_for c) (map issued_for c') /\ length c' = length c /\ (forall k, key_at c 0 k -> key_at c' 0 k).
Proof.
  intros pk pk' c Hc Sp. destruct (chain_all pk c Hc) as (t & c0 & E & Hh). destruct Hc as (H1 & H2 & H3 & H4 & H5 & H6).
  assert (At0 : at_pos c 0 t) by (rewrite E; reflexivity). destruct (H3 t At0) as ((l & R) & _).
  assert (N0 : issued_for t <> old) by (intros X; rewrite X in R; exact (Not_root l R)).
  assert (S0 : stands_for old new (issued_for t) (issued_for t)) by (right; auto).
  destruct (swap_list c (issued_for t) (issued_for t) Hh S0) as (c' & I1 & I2). exists c'.
  assert (Len : length c' = length c) by (pose proof (swap_length _ _ I2) as X; rewrite !map_length in X; congruence).
  assert (Kn : forall i k, key_at c i k -> k <> new).
  { intros i k (u & Hu & <-) X. destruct i as [|i].
    - assert (u = t) by (unfold at_pos in *; congruence). subst u. rewrite X in R. exact (Unknown_root l R).
    - destruct (nth_error_Some_ex _ c i) as (g & Hg); [pose proof (at_len _ _ _ _ Hu); lia|]. exact (proj2 (Unknown _ (H4 i g u Hg Hu)) X). }
  assert (Kb : forall i k', key_at c' i k' -> exists k, key_at c i k /\ stands_for old new k k').
  { intros i k' K. apply key_map in K. destruct (at_swap _ _ i k' I2 K) as (k & K1 & K2). exists k. split; [apply key_map; exact K1|exact K2]. }
  assert (Head : forall t', at_pos c' 0 t' -> issued_for t' = issued_for t).
  { intros t' Ht'. destruct (Kb 0%nat (issued_for t')) as (k & K1 & K2); [exists t'; auto|]. destruct K1 as (u & Hu & <-). assert (u = t) by (unfold at_pos in *; congruence). subst u. exact (stands_one _ _ _ K2 S0). }
  split; [|split; [exact I2|split; [exact Len|]]].
  - split; [lia|]. split; [|split; [|split; [|split]]].
    + destruct (nth_error_Some_ex _ c' (length c' - 1)) as (t' & Ht'); [lia|]. assert (Kt : key_at c' (length c' - 1) (issued_for t')) by (exists t'; auto).
      destruct (Kb _ _ Kt) as (k & K1 & K2). rewrite Len in K1 at 1. assert (k = pk) by (destruct K1 as (u & Hu & <-), H2 as (u' & Hu' & <-); congruence). subst k.
      rewrite (stands_one _ _ _ Sp K2). exact Kt.
    + intros t' Ht'. rewrite (Head t' Ht'). split; [exists l; apply Roots; exact R|]. destruct c' as [|x c']; [discriminate Ht'|]. injection Ht' as ->.
      cbn [with_issuers] in I1. inversion I1; subst. assumption.
    + intros i g u Hg Hu. assert (X : In (mk_auth u (issued_for g)) (with_issuers (issued_for t) c')).
      { apply (nth_error_In _ (S i)). apply with_issuers_nth. exists u, g. auto. }
      rewrite Forall_forall in I1. exact (I1 _ X).
    + intros i j k Lt Ki Kj. destruct (Kb i k Ki) as (ki & Ki1 & Ki2). destruct (Kb j k Kj) as (kj & Kj1 & Kj2).
      assert (ki = kj) by exact (stands_back _ _ _ Ki2 Kj2 (Kn _ _ Ki1) (Kn _ _ Kj1)). subst kj. exact (H5 i j ki Lt Ki1 Kj1).
    + intros i j v Lt Hv Ki Kj. destruct (Kb i _ Ki) as (ki & Ki1 & Ki2). destruct (Kb j _ Kj) as (kj & Kj1 & Kj2). rewrite Len.
      destruct (Revs v Hv) as [Hv'|Eo]; [|exfalso; destruct Kj2 as [[_ X]|[X Y]]; congruence].
      destruct (Unknown _ Hv') as [U1 U2]. cbn [rel_issued_by rel_issued_for] in U1, U2.
      assert (Ei : ki = revoked_by v) by (destruct Ki2 as [[_ X]|[_ X]]; congruence). assert (Ej : kj = rev_pk v) by (destruct Kj2 as [[_ X]|[_ X]]; congruence).
      subst. exact (H6 i j v Lt Hv' Ki1 Kj1).
  - intros k Kk. destruct (nth_error_Some_ex _ c' 0) as (t' & Ht'); [lia|]. exists t'. split; [exact Ht'|]. rewrite (Head t' Ht'). destruct Kk as (u & Hu & <-). assert (u = t) by (unfold at_pos in *; congruence). subst u. reflexivity.
Qed.
Lemma swap_weight : forall pk pk' w w', stands_for old new pk pk' -> m_weight A pk w -> m_weight B pk' w' -> w <= w'.
Proof.
  intros pk pk' w w' Sp [_ [Hw|[-> _]]] [Gr _]; [|lia]. apply Gr. destruct Hw as [(l & R & E)|(c & Hc & (t & l & At & R & E))].
  - left. exists l. split; [|exact E]. destruct Sp as [[-> _]|[_ ->]]; [destruct (Not_root l R)|apply Roots; exact R].
  - right. destruct (swap_chain pk pk' c Hc Sp) as (c' & Hc' & _ & Len & Hd). exists c'. split; [exact Hc'|].
    destruct (Hd (issued_for t)) as (t' & At' & E'); [exists t; auto|]. exists t', l. split; [exact At'|]. split; [rewrite E'; apply Roots; exact R|rewrite Len; exact E].
Qed.
End Swap.
End Rotate.

(** ** C203 *)
(** A new key, of which the store knows nothing, takes the place of an old one that is no root: whoever trusts the old key gives the new one a trust, the new key gives one to whomever
    the old one trusts, and these are taken on; then the old key may be revoked by anyone. Nobody loses by it: for every certificate there is now one with the
    same keys but the new one for the old, and every key weighs at least as much as before, the new one as much as the old one did. *)
Lemma p_C203_replaced : forall C d ts vs old new now pk pk', reachable C d -> Forall (call_typed C) (giving ts) -> Forall (revocation_typed C) vs ->
  old <> new -> ~ is_root d old -> unknown d new -> for_the_new old new now ts -> hands_over d now old new ts -> all_taken C d ts -> (forall v, In v vs -> rev_pk v = old) ->
  few d (rotation ts vs) -> call_typed C (G_weight pk now) -> pk_valid C pk' -> secs now < i64_bound -> stands_for old new pk pk' ->
  let d' := graph_history C d (rotation ts vs) in
  (exists w w', fst (graph_step C d (G_weight pk now, None)) = Ok (GR_weight w) /\ fst (graph_step C d' (G_weight pk' now, None)) = Ok (GR_weight w') /\ w <= w') /\
  (exists cs cs', fst (graph_step C d (G_get_all_certs pk now, None)) = Ok (GR_certs cs) /\ fst (graph_step C d' (G_get_all_certs pk' now, None)) = Ok (GR_certs cs') /\
     forall c, In c cs -> exists c', In c' cs' /\ Forall2 (stands_for old new) (map issued_for c) (map issued_for c')).
Proof.
  intros C d ts vs old new now pk pk' R Tt Tv Ap Nr [Un1 Un2] [Fn1 Fn2] Ho At Rv F [Vp Tn] Vp' Sn Sp d'.
  assert (Te : typed_history C (rotation ts vs)).
  { unfold rotation, typed_history, no_failures. rewrite Forall_map. apply Forall_app. split; [exact Tt|]. apply Forall_forall. intros x I. apply in_map_iff in I. destruct I as (v & <- & I).
    rewrite Forall_forall in Tv. exact (Tv v I). }
  assert (R2 : reachable C d') by (apply history_reachable; assumption).
  assert (Off : forall c fu, In (c, fu) (rotation ts vs) -> (exists t b s, In (t, b, s) ts /\ c = G_add_trust t b s) \/ (exists v, In v vs /\ c = G_revoke v)).
  { intros c fu I. unfold rotation, no_failures in I. apply in_map_iff in I. destruct I as (c0 & E & I). injection E as -> _. apply in_app_iff in I. destruct I as [I|I].
    - left. apply in_map_iff in I. destruct I as ([[t b] s] & <- & I). exists t, b, s. auto.
    - right. apply in_map_iff in I. destruct I as (v & <- & I). eauto. }
  assert (Rest : forall x, rel_issued_by x <> new /\ rel_issued_for x <> new /\ rel_issued_for x <> old -> ~ db_expired now x -> (stored d' x <-> stored d x)).
  { apply (history_keeps C (fun x => rel_issued_by x <> new /\ rel_issued_for x <> new /\ rel_issued_for x <> old) now); [|exact R|exact Te|].
    - intros x y [E1 E2] (F1 & F2 & F3). rewrite <- E1, <- E2. auto.
    - intros c fu I. destruct (Off c fu I) as [(t & b & s & J & ->)|(v & J & ->)].
      + destruct (Fn2 t b s J) as (P1 & P2 & P3 & P4). split; [discriminate|]. split; [intros u E; injection E as <-; exact P3|].
        intros [[tx bx]|v] Hx (F1 & F2 & F3); [|discriminate Hx]. destruct Hx as [E1 E2]. cbn in E1, E2, F1, F2. destruct P1; congruence.
      + split; [discriminate|]. split; [discriminate|]. intros [a|v'] Hx (F1 & F2 & F3); [contradiction Hx|]. injection Hx as <-. apply F3. cbn. apply Rv. exact J. }
  assert (Ro : tbl_roots d' = tbl_roots d).
  { apply (history_keeps C (fun _ => False) now); [intros x y _ []|exact R|exact Te|]. intros c fu I. destruct (Off c fu I) as [(t & b & s & J & ->)|(v & J & ->)].
    - split; [discriminate|]. split; [intros u E; injection E as <-; apply (Fn2 t b s J)|]. intros x _ [].
    - split; [discriminate|]. split; [discriminate|]. intros x _ []. }
  assert (Taken : forall t b s, In (t, b, s) ts -> stored d' (RAuth (mk_auth (whole_trust t) b)) /\ ~ db_expired now (RAuth (mk_auth (whole_trust t) b))).
  { intros t b s I. destruct (Fn2 t b s I) as (P1 & P2 & P3 & P4).
    assert (Ne : ~ db_expired now (RAuth (mk_auth (whole_trust t) b))) by (apply live_not_expired; assumption). split; [|exact Ne].
    assert (X : stored (graph_history C d (no_failures (giving ts))) (RAuth (mk_auth (whole_trust t) b))).
    { refine (taken_stored C now ts d R Tt Fn1 _ At t b s I). intros t1 b1 s1 J. destruct (Fn2 t1 b1 s1 J) as (Q1 & Q2 & Q3 & Q4). split; [exact Q3|]. split; [exact Q4|].
      intros z Hz [F1 F2]. destruct (Un2 z Hz). destruct Q1; congruence. }
    unfold d', rotation, no_failures. rewrite map_app. unfold graph_history at 1. rewrite fold_left_app. fold (graph_history C d (map (fun c => (c, None)) (giving ts))).
    fold (no_failures (giving ts)). fold (no_failures (map G_revoke vs)). change (stored (graph_history C (graph_history C d (no_failures (giving ts))) (no_failures (map G_revoke vs))) (RAuth (mk_auth (whole_trust t) b))).
    refine (proj2 (proj2 (history_keeps C (fun x => rel_issued_for x <> old) now _ (no_failures (map G_revoke vs)) _ _ _ _) _ _ Ne) X).
    - intros x y [E1 E2]. rewrite E1. auto.
    - apply history_reachable; [exact R|]. unfold no_failures. rewrite Forall_map. exact Tt.
    - unfold typed_history, no_failures. rewrite Forall_map. apply Forall_forall. intros x J. apply in_map_iff in J. destruct J as (v & <- & J). rewrite Forall_forall in Tv. exact (Tv v J).
    - intros c fu J. apply in_map_iff in J. destruct J as (c0 & E & J). injection E as -> _. apply in_map_iff in J. destruct J as (v & <- & J).
      split; [discriminate|]. split; [discriminate|]. intros [a|v'] Hx Nx; [contradiction Hx|]. injection Hx as <-. apply Nx. cbn. apply Rv. exact J.
    - destruct t; exact P2. }
  set (A := m_collect (contents d) now). set (B := m_collect (contents d') now).
  assert (Roots : forall k l, root_of B k l <-> root_of A k l) by (intros k l; cbn [A B m_collect contents root_of]; unfold root_max_len; rewrite Ro; reflexivity).
  assert (Is : forall k l, root_of A k l -> is_root d k) by (intros k l H; exact (root_max_len_root d k l H)).
  assert (Un : forall x, holds A x -> rel_issued_by x <> new /\ rel_issued_for x <> new) by (intros x [H _]; exact (Un2 x H)).
  assert (Tr : forall b t, holds A (RAuth (mk_auth t b)) -> exists t' b', holds B (RAuth (mk_auth t' b')) /\ stands_for old new b b' /\ stands_for old new (issued_for t) (issued_for t')).
  { intros b t [H Ne]. destruct (Un2 _ H) as [U1 U2]. cbn in U1, U2.
    destruct (pk_eqb b old) eqn:E1; [|destruct (pk_eqb (issued_for t) old) eqn:E2].
    3:{ assert (Nb : b <> old) by (intros X; apply pk_eqb_eq in X; congruence). assert (Nt : issued_for t <> old) by (intros X; apply pk_eqb_eq in X; congruence).
        exists t, b. split; [|split; right; auto]. split; [|exact Ne]. apply Rest; [split; [exact U1|split; assumption]|exact Ne|exact H]. }
    all: destruct (Ho b t (conj H Ne)) as (t' & b' & s & I & S1 & S2); [first [left; apply pk_eqb_eq; assumption|right; apply pk_eqb_eq; assumption]|].
    all: exists (whole_trust t'), b'; split; [exact (Taken t' b' s I)|]; split; [exact S1|]; destruct t'; exact S2. }
  assert (Rs : forall v, holds B (RRev v) -> holds A (RRev v) \/ rev_pk v = old).
  { intros v [H _]. destruct (p_C63_stored_was_offered C d _ _ R Te H) as [H0|(c & fu & y & I & O & _ & E)]; [left; split; [exact H0|intros []]|right].
    destruct y as [a|v']; [discriminate E|]. injection E as ->. destruct (Off c fu I) as [(t & b & s & J & ->)|(v & J & ->)]; [discriminate O|]. injection O as <-. cbn. apply Rv. exact J. }
  assert (F0 : few d []) by (unfold few in *; cbn [map list_sum fold_right]; lia).
  assert (F2 : few d' []) by (apply few_after; assumption).
  assert (Na : forall l, ~ root_of A old l) by (intros l H; exact (Nr (Is _ _ H))). assert (Nb : forall l, ~ root_of A new l) by (intros l H; exact (Un1 (Is _ _ H))).
  split.
  - destruct (one_answer C d (G_weight pk now) R F0 (conj Vp Tn) eq_refl) as (a & ms & Ka & Sa). destruct (one_answer C d' (G_weight pk' now) R2 F2 (conj Vp' Tn) eq_refl) as (b & ns & Kb & Sb).
    inversion Ka as [| | | |? ? w Ha| | | | | |]; subst. inversion Kb as [| | | |? ? w' Hb| | | | | |]; subst. cbn [shows] in Sa, Sb. exists w, w'. split; [exact Sa|]. split; [exact Sb|].
    exact (swap_weight A B old new Ap Roots Na Nb Un Tr Rs pk pk' w w' Sp Ha Hb).
  - destruct (one_answer C d (G_get_all_certs pk now) R F0 (conj Vp Tn) eq_refl) as (a & ms & Ka & Sa). destruct (one_answer C d' (G_get_all_certs pk' now) R2 F2 (conj Vp' Tn) eq_refl) as (b & ns & Kb & Sb).
    inversion Ka; subst. inversion Kb; subst. cbn [shows] in Sa, Sb. destruct Sa as (ca & Ea & _ & Ia & _). destruct Sb as (cb & Eb & _ & Ib & _). exists ca, cb. split; [exact Ea|]. split; [exact Eb|].
    intros c Ic. apply Ia in Ic. destruct (swap_chain A B old new Ap Roots Na Nb Un Tr Rs pk pk' c Ic Sp) as (c' & Hc' & Fc & _). exists c'. split; [apply Ib; exact Hc'|exact Fc].
Qed.

(** Key 7 takes the place of key 3 between keys 2 and 4. *)
Definition handed : list (trust * public_key * duration) := [(toy_trust A 7 800 20, toy_key A, at_ 21); (toy_trust 7 D 700 20, toy_key 7, at_ 21)].
Lemma handed_typed : Forall (call_typed W) (giving handed).
Proof. unfold giving, handed. cbn [map fst snd]. typed1. Qed.
(** Key 4 keeps its weight 2 when key 2 revokes key 3, and key 7 has the weight 4 that key 3 had; without the new trusts key 4 would have lost it. *)
Example e_C203_handed : reachable W (db_of (after faq)) /\ Forall (call_typed W) (giving handed) /\ Forall (revocation_typed W) [toy_rev A B 25] /\
  toy_key B <> toy_key 7 /\ ~ is_root (db_of (after faq)) (toy_key B) /\ unknown (db_of (after faq)) (toy_key 7) /\
  for_the_new (toy_key B) (toy_key 7) (at_ 26) handed /\ hands_over (db_of (after faq)) (at_ 26) (toy_key B) (toy_key 7) handed /\ all_taken W (db_of (after faq)) handed /\
  few (db_of (after faq)) (rotation handed [toy_rev A B 25]) /\
  fst (graph_step W (db_of (after faq)) (G_weight (toy_key D) (at_ 26), None)) = Ok (GR_weight 2) /\
  fst (graph_step W (graph_history W (db_of (after faq)) (rotation handed [toy_rev A B 25])) (G_weight (toy_key D) (at_ 26), None)) = Ok (GR_weight 2) /\
  fst (graph_step W (graph_history W (db_of (after faq)) (rotation handed [toy_rev A B 25])) (G_weight (toy_key 7) (at_ 26), None)) = Ok (GR_weight 4) /\
  fst (graph_step W (graph_history W (db_of (after faq)) (rotation [] [toy_rev A B 25])) (G_weight (toy_key D) (at_ 26), None)) = Ok (GR_weight 0).
Proof.
  split; [apply after_reachable; exact faq_typed|]. split; [exact handed_typed|]. split; [constructor; [apply toy_rev_typed; reflexivity|constructor]|].
  split; [intros X; vm_compute in X; discriminate X|]. split; [intros X; vm_compute in X; destruct X as [X|[]]; discriminate X|].
  split; [split; [intros X; vm_compute in X; destruct X as [X|[]]; discriminate X|]|].
  { intros x Hx. apply (stored_in W) in Hx; [|apply after_inv; exact faq_typed]. rewrite faq_rels in Hx.
    repeat (destruct Hx as [<-|Hx]; [split; intros X; vm_compute in X; discriminate X|]). contradiction Hx. }
  split; [split|].
  { cbn [map handed fst snd]. constructor; [|constructor; [intros []|constructor]]. intros [X|[]]. injection X as X _. vm_compute in X. discriminate X. }
  { intros t b s [I|[I|[]]]; injection I as <- <- <-.
    - split; [right; reflexivity|]. split; [intros X; vm_compute in X; discriminate X|]. split; split; [vm_compute; discriminate|reflexivity|reflexivity|reflexivity].
    - split; [left; reflexivity|]. split; [intros X; vm_compute in X; discriminate X|]. split; split; [vm_compute; discriminate|reflexivity|reflexivity|reflexivity]. }
  split.
  { intros b t [Hx _] O. apply (stored_trust_in W) in Hx; [|exact (inv_wf W _ (after_inv _ faq_typed))]. rewrite faq_rels in Hx.
    destruct Hx as [H|[H|[H|[H|[]]]]]; injection H as <- <-.
    - exfalso. destruct O as [X|X]; vm_compute in X; discriminate X.
    - exfalso. destruct O as [X|X]; vm_compute in X; discriminate X.
    - exists (toy_trust A 7 800 20), (toy_key A), (at_ 21). split; [left; reflexivity|]. split; [right; split; [intros X; vm_compute in X; discriminate X|reflexivity]|left; split; reflexivity].
    - exists (toy_trust 7 D 700 20), (toy_key 7), (at_ 21). split; [right; left; reflexivity|]. split; [left; split; reflexivity|right; split; [intros X; vm_compute in X; discriminate X|reflexivity]]. }
  split; [repeat constructor; [exists 4; split; [vm_compute; reflexivity|discriminate]|exists 2; split; [vm_compute; reflexivity|discriminate]]|].
  split; [vm_compute; reflexivity|]. split; [vm_compute; reflexivity|]. split; [vm_compute; reflexivity|]. split; vm_compute; reflexivity.
Qed.
