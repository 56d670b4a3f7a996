(** What a trust adds, and what a renewed trust changes: C213. *)
From Coq Require Import List NArith ZArith Bool Lia.
From Verif Require Import Base BaseFacts Text Keys KeysFacts Trust TrustFacts Certificate CertFacts Relation Storage StorageFacts Graph Spec SpecFacts GraphFacts StateFacts GraphThms ReadmeThms InfluenceSpec InfluenceThms ExtendThms Toy ToyFacts Witness.
From Verif Require Import Service ServiceSpec ServiceFacts ServiceThms ServedThms ServiceWitness CopyServiceThms PartsServedThms SeverThms ServedBackThms ExtendSpec SeverSpec AnewSpec.
Import ListNotations.
Open Scope N_scope.

(** What counts after a trust was taken on, exactly. *)
Lemma taken_exact : forall C d t b now w d' at', reachable C d -> small d -> call_typed C (G_add_trust t b now) ->
  graph_step C d (G_add_trust t b now, None) = (Ok (GR_weight w), d') -> w <> 0 -> secs now <= secs at' < secs (expires_at t) -> secs (expires_at t) < i64_bound ->
  (forall z, stored d z -> same_keys (RAuth (mk_auth t b)) z -> before (rel_issued_at z) (issued_at t)) ->
  reachable C d' /\ tbl_roots d' = tbl_roots d /\
  (forall a x, live d' at' a x <-> (live d at' a x /\ ~ (a = b /\ issued_for x = issued_for t)) \/ (a = b /\ x = whole_trust t)) /\
  (forall v, stored_revocation d' v <-> stored_revocation d v /\ ~ (revoked_by v = b /\ rev_pk v = issued_for t)).
Proof.
  intros C d t b now w d' at' R Sm Tt Ea Nw [Ex1 Ex2] Ex3 New.
  assert (R2 : reachable C d') by (pose proof (reachable_step C d (G_add_trust t b now) None R Tt) as X; rewrite Ea in X; exact X).
  pose proof Tt as (_ & Tb & Tn). assert (Twb : call_typed C (G_weight b now)) by (split; assumption).
  destruct (p_C38_add_trust_exact C d t b now R Tt) as [Hn Hs].
  destruct (trust_verify_total C t b now) as [V|(e & V)]; [|rewrite (Hn e V) in Ea; discriminate Ea].
  destruct (Hs V) as (wb & d1 & w2 & d2 & Eb & Ea' & Wd & _ & Nz). rewrite Ea in Ea'. injection Ea' as <- <-.
  destruct (certs_answer C d b now R Twb) as (cs & dc & Ec).
  destruct (p_C35_weight_is_best_chain C d b now None None cs wb dc d1 R Twb Sm Ec Eb) as (-> & _).
  destruct (p_C24_certificates_exact C d b now None cs d1 R Twb Ec) as [[Ro1 Col] _].
  destruct (Nz Nw) as [Ro2 Im].
  assert (New1 : forall z, stored d1 z -> same_keys (RAuth (mk_auth t b)) z -> before (rel_issued_at z) (issued_at t)) by (intros z Hz; apply New; apply Col; exact Hz).
  assert (St : forall y, stored d' y <-> (~ same_keys (RAuth (mk_auth t b)) y /\ stored d y /\ ~ db_expired now y) \/ y = whole (RAuth (mk_auth t b))).
  { intros y. rewrite (Im y). split.
    - intros [[H1 H2]|[(H1 & H2 & H3)|[H _]]]; [left; split; [exact H1|apply Col; exact H2]| |right; exact H]. exfalso. apply H3. exact (New1 y H2 H1).
    - intros [[H1 H2]|H]; [left; split; [exact H1|apply Col; exact H2]|right; right]. split; [exact H|exact New1]. }
  assert (Mo : forall x a, ~ db_expired at' (RAuth (mk_auth x a)) -> ~ db_expired now (RAuth (mk_auth x a))).
  { intros x a N X. apply N. cbn in *. eapply Z.le_trans; [exact X|]. unfold i64_of_u64. replace (secs now <? i64_bound) with true by lia. replace (secs at' <? i64_bound) with true by lia. lia. }
  split; [exact R2|]. split; [congruence|]. split.
  - intros a x. unfold live. pose proof (St (RAuth (mk_auth x a))) as X. change (stored d' (RAuth (mk_auth x a))) with (stored_trust d' a x) in X. change (stored d (RAuth (mk_auth x a))) with (stored_trust d a x) in X.
    rewrite X. split.
    + intros [[(H1 & H2 & H3)|H] H4].
      * left. split; [split; assumption|]. intros [-> Y]. apply H1. split; cbn; congruence.
      * right. cbn [whole] in H. injection H as -> ->. split; reflexivity.
    + intros [[[H1 H2] H3]|[-> ->]].
      * split; [|exact H2]. left. split; [|split; [exact H1|exact (Mo x a H2)]]. intros [A B]. cbn in A, B. apply H3. split; congruence.
      * split; [right; reflexivity|]. intros Y. apply db_expired_small in Y; cbn in *; lia.
  - intros v. pose proof (St (RRev v)) as X. change (stored d' (RRev v)) with (stored_revocation d' v) in X. change (stored d (RRev v)) with (stored_revocation d v) in X. rewrite X. split.
    + intros [(H1 & H2 & _)|H]; [|discriminate H]. split; [exact H2|]. intros [A B]. apply H1. split; cbn; congruence.
    + intros [H1 H2]. left. split; [|split; [exact H1|intros []]]. intros [A B]. cbn in A, B. apply H2. split; congruence.
Qed.

Lemma same_key_at : forall b t c c', exchanged b t c c' -> forall i k, key_at c' i k <-> key_at c i k.
Proof.
  intros b t c c' [Ln X] i k.
  assert (Dec : forall u, at_pos c i u -> exists u', at_pos c' i u' /\ issued_for u' = issued_for u).
  { intros u Hu. destruct (X i u Hu) as [X1 X2].
    assert (D : given_at c i b (issued_for t) \/ ~ given_at c i b (issued_for t)).
    { unfold given_at. destruct (pk_eq_dec (issued_for u) (issued_for t)) as [E|E].
      - assert (K : key_at c i (issued_for t)) by (exists u; auto). destruct i as [|j].
        + destruct (pk_eq_dec b (issued_for t)) as [F|F]; [left; split; [exact K|left; auto]|right]. intros [_ [[_ H]|(j & H & _)]]; [exact (F H)|discriminate H].
        + destruct (nth_error c j) as [g|] eqn:Eg.
          * destruct (pk_eq_dec (issued_for g) b) as [F|F]; [left; split; [exact K|right; exists j; split; [reflexivity|exists g; auto]]|right].
            intros [_ [[H _]|(j' & H & (g' & Hg & F'))]]; [discriminate H|]. injection H as <-. unfold at_pos in Hg. rewrite Eg in Hg. injection Hg as <-. exact (F F').
          * right. intros [_ [[H _]|(j' & H & (g' & Hg & F'))]]; [discriminate H|]. injection H as <-. unfold at_pos in Hg. rewrite Eg in Hg. discriminate Hg.
      - right. intros [(u' & Hu' & F) _]. unfold at_pos in *. rewrite Hu in Hu'. injection Hu' as <-. exact (E F). }
    destruct D as [D|D]; [|exists u; auto]. exists t. split; [exact (X1 D)|]. destruct D as [(u' & Hu' & F) _]. unfold at_pos in *. rewrite Hu in Hu'. injection Hu' as <-. congruence. }
  split.
  - intros (u' & Hu' & E). destruct (nth_error c i) as [u|] eqn:Eu.
    + destruct (Dec u Eu) as (u2 & H2 & E2). unfold at_pos in *. rewrite Hu' in H2. injection H2 as <-. exists u. split; [exact Eu|congruence].
    + apply nth_error_None in Eu. assert (nth_error c' i <> None) by (unfold at_pos in Hu'; rewrite Hu'; discriminate). apply nth_error_Some in H. lia.
  - intros (u & Hu & E). destruct (Dec u Hu) as (u2 & H2 & E2). exists u2. split; [exact H2|congruence].
Qed.
Lemma given_dec : forall c i b k, given_at c i b k \/ ~ given_at c i b k.
Proof.
  intros c i b k. unfold given_at.
  assert (Kd : forall j q, key_at c j q \/ ~ key_at c j q).
  { intros j q. unfold key_at, at_pos. destruct (nth_error c j) as [u|].
    - destruct (pk_eq_dec (issued_for u) q) as [E|E]; [left; exists u; auto|right]. intros (u' & H & F). injection H as <-. exact (E F).
    - right. intros (u' & H & _). discriminate H. }
  destruct (Kd i k) as [K|K]; [|right; intros [X _]; exact (K X)]. destruct i as [|j].
  - destruct (pk_eq_dec b k) as [F|F]; [left; split; [exact K|left; auto]|right]. intros [_ [[_ H]|(j & H & _)]]; [exact (F H)|discriminate H].
  - destruct (Kd j b) as [G|G]; [left; split; [exact K|right; exists j; auto]|right]. intros [_ [[H _]|(j' & H & G')]]; [discriminate H|]. injection H as <-. exact (G G').
Qed.
(** A certificate counts also after its trusts were exchanged, with fewer revocations. *)
Lemma exchange_counts : forall d1 d2 now pk b s c c', tbl_roots d2 = tbl_roots d1 ->
  (forall a x, live d1 now a x -> ~ (a = b /\ issued_for x = issued_for s) -> live d2 now a x) ->
  ((forall i, ~ given_at c i b (issued_for s)) \/ live d2 now b s) ->
  (forall i j, revokes_at d2 c i j -> revokes_at d1 c i j \/ direct_issuer_pos c j) -> exchanged b s c c' -> counting d1 now pk c -> counting d2 now pk c'.
Proof.
  intros d1 d2 now pk b s c c' Ro Lv Ls Rk Ex [(C1 & C2 & C3 & C4 & C5) Rv]. pose proof (same_key_at b s c c' Ex) as K. destruct Ex as [Ln X].
  assert (Lk : forall i u', at_pos c' i u' -> exists u, at_pos c i u /\ issued_for u = issued_for u' /\ ((given_at c i b (issued_for s) /\ u' = s) \/ (~ given_at c i b (issued_for s) /\ u' = u))).
  { intros i u' Hu'. destruct (proj1 (K i (issued_for u')) (ex_intro _ u' (conj Hu' eq_refl))) as (u & Hu & E). exists u. split; [exact Hu|]. split; [exact E|].
    destruct (X i u Hu) as [X1 X2]. destruct (given_dec c i b (issued_for s)) as [G|G]; [left|right]; (split; [exact G|]).
    - specialize (X1 G). unfold at_pos in *. congruence.
    - specialize (X2 G). unfold at_pos in *. congruence. }
  split; [split; [|split; [|split; [|split]]]|].
  - rewrite Ln. exact C1.
  - rewrite Ln. apply K. exact C2.
  - intros u' Hu'. destruct (Lk 0%nat u' Hu') as (u & Hu & E & H). destruct (C3 u Hu) as [G1 G2]. rewrite E in G1, G2. split; [unfold is_root in *; rewrite Ro; exact G1|].
    destruct H as [[G ->]|[G ->]].
    + destruct G as [G0 [[_ ->]|(j & Y & _)]]; [|discriminate Y]. destruct Ls as [Ls|Ls]; [|exact Ls]. exfalso. apply (Ls 0%nat). split; [exact G0|left; auto].
    + apply Lv; [exact G2|]. intros [A B]. apply G. split; [exists u; split; [exact Hu|exact B]|left; split; [reflexivity|congruence]].
  - intros i g' u' Hg' Hu'. destruct (Lk i g' Hg') as (g & Hg & Eg & _). destruct (Lk (S i) u' Hu') as (u & Hu & E & H). rewrite <- Eg. pose proof (C4 i g u Hg Hu) as G2.
    destruct H as [[G ->]|[G ->]].
    + pose proof G as [G0 [[Y _]|(j & Y & (g2 & Hg2 & Eg2))]]; [discriminate Y|]. injection Y as <-. unfold at_pos in Hg, Hg2. rewrite Hg in Hg2. injection Hg2 as <-. rewrite Eg2. destruct Ls as [Ls|Ls]; [destruct (Ls _ G)|exact Ls].
    + apply Lv; [exact G2|]. intros [A B]. apply G. split; [exists u; split; [exact Hu|exact B]|right; exists i; split; [reflexivity|exists g; split; [exact Hg|exact A]]].
  - intros i j k Lij K1 K2. apply (C5 i j k Lij); apply K; assumption.
  - intros i j (Lij & v & Sv & K1 & K2). unfold direct_issuer_pos. rewrite Ln. destruct (Rk i j) as [Y|Y]; [|exact (Rv i j Y)|exact Y]. split; [exact Lij|]. exists v. split; [exact Sv|]. split; apply K; assumption.
Qed.
Lemma exchanged_none : forall b s c, (forall i, ~ given_at c i b (issued_for s)) -> exchanged b s c c.
Proof. intros b s c N. split; [reflexivity|]. intros i u Hu. split; [intros G; destruct (N i G)|intros _; exact Hu]. Qed.

(** The trusts exchanged, as a function. *)
Fixpoint exchange (prev b : public_key) (s : trust) (c : certificate) : certificate :=
  match c with
  | [] => []
  | u :: r => (if pk_eq_dec prev b then if pk_eq_dec (issued_for u) (issued_for s) then s else u else u) :: exchange (issued_for u) b s r
  end.
Lemma exchange_length : forall b s c prev, length (exchange prev b s c) = length c.
Proof. intros b s c. induction c as [|u r IH]; intros prev; [reflexivity|]. cbn. rewrite IH. reflexivity. Qed.
Lemma exchange_at : forall b s c prev i u, nth_error c i = Some u ->
  let p := match i with O => prev | S j => match nth_error c j with Some g => issued_for g | None => prev end end in
  nth_error (exchange prev b s c) i = Some (if pk_eq_dec p b then if pk_eq_dec (issued_for u) (issued_for s) then s else u else u).
Proof.
  intros b s c. induction c as [|x r IH]; intros prev [|i] u Hu; try discriminate Hu.
  - injection Hu as ->. reflexivity.
  - cbn [exchange nth_error]. cbn [nth_error] in Hu. pose proof (IH (issued_for x) i u Hu) as H. cbv zeta in H |- *. rewrite H. destruct i as [|i]; [reflexivity|]. cbn [nth_error].
    destruct (nth_error r i) as [g|] eqn:Eg; [reflexivity|]. exfalso. apply nth_error_None in Eg. assert (nth_error r (S i) <> None) by (rewrite Hu; discriminate). apply nth_error_Some in H0. lia.
Qed.
Lemma exchange_is : forall b s c, exists c', exchanged b s c c'.
Proof.
  intros b s c. destruct c as [|x r]; [exists []; split; [reflexivity|]; intros [|i] u H; discriminate H|].
  exists (exchange (issued_for x) b s (x :: r)). split; [apply exchange_length|]. intros i u Hu. pose proof (exchange_at b s (x :: r) (issued_for x) i u Hu) as H. cbv zeta in H. unfold at_pos. rewrite H. clear H.
  destruct i as [|j].
  - injection Hu as <-. destruct (pk_eq_dec (issued_for x) b) as [A|A]; [destruct (pk_eq_dec (issued_for x) (issued_for s)) as [B|B]|].
    + split; [reflexivity|]. intros N. exfalso. apply N. split; [exists x; split; [reflexivity|exact B]|left; split; [reflexivity|congruence]].
    + split; [|reflexivity]. intros [(y & Hy & E) _]. injection Hy as <-. destruct (B E).
    + split; [|reflexivity]. intros [(y & Hy & E) [[_ F]|(j & Y & _)]]; [|discriminate Y]. injection Hy as <-. exfalso. apply A. congruence.
  - destruct (nth_error (x :: r) j) as [g|] eqn:Eg.
    2:{ exfalso. apply nth_error_None in Eg. assert (nth_error (x :: r) (S j) <> None) by (unfold at_pos in Hu; rewrite Hu; discriminate). apply nth_error_Some in H. lia. }
    destruct (pk_eq_dec (issued_for g) b) as [A|A]; [destruct (pk_eq_dec (issued_for u) (issued_for s)) as [B|B]|].
    + split; [reflexivity|]. intros N. exfalso. apply N. split; [exists u; split; [exact Hu|exact B]|right; exists j; split; [reflexivity|exists g; split; [exact Eg|exact A]]].
    + split; [|reflexivity]. intros [(y & Hy & E) _]. unfold at_pos in *. rewrite Hu in Hy. injection Hy as <-. destruct (B E).
    + split; [|reflexivity]. intros [_ [[Y _]|(j' & Y & (g' & Hg' & F))]]; [discriminate Y|]. injection Y as <-. unfold at_pos in Hg'. rewrite Eg in Hg'. injection Hg' as <-. destruct (A F).
Qed.
(** Back again: if the trusts of [b] for the key in [c] are all [t]. *)
Lemma exchanged_back : forall b t z c c0, issued_for z = issued_for t -> exchanged b z c c0 -> (forall i, given_at c i b (issued_for t) -> at_pos c i t) -> exchanged b t c0 c.
Proof.
  intros b t z c c0 Ez X A. pose proof (same_key_at b z c c0 X) as K. destruct X as [Ln X]. split; [symmetry; exact Ln|].
  assert (Gv : forall i, given_at c0 i b (issued_for t) <-> given_at c i b (issued_for t)).
  { intros i. unfold given_at. rewrite (K i). split; (intros [H1 H2]; split; [exact H1|]; destruct H2 as [H2|(j & E & H2)]; [left; exact H2|right; exists j; split; [exact E|apply K; exact H2]]). }
  intros i u0 Hu0. rewrite (Gv i). split; [exact (A i)|]. intros N.
  destruct (proj1 (K i (issued_for u0)) (ex_intro _ u0 (conj Hu0 eq_refl))) as (u & Hu & E). destruct (X i u Hu) as [_ X2]. rewrite Ez in X2. specialize (X2 N). unfold at_pos in *. congruence.
Qed.

(** ** C213 *)
(** A trust that is newer than what its issuer said of the key leaves the other certificates alone, but for those that an earlier revocation had taken away. *)
Lemma p_C213_others : forall C d t b now w d' pk at' fu1 fu2 cs cs' d1 d2 c, reachable C d -> small d -> call_typed C (G_add_trust t b now) ->
  graph_step C d (G_add_trust t b now, None) = (Ok (GR_weight w), d') -> w <> 0 -> secs now <= secs at' < secs (expires_at t) -> secs (expires_at t) < i64_bound ->
  (forall z, stored d z -> same_keys (RAuth (mk_auth t b)) z -> before (rel_issued_at z) (issued_at t)) -> call_typed C (G_get_all_certs pk at') ->
  graph_step C d (G_get_all_certs pk at', fu1) = (Ok (GR_certs cs), d1) -> graph_step C d' (G_get_all_certs pk at', fu2) = (Ok (GR_certs cs'), d2) ->
  (forall i, ~ given_at c i b (issued_for t)) -> (forall v, stored_revocation d v -> revoked_by v = b -> rev_pk v = issued_for t -> ~ cuts v c) ->
  (In c cs' <-> In c cs).
Proof.
  intros C d t b now w d' pk at' fu1 fu2 cs cs' d1 d2 c R Sm Tt Ea Nw Ex Ex3 New T E1 E2 Ng Nv.
  destruct (taken_exact C d t b now w d' at' R Sm Tt Ea Nw Ex Ex3 New) as (R2 & Ro & Lv & Vs).
  rewrite (certs_are C d' pk at' fu2 cs' d2 R2 T E2), (certs_are C d pk at' fu1 cs d1 R T E1).
  pose proof (exchanged_none b (whole_trust t) c Ng) as Xn. split; intros H.
  - apply (exchange_counts d' d at' pk b (whole_trust t) c c); [symmetry; exact Ro| |left; exact Ng| |exact Xn|exact H].
    + intros a x Hx N. apply Lv in Hx. destruct Hx as [[Hx _]|[-> ->]]; [exact Hx|]. exfalso. apply N. split; reflexivity.
    + intros i j (Lij & v & Sv & K1 & K2). destruct (Nat.eq_dec (j + 2) (length c)) as [D|D]; [right; exact D|left]. split; [exact Lij|]. exists v. split; [|split; assumption]. apply Vs. split; [exact Sv|].
      intros [Y1 Y2]. apply (Nv v Sv Y1 Y2). left. exists i, j. repeat split; try assumption. right. exact D.
  - apply (exchange_counts d d' at' pk b (whole_trust t) c c); [exact Ro| |left; exact Ng| |exact Xn|exact H].
    + intros a x Hx N. apply Lv. left. split; assumption.
    + intros i j (Lij & v & Sv & K). left. split; [exact Lij|]. exists v. split; [apply Vs; exact Sv|exact K].
Qed.
(** In the certificates that name the trusted key next to the issuer stands the new trust. *)
Lemma p_C213_through : forall C d t b now w d' pk at' fu2 cs' d2 c i, reachable C d -> small d -> call_typed C (G_add_trust t b now) ->
  graph_step C d (G_add_trust t b now, None) = (Ok (GR_weight w), d') -> w <> 0 -> secs now <= secs at' < secs (expires_at t) -> secs (expires_at t) < i64_bound ->
  (forall z, stored d z -> same_keys (RAuth (mk_auth t b)) z -> before (rel_issued_at z) (issued_at t)) -> call_typed C (G_get_all_certs pk at') ->
  graph_step C d' (G_get_all_certs pk at', fu2) = (Ok (GR_certs cs'), d2) -> In c cs' -> given_at c i b (issued_for t) -> at_pos c i (whole_trust t).
Proof.
  intros C d t b now w d' pk at' fu2 cs' d2 c i R Sm Tt Ea Nw Ex Ex3 New T E2 Hc [(u & Hu & Eu) G].
  destruct (taken_exact C d t b now w d' at' R Sm Tt Ea Nw Ex Ex3 New) as (R2 & Ro & Lv & Vs).
  apply (certs_are C d' pk at' fu2 cs' d2 R2 T E2) in Hc. destruct Hc as [(C1 & C2 & C3 & C4 & C5) _].
  assert (L : live d' at' b u).
  { destruct G as [[-> ->]|(j & -> & (g & Hg & Eg))]; [rewrite <- Eu; apply (C3 u Hu)|rewrite <- Eg; exact (C4 j g u Hg Hu)]. }
  apply Lv in L. destruct L as [[_ L]|[_ ->]]; [|exact Hu]. exfalso. apply L. split; [reflexivity|exact Eu].
Qed.
Lemma renewed_counts : forall C d t b now w d' pk at' z, reachable C d -> small d -> call_typed C (G_add_trust t b now) ->
  graph_step C d (G_add_trust t b now, None) = (Ok (GR_weight w), d') -> w <> 0 -> secs now <= secs at' < secs (expires_at t) -> secs (expires_at t) < i64_bound ->
  (forall x, stored d x -> same_keys (RAuth (mk_auth t b)) x -> before (rel_issued_at x) (issued_at t)) -> live d at' b z -> issued_for z = issued_for t ->
  (forall c, counting d' at' pk c -> exists c0, counting d at' pk c0 /\ exchanged b (whole_trust t) c0 c) /\
  (forall c0, counting d at' pk c0 -> exists c, counting d' at' pk c /\ exchanged b (whole_trust t) c0 c) /\
  (forall c0 c, counting d at' pk c0 -> exchanged b (whole_trust t) c0 c -> counting d' at' pk c).
Proof.
  intros C d t b now w d' pk at' z R Sm Tt Ea Nw Ex Ex3 New Lz Ez.
  destruct (taken_exact C d t b now w d' at' R Sm Tt Ea Nw Ex Ex3 New) as (R2 & Ro & Lv & Vs).
  assert (Fw : forall c0 c, counting d at' pk c0 -> exchanged b (whole_trust t) c0 c -> counting d' at' pk c).
  { intros c0 c H X. apply (exchange_counts d d' at' pk b (whole_trust t) c0 c); [exact Ro| |right; apply Lv; right; split; reflexivity| |exact X|exact H].
    - intros a x Hx N. apply Lv. left. split; assumption.
    - intros i j (Lij & v & Sv & K). left. split; [exact Lij|]. exists v. split; [apply Vs; exact Sv|exact K]. }
  split; [|split; [|exact Fw]].
  - intros c H. destruct (exchange_is b z c) as (c0 & X). exists c0. split.
    + apply (exchange_counts d' d at' pk b z c c0); [symmetry; exact Ro| |right; exact Lz| |exact X|exact H].
      * intros a x Hx N. apply Lv in Hx. destruct Hx as [[Hx _]|[-> ->]]; [exact Hx|]. exfalso. apply N. split; [reflexivity|]. symmetry. exact Ez.
      * intros i j (Lij & v & Sv & K). left. split; [exact Lij|]. exists v. split; [|exact K]. apply Vs. split; [exact Sv|]. intros [Y1 Y2].
        assert (Y : RRev v = RAuth (mk_auth z b)); [|discriminate Y]. apply (p_C30_one_relation_per_pair C d (RRev v) (RAuth (mk_auth z b)) R Sv (proj1 Lz)). split; cbn; congruence.
    + apply (exchanged_back b (whole_trust t) z c c0); [exact Ez|exact X|]. destruct H as [(C1 & C2 & C3 & C4 & C5) _]. intros i [(u & Hu & Eu) G].
      assert (L : live d' at' b u).
      { destruct G as [[-> ->]|(j & -> & (g & Hg & Eg))]; [change (issued_for (whole_trust t)) with (issued_for t) in *; pose proof (proj2 (C3 u Hu)) as Y; rewrite Eu in Y; exact Y|rewrite <- Eg; exact (C4 j g u Hg Hu)]. }
      apply Lv in L. destruct L as [[_ L]|[_ ->]]; [|exact Hu]. exfalso. apply L. split; [reflexivity|exact Eu].
  - intros c0 H. destruct (exchange_is b (whole_trust t) c0) as (c & X). exists c. split; [exact (Fw c0 c H X)|exact X].
Qed.
(** A renewed trust takes the place of the trust that has not expired in all certificates, and changes nothing else in them. *)
Lemma p_C213_renewed : forall C d t b now w d' pk at' z fu1 fu2 cs cs' d1 d2, reachable C d -> small d -> call_typed C (G_add_trust t b now) ->
  graph_step C d (G_add_trust t b now, None) = (Ok (GR_weight w), d') -> w <> 0 -> secs now <= secs at' < secs (expires_at t) -> secs (expires_at t) < i64_bound ->
  (forall x, stored d x -> same_keys (RAuth (mk_auth t b)) x -> before (rel_issued_at x) (issued_at t)) -> call_typed C (G_get_all_certs pk at') ->
  graph_step C d (G_get_all_certs pk at', fu1) = (Ok (GR_certs cs), d1) -> graph_step C d' (G_get_all_certs pk at', fu2) = (Ok (GR_certs cs'), d2) ->
  live d at' b z -> issued_for z = issued_for t ->
  (forall c, In c cs' <-> exists c0, In c0 cs /\ exchanged b (whole_trust t) c0 c) /\ (forall c0, In c0 cs -> exists c, In c cs' /\ exchanged b (whole_trust t) c0 c).
Proof.
  intros C d t b now w d' pk at' z fu1 fu2 cs cs' d1 d2 R Sm Tt Ea Nw Ex Ex3 New T E1 E2 Lz Ez.
  assert (R2 : reachable C d') by (pose proof (reachable_step C d (G_add_trust t b now) None R Tt) as X; rewrite Ea in X; exact X).
  pose proof (certs_are C d' pk at' fu2 cs' d2 R2 T E2) as I2. pose proof (certs_are C d pk at' fu1 cs d1 R T E1) as I1.
  destruct (renewed_counts C d t b now w d' pk at' z R Sm Tt Ea Nw Ex Ex3 New Lz Ez) as (A1 & A2 & A3). split; [intros c; split|].
  - intros H. apply I2 in H. destruct (A1 c H) as (c0 & H0 & X). exists c0. split; [apply I1; exact H0|exact X].
  - intros (c0 & H0 & X). apply I2. apply (A3 c0 c); [apply I1; exact H0|exact X].
  - intros c0 H0. apply I1 in H0. destruct (A2 c0 H0) as (c & H & X). exists c. split; [apply I2; exact H|exact X].
Qed.
(** No weight changes by that. *)
Lemma p_C213_weights : forall C d t b now w d' pk at' z fu1 fu2 w1 w2 d1 d2, reachable C d -> small d -> small d' -> call_typed C (G_add_trust t b now) ->
  graph_step C d (G_add_trust t b now, None) = (Ok (GR_weight w), d') -> w <> 0 -> secs now <= secs at' < secs (expires_at t) -> secs (expires_at t) < i64_bound ->
  (forall x, stored d x -> same_keys (RAuth (mk_auth t b)) x -> before (rel_issued_at x) (issued_at t)) -> call_typed C (G_weight pk at') ->
  graph_step C d (G_weight pk at', fu1) = (Ok (GR_weight w1), d1) -> graph_step C d' (G_weight pk at', fu2) = (Ok (GR_weight w2), d2) ->
  live d at' b z -> issued_for z = issued_for t -> w1 = w2.
Proof.
  intros C d t b now w d' pk at' z fu1 fu2 w1 w2 d1 d2 R Sm Sm' Tt Ea Nw Ex Ex3 New T E1 E2 Lz Ez.
  destruct (taken_exact C d t b now w d' at' R Sm Tt Ea Nw Ex Ex3 New) as (R2 & Ro & _ & _).
  destruct (renewed_counts C d t b now w d' pk at' z R Sm Tt Ea Nw Ex Ex3 New Lz Ez) as (A1 & A2 & _).
  pose proof (weight_is C d pk at' fu1 w1 d1 R T Sm E1) as G1. pose proof (weight_is C d' pk at' fu2 w2 d2 R2 T Sm' E2) as G2.
  assert (W : forall c0 c v, exchanged b (whole_trust t) c0 c -> cert_weight d c0 v <-> cert_weight d' c v).
  { intros c0 c v X. rewrite (weight_same d d' Ro). pose proof (same_key_at _ _ _ _ X 0%nat) as K. destruct X as [Ln _]. unfold cert_weight. rewrite Ln. split; intros (u & m & H1 & H2 & H3).
    - destruct (proj2 (K (issued_for u)) (ex_intro _ u (conj H1 eq_refl))) as (u' & H & E). exists u', m. rewrite E. auto.
    - destruct (proj1 (K (issued_for u)) (ex_intro _ u (conj H1 eq_refl))) as (u' & H & E). exists u', m. rewrite E. auto. }
  assert (Q : forall v, ((exists m, root_max_len d pk m /\ v = 2 ^ m) \/ exists c, counting d at' pk c /\ cert_weight d c v) <-> ((exists m, root_max_len d' pk m /\ v = 2 ^ m) \/ exists c, counting d' at' pk c /\ cert_weight d' c v)).
  { intros v. split; (intros [(m & H1 & H2)|(c & H1 & H2)]; [left; exists m; split; [apply (len_same d d' Ro); exact H1|exact H2]|right]).
    - destruct (A2 c H1) as (c' & H & X). exists c'. split; [exact H|]. apply (W c c' v X). exact H2.
    - destruct (A1 c H1) as (c' & H & X). exists c'. split; [exact H|]. apply (W c' c v X). exact H2. }
  destruct G1 as [G1 G1']. destruct G2 as [G2 G2']. apply N.le_antisymm.
  - destruct G1' as [H|[-> _]]; [apply G2; apply Q; exact H|apply N.le_0_l].
  - destruct G2' as [H|[-> _]]; [apply G1; apply Q; exact H|apply N.le_0_l].
Qed.
(** At the service: in the certificates that are told, a record of the renewed trust stands where one of the trust before did, and nothing else changes. *)
Lemma p_C213_service : forall C d r t i b cp ts w d' p ts' cp1 cp2 rs z, crypto_laws C -> wasm32 C = true -> service_reachable C d -> small d ->
  trust_record C r t -> peer_key C i b -> host_time cp 2 -> dto_trust_typed r -> dt_issued_at r <= ts -> ts <= ts' < dt_expires_at r -> dt_expires_at r < i64_bound ->
  service_step C d (cp, S_add_trust r i ts, None) = (Ok (mk_response true None (P_added w)), d') -> w <> 0 ->
  (forall x, stored d x -> same_keys (RAuth (mk_auth t b)) x -> before (rel_issued_at x) (issued_at t)) -> live d (from_secs ts') b z -> issued_for z = issued_for t ->
  fst (service_step C d (cp1, S_get_all_certs p ts', None)) = Ok (mk_response true None (P_certs rs)) -> host_time cp2 1 ->
  exists rs', fst (service_step C d' (cp2, S_get_all_certs p ts', None)) = Ok (mk_response true None (P_certs rs')) /\
    (forall x', In x' rs' -> exists x, In x rs /\ s_exchanged C b t x x') /\ (forall x, In x rs -> exists x', In x' rs' /\ s_exchanged C b t x x').
Proof.
  intros C d r t i b cp ts w d' p ts' cp1 cp2 rs z L W R Sm Tr Pk Ht Tt Bt Bx Bx2 E Nz New Lz Ez Er Ht2.
  pose proof (p_C66_service_stores C d L R) as Rd. assert (Hs : ts < u64_bound) by (unfold i64_bound, u64_bound in *; lia). assert (Hs' : ts' < u64_bound) by (unfold i64_bound, u64_bound in *; lia).
  assert (Rq : requests C cp (S_add_trust r i ts) (G_add_trust t b (from_secs ts))) by (split; [exact Tr|split; [exact Pk|reflexivity]]).
  assert (Ad : admitted cp (S_add_trust r i ts)) by (split; [exact Ht|exact Bt]).
  assert (Ty : service_typed (S_add_trust r i ts)) by (split; [exact Tt|exact Hs]).
  assert (Tc : call_typed C (G_add_trust t b (from_secs ts))) by (apply (requests_typed C cp (S_add_trust r i ts) _ L); [exact Ty|exact Rq]).
  assert (R' : service_reachable C d') by (pose proof (service_reachable_step C d cp (S_add_trust r i ts) None Ty R) as X; rewrite E in X; exact X).
  assert (Eg : graph_step C d (G_add_trust t b (from_secs ts), None) = (Ok (GR_weight w), d')).
  { rewrite service_plan, (plan_complete C cp _ _ Rq Ad) in E. cbn [carry_out] in E. destruct (graph_step C d (G_add_trust t b (from_secs ts), None)) as [[y|e| |] d2]; try discriminate E.
    destruct y; try discriminate E. injection E as -> ->. reflexivity. }
  destruct (certs_asked C d cp1 p ts' rs L R Hs' Er) as (k & cs & d1 & K & Ec & Ers).
  destruct Tr as (Trk & Tre & Tri & Trs).
  destruct (certs_told C d' cp2 p k ts' L R' Hs' K Ht2) as (cs' & d2 & Ec' & Er').
  assert (Wt : whole_trust t = t) by (destruct t as [tk te tsg ti]; cbn in Tre, Tri; subst; reflexivity).
  assert (T : call_typed C (G_get_all_certs k (from_secs ts'))) by (split; [eapply peer_key_valid; eassumption|apply from_secs_wf; exact Hs']).
  assert (Ex : secs (from_secs ts) <= secs (from_secs ts') < secs (expires_at t)) by (rewrite Tre; exact Bx).
  assert (Ex3 : secs (expires_at t) < i64_bound) by (rewrite Tre; exact Bx2).
  destruct (p_C213_renewed C d t b (from_secs ts) w d' k (from_secs ts') z None None cs cs' d1 d2 Rd Sm Tc Eg Nz Ex Ex3 New T Ec Ec' Lz Ez) as [X1 X2]. rewrite Wt in X1, X2.
  assert (Nm : forall c j q, In c cs -> key_at c j q <-> names C (dto_of_cert C c) j q).
  { intros c j q Hc. unfold key_at, at_pos, names, dto_of_cert. split.
    - intros (u & Et & Eq). exists (dto_of_trust C u). rewrite nth_error_map, Et. split; [reflexivity|]. rewrite <- Eq. exact (certs_keys C d cp1 p ts' rs k cs d1 c j u L W R Hs' Er K Ec Ers Hc Et).
    - intros (x & Hx & Px). rewrite nth_error_map in Hx. destruct (nth_error c j) as [u|] eqn:Et; [|discriminate Hx]. injection Hx as <-. exists u. split; [reflexivity|].
      exact (peer_key_fun C _ _ _ (certs_keys C d cp1 p ts' rs k cs d1 c j u L W R Hs' Er K Ec Ers Hc Et) Px). }
  assert (Rc : forall c j u, In c cs' -> nth_error c j = Some u -> trust_record C (dto_of_trust C u) u).
  { intros c j u Hc Hj. destruct (certs_response C d' cp2 p k ts' cs' L W R' Hs' K Ht2) as (rs2 & E2 & F); [rewrite Ec'; reflexivity|]. rewrite Er' in E2. injection E2 as <-.
    assert (Q : certificate_record C (dto_of_cert C c) c).
    { clear - F Hc. induction cs' as [|c0 cs' IH]; [destruct Hc|]. inversion F; subst. destruct Hc as [->|Hc]; [assumption|apply IH; assumption]. }
    unfold certificate_record, dto_of_cert in Q. clear - Q Hj. revert j Hj. induction c as [|y c IH]; intros [|j] Hj; try discriminate Hj; inversion Q; subst; [injection Hj as <-; assumption|eapply IH; eassumption]. }
  assert (Sx : forall c0 c, In c0 cs -> In c cs' -> exchanged b t c0 c -> s_exchanged C b t (dto_of_cert C c0) (dto_of_cert C c)).
  { intros c0 c H0 Hc [Ln X]. split; [unfold dto_of_cert; rewrite !map_length; exact Ln|]. intros j x Hx. unfold dto_of_cert in Hx. rewrite nth_error_map in Hx. destruct (nth_error c0 j) as [u|] eqn:Eu; [|discriminate Hx]. injection Hx as <-.
    assert (G : s_given_at C (dto_of_cert C c0) j b (issued_for t) <-> given_at c0 j b (issued_for t)).
    { unfold s_given_at, given_at. rewrite <- (Nm c0 j _ H0). split; (intros [H1 H2]; split; [exact H1|]; destruct H2 as [H2|(j' & F & H2)]; [left; exact H2|right; exists j'; split; [exact F|apply (Nm c0 j' b H0); exact H2]]). }
    destruct (X j u Eu) as [Y1 Y2]. rewrite G. unfold dto_of_cert. rewrite nth_error_map. split; intros H.
    - specialize (Y1 H). unfold at_pos in Y1. exists (dto_of_trust C t). split; [rewrite Y1; reflexivity|exact (Rc c j t Hc Y1)].
    - specialize (Y2 H). unfold at_pos in Y2. rewrite Y2. reflexivity. }
  exists (map (dto_of_cert C) cs'). split; [exact Er'|]. split.
  - intros x' Hx'. apply in_map_iff in Hx'. destruct Hx' as (c & <- & Hc). destruct (proj1 (X1 c) Hc) as (c0 & H0 & X). exists (dto_of_cert C c0). split; [rewrite Ers; apply in_map; exact H0|exact (Sx c0 c H0 Hc X)].
  - intros x Hx. rewrite Ers in Hx. apply in_map_iff in Hx. destruct Hx as (c0 & <- & H0). destruct (X2 c0 H0) as (c & Hc & X). exists (dto_of_cert C c). split; [apply in_map; exact Hc|exact (Sx c0 c H0 Hc X)].
Qed.
(** R gives A a new trust before the old one has expired: it stands in the certificate of D where the old one stood, until second 950, and the weight of D is as before. A new trust of R for B opens a second, shorter way to D. *)
Example e_C213_faq : reachable W (db_of (after faq)) /\ small (db_of (after faq)) /\ call_typed W (G_add_trust (toy_trust R A 950 20) (toy_key R) (at_ 21)) /\
  fst (graph_step W (db_of (after faq)) (G_add_trust (toy_trust R A 950 20) (toy_key R) (at_ 21), None)) = Ok (GR_weight 8) /\
  (forall x, stored (db_of (after faq)) x -> same_keys (RAuth (mk_auth (toy_trust R A 950 20) (toy_key R))) x -> before (rel_issued_at x) (at_ 20)) /\
  live (db_of (after faq)) (at_ 22) (toy_key R) (toy_trust R A 900 1) /\
  fst (graph_step W (db_of (after faq)) (G_get_all_certs (toy_key D) (at_ 22), None)) = Ok (GR_certs [faq_cert]) /\
  answer_after W (db_of (after faq)) [G_add_trust (toy_trust R A 950 20) (toy_key R) (at_ 21)] (G_get_all_certs (toy_key D) (at_ 22)) =
    Ok (GR_certs [[toy_trust R R 1000 1; toy_trust R A 950 20; toy_trust A B 800 1; toy_trust B D 700 1]]) /\
  answer_after W (db_of (after faq)) [G_add_trust (toy_trust R A 950 20) (toy_key R) (at_ 21)] (G_weight (toy_key D) (at_ 22)) = Ok (GR_weight 2) /\
  answer_after W (db_of (after faq)) [G_add_trust (toy_trust R B 950 20) (toy_key R) (at_ 21)] (G_get_all_certs (toy_key D) (at_ 22)) =
    Ok (GR_certs [[toy_trust R R 1000 1; toy_trust R B 950 20; toy_trust B D 700 1]; faq_cert]).
Proof.
  split; [apply after_reachable; exact faq_typed|]. split; [vm_compute; reflexivity|]. split; [typed1|]. split; [apply after_answer; [exact faq_typed|typed1|vm_compute; reflexivity]|].
  split. { intros z Hz [X Y]. apply (proj1 (after_stored faq z faq_typed)) in Hz. rewrite faq_rels in Hz. repeat (destruct Hz as [<-|Hz]; [try (revert X Y; vm_compute; discriminate); left; reflexivity|]). destruct Hz. }
  split. { split; [|vm_compute; intros X; apply X; reflexivity]. apply (proj2 (after_stored faq (RAuth (mk_auth (toy_trust R A 900 1) (toy_key R))) faq_typed)). rewrite faq_rels. right. left. reflexivity. }
  split; [apply after_answer; [exact faq_typed|typed1|vm_compute; reflexivity]|].
  split; [|split]; (apply after_then; [exact faq_typed|typed1|typed1|vm_compute; reflexivity]).
Qed.
(** Key 1 gives key 2 a new record, which stands in the certificate of key 4 where the old one stood. *)
Example e_C213_served : service_reachable (toy true) grown_store /\ small grown_store /\ trust_record (toy true) (trust_rec 1 2 2000 90) (toy_trust 1 2 2000 90) /\ peer_key (toy true) (pid 1) (toy_key 1) /\
  host_time (timed_call 2) 2 /\ dto_trust_typed (trust_rec 1 2 2000 90) /\ live grown_store (from_secs 96) (toy_key 1) (toy_trust 1 2 900 1) /\
  (forall x, stored grown_store x -> same_keys (RAuth (mk_auth (toy_trust 1 2 2000 90) (toy_key 1))) x -> before (rel_issued_at x) (from_secs 90)) /\ host_time (timed_call 1) 1 /\
  fst (service_step (toy true) grown_store (timed_call 2, S_add_trust (trust_rec 1 2 2000 90) (pid 1) 95, None)) = Ok (mk_response true None (P_added 16)) /\
  fst (service_step (toy true) grown_store (timed_call 1, S_get_all_certs (pid 4) 96, None)) = Ok (mk_response true None (P_certs [[trust_rec 1 1 1000 1; trust_rec 1 2 900 1; trust_rec 2 4 800 5]])) /\
  fst (service_step (toy true) (snd (service_step (toy true) grown_store (timed_call 2, S_add_trust (trust_rec 1 2 2000 90) (pid 1) 95, None))) (timed_call 1, S_get_all_certs (pid 4) 96, None)) =
    Ok (mk_response true None (P_certs [[trust_rec 1 1 1000 1; trust_rec 1 2 2000 90; trust_rec 2 4 800 5]])).
Proof.
  split; [exact grown_reachable|]. split; [vm_compute; auto 10|].
  split. { repeat split; try (vm_compute; reflexivity); try (apply extract_ok; vm_compute; reflexivity). }
  split. { repeat split; try (vm_compute; reflexivity); try (apply extract_ok; vm_compute; reflexivity). }
  split; [apply timed_host|]. split; [repeat split; vm_compute; reflexivity|].
  split. { rewrite grown_is. split; [|vm_compute; intros X; apply X; reflexivity]. apply (proj2 (stored_in (toy true) grown_state (RAuth (mk_auth (toy_trust 1 2 900 1) (toy_key 1))) grown_wf)). right. left. reflexivity. }
  split. { intros x Hx _. rewrite grown_is in Hx. apply (stored_in (toy true) _ _ grown_wf) in Hx. destruct Hx as [<-|[<-|[<-|[]]]]; left; vm_compute; reflexivity. }
  split; [apply timed_host|]. split; [vm_compute; reflexivity|]. split; vm_compute; reflexivity.
Qed.
