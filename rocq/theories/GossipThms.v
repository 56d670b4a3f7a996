(** Nodes that hear the same trusts: C175 and C176. *)
From Coq Require Import List NArith ZArith Bool Lia Permutation ZifyBool ZifyNat ZifyN.
From Verif Require Import Base BaseFacts Text Keys KeysFacts Trust TrustFacts Certificate Relation Storage StorageFacts Graph SearchFacts PathFacts
  Spec SpecFacts StateFacts GraphFacts GraphThms MachineSpec MachineThms ReadmeThms VisitorThms BlowupThms CopySpec CopyThms GossipSpec MoreThms Witness Toy ToyFacts.
Import ListNotations.
Open Scope N_scope.

(** ** Weights grow with trusts and without revocations *)
Fixpoint links (m : machine) (b : public_key) (c : list trust) : Prop :=
  match c with [] => True | t :: c' => holds m (RAuth (mk_auth t b)) /\ links m (issued_for t) c' end.
Lemma links_nth : forall m c g, links m (issued_for g) c <-> forall i x y, nth_error (g :: c) i = Some x -> nth_error (g :: c) (S i) = Some y -> holds m (RAuth (mk_auth y (issued_for x))).
Proof.
  intros m c. induction c as [|t c IH]; intros g; split.
  - intros _ i x y _ H. destruct i; discriminate H.
  - intros _. exact I.
  - intros [H1 H2] [|i] x y Hx Hy.
    + cbn in Hx, Hy. injection Hx as <-. injection Hy as <-. exact H1.
    + exact (proj1 (IH t) H2 i x y Hx Hy).
  - intros H. split; [exact (H 0%nat g t eq_refl eq_refl)|]. apply IH. intros i x y Hx Hy. exact (H (S i) x y Hx Hy).
Qed.
Section Mono.
Variables m n : machine.
Hypothesis Roots : forall k l, root_of m k l <-> root_of n k l.
Hypothesis Edges : forall t b, holds m (RAuth (mk_auth t b)) -> exists t', holds n (RAuth (mk_auth t' b)) /\ issued_for t' = issued_for t.
Hypothesis Revs : forall v, holds n (RRev v) -> holds m (RRev v).
Lemma links_mono : forall c b, links m b c -> exists c', map issued_for c' = map issued_for c /\ links n b c'.
Proof.
  induction c as [|t c IH]; intros b H; [exists []; split; [reflexivity|exact I]|]. destruct H as [H1 H2]. destruct (Edges _ _ H1) as (t' & H1' & E).
  destruct (IH _ H2) as (c' & E' & H2'). exists (t' :: c'). cbn [map links]. rewrite E, E'. auto.
Qed.
Lemma key_at_map : forall c c' i k, map issued_for c' = map issued_for c -> key_at c' i k -> key_at c i k.
Proof.
  intros c c' i k E (t & H & Ek). assert (X : nth_error (map issued_for c') i = Some k) by (rewrite nth_error_map; unfold at_pos in H; rewrite H; cbn; f_equal; exact Ek).
  rewrite E, nth_error_map in X. destruct (nth_error c i) as [u|] eqn:U; [|discriminate X]. injection X as X. exists u. split; [exact U|exact X].
Qed.
Lemma chain_mono : forall pk c, m_chain m pk c -> exists c', m_chain n pk c' /\ map issued_for c' = map issued_for c.
Proof.
  intros pk c (H1 & H2 & H3 & H4 & H5 & H6). destruct c as [|t c]; [cbn in H1; lia|]. destruct (H3 t eq_refl) as ((l & R) & Hh).
  assert (Lk : links m (issued_for t) (t :: c)) by (split; [exact Hh|apply links_nth; exact H4]).
  destruct (links_mono _ _ Lk) as (c' & E & L'). destruct c' as [|t' c']; [discriminate E|]. exists (t' :: c'). split; [|exact E].
  assert (Et : issued_for t' = issued_for t) by (cbn in E; injection E; auto). destruct L' as [L1 L2].
  assert (El : length (t' :: c') = length (t :: c)) by (rewrite <- (map_length issued_for), E, map_length; reflexivity).
  split; [rewrite El; exact H1|]. split; [rewrite El; exact (key_at_map _ _ _ _ (eq_sym E) H2)|]. split; [|split; [|split]].
  - intros u Hu. injection Hu as <-. rewrite Et in *. split; [exists l; apply Roots; exact R|exact L1].
  - exact (proj1 (links_nth n c' t') L2).
  - intros i j k Lt Ki Kj. exact (H5 i j k Lt (key_at_map _ _ _ _ E Ki) (key_at_map _ _ _ _ E Kj)).
  - intros i j v Lt Hv Ki Kj. rewrite El. exact (H6 i j v Lt (Revs v Hv) (key_at_map _ _ _ _ E Ki) (key_at_map _ _ _ _ E Kj)).
Qed.
Lemma weight_mono : forall pk w w', m_weight m pk w -> m_weight n pk w' -> w <= w'.
Proof.
  intros pk w w' [_ [H|[-> _]]] [G _]; [|lia]. apply G. destruct H as [(l & R & E)|(c & Hc & (t & l & Ht & R & E))]; [left; exists l; split; [apply Roots; exact R|exact E]|].
  right. destruct (chain_mono pk c Hc) as (c' & Hc' & Em). exists c'. split; [exact Hc'|].
  assert (El : length c' = length c) by (rewrite <- (map_length issued_for), Em, map_length; reflexivity).
  destruct (key_at_map _ _ 0%nat (issued_for t) (eq_sym Em) (ex_intro _ t (conj Ht eq_refl))) as (t' & Ht' & Et).
  exists t', l. split; [exact Ht'|]. rewrite Et, El. split; [apply Roots; exact R|exact E].
Qed.
Lemma passes_mono : forall b k p p', m_passes m b k p -> m_passes n b k p' -> p <= p'.
Proof.
  intros b k p p' (w & W & K) (w' & W' & K'). pose proof (weight_mono b w w' W W') as Le.
  destruct K as [(E & ->)|(E & ->)], K' as [(E' & ->)|(E' & ->)]; try contradiction; [exact Le|]. apply N.div_le_mono; lia.
Qed.
End Mono.

(** ** Offers *)
Section Offers.
Variable C : crypto.
Variable now : duration.
Variable T : list piece.
Definition rel_of (p : piece) : relation := RAuth (mk_auth (fst p) (snd p)).
Hypothesis Acc : forall p, In p T -> acceptable C (snd p) (fst p) now /\ whole (rel_of p) = rel_of p /\ ~ db_expired now (rel_of p).
Hypothesis Dist : forall p q, In p T -> In q T -> same_keys (rel_of p) (rel_of q) -> rel_issued_at (rel_of p) = rel_issued_at (rel_of q) -> rel_of p = rel_of q.

Definition live (m : machine) (x : relation) : Prop := holds m x /\ ~ db_expired now x.
Definition roots_same (m n : machine) : Prop := forall k l, root_of m k l <-> root_of n k l.
(** What an offer does: nothing, or an import. *)
Lemma offer_step : forall m p a ms, In p T -> m_add_trust C m (fst p) (snd p) now a ms -> roots_same (last ms m) m /\
  ((m_passes (m_collect m now) (snd p) (issued_for (fst p)) 0 /\ forall x, live (last ms m) x <-> live m x) \/
   (exists w, m_passes (m_collect m now) (snd p) (issued_for (fst p)) w /\ 0 < w /\ forall x, live (last ms m) x <-> holds (m_import (m_collect m now) (rel_of p)) x)).
Proof.
  intros m p a ms I H. destruct (Acc p I) as (A1 & A2 & A3). inversion H as [Na|Ac Ps|w Ac Ps Pp]; subst.
  - destruct (Na A1).
  - split; [intros k l; reflexivity|]. left. split; [exact Ps|]. intros x. unfold live. cbn [last m_collect holds]. tauto.
  - split; [intros k l; reflexivity|]. right. exists w. split; [exact Ps|]. split; [exact Pp|]. intros x. unfold live. cbn [last].
    fold (rel_of p). split; [intros [X _]; exact X|]. intros X. split; [exact X|]. cbn [m_import m_collect holds] in X.
    destruct X as [(_ & _ & X)|[(_ & (_ & X) & _)|(-> & _)]]; [exact X|exact X|]. rewrite A2. exact A3.
Qed.

Definition newer (x y : relation) : Prop := x = y \/ before (rel_issued_at x) (rel_issued_at y).
Lemma before_trans : forall a b c, before a b -> before b c -> before a c.
Proof. intros a b c [H|[H H']] [K|[K K']]; unfold before; lia. Qed.
Lemma before_irrefl : forall a, ~ before a a.
Proof. intros a [H|[_ H]]; lia. Qed.
Lemma before_total : forall a b, ~ before a b -> ~ before b a -> a = b.
Proof. intros [s n] [s' n'] H K. unfold before in *. cbn in *. f_equal; lia. Qed.
Lemma before_dec : forall a b, before a b \/ ~ before a b.
Proof. intros a b. unfold before. lia. Qed.
Lemma newer_trans : forall x y z, newer x y -> newer y z -> newer x z.
Proof. intros x y z [->|H] K; [exact K|]. destruct K as [<-|K]; [right; exact H|right; exact (before_trans _ _ _ H K)]. Qed.
Lemma newer_anti : forall x y, newer x y -> newer y x -> x = y.
Proof. intros x y [->|H] K; [reflexivity|]. destruct K as [->|K]; [reflexivity|]. destruct (before_irrefl _ (before_trans _ _ _ H K)). Qed.
Lemma keys_sym : forall x y, same_keys x y -> same_keys y x.
Proof. intros x y [H K]. split; auto. Qed.
Lemma keys_trans : forall x y z, same_keys x y -> same_keys y z -> same_keys x z.
Proof. intros x y z [H K] [H' K']. split; congruence. Qed.

(** What offers keep, from the state [m0] on. *)
Record grown_from (m0 m : machine) : Prop := mk_grown {
  g_roots : roots_same m m0;
  g_from : forall x, live m x -> live m0 x \/ exists p, In p T /\ x = rel_of p;
  g_kept : forall x, live m0 x -> exists y, live m y /\ same_keys x y /\ newer x y;
  g_one : forall x y, live m x -> live m y -> same_keys x y -> x = y;
  g_dec : forall x, (exists y, live m y /\ same_keys x y) \/ (forall y, live m y -> ~ same_keys x y)
}.
(** An import either leaves everything or puts the new one in the place of an older one. *)
Lemma import_cases : forall m p, In p T -> (forall x y, live m x -> live m y -> same_keys x y -> x = y) ->
  (forall x, (exists y, live m y /\ same_keys x y) \/ (forall y, live m y -> ~ same_keys x y)) ->
  ((exists y, live m y /\ same_keys (rel_of p) y /\ ~ before (rel_issued_at y) (rel_issued_at (rel_of p))) /\
    forall x, holds (m_import (m_collect m now) (rel_of p)) x <-> live m x) \/
  ((forall y, live m y -> same_keys (rel_of p) y -> before (rel_issued_at y) (rel_issued_at (rel_of p))) /\
    forall x, holds (m_import (m_collect m now) (rel_of p)) x <-> x = rel_of p \/ (live m x /\ ~ same_keys (rel_of p) x)).
Proof.
  intros m p I One Dec. destruct (Acc p I) as (_ & W & _). cbn [m_import holds]. change (holds (m_collect m now)) with (live m). rewrite W.
  destruct (Dec (rel_of p)) as [(y & Hy & K)|No].
  - destruct (before_dec (rel_issued_at y) (rel_issued_at (rel_of p))) as [B|B].
    + right. assert (Al : forall z, live m z -> same_keys (rel_of p) z -> before (rel_issued_at z) (rel_issued_at (rel_of p))).
      { intros z Hz Kz. rewrite (One z y Hz Hy (keys_trans _ _ _ (keys_sym _ _ Kz) K)). exact B. }
      split; [exact Al|]. intros x. split.
      * intros [(X1 & X2)|[(X1 & X2 & X3)|(-> & _)]]; [right; auto|destruct (X3 (Al x X2 X1))|left; reflexivity].
      * intros [->|(X1 & X2)]; [right; right; split; [reflexivity|exact Al]|left; auto].
    + left. split; [exists y; auto|]. intros x. split.
      * intros [(_ & X)|[(_ & X & _)|(-> & X)]]; [exact X|exact X|]. destruct (B (X y Hy K)).
      * intros X. destruct (same_keys_dec (rel_of p) x) as [Kx|Kx]; [|left; auto]. right. left. split; [exact Kx|]. split; [exact X|].
        rewrite (One x y X Hy (keys_trans _ _ _ (keys_sym _ _ Kx) K)). exact B.
  - right. split; [intros y Hy K; destruct (No y Hy K)|]. intros x. split.
    + intros [(X1 & X2)|[(X1 & X2 & _)|(-> & _)]]; [right; auto|destruct (No x X2 X1)|left; reflexivity].
    + intros [->|(X1 & X2)]; [right; right; split; [reflexivity|intros z Hz K; destruct (No z Hz K)]|left; auto].
Qed.
Lemma grown_ext : forall m0 m m', grown_from m0 m -> roots_same m' m -> (forall x, live m' x <-> live m x) -> grown_from m0 m'.
Proof.
  intros m0 m m' [G1 G2 G3 G4 G5] R E. constructor.
  - intros k l. rewrite (R k l). apply G1.
  - intros x H. apply G2. apply E. exact H.
  - intros x H. destruct (G3 x H) as (y & Hy & K). exists y. split; [apply E; exact Hy|exact K].
  - intros x y Hx Hy. apply G4; apply E; assumption.
  - intros x. destruct (G5 x) as [(y & Hy & K)|N0]; [left; exists y; split; [apply E; exact Hy|exact K]|right; intros y Hy; apply N0; apply E; exact Hy].
Qed.
Lemma grown_step : forall m0 m p a ms, In p T -> grown_from m0 m -> m_add_trust C m (fst p) (snd p) now a ms -> grown_from m0 (last ms m).
Proof.
  intros m0 m p a ms I G H. destruct (offer_step m p a ms I H) as (R & [(_ & E)|(w & _ & _ & E)]); [exact (grown_ext m0 m _ G R E)|].
  destruct (import_cases m p I (g_one _ _ G) (g_dec _ _ G)) as [(_ & Ic)|(Al & Ic)].
  - apply (grown_ext m0 m _ G R). intros x. rewrite E. apply Ic.
  - assert (E' : forall x, live (last ms m) x <-> x = rel_of p \/ (live m x /\ ~ same_keys (rel_of p) x)) by (intros x; rewrite E; apply Ic). clear E Ic.
    destruct G as [G1 G2 G3 G4 G5]. constructor.
    + intros k l. rewrite (R k l). apply G1.
    + intros x Hx. apply E' in Hx. destruct Hx as [->|(Hx & _)]; [right; exists p; auto|apply G2; exact Hx].
    + intros x Hx. destruct (G3 x Hx) as (y & Hy & K & Nw). destruct (same_keys_dec (rel_of p) y) as [Ky|Ky].
      * exists (rel_of p). split; [apply E'; left; reflexivity|]. split; [exact (keys_trans _ _ _ K (keys_sym _ _ Ky))|]. apply (newer_trans _ _ _ Nw). right. exact (Al y Hy Ky).
      * exists y. split; [apply E'; right; auto|auto].
    + intros x y Hx Hy K. apply E' in Hx, Hy. destruct Hx as [->|(Hx & Nx)], Hy as [->|(Hy & Ny)]; [reflexivity|destruct (Ny K)|destruct (Nx (keys_sym _ _ K))|exact (G4 x y Hx Hy K)].
    + intros x. destruct (same_keys_dec (rel_of p) x) as [Kx|Kx]; [left; exists (rel_of p); split; [apply E'; left; reflexivity|apply keys_sym; exact Kx]|].
      destruct (G5 x) as [(y & Hy & K)|N0].
      * left. exists y. split; [apply E'; right; split; [exact Hy|intros Ky; apply Kx; exact (keys_trans _ _ _ Ky (keys_sym _ _ K))]|exact K].
      * right. intros y Hy K. apply E' in Hy. destruct Hy as [->|(Hy & _)]; [apply Kx; apply keys_sym; exact K|exact (N0 y Hy K)].
Qed.

(** Everything a state holds the settled one has too, or newer. *)
Definition behind (m m2 : machine) : Prop := forall y, live m y -> exists z, live m2 z /\ same_keys y z /\ newer y z.
Definition at_rest (m : machine) : Prop :=
  forall p, In p T -> exists a ms, m_add_trust C m (fst p) (snd p) now a ms /\ forall x, live (last ms m) x <-> live m x.

Section Two.
Variables m0 m2 : machine.
Hypothesis G2 : grown_from m0 m2.
Hypothesis Rest : at_rest m2.
Lemma behind_edges : forall m, grown_from m0 m -> behind m m2 ->
  (forall t b, live m (RAuth (mk_auth t b)) -> exists t', live m2 (RAuth (mk_auth t' b)) /\ issued_for t' = issued_for t) /\
  (forall v, live m2 (RRev v) -> live m (RRev v)).
Proof.
  intros m G B. assert (Rv : forall v, live m2 (RRev v) -> exists y, live m y /\ same_keys (RRev v) y /\ newer (RRev v) y).
  { intros v Hv. destruct (g_from _ _ G2 _ Hv) as [H0|(p & _ & E)]; [|discriminate E]. exact (g_kept _ _ G _ H0). }
  split.
  - intros t b Hy. destruct (B _ Hy) as (z & Hz & [K1 K2] & Nw). destruct z as [[t' b']|v].
    + cbn in K1, K2. subst b'. exists t'. split; [exact Hz|symmetry; exact K1].
    + exfalso. destruct (Rv v Hz) as (y & Hy' & K' & Nw'). assert (Ey : y = RAuth (mk_auth t b)).
      { apply (g_one _ _ G); [exact Hy'|exact Hy|]. apply keys_sym in K'. exact (keys_trans _ _ _ K' (keys_sym _ _ (conj K1 K2))). }
      subst y. discriminate (newer_anti _ _ Nw Nw').
  - intros v Hv. destruct (Rv v Hv) as (y & Hy & K & Nw). destruct (B y Hy) as (z & Hz & Kz & Nz).
    assert (Ez : z = RRev v) by (apply (g_one _ _ G2); [exact Hz|exact Hv|exact (keys_sym _ _ (keys_trans _ _ _ K Kz))]). subst z.
    rewrite (newer_anti _ _ Nw Nz). exact Hy.
Qed.
Lemma behind_step : forall m p a ms, In p T -> grown_from m0 m -> behind m m2 -> m_add_trust C m (fst p) (snd p) now a ms -> behind (last ms m) m2.
Proof.
  intros m p a ms I G B H. destruct (offer_step m p a ms I H) as (_ & [(_ & E)|(w & Ps & Pw & E)]); [intros y Hy; apply E in Hy; exact (B y Hy)|].
  destruct (import_cases m p I (g_one _ _ G) (g_dec _ _ G)) as [(_ & Ic)|(Al & Ic)]; [intros y Hy; apply E, Ic in Hy; exact (B y Hy)|].
  intros y Hy. apply E, Ic in Hy. destruct Hy as [->|(Hy & _)]; [|exact (B y Hy)].
  destruct (behind_edges m G B) as [Ed Rv]. destruct (Rest p I) as (a2 & ms2 & H2 & Un).
  destruct (offer_step m2 p a2 ms2 I H2) as (_ & [(Ps2 & _)|(w2 & _ & _ & E2)]).
  - exfalso. assert (w <= 0); [|lia]. apply (passes_mono (m_collect m now) (m_collect m2 now)) with (b := snd p) (k := issued_for (fst p)).
    + intros k l. cbn [m_collect root_of]. rewrite (g_roots _ _ G k l), (g_roots _ _ G2 k l). reflexivity.
    + exact Ed.
    + exact Rv.
    + exact Ps.
    + exact Ps2.
  - destruct (import_cases m2 p I (g_one _ _ G2) (g_dec _ _ G2)) as [((z & Hz & Kz & Nb) & _)|(_ & Ic2)].
    + exists z. split; [exact Hz|]. split; [exact Kz|]. destruct (before_dec (rel_issued_at (rel_of p)) (rel_issued_at z)) as [Bz|Bz]; [right; exact Bz|]. left.
      pose proof (before_total _ _ Bz Nb) as Et. destruct (g_from _ _ G2 z Hz) as [H0|(q & Iq & ->)]; [|exact (Dist p q I Iq Kz Et)].
      exfalso. destruct (g_kept _ _ G z H0) as (y & Hy & Ky & Nw). pose proof (Al y Hy (keys_trans _ _ _ Kz Ky)) as By. rewrite Et in By.
      destruct Nw as [<-|Nw]; [exact (before_irrefl _ By)|exact (before_irrefl _ (before_trans _ _ _ By Nw))].
    + exists (rel_of p). split; [apply Un, E2, Ic2; left; reflexivity|]. split; [split; reflexivity|left; reflexivity].
Qed.
End Two.
Lemma offers_run : forall h m as_ m' (P : machine -> Prop), (forall p, In p h -> In p T) -> P m ->
  (forall m p a ms, In p T -> P m -> m_add_trust C m (fst p) (snd p) now a ms -> P (last ms m)) ->
  m_run C m (no_failures (map (offer now) h)) as_ m' -> P m'.
Proof.
  induction h as [|p h IH]; intros m as_ m' P Ih P0 Ps H; cbn [map no_failures] in H; inversion H as [|? ? ? ? a ms as' ? K1 K2|]; subst; [exact P0|].
  apply (IH (last ms m) as' m' P); [intros q Iq; apply Ih; right; exact Iq| |exact Ps|exact K2].
  inversion K1; subst. apply (Ps m p a ms); [apply Ih; left; reflexivity|exact P0|assumption].
Qed.
Lemma grown_refl : forall m0, (forall x y, live m0 x -> live m0 y -> same_keys x y -> x = y) ->
  (forall x, (exists y, live m0 y /\ same_keys x y) \/ (forall y, live m0 y -> ~ same_keys x y)) -> grown_from m0 m0.
Proof.
  intros m0 One Dec. constructor; [intros k l; reflexivity|auto| |exact One|exact Dec]. intros x Hx. exists x. split; [exact Hx|]. split; [split; reflexivity|left; reflexivity].
Qed.
(** Two states at rest that grew from one state are the same. *)
Lemma rest_unique : forall m0 n1 n2 h1 h2 as1 as2 m1 m2, grown_from m0 m0 -> roots_same n1 m0 -> (forall x, live n1 x <-> live m0 x) -> roots_same n2 m0 -> (forall x, live n2 x <-> live m0 x) ->
  (forall p, In p h1 -> In p T) -> (forall p, In p h2 -> In p T) ->
  m_run C n1 (no_failures (map (offer now) h1)) as1 m1 -> m_run C n2 (no_failures (map (offer now) h2)) as2 m2 -> at_rest m1 -> at_rest m2 ->
  forall x, live m1 x <-> live m2 x.
Proof.
  intros m0 n1 n2 h1 h2 as1 as2 m1 m2 G0 Q1 E1 Q2 E2 I1 I2 R1 R2 S1 S2.
  assert (Gr : forall n h as_ m, roots_same n m0 -> (forall x, live n x <-> live m0 x) -> (forall p, In p h -> In p T) -> m_run C n (no_failures (map (offer now) h)) as_ m -> grown_from m0 m).
  { intros n h as_ m Q E Ih R. apply (offers_run h n as_ m (grown_from m0) Ih (grown_ext m0 m0 n G0 Q E)); [|exact R]. intros. eapply grown_step; eassumption. }
  assert (Bh : forall n h as_ m m', roots_same n m0 -> (forall x, live n x <-> live m0 x) -> (forall p, In p h -> In p T) -> m_run C n (no_failures (map (offer now) h)) as_ m ->
    grown_from m0 m' -> at_rest m' -> behind m m').
  { intros n h as_ m m' Q E Ih R G S0. apply (offers_run h n as_ m (fun m => grown_from m0 m /\ behind m m') Ih); [split; [exact (grown_ext m0 m0 n G0 Q E)|intros y Hy; apply E in Hy; exact (g_kept _ _ G y Hy)]| |exact R].
    intros n0 p a ms Ip [Gn Bn] H. split; [eapply grown_step; eassumption|]. exact (behind_step m0 m' G S0 n0 p a ms Ip Gn Bn H). }
  pose proof (Gr _ _ _ _ Q1 E1 I1 R1) as G1. pose proof (Gr _ _ _ _ Q2 E2 I2 R2) as G2.
  pose proof (Bh _ _ _ _ _ Q1 E1 I1 R1 G2 S2) as B12. pose proof (Bh _ _ _ _ _ Q2 E2 I2 R2 G1 S1) as B21.
  assert (Half : forall n n', grown_from m0 n -> behind n n' -> behind n' n -> forall x, live n x -> live n' x).
  { intros n n' G B B' x Hx. destruct (B x Hx) as (z & Hz & Kz & Nz). destruct (B' z Hz) as (y & Hy & Ky & Ny).
    assert (E : y = x) by (apply (g_one _ _ G); [exact Hy|exact Hx|exact (keys_sym _ _ (keys_trans _ _ _ Kz Ky))]). subst y. rewrite (newer_anti _ _ Nz Ny). exact Hz. }
  intros x. split; [exact (Half m1 m2 G1 B12 B21 x)|exact (Half m2 m1 G2 B21 B12 x)].
Qed.

(** ** Enough rounds *)
Definition superseded (m : machine) (x : relation) : Prop := exists y, live m y /\ same_keys x y /\ ~ before (rel_issued_at y) (rel_issued_at x).
Definition idle (m : machine) (p : piece) : Prop := m_passes (m_collect m now) (snd p) (issued_for (fst p)) 0 \/ superseded m (rel_of p).
Definition single (m : machine) : Prop := (forall x y, live m x -> live m y -> same_keys x y -> x = y) /\
  (forall x, (exists y, live m y /\ same_keys x y) \/ (forall y, live m y -> ~ same_keys x y)).
Lemma single_step : forall m p a ms, In p T -> single m -> m_add_trust C m (fst p) (snd p) now a ms -> single (last ms m).
Proof.
  intros m p a ms I [S1 S2] H. pose proof (grown_step m m p a ms I (grown_refl m S1 S2) H) as G. exact (conj (g_one _ _ G) (g_dec _ _ G)).
Qed.
Lemma superseded_step : forall x m p a ms, In p T -> single m /\ superseded m x -> m_add_trust C m (fst p) (snd p) now a ms -> single (last ms m) /\ superseded (last ms m) x.
Proof.
  intros x m p a ms I [S0 (y & Hy & K & Nb)] H. split; [exact (single_step m p a ms I S0 H)|].
  destruct (g_kept _ _ (grown_step m m p a ms I (grown_refl m (proj1 S0) (proj2 S0)) H) y Hy) as (z & Hz & Kz & Nz).
  exists z. split; [exact Hz|]. split; [exact (keys_trans _ _ _ K Kz)|]. destruct Nz as [<-|Nz]; [exact Nb|]. intros B. apply Nb. exact (before_trans _ _ _ Nz B).
Qed.
Lemma passes_ext : forall m n b k w, roots_same m n -> (forall x, live m x <-> live n x) -> m_passes (m_collect m now) b k w -> m_passes (m_collect n now) b k w.
Proof.
  intros m n b k w R E (v & W & K). exists v. split; [|exact K]. revert W. unfold m_weight. apply greatest_ext. intros u.
  assert (Sm : same_machine (m_collect m now) (m_collect n now)) by (split; [exact E|exact R]).
  assert (Sm' : same_machine (m_collect n now) (m_collect m now)) by (split; [intros x; symmetry; apply E|intros a l; symmetry; apply R]).
  split; (intros [(l & H1 & H2)|(c & H1 & (t & l & H2 & H3 & H4))]; [left; exists l; split; [apply R; exact H1|exact H2]|right; exists c]).
  - split; [exact (chain_ext _ _ Sm _ _ H1)|]. exists t, l. split; [exact H2|]. split; [apply R; exact H3|exact H4].
  - split; [exact (chain_ext _ _ Sm' _ _ H1)|]. exists t, l. split; [exact H2|]. split; [apply R; exact H3|exact H4].
Qed.
Lemma idle_ext : forall m n p, roots_same m n -> (forall x, live m x <-> live n x) -> idle m p -> idle n p.
Proof.
  intros m n p R E [H|(y & Hy & K)]; [left; exact (passes_ext m n _ _ _ R E H)|right; exists y; split; [apply E; exact Hy|exact K]].
Qed.
Lemma single_ext : forall m n, (forall x, live m x <-> live n x) -> single m -> single n.
Proof.
  intros m n E [S1 S2]. split; [intros x y Hx Hy; apply S1; apply E; assumption|]. intros x. destruct (S2 x) as [(y & Hy & K)|N0]; [left; exists y; split; [apply E; exact Hy|exact K]|right; intros y Hy; apply N0; apply E; exact Hy].
Qed.
(** An offer does nothing, or it supersedes what was not superseded. *)
Lemma offer_cases : forall m p a ms, In p T -> single m -> m_add_trust C m (fst p) (snd p) now a ms -> roots_same m (last ms m) /\
  ((idle m p /\ forall x, live m x <-> live (last ms m) x) \/ (~ superseded m (rel_of p) /\ superseded (last ms m) (rel_of p))).
Proof.
  intros m p a ms I [S1 S2] H. destruct (offer_step m p a ms I H) as (R & D). split; [intros k l; symmetry; apply R|]. destruct D as [(Ps & E)|(w & _ & _ & E)].
  - left. split; [left; exact Ps|intros x; symmetry; apply E].
  - destruct (import_cases m p I S1 S2) as [(Ex & Ic)|(Al & Ic)].
    + left. split; [right; exact Ex|intros x; rewrite E, Ic; reflexivity].
    + right. split; [intros (y & Hy & K & Nb); exact (Nb (Al y Hy K))|]. exists (rel_of p). split; [apply E, Ic; left; reflexivity|]. split; [split; reflexivity|apply before_irrefl].
Qed.
(** If a run of idle offers starts, nothing changes. *)
Lemma idle_does_nothing : forall m p a ms, In p T -> single m -> idle m p -> m_add_trust C m (fst p) (snd p) now a ms -> forall x, live m x <-> live (last ms m) x.
Proof.
  intros m p a ms I S0 Id H. destruct (offer_cases m p a ms I S0 H) as (_ & [(_ & E)|(N0 & Sp)]); [exact E|].
  destruct Id as [Ps|Sp']; [|destruct (N0 Sp')]. destruct (offer_step m p a ms I H) as (_ & [(_ & E)|(w & (v & W & K) & Pw & _)]); [intros x; symmetry; apply E|].
  exfalso. destruct Ps as (v' & W' & K'). pose proof (greatest_one _ _ _ W W') as Ev. subst v'. destruct K as [(A & B)|(A & B)], K' as [(A' & B')|(A' & B')]; try contradiction; lia.
Qed.
Definition quiet (m n : machine) : Prop := roots_same m n /\ (forall x, live m x <-> live n x).
Lemma quiet_run : forall h m as_ m', (forall p, In p h -> In p T) -> single m -> (forall p, In p T -> idle m p) ->
  m_run C m (no_failures (map (offer now) h)) as_ m' -> quiet m m' /\ single m' /\ forall p, In p T -> idle m' p.
Proof.
  intros h m as_ m' Ih S0 Id R.
  refine (offers_run h m as_ m' (fun n => quiet m n /\ single n /\ forall p, In p T -> idle n p) Ih _ _ R).
  - split; [split; [intros k l; reflexivity|intros x; reflexivity]|]. auto.
  - intros n p a ms Ip ([Q1 Q2] & Sn & Idn) H. pose proof (idle_does_nothing n p a ms Ip Sn (Idn p Ip) H) as E. destruct (offer_cases n p a ms Ip Sn H) as (Rn & _).
    split; [split; [intros k l; rewrite (Q1 k l); apply Rn|intros x; rewrite (Q2 x); apply E]|]. split; [exact (single_ext _ _ E Sn)|].
    intros q Iq. exact (idle_ext _ _ _ Rn E (Idn q Iq)).
Qed.
Lemma round_run : forall r m as_ m', (forall p, In p r -> In p T) -> single m -> m_run C m (no_failures (map (offer now) r)) as_ m' ->
  (exists p, In p T /\ ~ superseded m (rel_of p) /\ superseded m' (rel_of p)) \/ (quiet m m' /\ forall p, In p r -> idle m p).
Proof.
  induction r as [|p r IH]; intros m as_ m' Ir S0 H; cbn [map no_failures] in H; inversion H as [|? ? ? ? a ms as' ? K1 K2|]; subst.
  - right. split; [split; [intros k l; reflexivity|intros x; reflexivity]|intros q []].
  - inversion K1 as [|? ? ? ? ? Ka| | | | | | | | |]; subst. assert (Ip : In p T) by (apply Ir; left; reflexivity).
    pose proof (single_step m p a ms Ip S0 Ka) as S1. destruct (offer_cases m p a ms Ip S0 Ka) as (R & [(Id & E)|(Ns & Sp)]).
    + destruct (IH (last ms m) as' m' (fun q J => Ir q (or_intror J)) S1 K2) as [(q & Iq & Nq & Sq)|([Q1 Q2] & Q3)].
      * left. exists q. split; [exact Iq|]. split; [|exact Sq]. intros (y & Hy & K). apply Nq. exists y. split; [apply E; exact Hy|exact K].
      * right. split; [split; [intros k l; rewrite (R k l); apply Q1|intros x; rewrite (E x); apply Q2]|]. intros q [<-|Iq]; [exact Id|].
        apply (idle_ext (last ms m) m q); [intros k l; symmetry; apply R|intros x; symmetry; apply E|exact (Q3 q Iq)].
    + left. exists p. split; [exact Ip|]. split; [exact Ns|].
      refine (proj2 (offers_run r (last ms m) as' m' (fun n => single n /\ superseded n (rel_of p)) (fun q J => Ir q (or_intror J)) (conj S1 Sp) _ K2)).
      intros n q b ns Iq Hn Hc. exact (superseded_step (rel_of p) n q b ns Iq Hn Hc).
Qed.
Lemma run_split : forall es es' m as_ m', m_run C m (es ++ es') as_ m' -> exists as1 as2 m1, as_ = as1 ++ as2 /\ m_run C m es as1 m1 /\ m_run C m1 es' as2 m'.
Proof.
  induction es as [|e es IH]; intros es' m as_ m' H; [exists [], as_, m; split; [reflexivity|]; split; [constructor|exact H]|].
  cbn [app] in H. inversion H as [|? c fu ? a ms as' ? K1 K2|? c n ? a ms m1 as' ? K1 J K2]; subst; destruct (IH _ _ _ _ K2) as (as1 & as2 & m2 & -> & R1 & R2).
  - exists (a :: as1), as2, m2. split; [reflexivity|]. split; [econstructor; eassumption|exact R2].
  - exists (A_refused :: as1), as2, m2. split; [reflexivity|]. split; [eapply run_fail; eassumption|exact R2].
Qed.
Lemma rounds_run : forall rs n l m as_ m', (forall r, In r rs -> a_round T r) -> single m -> (length l <= n)%nat -> (n <= length rs)%nat ->
  (forall p, In p T -> In p l \/ superseded m (rel_of p)) ->
  m_run C m (no_failures (map (offer now) (concat rs))) as_ m' -> forall p, In p T -> idle m' p.
Proof.
  induction rs as [|r rs IH]; intros n l m as_ m' Ir S0 Ln Le Hl H p Ip.
  - cbn in H. inversion H; subst. right. destruct l as [|q l]; [|cbn in Ln, Le; lia]. destruct (Hl p Ip) as [[]|Hs]. exact Hs.
  - cbn [concat] in H. unfold no_failures in H. rewrite !map_app in H. apply run_split in H. destruct H as (as1 & as2 & m1 & -> & R1 & R2).
    fold (no_failures (map (offer now) r)) in R1. fold (no_failures (map (offer now) (concat rs))) in R2.
    assert (Ir' : forall q, In q r -> In q T) by (intros q Iq; apply (Ir r (or_introl eq_refl)); exact Iq).
    assert (S1 : single m1) by (apply (offers_run r m as1 m1 single Ir' S0); [intros; eapply single_step; eassumption|exact R1]).
    assert (Irs : forall q, In q (concat rs) -> In q T).
    { intros q Iq. apply in_concat in Iq. destruct Iq as (r' & Ir2 & Iq). apply (Ir r' (or_intror Ir2)). exact Iq. }
    destruct (round_run r m as1 m1 Ir' S0 R1) as [(q & Iq & Nq & Sq)|([Q1 Q2] & Q3)].
    + destruct (Hl q Iq) as [J|J]; [|destruct (Nq J)]. apply in_split in J. destruct J as (l1 & l2 & ->).
      apply (IH (length (l1 ++ l2)) (l1 ++ l2) m1 as2 m'); [intros r' J; apply Ir; right; exact J|exact S1|lia| | |exact R2|exact Ip].
      * rewrite app_length in *. cbn [length] in *. lia.
      * intros q' Iq'. destruct (Hl q' Iq') as [J|J].
        -- apply in_app_iff in J. destruct J as [J|[<-|J]]; [left; apply in_app_iff; auto|right; exact Sq|left; apply in_app_iff; auto].
        -- right. refine (proj2 (offers_run r m as1 m1 (fun n0 => single n0 /\ superseded n0 (rel_of q')) Ir' (conj S0 J) _ R1)).
           intros n0 q0 b ns Iq0 Hn Hc. exact (superseded_step (rel_of q') n0 q0 b ns Iq0 Hn Hc).
    + destruct (quiet_run (concat rs) m1 as2 m' Irs S1) as (_ & _ & Id); [|exact R2|exact (Id p Ip)].
      intros q Iq. apply (idle_ext m m1 q Q1 Q2). apply Q3. apply (Ir r (or_introl eq_refl)). exact Iq.
Qed.
(** After an offer nothing has expired. *)
Lemma offer_clean : forall m p a ms, In p T -> m_add_trust C m (fst p) (snd p) now a ms -> forall x, holds (last ms m) x -> ~ db_expired now x.
Proof.
  intros m p a ms I H x. destruct (Acc p I) as (A1 & A2 & A3). inversion H as [Na|Ac Ps|w Ac Ps Pp]; subst; [destruct (Na A1)|intros [_ X]; exact X|]. cbn [last m_import m_collect holds].
  fold (rel_of p). intros [(_ & _ & X)|[(_ & (_ & X) & _)|(-> & _)]]; [exact X|exact X|]. rewrite A2. exact A3.
Qed.
Lemma run_clean : forall h m as_ m', (forall p, In p h -> In p T) -> h <> [] -> m_run C m (no_failures (map (offer now) h)) as_ m' -> forall x, holds m' x -> ~ db_expired now x.
Proof.
  intros h m as_ m' Ih Ne H. destruct h as [|p h]; [contradiction|]. cbn [map no_failures] in H. inversion H as [|? ? ? ? a ms as' ? K1 K2|]; subst.
  inversion K1 as [|? ? ? ? ? Ka| | | | | | | | |]; subst.
  refine (offers_run h (last ms m) as' m' (fun n => forall x, holds n x -> ~ db_expired now x) (fun q J => Ih q (or_intror J)) _ _ K2).
  - exact (offer_clean m p a ms (Ih p (or_introl eq_refl)) Ka).
  - intros n q b ns Iq _ Hc. exact (offer_clean n q b ns Iq Hc).
Qed.
End Offers.

(** ** C175 *)
Lemma news_acc : forall C now T, secs now < i64_bound -> news C now T ->
  (forall p, In p T -> acceptable C (snd p) (fst p) now /\ whole (rel_of p) = rel_of p /\ ~ db_expired now (rel_of p)) /\
  (forall p q, In p T -> In q T -> same_keys (rel_of p) (rel_of q) -> rel_issued_at (rel_of p) = rel_issued_at (rel_of q) -> rel_of p = rel_of q).
Proof.
  intros C now T Sn [N1 N2]. split.
  - intros [t b] I. destruct (N1 t b I) as ((_ & _ & D & _) & _ & Sg & W & E1 & E2). cbn [fst snd]. split; [|split].
    + split; [exact Sg|]. intros [X|[X _]]; lia.
    + unfold rel_of. cbn [whole fst snd auth_trust issued_by]. rewrite W. reflexivity.
    + apply unexpired_secs; [exact Sn|destruct D; assumption|unfold rel_of; eauto|]. cbn [rel_of rel_expires_at auth_trust fst]. lia.
  - intros [t b] [t' b'] I I' [K1 K2] E. cbn in K1, K2, E. subst b'. unfold rel_of. cbn [fst snd]. rewrite (N2 t t' b I I' K1 E). reflexivity.
Qed.
Lemma store_single : forall C d now, reachable C d -> single now (contents d).
Proof.
  intros C d now R. split.
  - intros x y [Hx _] [Hy _]. exact (p_C30_one_relation_per_pair C d x y R Hx Hy).
  - apply reachable_inv in R. destruct R as (s & -> & I). intros x. unfold live. cbn [contents holds].
    assert (Dx : forall y, db_expired now y \/ ~ db_expired now y) by (intros [a|v]; cbn [db_expired]; [lia|right; auto]).
    destruct (some_pair x (rels s)) as [(z & Iz & K)|N0].
    + destruct (Dx z) as [D|D]; [|left; exists z; split; [split; [apply (stored_in C); [apply I|exact Iz]|exact D]|exact K]].
      right. intros y [Hy Ny] Ky. apply (stored_in C) in Hy; [|apply I]. assert (y = z); [|subst y; contradiction].
      destruct K as [K1 K2], Ky as [Y1 Y2]. apply (pair_unique (rels s)); try assumption; [apply (wf_nodup C); apply I|congruence|congruence].
    + right. intros y [Hy _] Ky. apply (stored_in C) in Hy; [|apply I]. exact (N0 y Hy Ky).
Qed.
Lemma few_app : forall C es es' d, reachable C d -> typed_history C es -> few d (es ++ es') -> few (graph_history C d es) es'.
Proof.
  intros C es es' d R T F. apply reachable_inv in R. destruct R as (s & -> & I).
  assert (Rm : room s (list_sum (map (fun e => offered (fst e)) es) + list_sum (map (fun e => offered (fst e)) es'))).
  { unfold few in F. cbn [db_of tbl_relations] in F. rewrite map_length, map_app, list_sum_app in F. exact F. }
  clear F. revert s I T Rm. induction es as [|[c fu] es IH]; intros s I T Rm.
  - unfold few. cbn [graph_history fold_left db_of tbl_relations]. rewrite map_length. exact Rm.
  - inversion T as [|? ? Tc Te]; subst. cbn [map list_sum fold_right fst] in Rm. rewrite <- Nat.add_assoc in Rm.
    destruct (step_sim C s (contents (db_of s)) c fu _ I Tc Rm (same_refl _)) as (a & ms & s' & m' & H1 & H2 & H3 & H4 & _).
    change (few (graph_history C (snd (graph_step C (db_of s) (c, fu))) es) es'). rewrite H2. apply IH; assumption.
Qed.
Lemma offers_typed : forall C now T h, news C now T -> duration_wf now -> (forall p, In p h -> In p T) -> typed_history C (no_failures (map (offer now) h)).
Proof.
  intros C now T h [N1 _] Tn Ih. apply Forall_forall. intros e Ie. unfold no_failures in Ie. rewrite map_map in Ie. apply in_map_iff in Ie. destruct Ie as ([t b] & <- & Ip).
  destruct (N1 t b (Ih _ Ip)) as (X & Y & _). split; [exact X|]. split; [exact Y|exact Tn].
Qed.
(** One call, at the store and at the machine. *)
Lemma one_offer : forall C d now p, reachable C d -> call_typed C (offer now p) -> few d [(offer now p, None)] ->
  exists a ms, m_add_trust C (contents d) (fst p) (snd p) now a ms /\ same_machine (contents (snd (graph_step C d (offer now p, None)))) (last ms (contents d)).
Proof.
  intros C d now p R Tc F. destruct (p_C155_library_is_machine C d [(offer now p, None)] R) as (as_ & m & H & _ & Sm); [constructor; [exact Tc|constructor]|exact F|].
  inversion H as [|? ? ? ? a ms as' ? K1 K2|]; subst. inversion K2; subst. inversion K1; subst. exists a, ms. split; [assumption|exact Sm].
Qed.
(** Two nodes with the same contents hear trusts of [T], each in its own order and as often as it may be. When neither would learn anything from hearing one
    of them again, they have the same contents. *)
Lemma p_C175_agree : forall C d1 d2 now T h1 h2, reachable C d1 -> reachable C d2 -> same_contents d1 d2 -> duration_wf now -> secs now < i64_bound -> news C now T ->
  incl h1 T -> incl h2 T -> few d1 (no_failures (map (offer now) (h1 ++ T))) -> few d2 (no_failures (map (offer now) (h2 ++ T))) ->
  let d1' := graph_history C d1 (no_failures (map (offer now) h1)) in
  let d2' := graph_history C d2 (no_failures (map (offer now) h2)) in
  settled C d1' now T -> settled C d2' now T -> same_contents d1' d2'.
Proof.
  intros C d1 d2 now T h1 h2 R1 R2 [E1 E2] Tn Sn Nw I1 I2 F1 F2 d1' d2' S1 S2. destruct (news_acc C now T Sn Nw) as [Acc Dist].
  destruct T as [|p0 T0] eqn:ET.
  { destruct h1 as [|q1 h1]; [|destruct (I1 q1 (or_introl eq_refl))]. destruct h2 as [|q2 h2]; [|destruct (I2 q2 (or_introl eq_refl))]. split; assumption. }
  rewrite <- ET in *. assert (Ip0 : In p0 T) by (rewrite ET; left; reflexivity).
  assert (Fin : forall d h, reachable C d -> incl h T -> few d (no_failures (map (offer now) (h ++ T))) -> settled C (graph_history C d (no_failures (map (offer now) h))) now T ->
    let d' := graph_history C d (no_failures (map (offer now) h)) in
    exists as_ m, m_run C (contents d) (no_failures (map (offer now) h)) as_ m /\ same_machine (contents d') m /\ at_rest C now T m /\
      (forall x, stored d' x -> ~ db_expired now x)).
  { intros d h R Ih F St d'. pose proof (offers_typed C now T h Nw Tn Ih) as Th.
    assert (F' : few d' (no_failures (map (offer now) T))).
    { apply few_app; [exact R|exact Th|]. unfold no_failures in *. rewrite !map_app in F. exact F. }
    assert (Fh : few d (no_failures (map (offer now) h))).
    { unfold few, no_failures in *. rewrite !map_app, list_sum_app in F. lia. }
    assert (Rd : reachable C d') by (apply history_reachable; assumption).
    destruct (p_C155_library_is_machine C d _ R Th Fh) as (as_ & m & Hr & _ & Sm). exists as_, m. split; [exact Hr|]. split; [exact Sm|].
    assert (One : forall p, In p T -> exists a ms, m_add_trust C (contents d') (fst p) (snd p) now a ms /\
      same_machine (contents (snd (graph_step C d' (offer now p, None)))) (last ms (contents d'))).
    { intros p Ip. apply one_offer; [exact Rd| |].
      - destruct p as [t b]. destruct Nw as [N1 _]. destruct (N1 t b Ip) as (X & Y & _). split; [exact X|]. split; [exact Y|exact Tn].
      - apply in_split in Ip. destruct Ip as (l1 & l2 & El). rewrite El in F'. unfold few, no_failures in *. rewrite !map_app, list_sum_app in F'. cbn [map list_sum fold_right fst offer offered] in *. lia. }
    split.
    - intros p Ip. destruct (One p Ip) as (a & ms & Ha & [Sh _]).
      assert (Lv : forall x, live now (last ms (contents d')) x <-> live now (contents d') x).
      { intros x. unfold live. rewrite <- (Sh x). cbn [contents holds]. fold d' in St. rewrite (St p x Ip). reflexivity. }
      fold d' in Sm. destruct Sm as [Sm1 Sm2].
      assert (Q : forall x, live now (contents d') x <-> live now m x) by (intros x; unfold live; rewrite (Sm1 x); reflexivity).
      destruct (Acc p Ip) as (A1 & A2 & A3). inversion Ha as [Na|Ac Ps|w Ac Ps Pw]; subst.
      + destruct (Na A1).
      + exists (A_weight 0), [m_collect m now]. split; [apply at_ignored; [exact A1|exact (passes_ext now _ m _ _ _ Sm2 Q Ps)]|].
        intros x. unfold live. cbn [last m_collect holds]. tauto.
      + exists (A_weight w), [m_collect m now; m_import (m_collect m now) (RAuth (mk_auth (fst p) (snd p)))].
        split; [apply at_stored; [exact A1|exact (passes_ext now _ m _ _ _ Sm2 Q Ps)|exact Pw]|].
        intros x. rewrite <- (Q x), <- (Lv x). unfold live. cbn [last m_import holds]. change (holds (m_collect m now)) with (live now m). change (holds (m_collect (contents d') now)) with (live now (contents d')).
        split; (intros [[(X1 & X2)|[(X1 & X2 & X3)|(X1 & X2)]] Ne]; (split; [|exact Ne])).
        * left. split; [exact X1|apply Q; exact X2].
        * right. left. split; [exact X1|]. split; [apply Q; exact X2|exact X3].
        * right. right. split; [exact X1|]. intros z Hz. apply X2. apply Q. exact Hz.
        * left. split; [exact X1|apply Q; exact X2].
        * right. left. split; [exact X1|]. split; [apply Q; exact X2|exact X3].
        * right. right. split; [exact X1|]. intros z Hz. apply X2. apply Q. exact Hz.
    - intros x Hx. destruct (One p0 Ip0) as (a & ms & Ha & [Sh _]). apply (offer_clean C now T Acc (contents d') p0 a ms Ip0 Ha x). apply Sh. apply (St p0 x Ip0). exact Hx. }
  destruct (Fin d1 h1 R1 I1 F1 S1) as (as1 & m1 & Hr1 & Sm1 & At1 & Cl1). destruct (Fin d2 h2 R2 I2 F2 S2) as (as2 & m2 & Hr2 & Sm2 & At2 & Cl2).
  fold d1' in Sm1, Cl1. fold d2' in Sm2, Cl2.
  assert (Lv : forall x, live now m1 x <-> live now m2 x).
  { destruct (store_single C d1 now R1) as [U1 U2].
    apply (rest_unique C now T Acc Dist (contents d1) (contents d1) (contents d2) h1 h2 as1 as2 m1 m2 (grown_refl now T (contents d1) U1 U2)); try assumption.
    - intros k l. reflexivity.
    - intros x. reflexivity.
    - intros k l. symmetry. apply E2.
    - intros x. unfold live. cbn [contents holds]. rewrite (E1 x). reflexivity. }
  assert (Rt : forall d h as_ m, (forall p, In p h -> In p T) -> m_run C (contents d) (no_failures (map (offer now) h)) as_ m -> forall k l, root_of m k l <-> root_max_len d k l).
  { intros d h as_ m Ih Hr k l. revert k l. refine (offers_run C now T h (contents d) as_ m (fun n => forall k l, root_of n k l <-> root_max_len d k l) Ih _ _ Hr).
    - intros k l. reflexivity.
    - intros n p a ms Ip Hn H k l. destruct (offer_step C now T Acc n p a ms Ip H) as (Rn & _). rewrite (Rn k l). apply Hn. }
  destruct Sm1 as [A1 A2], Sm2 as [B1 B2]. split.
  - intros x. split; intros Hx.
    + apply B1. apply (proj1 (Lv x)). split; [apply A1; exact Hx|exact (Cl1 x Hx)].
    + apply A1. apply (proj2 (Lv x)). split; [apply B1; exact Hx|exact (Cl2 x Hx)].
  - intros k l. change (root_of (contents d1') k l <-> root_of (contents d2') k l). rewrite (A2 k l), (B2 k l), (Rt d1 h1 as1 m1 I1 Hr1 k l), (Rt d2 h2 as2 m2 I2 Hr2 k l). apply E2.
Qed.
(** After as many rounds as there are trusts nothing is learnt any more. *)
Lemma p_C175_settles : forall C d now T rounds, reachable C d -> duration_wf now -> secs now < i64_bound -> news C now T ->
  (forall r, In r rounds -> a_round T r) -> (length T <= length rounds)%nat -> few d (no_failures (map (offer now) (concat rounds ++ T))) ->
  settled C (graph_history C d (no_failures (map (offer now) (concat rounds)))) now T.
Proof.
  intros C d now T rounds R Tn Sn Nw Ir Le F p x Ip. destruct (news_acc C now T Sn Nw) as [Acc Dist].
  assert (Ih : forall q, In q (concat rounds) -> In q T).
  { intros q Iq. apply in_concat in Iq. destruct Iq as (r & Jr & Iq). apply (Ir r Jr). exact Iq. }
  pose proof (offers_typed C now T _ Nw Tn Ih) as Th. set (d' := graph_history C d (no_failures (map (offer now) (concat rounds)))).
  assert (F' : few d' (no_failures (map (offer now) T))).
  { apply few_app; [exact R|exact Th|]. unfold no_failures in *. rewrite !map_app in F. exact F. }
  assert (Fh : few d (no_failures (map (offer now) (concat rounds)))).
  { unfold few, no_failures in *. rewrite !map_app, list_sum_app in F. lia. }
  assert (Rd : reachable C d') by (apply history_reachable; assumption).
  destruct (p_C155_library_is_machine C d _ R Th Fh) as (as_ & m & Hr & _ & [Sm1 Sm2]). fold d' in Sm1, Sm2.
  assert (Id : idle now m p).
  { apply (rounds_run C now T Acc Dist rounds (length T) T (contents d) as_ m Ir (store_single C d now R) (le_n _) Le); [auto|exact Hr|exact Ip]. }
  assert (Ne : concat rounds <> []).
  { destruct rounds as [|r rs]; [destruct T; [destruct Ip|cbn in Le; lia]|]. apply (Ir r (or_introl eq_refl)) in Ip. destruct r as [|q r]; [destruct Ip|]. discriminate. }
  pose proof (run_clean C now T Acc _ (contents d) as_ m Ih Ne Hr) as Cl.
  assert (Q : forall y, live now m y <-> live now (contents d') y) by (intros y; unfold live; rewrite (Sm1 y); reflexivity).
  destruct (one_offer C d' now p Rd) as (a & ms & Ha & [Sh _]).
  { destruct p as [t b]. destruct Nw as [N1 _]. destruct (N1 t b Ip) as (X & Y & _). split; [exact X|]. split; [exact Y|exact Tn]. }
  { pose proof Ip as J. apply in_split in J. destruct J as (l1 & l2 & El). rewrite El in F'. unfold few, no_failures in *. rewrite !map_app, list_sum_app in F'. cbn [map list_sum fold_right fst offer offered] in *. lia. }
  pose proof (idle_does_nothing C now T Acc Dist (contents d') p a ms Ip (store_single C d' now Rd)) as E.
  assert (Id' : idle now (contents d') p) by (apply (idle_ext now m (contents d') p); [intros k l; symmetry; apply Sm2|exact Q|exact Id]).
  specialize (E Id' Ha x).
  change (holds (contents (snd (graph_step C d' (offer now p, None)))) x <-> holds (contents d') x). rewrite (Sh x).
  split; intros Hx.
  - apply E. split; [exact Hx|exact (offer_clean C now T Acc (contents d') p a ms Ip Ha x Hx)].
  - apply E. split; [exact Hx|apply Cl; apply Sm1; exact Hx].
Qed.
(** So nodes that hear as many rounds as there are trusts agree, whatever the orders. *)
Lemma p_C175_rounds_agree : forall C d1 d2 now T rs1 rs2, reachable C d1 -> reachable C d2 -> same_contents d1 d2 -> duration_wf now -> secs now < i64_bound -> news C now T ->
  (forall r, In r (rs1 ++ rs2) -> a_round T r) -> (length T <= length rs1)%nat -> (length T <= length rs2)%nat ->
  few d1 (no_failures (map (offer now) (concat rs1 ++ T))) -> few d2 (no_failures (map (offer now) (concat rs2 ++ T))) ->
  same_contents (graph_history C d1 (no_failures (map (offer now) (concat rs1)))) (graph_history C d2 (no_failures (map (offer now) (concat rs2)))).
Proof.
  intros C d1 d2 now T rs1 rs2 R1 R2 S0 Tn Sn Nw Ir L1 L2 F1 F2.
  assert (In_ : forall rs, (forall r, In r rs -> a_round T r) -> incl (concat rs) T).
  { intros rs H q Iq. apply in_concat in Iq. destruct Iq as (r & Jr & Iq). apply (H r Jr). exact Iq. }
  assert (I1 : forall r, In r rs1 -> a_round T r) by (intros r H; apply Ir, in_app_iff; auto).
  assert (I2 : forall r, In r rs2 -> a_round T r) by (intros r H; apply Ir, in_app_iff; auto).
  apply (p_C175_agree C d1 d2 now T); try assumption; [apply In_; exact I1|apply In_; exact I2|apply p_C175_settles; assumption|apply p_C175_settles; assumption].
Qed.

(** ** C176 *)
Lemma revoke_step : forall C d v, reachable C d -> revocation_typed C v -> signed_revocation C v -> snd (graph_step C d (G_revoke v, None)) = import C d (RRev v).
Proof.
  intros C d v R T Sg. apply reachable_inv in R. destruct R as (s & -> & I). rewrite (step_none C s (G_revoke v) I T).
  rewrite (import_state C s (RRev v) (inv_wf C s I) (revocation_rel_typed C v T)).
  cbn [sem]. unfold revoke_sem. apply revocation_verify_exact in Sg. rewrite Sg. reflexivity.
Qed.
Lemma revoke_history : forall C V d, reachable C d -> Forall (fun v => revocation_typed C v /\ signed_revocation C v) V ->
  graph_history C d (no_failures (map G_revoke V)) = import_all C d (map RRev V).
Proof.
  intros C V. induction V as [|v V IH]; intros d R H; [reflexivity|]. inversion H as [|? ? [T Sg] H']; subst.
  change (graph_history C (snd (graph_step C d (G_revoke v, None))) (no_failures (map G_revoke V)) = import_all C (import C d (RRev v)) (map RRev V)).
  pose proof (revoke_step C d v R T Sg) as E. rewrite <- E. apply IH; [|exact H']. apply reachable_step; [exact R|exact T].
Qed.
Lemma contents_trans : forall a b c, same_contents a b -> same_contents b c -> same_contents a c.
Proof. intros a b c [H1 H2] [K1 K2]. split; [intros x; rewrite (H1 x); apply K1|intros k l; rewrite (H2 k l); apply K2]. Qed.
(** Nodes that hear the revocations first, in any order, and then the trusts in enough rounds, agree. *)
Lemma p_C176_revocations_first_partial : forall C d1 d2 now T V1 V2 rs1 rs2, reachable C d1 -> reachable C d2 -> same_contents d1 d2 -> duration_wf now -> secs now < i64_bound -> news C now T ->
  Forall (fun v => revocation_typed C v /\ signed_revocation C v) V1 -> Permutation V1 V2 -> seconds_differ (map RRev V1) ->
  (forall r, In r (rs1 ++ rs2) -> a_round T r) -> (length T <= length rs1)%nat -> (length T <= length rs2)%nat ->
  few d1 (no_failures (map G_revoke V1 ++ map (offer now) (concat rs1 ++ T))) -> few d2 (no_failures (map G_revoke V2 ++ map (offer now) (concat rs2 ++ T))) ->
  same_contents (graph_history C d1 (no_failures (map G_revoke V1 ++ map (offer now) (concat rs1)))) (graph_history C d2 (no_failures (map G_revoke V2 ++ map (offer now) (concat rs2)))).
Proof.
  intros C d1 d2 now T V1 V2 rs1 rs2 R1 R2 S0 Tn Sn Nw Hv Pm Sd Ir L1 L2 F1 F2.
  assert (Hv2 : Forall (fun v => revocation_typed C v /\ signed_revocation C v) V2).
  { rewrite Forall_forall in *. intros v Iv. apply Hv. apply (Permutation_in v (Permutation_sym Pm)). exact Iv. }
  assert (Ty : forall V, Forall (fun v => revocation_typed C v /\ signed_revocation C v) V -> typed_history C (no_failures (map G_revoke V))).
  { intros V H. apply Forall_forall. intros e Ie. unfold no_failures in Ie. rewrite map_map in Ie. apply in_map_iff in Ie. destruct Ie as (v & <- & Iv). rewrite Forall_forall in H. apply (H v Iv). }
  assert (Sc : same_contents (graph_history C d1 (no_failures (map G_revoke V1))) (graph_history C d2 (no_failures (map G_revoke V2)))).
  { apply (contents_trans _ (graph_history C d2 (no_failures (map G_revoke V1)))).
    - destruct V1 as [|v0 V0]; [exact S0|]. apply (p_C86_answers_depend_on_contents C d1 d2 (map G_revoke (v0 :: V0)) (G_revoke v0) R1 R2 S0).
      + apply Forall_forall. intros c Ic. apply in_map_iff in Ic. destruct Ic as (v & <- & Iv). rewrite Forall_forall in Hv. apply (Hv v Iv).
      + inversion Hv as [|? ? [X _] _]; subst. exact X.
    - rewrite !revoke_history by assumption. apply (p_C62_import_order C d2 (map RRev V1) (map RRev V2) R2); [|apply Permutation_map; exact Pm|exact Sd].
      apply Forall_forall. intros x Ix. apply in_map_iff in Ix. destruct Ix as (v & <- & Iv). rewrite Forall_forall in Hv. apply (Hv v Iv). }
  assert (Sp : forall d V h, graph_history C d (no_failures (map G_revoke V ++ h)) = graph_history C (graph_history C d (no_failures (map G_revoke V))) (no_failures h)).
  { intros d V h. unfold no_failures, graph_history. rewrite map_app, fold_left_app. reflexivity. }
  rewrite !Sp. apply (p_C175_rounds_agree C _ _ now T); try assumption; try (apply history_reachable; [assumption|apply Ty; assumption]).
  - apply few_app; [exact R1|apply Ty; exact Hv|]. unfold no_failures in *. rewrite map_app in F1. exact F1.
  - apply few_app; [exact R2|apply Ty; exact Hv2|]. unfold no_failures in *. rewrite map_app in F2. exact F2.
Qed.

(** ** Concrete nodes *)
Definition root_only : db := graph_history (toy true) empty_db (no_failures [G_set_root (toy_key 1) 5; G_add [toy_trust 1 1 2000 1] (from_secs 2)]).
Lemma root_only_reachable : reachable (toy true) root_only.
Proof.
  eexists. split; [|reflexivity]. apply Forall_forall. intros x I. cbn in I. repeat (destruct I as [<-|I]; [|]); try destruct I; cbn [fst call_typed]; repeat split; try reflexivity; repeat constructor.
Qed.
Definition heard : list piece := [(toy_trust 1 3 1000 3, toy_key 1); (toy_trust 3 4 1000 3, toy_key 3); (toy_trust 4 5 1000 3, toy_key 4); (toy_trust 1 3 900 4, toy_key 1)].
Lemma heard_news : news (toy true) (from_secs 6) heard.
Proof.
  split.
  - intros t b I. cbn in I. repeat (destruct I as [E|I]; [injection E as <- <-; repeat split; vm_compute; reflexivity|]). destruct I.
  - intros t t' b I I' K E. cbn in I, I'.
    destruct I as [X|[X|[X|[X|[]]]]]; destruct I' as [Y|[Y|[Y|[Y|[]]]]]; apply pair_equal_spec in X, Y; destruct X as [Xt Xb], Y as [Yt Yb]; subst t t'; try reflexivity;
      exfalso; rewrite <- Xb in Yb; clear Xb; vm_compute in Yb, K, E; congruence.
Qed.
(** The same trusts, forwards and backwards. After one round the first node knows all and the second does not. *)
Example e_C175_rounds : reachable (toy true) root_only /\ news (toy true) (from_secs 6) heard /\
  (forall r, In r (repeat heard 4 ++ repeat (rev heard) 4) -> a_round heard r) /\ (length heard <= length (repeat (rev heard) 4))%nat /\
  few root_only (no_failures (map (offer (from_secs 6)) (concat (repeat heard 4) ++ heard))) /\
  ~ same_contents (graph_history (toy true) root_only (no_failures (map (offer (from_secs 6)) heard))) (graph_history (toy true) root_only (no_failures (map (offer (from_secs 6)) (rev heard)))) /\
  settled (toy true) (graph_history (toy true) root_only (no_failures (map (offer (from_secs 6)) heard))) (from_secs 6) heard.
Proof.
  split; [exact root_only_reachable|]. split; [exact heard_news|]. split; [|split; [vm_compute; lia|split; [vm_compute; reflexivity|split]]].
  - intros r I. apply in_app_iff in I. destruct I as [I|I]; apply repeat_spec in I; subst r; intros p; [reflexivity|symmetry; apply in_rev].
  - intros [H _]. specialize (H (RAuth (mk_auth (toy_trust 4 5 1000 3) (toy_key 4)))). cbn [stored] in H. destruct H as [H _].
    assert (X : stored_trust (graph_history (toy true) root_only (no_failures (map (offer (from_secs 6)) heard))) (toy_key 4) (toy_trust 4 5 1000 3)).
    { split; [split; reflexivity|]. split; [split; reflexivity|]. vm_compute. tauto. }
    destruct (H X) as (_ & _ & Y). vm_compute in Y. repeat (destruct Y as [Y|Y]; [discriminate Y|]). destruct Y.
  - intros p x Ip. assert (E : tbl_relations (snd (graph_step (toy true) (graph_history (toy true) root_only (no_failures (map (offer (from_secs 6)) heard))) (offer (from_secs 6) p, None))) =
      tbl_relations (graph_history (toy true) root_only (no_failures (map (offer (from_secs 6)) heard)))).
    { repeat (destruct Ip as [<-|Ip]; [vm_compute; reflexivity|]). destruct Ip. }
    destruct x as [a|v]; cbn [stored]; unfold stored_trust, stored_revocation; rewrite E; reflexivity.
Qed.
(** With revocations it is false: a trust given by a key that a root has revoked counts where it came before the revocation and is ignored where it came after, for good. *)
Definition before_it : list graph_call := map (offer (from_secs 6)) (firstn 3 heard) ++ [G_revoke (toy_rev 1 4 5)].
Definition after_it : list graph_call := map (offer (from_secs 6)) (firstn 2 heard) ++ [G_revoke (toy_rev 1 4 5)] ++ map (offer (from_secs 6)) (skipn 2 (firstn 3 heard)).
Lemma p_C176_agree_refuted : exists C d now T v h1 h2 k w, crypto_laws C /\ reachable C d /\ duration_wf now /\ news C now T /\ revocation_typed C v /\ signed_revocation C v /\
  Permutation h1 (map (offer now) T ++ [G_revoke v]) /\ Permutation h2 h1 /\
  let d1 := graph_history C d (no_failures h1) in let d2 := graph_history C d (no_failures h2) in
  (forall c x, In c h1 -> (stored (snd (graph_step C d1 (c, None))) x <-> stored d1 x) /\ (stored (snd (graph_step C d2 (c, None))) x <-> stored d2 x)) /\
  fst (graph_step C d1 (G_weight k now, None)) = Ok (GR_weight w) /\ 0 < w /\ fst (graph_step C d2 (G_weight k now, None)) = Ok (GR_weight 0).
Proof.
  exists (toy true), root_only, (from_secs 6), (firstn 3 heard), (toy_rev 1 4 5), before_it, after_it, (toy_key 5), 4.
  split; [apply toy_laws|]. split; [exact root_only_reachable|]. split; [repeat split; reflexivity|]. split; [|split; [repeat split; reflexivity|split; [vm_compute; reflexivity|split; [apply Permutation_refl|split; [|split]]]]].
  - destruct heard_news as [N1 N2]. assert (Sub : forall p, In p (firstn 3 heard) -> In p heard) by (intros p I; cbn in *; tauto).
    split; [intros t b I; apply N1, Sub; exact I|]. intros t t' b I I'. apply (N2 t t' b); apply Sub; assumption.
  - change (Permutation after_it (map (offer (from_secs 6)) (firstn 2 heard) ++ map (offer (from_secs 6)) (skipn 2 (firstn 3 heard)) ++ [G_revoke (toy_rev 1 4 5)])).
    apply Permutation_app_head. apply Permutation_app_comm.
  - intros c x Ic.
    assert (E : forall h, h = before_it \/ h = after_it -> tbl_relations (snd (graph_step (toy true) (graph_history (toy true) root_only (no_failures h)) (c, None))) = tbl_relations (graph_history (toy true) root_only (no_failures h))).
    { intros h [->| ->]; cbn in Ic; repeat (destruct Ic as [<-|Ic]; [vm_compute; reflexivity|]); destruct Ic. }
    pose proof (E _ (or_introl eq_refl)) as E1. pose proof (E _ (or_intror eq_refl)) as E2.
    destruct x as [a|v]; cbn [stored]; unfold stored_trust, stored_revocation; rewrite E1, E2; split; reflexivity.
  - split; [vm_compute; reflexivity|]. split; [lia|vm_compute; reflexivity].
Qed.
(** Two revocations in either order, then the trusts: key 3 keeps its weight, key 5 has none. *)
Example e_C176_first : let V := [toy_rev 1 4 5; toy_rev 3 5 5] in
  Forall (fun v => revocation_typed (toy true) v /\ signed_revocation (toy true) v) V /\ Permutation V (rev V) /\ seconds_differ (map RRev V) /\
  few root_only (no_failures (map G_revoke V ++ map (offer (from_secs 6)) (concat (repeat heard 4) ++ heard))) /\
  let d := graph_history (toy true) root_only (no_failures (map G_revoke V ++ map (offer (from_secs 6)) (concat (repeat heard 4)))) in
  fst (graph_step (toy true) d (G_weight (toy_key 3) (from_secs 6), None)) = Ok (GR_weight 16) /\
  fst (graph_step (toy true) d (G_weight (toy_key 5) (from_secs 6), None)) = Ok (GR_weight 0).
Proof.
  cbv zeta. split; [repeat constructor|]. split; [apply Permutation_rev|]. split; [|split; [vm_compute; reflexivity|split; vm_compute; reflexivity]].
  intros x y I J [K1 K2] _. cbn in I, J. destruct I as [<-|[<-|[]]], J as [<-|[<-|[]]]; try reflexivity; vm_compute in K1; discriminate K1.
Qed.
