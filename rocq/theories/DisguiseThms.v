(** Proofs about [DisguiseSpec]. *)
From Coq Require Import List NArith ZArith Bool Lia Permutation.
From Verif Require Import Base Text Keys Trust Certificate Relation Storage Graph Spec MachineSpec DisguiseSpec.
From Verif Require Import BaseFacts SpecFacts GraphThms MachineThms.
Import ListNotations.
Open Scope N_scope.

(** ** Disguises *)
Definition flip (D : disguise) : disguise :=
  mk_disguise (fun a b => names D b a) (fun a b => clock D b a) (fun a b => seals D b a).
Lemma faithful_flip : forall D, faithful D -> faithful (flip D).
Proof.
  intros D (F1 & F2 & F3 & F4). split; [|split; [|split]]; cbn.
  - intros a a' b b' H1 H2. symmetry. exact (F1 _ _ _ _ H1 H2).
  - intros s s' r r' H1 H2. symmetry. exact (F2 _ _ _ _ H1 H2).
  - intros s s' H. destruct (F3 _ _ H). auto.
  - intros t t' H. exact (F4 _ _ H).
Qed.
Lemma name_fun : forall D a b b', faithful D -> names D a b -> names D a b' -> b = b'.
Proof. intros D a b b' F H1 H2. apply (proj1 F _ _ _ _ H1 H2). reflexivity. Qed.
Lemma name_inj : forall D a a' b, faithful D -> names D a b -> names D a' b -> a = a'.
Proof. intros D a a' b F H1 H2. apply (proj1 F _ _ _ _ H1 H2). reflexivity. Qed.
Lemma clock_lt : forall D s s' r r', faithful D -> clock D s s' -> clock D r r' -> (s < r <-> s' < r').
Proof. intros D s s' r r' F. exact (proj1 (proj2 F) s s' r r'). Qed.
Lemma clock_eq : forall D s s' r r', faithful D -> clock D s s' -> clock D r r' -> (s = r <-> s' = r').
Proof.
  intros D s s' r r' F H1 H2. pose proof (clock_lt D _ _ _ _ F H1 H2). pose proof (clock_lt D _ _ _ _ F H2 H1). lia.
Qed.
Lemma same_before : forall D a a' b b', faithful D -> same_time D a a' -> same_time D b b' -> (before a b <-> before a' b').
Proof.
  intros D a a' b b' F (A1 & A2) (B1 & B2). unfold before. rewrite A2, B2.
  pose proof (clock_lt D _ _ _ _ F A1 B1). pose proof (clock_eq D _ _ _ _ F A1 B1). tauto.
Qed.
Lemma small_i64 : forall s, s < i64_bound -> i64_of_u64 s = Z.of_N s.
Proof. intros s H. unfold i64_of_u64. apply N.ltb_lt in H. rewrite H. reflexivity. Qed.
Lemma same_expired : forall D now now' x x', faithful D -> same_time D now now' -> same_relation D x x' -> (db_expired now x <-> db_expired now' x').
Proof.
  intros D now now' x x' F (N1 & N2) R. destruct x as [a|v], x' as [a'|v']; cbn in R |- *; try contradiction; [|tauto].
  destruct R as ((_ & (E1 & E2) & _) & _).
  destruct (proj1 (proj2 (proj2 F)) _ _ N1), (proj1 (proj2 (proj2 F)) _ _ E1).
  rewrite !small_i64 by assumption. pose proof (clock_lt D _ _ _ _ F N1 E1). lia.
Qed.
Lemma same_from_secs : forall D a a', same_time D a a' -> same_time D (from_secs (secs a)) (from_secs (secs a')).
Proof. intros D a a' (H & _). split; cbn; auto. Qed.
Lemma same_whole : forall D x x', faithful D -> same_relation D x x' -> same_relation D (whole x) (whole x').
Proof.
  intros D x x' F R. destruct x as [a|v], x' as [a'|v']; cbn in R |- *; try contradiction.
  - destruct R as ((R1 & R2 & R3 & R4) & R5). split; [|exact R5]. split; [exact R1|]. split; [apply same_from_secs; exact R2|]. split; [apply same_from_secs; exact R3|]. apply F. exact R4.
  - destruct R as (R1 & R2 & R3). split; [exact R1|]. split; [exact R2|]. apply same_from_secs. exact R3.
Qed.
Lemma same_keys_iff : forall D x x' y y', faithful D -> same_relation D x x' -> same_relation D y y' -> (same_keys x y <-> same_keys x' y').
Proof.
  intros D x x' y y' F R S0. unfold same_keys.
  assert (G : forall z z', same_relation D z z' -> names D (rel_issued_for z) (rel_issued_for z') /\ names D (rel_issued_by z) (rel_issued_by z')).
  { intros z z' Z. destruct z as [a|v], z' as [a'|v']; cbn in Z |- *; try contradiction.
    - destruct Z as ((Z & _) & Z'). auto.
    - destruct Z as (Z & Z' & _). auto. }
  destruct (G _ _ R) as (R1 & R2), (G _ _ S0) as (S1 & S2).
  pose proof (proj1 F _ _ _ _ R1 S1). pose proof (proj1 F _ _ _ _ R2 S2). tauto.
Qed.
Lemma same_made : forall D x x', same_relation D x x' -> same_time D (rel_issued_at x) (rel_issued_at x').
Proof.
  intros D x x' R. destruct x as [a|v], x' as [a'|v']; cbn in R |- *; try contradiction; apply R.
Qed.

(** ** Machines *)
Definition single (m : machine) : Prop := forall x y, holds m x -> holds m y -> same_keys x y -> x = y.
Record alike (D : disguise) (m m' : machine) : Prop := mk_alike {
  al_holds : forall x, holds m x -> exists x', same_relation D x x' /\ holds m' x';
  al_back : forall x', holds m' x' -> exists x, same_relation D x x' /\ holds m x;
  al_root : forall k l, root_of m k l -> exists k', names D k k' /\ root_of m' k' l;
  al_root_back : forall k' l, root_of m' k' l -> exists k, names D k k' /\ root_of m k l;
  al_single : single m;
  al_single' : single m' }.
Lemma same_relation_flip : forall D x x', same_relation (flip D) x' x <-> same_relation D x x'.
Proof.
  intros D x x'. destruct x as [a|v], x' as [a'|v']; cbn; unfold same_trust, same_revocation, same_time; cbn; try tauto.
  - split; intros ((A1 & (A2 & A3) & (A4 & A5) & A6) & A7); (split; [|exact A7]); repeat split; auto.
  - split; intros (A1 & A2 & (A3 & A4)); repeat split; auto.
Qed.
Lemma same_trust_flip : forall D t t', same_trust (flip D) t' t <-> same_trust D t t'.
Proof. intros D t t'. unfold same_trust, same_time; cbn. split; intros (A1 & (A2 & A3) & (A4 & A5) & A6); repeat split; auto. Qed.
Lemma same_revocation_flip : forall D v v', same_revocation (flip D) v' v <-> same_revocation D v v'.
Proof. intros D v v'. unfold same_revocation, same_time; cbn. split; intros (A1 & A2 & (A3 & A4)); repeat split; auto. Qed.
Lemma Forall2_flip' : forall {A B} (R : A -> B -> Prop) (Q : B -> A -> Prop), (forall a b, R a b -> Q b a) -> forall l l', Forall2 R l l' -> Forall2 Q l' l.
Proof. intros A B R Q H l l' F. induction F; constructor; auto. Qed.
Lemma same_certificate_flip : forall D c c', same_certificate (flip D) c' c <-> same_certificate D c c'.
Proof.
  intros D c c'. split; apply Forall2_flip'; intros a b; apply same_trust_flip.
Qed.
Lemma alike_flip : forall D m m', alike D m m' -> alike (flip D) m' m.
Proof.
  intros D m m' [H1 H2 H3 H4 H5 H6]. split; auto.
  - intros x' Hx. destruct (H2 _ Hx) as (x & R & X). exists x. split; [apply same_relation_flip; exact R|exact X].
  - intros x Hx. destruct (H1 _ Hx) as (x' & R & X). exists x'. split; [apply same_relation_flip; exact R|exact X].
Qed.
Lemma alike_root : forall D m m' k k' l, faithful D -> alike D m m' -> names D k k' -> root_of m k l -> root_of m' k' l.
Proof.
  intros D m m' k k' l F A N0 R. destruct (al_root _ _ _ A _ _ R) as (k'' & N1 & R'). rewrite (name_fun _ _ _ _ F N0 N1). exact R'.
Qed.
Lemma alike_root_iff : forall D m m' k k' l, faithful D -> alike D m m' -> names D k k' -> (root_of m k l <-> root_of m' k' l).
Proof.
  intros D m m' k k' l F A N0. split; [apply (alike_root D); assumption|].
  apply (alike_root (flip D) m' m); [apply faithful_flip; exact F|apply alike_flip; exact A|exact N0].
Qed.

Lemma alike_set_root : forall D m m' k k' n, faithful D -> alike D m m' -> names D k k' -> alike D (m_set_root m k n) (m_set_root m' k' n).
Proof.
  intros D m m' k k' n F A N0. destruct A as [H1 H2 H3 H4 H5 H6]. split; cbn; auto.
  - intros q l [R|(-> & -> & R)].
    + destruct (H3 _ _ R) as (q' & Q1 & Q2). exists q'. auto.
    + exists k'. split; [exact N0|]. right. split; [reflexivity|]. split; [reflexivity|]. intros l' L. destruct (H4 _ _ L) as (q & Q1 & Q2).
      rewrite (name_inj _ _ _ _ F Q1 N0) in Q2. exact (R _ Q2).
  - intros q' l [R|(-> & -> & R)].
    + destruct (H4 _ _ R) as (q & Q1 & Q2). exists q. auto.
    + exists k. split; [exact N0|]. right. split; [reflexivity|]. split; [reflexivity|]. intros l' L. destruct (H3 _ _ L) as (q & Q1 & Q2).
      rewrite (name_fun _ _ _ _ F Q1 N0) in Q2. exact (R _ Q2).
Qed.
Lemma alike_collect : forall D m m' now now', faithful D -> alike D m m' -> same_time D now now' -> alike D (m_collect m now) (m_collect m' now').
Proof.
  intros D m m' now now' F A T. destruct A as [H1 H2 H3 H4 H5 H6]. split; cbn; auto.
  - intros x (X & E). destruct (H1 _ X) as (x' & R & X'). exists x'. split; [exact R|]. split; [exact X'|].
    intros E'. apply E. apply (same_expired D _ _ _ _ F T R). exact E'.
  - intros x' (X & E). destruct (H2 _ X) as (x & R & X'). exists x. split; [exact R|]. split; [exact X'|].
    intros E'. apply E. apply (same_expired D _ _ _ _ F T R). exact E'.
  - intros x y (X & _) (Y & _). exact (H5 _ _ X Y).
  - intros x y (X & _) (Y & _). exact (H6 _ _ X Y).
Qed.
Lemma whole_keys : forall x, same_keys x (whole x).
Proof. intros [a|v]; split; reflexivity. Qed.
Lemma single_import : forall m x, single m -> single (m_import m x).
Proof.
  intros m x H y z Y Z K. cbn in Y, Z.
  assert (KX : forall u w, same_keys u w -> same_keys w u) by (intros u w (P & Q); split; congruence).
  assert (KT : forall u w q, same_keys u w -> same_keys w q -> same_keys u q) by (intros u w q (P & Q) (P' & Q'); split; congruence).
  destruct Y as [(Y1 & Y2)|[(Y1 & Y2 & Y3)|(-> & Y1)]], Z as [(Z1 & Z2)|[(Z1 & Z2 & Z3)|(-> & Z1)]];
    try (exact (H _ _ Y2 Z2 K)); try reflexivity.
  - exfalso. apply Y1. exact (KT _ _ _ (whole_keys x) (KX _ _ K)).
  - exfalso. exact (Y3 (Z1 _ Y2 Y1)).
  - exfalso. apply Z1. exact (KT _ _ _ (whole_keys x) K).
  - exfalso. exact (Z3 (Y1 _ Z2 Z1)).
Qed.
Lemma alike_import_fwd : forall D m m' x x', faithful D -> alike D m m' -> same_relation D x x' ->
  forall y, holds (m_import m x) y -> exists y', same_relation D y y' /\ holds (m_import m' x') y'.
Proof.
  intros D m m' x x' F A R y Y. cbn in Y.
  destruct Y as [(Y1 & Y2)|[(Y1 & Y2 & Y3)|(-> & Y1)]].
  - destruct (al_holds _ _ _ A _ Y2) as (y' & R' & Y'). exists y'. split; [exact R'|]. left. split; [|exact Y'].
    intros K. apply Y1. apply (same_keys_iff D _ _ _ _ F R R'). exact K.
  - destruct (al_holds _ _ _ A _ Y2) as (y' & R' & Y'). exists y'. split; [exact R'|]. right. left. split; [|split; [exact Y'|]].
    + apply (same_keys_iff D _ _ _ _ F R R'). exact Y1.
    + intros B. apply Y3. apply (same_before D _ _ _ _ F (same_made _ _ _ R') (same_made _ _ _ R)). exact B.
  - exists (whole x'). split; [apply same_whole; [exact F|exact R]|]. right. right. split; [reflexivity|]. intros z' Z' K.
    destruct (al_back _ _ _ A _ Z') as (z & RZ & Z). apply (same_before D _ _ _ _ F (same_made _ _ _ RZ) (same_made _ _ _ R)).
    apply Y1; [exact Z|]. apply (same_keys_iff D _ _ _ _ F R RZ). exact K.
Qed.
Lemma alike_import : forall D m m' x x', faithful D -> alike D m m' -> same_relation D x x' -> alike D (m_import m x) (m_import m' x').
Proof.
  intros D m m' x x' F A R. split.
  - exact (alike_import_fwd D m m' x x' F A R).
  - intros y' Y'. destruct (alike_import_fwd (flip D) m' m x' x (faithful_flip _ F) (alike_flip _ _ _ A) (proj2 (same_relation_flip D x x') R) y' Y') as (y & Ry & Y).
    exists y. split; [apply same_relation_flip; exact Ry|exact Y].
  - exact (al_root _ _ _ A).
  - exact (al_root_back _ _ _ A).
  - apply single_import, (al_single _ _ _ A).
  - apply single_import, (al_single' _ _ _ A).
Qed.

(** ** Chains *)
Fixpoint given (m : machine) (b : public_key) (c : list trust) : Prop :=
  match c with [] => True | t :: r => holds m (RAuth (mk_auth t b)) /\ given m (issued_for t) r end.
Lemma given_links : forall m c g, (forall i u t, at_pos (g :: c) i u -> at_pos (g :: c) (S i) t -> holds m (RAuth (mk_auth t (issued_for u)))) <->
  given m (issued_for g) c.
Proof.
  intros m. induction c as [|t c IH]; intros g; cbn [given].
  - split; [trivial|]. intros _ i u t A B. destruct i; discriminate.
  - rewrite <- IH. split.
    + intros H. split; [apply (H 0%nat); reflexivity|]. intros i u s A B. apply (H (S i)); assumption.
    + intros (H0 & H) i u s A B. destruct i as [|i].
      * injection A as <-. injection B as <-. exact H0.
      * apply (H i); assumption.
Qed.
Lemma same_given : forall D m m', faithful D -> alike D m m' -> forall c b b', names D b b' -> given m b c ->
  exists c', same_certificate D c c' /\ given m' b' c'.
Proof.
  intros D m m' F A. induction c as [|t c IH]; intros b b' N0 G.
  - exists []. split; [constructor|exact I].
  - destruct G as (G0 & G). destruct (al_holds _ _ _ A _ G0) as (x' & R & X). destruct x' as [[t' b0]|v]; cbn in R; [|contradiction].
    destruct R as (R1 & R2). rewrite <- (name_fun _ _ _ _ F N0 R2) in X.
    destruct (IH _ _ (proj1 R1) G) as (c' & S1 & S2). exists (t' :: c'). split; [constructor; assumption|]. split; assumption.
Qed.
Lemma one_given : forall D m', faithful D -> single m' -> forall c c1 c2 b', same_certificate D c c1 -> same_certificate D c c2 ->
  given m' b' c1 -> given m' b' c2 -> c1 = c2.
Proof.
  intros D m' F H c. induction c as [|t c IH]; intros c1 c2 b' S1 S2 G1 G2; inversion S1; inversion S2; subst; [reflexivity|].
  destruct G1 as (G1 & G1'), G2 as (G2 & G2').
  assert (E : issued_for y = issued_for y0) by (eapply (name_fun D); [exact F|apply H2|apply H7]).
  assert (E2 : y = y0).
  { assert (X : RAuth (mk_auth y b') = RAuth (mk_auth y0 b')) by (apply H; [exact G1|exact G2|split; cbn; [exact E|reflexivity]]). congruence. }
  subst y0. f_equal. eapply IH; eassumption.
Qed.
Lemma Forall2_at : forall {A B} (R : A -> B -> Prop) l l' i x, Forall2 R l l' -> at_pos l i x -> exists y, at_pos l' i y /\ R x y.
Proof.
  intros A B R l l' i x F. revert i. induction F; intros i H0; destruct i; try discriminate.
  - injection H0 as <-. exists y. split; [reflexivity|assumption].
  - exact (IHF _ H0).
Qed.
Lemma Forall2_len : forall {A B} (R : A -> B -> Prop) l l', Forall2 R l l' -> length l = length l'.
Proof. intros A B R l l' F. induction F; cbn; congruence. Qed.
Lemma same_key_at : forall D c c' i k, same_certificate D c c' -> key_at c i k -> exists k', key_at c' i k' /\ names D k k'.
Proof.
  intros D c c' i k S0 (t & A & <-). destruct (Forall2_at _ _ _ _ _ S0 A) as (t' & A' & R). exists (issued_for t'). split; [exists t'; auto|apply R].
Qed.
Lemma same_key_at_iff : forall D c c' i k k', faithful D -> same_certificate D c c' -> names D k k' -> (key_at c i k <-> key_at c' i k').
Proof.
  intros D c c' i k k' F S0 N0. split; intros K.
  - destruct (same_key_at _ _ _ _ _ S0 K) as (k2 & K2 & N2). rewrite (name_fun _ _ _ _ F N0 N2). exact K2.
  - destruct (same_key_at (flip D) c' c i k' (proj2 (same_certificate_flip D c c') S0) K) as (k2 & K2 & N2). rewrite (name_inj _ _ _ _ F N0 N2). exact K2.
Qed.

Lemma same_chain : forall D m m' pk pk' c, faithful D -> alike D m m' -> names D pk pk' -> m_chain m pk c ->
  exists c', same_certificate D c c' /\ m_chain m' pk' c'.
Proof.
  intros D m m' pk pk' c F A N0 (L & K & R0 & G & U & V). destruct c as [|t0 c]; [cbn in L; lia|].
  destruct (R0 t0 eq_refl) as ((l & R1) & R2).
  destruct (al_root _ _ _ A _ _ R1) as (k0 & N1 & R1').
  assert (GG : given m (issued_for t0) (t0 :: c)) by (split; [exact R2|apply given_links; exact G]).
  destruct (same_given D m m' F A _ _ _ N1 GG) as (c' & S0 & G'). exists c'. split; [exact S0|].
  destruct c' as [|t0' c']; [inversion S0|]. assert (S1 := S0). inversion S1; subst. clear S1.
  assert (E0 : k0 = issued_for t0') by (eapply (name_fun D); [exact F|exact N1|apply H2]). subst k0.
  destruct G' as (G0' & G').
  unfold m_chain. rewrite <- (Forall2_len _ _ _ S0). repeat split.
  - exact L.
  - apply (same_key_at_iff D _ _ _ _ _ F S0 N0). exact K.
  - intros. injection H as <-. exists l. exact R1'.
  - intros. injection H as <-. exact G0'.
  - apply given_links. exact G'.
  - destruct (same_key_at (flip D) _ _ _ _ (proj2 (same_certificate_flip D _ _) S0) H0) as (k2 & K2 & N2).
    apply (U i j k2 H K2). apply (same_key_at_iff D _ _ _ _ _ F S0 N2). exact H1.
  - destruct (same_key_at (flip D) _ _ _ _ (proj2 (same_certificate_flip D _ _) S0) H0) as (k2 & K2 & N2).
    apply (U i j k2 H K2). apply (same_key_at_iff D _ _ _ _ _ F S0 N2). exact H1.
  - intros i j v H HV K1 K2. destruct (al_back _ _ _ A _ HV) as (x & RX & X). destruct x as [a|u]; cbn in RX; [contradiction|].
    destruct RX as (P1 & P2 & _). apply (V i j u H X).
    + apply (same_key_at_iff D _ _ _ _ _ F S0 P2). exact K1.
    + apply (same_key_at_iff D _ _ _ _ _ F S0 P1). exact K2.
Qed.
Lemma one_chain : forall D m' pk' c c1 c2, faithful D -> single m' -> same_certificate D c c1 -> same_certificate D c c2 ->
  m_chain m' pk' c1 -> m_chain m' pk' c2 -> c1 = c2.
Proof.
  intros D m' pk' c c1 c2 F H S1 S2 (L1 & _ & R1 & G1 & _) (L2 & _ & R2 & G2 & _).
  destruct c1 as [|t1 c1]; [cbn in L1; lia|]. destruct c2 as [|t2 c2]; [cbn in L2; lia|]. destruct c as [|t c]; [inversion S1|].
  assert (E : issued_for t1 = issued_for t2).
  { inversion S1; inversion S2; subst. eapply (name_fun D); [exact F|apply H3|apply H9]. }
  apply (one_given D m' F H _ _ _ (issued_for t1) S1 S2).
  - split; [exact (proj2 (R1 _ eq_refl))|apply given_links; exact G1].
  - split; [rewrite E; exact (proj2 (R2 _ eq_refl))|apply given_links; exact G2].
Qed.
Lemma same_worth : forall D m m' c c' v, faithful D -> alike D m m' -> same_certificate D c c' -> m_worth m c v -> m_worth m' c' v.
Proof.
  intros D m m' c c' v F A S0 (t & l & P & R & ->). destruct (Forall2_at _ _ _ _ _ S0 P) as (t' & P' & T).
  exists t', l. split; [exact P'|]. split; [exact (alike_root D m m' _ _ _ F A (proj1 T) R)|]. rewrite (Forall2_len _ _ _ S0). reflexivity.
Qed.
Lemma greatest_iff : forall P Q w, (forall v, P v <-> Q v) -> greatest P w -> greatest Q w.
Proof.
  intros P Q w H (A & B). split.
  - intros v V. apply A, H, V.
  - destruct B as [B|(B1 & B2)]; [left; apply H, B|right]. split; [exact B1|]. intros v V. exact (B2 v (proj2 (H v) V)).
Qed.
Lemma same_weight : forall D m m' pk pk' w, faithful D -> alike D m m' -> names D pk pk' -> m_weight m pk w -> m_weight m' pk' w.
Proof.
  assert (X : forall D m m' pk pk' v, faithful D -> alike D m m' -> names D pk pk' ->
    (exists l, root_of m pk l /\ v = 2 ^ l) \/ (exists c, m_chain m pk c /\ m_worth m c v) ->
    (exists l, root_of m' pk' l /\ v = 2 ^ l) \/ (exists c, m_chain m' pk' c /\ m_worth m' c v)).
  { intros D m m' pk pk' v F A N0 [(l & R & E)|(c & Ch & W)].
    - left. exists l. split; [exact (alike_root D m m' _ _ _ F A N0 R)|exact E].
    - right. destruct (same_chain D m m' _ _ _ F A N0 Ch) as (c' & S0 & Ch'). exists c'. split; [exact Ch'|exact (same_worth D m m' _ _ _ F A S0 W)]. }
  intros D m m' pk pk' w F A N0 W. apply (greatest_iff _ _ _ (fun v => conj (X D m m' pk pk' v F A N0)
    (X (flip D) m' m pk' pk v (faithful_flip _ F) (alike_flip _ _ _ A) N0)) W).
Qed.
Lemma same_weight_from : forall D m m' pk pk' i i' w, faithful D -> alike D m m' -> names D pk pk' -> names D i i' ->
  m_weight_from m pk i w -> m_weight_from m' pk' i' w.
Proof.
  assert (X : forall D m m' pk pk' i i' v, faithful D -> alike D m m' -> names D pk pk' -> names D i i' ->
    (exists c, m_chain m pk c /\ (exists n, key_at c n i) /\ m_worth m c v) -> (exists c, m_chain m' pk' c /\ (exists n, key_at c n i') /\ m_worth m' c v)).
  { intros D m m' pk pk' i i' v F A N0 N1 (c & Ch & (n & K) & W).
    destruct (same_chain D m m' _ _ _ F A N0 Ch) as (c' & S0 & Ch'). exists c'. split; [exact Ch'|]. split; [|exact (same_worth D m m' _ _ _ F A S0 W)].
    exists n. apply (same_key_at_iff D _ _ _ _ _ F S0 N1). exact K. }
  intros D m m' pk pk' i i' w F A N0 N1 W. apply (greatest_iff _ _ _ (fun v => conj (X D m m' pk pk' i i' v F A N0 N1)
    (X (flip D) m' m pk' pk i' i v (faithful_flip _ F) (alike_flip _ _ _ A) N0 N1)) W).
Qed.
Lemma same_passes : forall D m m' b b' k k' p, faithful D -> alike D m m' -> names D b b' -> names D k k' -> m_passes m b k p -> m_passes m' b' k' p.
Proof.
  intros D m m' b b' k k' p F A N0 N1 (w & W & H). exists w. split; [exact (same_weight D m m' _ _ _ F A N0 W)|].
  pose proof (proj1 F _ _ _ _ N0 N1). tauto.
Qed.

(** ** Calls *)
Definition same_set {A} (R : A -> A -> Prop) (P Q : A -> Prop) : Prop :=
  (forall c, P c -> exists c', R c c' /\ Q c') /\ (forall c', Q c' -> exists c, R c c' /\ P c) /\
  (forall c c1 c2, R c c1 -> R c c2 -> Q c1 -> Q c2 -> c1 = c2) /\ (forall c1 c2 c', R c1 c' -> R c2 c' -> P c1 -> P c2 -> c1 = c2).
Definition same_answers (D : disguise) (a a' : answer) : Prop :=
  match a, a' with
  | A_done, A_done | A_refused, A_refused => True
  | A_weight w, A_weight w' => w = w'
  | A_certs P, A_certs Q => same_set (same_certificate D) P Q
  | A_revs P, A_revs Q => same_set (same_revocation D) P Q
  | _, _ => False
  end.
Lemma same_chains : forall D m m' pk pk', faithful D -> alike D m m' -> names D pk pk' -> same_set (same_certificate D) (m_chain m pk) (m_chain m' pk').
Proof.
  intros D m m' pk pk' F A N0. split; [|split; [|split]].
  - intros c Ch. exact (same_chain D m m' pk pk' c F A N0 Ch).
  - intros c' Ch. destruct (same_chain (flip D) m' m pk' pk c' (faithful_flip _ F) (alike_flip _ _ _ A) N0 Ch) as (c & S0 & Ch').
    exists c. split; [apply same_certificate_flip; exact S0|exact Ch'].
  - intros c c1 c2 S1 S2 Q1 Q2. exact (one_chain D m' pk' c c1 c2 F (al_single' _ _ _ A) S1 S2 Q1 Q2).
  - intros c1 c2 c' S1 S2 Q1 Q2. apply same_certificate_flip in S1. apply same_certificate_flip in S2.
    exact (one_chain (flip D) m pk c' c1 c2 (faithful_flip _ F) (al_single _ _ _ A) S1 S2 Q1 Q2).
Qed.
Lemma same_acceptable : forall D C C' b b' t t' now now', faithful D -> same_trust D t t' -> same_time D now now' ->
  (signed_trust C b t <-> signed_trust C' b' t') -> (acceptable C b t now <-> acceptable C' b' t' now').
Proof.
  intros D C C' b b' t t' now now' F T N0 Sg. unfold acceptable. destruct T as (_ & E & _).
  pose proof (same_before D _ _ _ _ F E N0). tauto.
Qed.
Lemma last_alike : forall D ms ms' m m', Forall2 (alike D) ms ms' -> alike D m m' -> alike D (last ms m) (last ms' m').
Proof.
  intros D ms ms' m m' F A. induction F as [|x y l l' H F IH]; [exact A|]. destruct F; [exact H|exact IH].
Qed.
Lemma same_add_trust : forall D C C' m m' t t' b b' now now' a ms, faithful D -> alike D m m' -> same_trust D t t' -> names D b b' -> same_time D now now' ->
  (signed_trust C b t <-> signed_trust C' b' t') -> m_add_trust C m t b now a ms ->
  exists ms', m_add_trust C' m' t' b' now' a ms' /\ Forall2 (alike D) ms ms'.
Proof.
  intros D C C' m m' t t' b b' now now' a ms F A T N0 T0 Sg H.
  pose proof (same_acceptable D C C' b b' t t' now now' F T T0 Sg) as AC.
  pose proof (alike_collect D m m' now now' F A T0) as A1.
  destruct H as [H|H P|p H P P0].
  - exists []. split; [apply at_refused; tauto|constructor].
  - exists [m_collect m' now']. split; [apply at_ignored; [tauto|]|constructor; [exact A1|constructor]].
    exact (same_passes D _ _ _ _ _ _ _ F A1 N0 (proj1 T) P).
  - exists [m_collect m' now'; m_import (m_collect m' now') (RAuth (mk_auth t' b'))]. split.
    + apply at_stored; [tauto| |exact P0]. exact (same_passes D _ _ _ _ _ _ _ F A1 N0 (proj1 T) P).
    + constructor; [exact A1|]. constructor; [|constructor]. apply alike_import; [exact F|exact A1|]. split; [exact T|exact N0].
Qed.
Fixpoint signs_alike (C C' : crypto) (b b' : public_key) (c c' : list trust) : Prop :=
  match c, c' with
  | t :: r, t' :: r' => (signed_trust C b t <-> signed_trust C' b' t') /\ signs_alike C C' (issued_for t) (issued_for t') r r'
  | _, _ => True
  end.
Lemma signs_alike_at : forall C C' c c' g g',
  (forall i t k t' k', at_pos (g :: c) (S i) t -> key_at (g :: c) i k -> at_pos (g' :: c') (S i) t' -> key_at (g' :: c') i k' ->
     (signed_trust C k t <-> signed_trust C' k' t')) -> signs_alike C C' (issued_for g) (issued_for g') c c'.
Proof.
  intros C C'. induction c as [|t c IH]; intros c' g g' H; destruct c' as [|t' c']; cbn [signs_alike]; try exact I. split.
  - apply (H 0%nat); try reflexivity; [exists g|exists g']; split; reflexivity.
  - apply IH. intros i u k u' k' A B A' B'. apply (H (S i) u k u' k' A); [|exact A'|].
    + destruct B as (z & Z1 & Z2). exists z. split; assumption.
    + destruct B' as (z & Z1 & Z2). exists z. split; assumption.
Qed.
Lemma same_add_all : forall D C C' now now', faithful D -> same_time D now now' -> forall m c b a ms, m_add_all C now m c b a ms ->
  forall m' c' b', alike D m m' -> same_certificate D c c' -> names D b b' -> signs_alike C C' b b' c c' ->
  exists ms', m_add_all C' now' m' c' b' a ms' /\ Forall2 (alike D) ms ms'.
Proof.
  intros D C C' now now' F T0 m c b a ms H. induction H as [m b|m t c b ms H|m t c b p ms a ms' H H1 IH]; intros m' c' b' A S0 N0 Sg.
  - inversion S0. exists []. split; [constructor|constructor].
  - inversion S0 as [|t0 y c0 l' T1 S1]; subst. destruct Sg as (Sg & _).
    destruct (same_add_trust D C C' m m' t y b b' now now' _ _ F A T1 N0 T0 Sg H) as (ms' & M & X).
    exists ms'. split; [apply all_stop; exact M|exact X].
  - inversion S0 as [|t0 y c0 l' T1 S1]; subst. destruct Sg as (Sg & Sg').
    destruct (same_add_trust D C C' m m' t y b b' now now' _ _ F A T1 N0 T0 Sg H) as (ns & M & X).
    destruct (IH (last ns m') l' (issued_for y)) as (ns' & M' & X'); [apply last_alike; assumption|exact S1|exact (proj1 T1)|exact Sg'|].
    exists (ns ++ ns'). split; [exact (all_next C' now' m' y l' b' p ns a ns' M M')|apply Forall2_app; assumption].
Qed.
Lemma same_m_call : forall D C C' m m' c c' a ms, faithful D -> alike D m m' -> same_call D C C' c c' -> m_call C m c a ms ->
  exists a' ms', m_call C' m' c' a' ms' /\ same_answers D a a' /\ Forall2 (alike D) ms ms'.
Proof.
  intros D C C' m m' c c' a ms F A S0 H.
  assert (RS : forall a0, a0 = A_done \/ a0 = A_refused \/ (exists w, a0 = A_weight w) -> same_answers D a0 a0).
  { intros a0 [->|[->|(w & ->)]]; cbn; auto. }
  destruct H as [k n|t b now a ms H|now|t c now a ms H|pk now w H|pk i now w H|pk now|pk i now|v H|v H|pk]; destruct c'; cbn [same_call] in S0; try contradiction.
  - destruct S0 as (N0 & ->). eexists _, _. split; [apply c_set_root|]. split; [exact I|]. constructor; [|constructor].
    apply alike_set_root; assumption.
  - destruct S0 as (T & N0 & T0 & Sg). destruct (same_add_trust D C C' _ _ _ _ _ _ _ _ _ _ F A T N0 T0 Sg H) as (ms' & M & X).
    eexists _, _. split; [apply c_add_trust; exact M|]. split; [|exact X]. apply RS. destruct H; eauto.
  - destruct S0 as (S0 & T0 & Sg). inversion S0; subst. eexists _, _. split; [apply c_add_empty|]. split; [exact I|constructor].
  - destruct S0 as (S0 & T0 & Sg). destruct c0 as [|t' c'']; [inversion S0|].
    assert (T1 : same_trust D t t') by (inversion S0; assumption).
    destruct (same_add_all D C C' _ _ F T0 _ _ _ _ _ H m' (t' :: c'') (issued_for t') A S0 (proj1 T1)) as (ms' & M & X).
    { split.
      - apply (Sg 0%nat); try reflexivity; [exists t|exists t']; split; reflexivity.
      - apply signs_alike_at. intros i u k u' k' P Q P' Q'. apply (Sg (S i)); [exact P| |exact P'|].
        + cbn. rewrite Nat.sub_0_r. exact Q.
        + cbn. rewrite Nat.sub_0_r. exact Q'. }
    eexists _, _. split; [apply c_add; exact M|]. split; [|exact X].
    apply RS. clear - H. remember (t :: c) as l. clear Heql. induction H; eauto.
  - destruct S0 as (N0 & T0). pose proof (alike_collect D m m' _ _ F A T0) as A1.
    eexists _, _. split; [apply c_weight; exact (same_weight D _ _ _ _ _ F A1 N0 H)|]. split; [reflexivity|constructor; [exact A1|constructor]].
  - destruct S0 as (N0 & N1 & T0). pose proof (alike_collect D m m' _ _ F A T0) as A1.
    eexists _, _. split; [apply c_weight_from; exact (same_weight_from D _ _ _ _ _ _ _ F A1 N0 N1 H)|].
    split; [reflexivity|constructor; [exact A1|constructor]].
  - destruct S0 as (N0 & T0). pose proof (alike_collect D m m' _ _ F A T0) as A1.
    eexists _, _. split; [apply c_certs|]. split; [exact (same_chains D _ _ _ _ F A1 N0)|constructor; [exact A1|constructor]].
  - destruct S0 as (N0 & N1 & T0). pose proof (alike_collect D m m' _ _ F A T0) as A1.
    eexists _, _. split; [apply c_certs_from|]. split; [|constructor; [exact A1|constructor]].
    destruct (same_chains D _ _ _ _ F A1 N0) as (Q1 & Q2 & Q3 & Q4). split; [|split; [|split]].
    + intros c1 (P & n & K). destruct (Q1 _ P) as (c2 & S1 & P'). exists c2. split; [exact S1|]. split; [exact P'|].
      exists n. apply (same_key_at_iff D _ _ _ _ _ F S1 N1). exact K.
    + intros c2 (P & n & K). destruct (Q2 _ P) as (c1 & S1 & P'). exists c1. split; [exact S1|]. split; [exact P'|].
      exists n. apply (same_key_at_iff D _ _ _ _ _ F S1 N1). exact K.
    + intros c1 c2 c3 S1 S2 (P1 & _) (P2 & _). exact (Q3 _ _ _ S1 S2 P1 P2).
    + intros c1 c2 c3 S1 S2 (P1 & _) (P2 & _). exact (Q4 _ _ _ S1 S2 P1 P2).
  - destruct S0 as (S0 & Sg). eexists _, _. split; [apply c_revoke; tauto|]. split; [exact I|]. constructor; [|constructor].
    apply alike_import; [exact F|exact A|exact S0].
  - destruct S0 as (S0 & Sg). eexists _, _. split; [apply c_revoke_refused; tauto|]. split; [exact I|constructor].
  - rename S0 into N0. eexists _, _. split; [apply c_revocations|]. split; [|constructor]. split; [|split; [|split]].
    + intros v (V & E). destruct (al_holds _ _ _ A _ V) as (x' & R & X). destruct x' as [a'|v']; cbn in R; [contradiction|].
      exists v'. split; [exact R|]. split; [exact X|]. destruct R as (R & _). rewrite E in R. exact (name_fun _ _ _ _ F R N0).
    + intros v' (V & E). destruct (al_back _ _ _ A _ V) as (x & R & X). destruct x as [a0|v]; cbn in R; [contradiction|].
      exists v. split; [exact R|]. split; [exact X|]. destruct R as (R & _). rewrite E in R. exact (name_inj _ _ _ _ F R N0).
    + intros v v1 v2 (R1 & R2 & _) (R3 & R4 & _) (V1 & E1) (V2 & E2).
      assert (X : RRev v1 = RRev v2).
      { apply (al_single' _ _ _ A); [exact V1|exact V2|]. split; cbn.
        - exact (name_fun _ _ _ _ F R1 R3).
        - exact (name_fun _ _ _ _ F R2 R4). }
      congruence.
    + intros v1 v2 v (R1 & R2 & _) (R3 & R4 & _) (V1 & E1) (V2 & E2).
      assert (X : RRev v1 = RRev v2).
      { apply (al_single _ _ _ A); [exact V1|exact V2|]. split; cbn.
        - exact (name_inj _ _ _ _ F R1 R3).
        - exact (name_inj _ _ _ _ F R2 R4). }
      congruence.
Qed.
Lemma same_m_run : forall D C C', faithful D -> forall cs cs', Forall2 (same_call D C C') cs cs' -> forall m m' as_ n, alike D m m' ->
  m_run C m (no_failures cs) as_ n -> exists as' n', m_run C' m' (no_failures cs') as' n' /\ Forall2 (same_answers D) as_ as' /\ alike D n n'.
Proof.
  intros D C C' F cs cs' H. induction H as [|c c' cs cs' H0 H IH]; intros m m' as_ n A R; cbn in R.
  - inversion R; subst. exists [], m'. split; [constructor|]. split; [constructor|exact A].
  - inversion R as [|m0 c0 fu es a ms as0 m1 MC RR|]; subst.
    destruct (same_m_call D C C' m m' c c' _ _ F A H0 MC) as (a' & ms' & M & SA & X).
    destruct (IH _ (last ms' m') _ _ (last_alike D _ _ _ _ X A) RR) as (as' & n' & R' & SA' & A').
    exists (a' :: as'), n'. split; [exact (run_call C' m' c' None (no_failures cs') a' ms' as' n' M R')|]. split; [constructor; assumption|exact A'].
Qed.

(** ** The library *)
Lemma set_list : forall {A} (R : A -> A -> Prop) (P Q : A -> Prop) l l', same_set R P Q -> NoDup l -> NoDup l' ->
  (forall x, In x l <-> P x) -> (forall x, In x l' <-> Q x) -> same_list R l l'.
Proof.
  intros A R P Q l l' (H1 & H2 & H3 & J) N0 N1 I0 I1.
  assert (X : forall k, incl k l -> exists p, Forall2 R k p /\ incl p l').
  { induction k as [|x k IH]; intros L.
    - exists []. split; [constructor|intros y []].
    - destruct IH as (p & P1 & P2); [intros y Y; apply L; right; exact Y|].
      destruct (H1 x) as (x' & R1 & Q1); [apply I0, L; left; reflexivity|].
      exists (x' :: p). split; [constructor; assumption|]. intros y [<-|Y]; [apply I1; exact Q1|exact (P2 _ Y)]. }
  destruct (X l (fun y Y => Y)) as (p & P1 & P2). exists p. split; [|exact P1].
  assert (INV : forall k q, Forall2 R k q -> incl k l -> incl q l' -> NoDup k -> NoDup q).
  { intros k q F. induction F as [|x y k q HR F IH]; intros Ik Iq Nk; constructor.
    - inversion Nk; subst. intros Y.
      assert (G : exists x2, In x2 k /\ R x2 y).
      { clear - F Y. induction F; [contradiction|]. destruct Y as [->|Y]; [exists x; split; [left; reflexivity|assumption]|].
        destruct (IHF Y) as (x2 & X1 & X2). exists x2. split; [right; exact X1|exact X2]. }
      destruct G as (x2 & G1 & G2). assert (x = x2) by (apply (J x x2 y HR G2); apply I0, Ik; [left; reflexivity|right; exact G1]).
      subst x2. contradiction.
    - apply IH; [intros z Z; apply Ik; right; exact Z|intros z Z; apply Iq; right; exact Z|]. inversion Nk; assumption. }
  apply NoDup_Permutation; [exact (INV l p P1 (fun y Y => Y) P2 N0)|exact N1|].
  intros y. split; [apply P2|]. intros Y. apply I1 in Y. destruct (H2 y Y) as (x & R1 & Px). apply I0 in Px.
  clear - P1 Px R1 Y H3 I1 P2.
  assert (G : exists y2, In y2 p /\ R x y2).
  { clear - P1 Px. induction P1; [contradiction|]. destruct Px as [->|Px]; [exists y; split; [left; reflexivity|assumption]|].
    destruct (IHP1 Px) as (y2 & Y1 & Y2). exists y2. split; [right; exact Y1|exact Y2]. }
  destruct G as (y2 & G1 & G2). rewrite (H3 x y y2 R1 G2 Y); [exact G1|]. apply I1. exact (P2 _ G1).
Qed.

Lemma same_shows : forall D r r' a a', same_answers D a a' -> shows r a -> shows r' a' -> same_outcome D r r'.
Proof.
  intros D r r' a a' S0 H H'. destruct a, a'; cbn [same_answers] in S0; try contradiction; cbn [shows] in H, H'.
  - subst. exact I.
  - destruct H as (e & ->), H' as (e' & ->). exact I.
  - subst. reflexivity.
  - destruct H as (cs & -> & N0 & I0 & _), H' as (cs' & -> & N1 & I1 & _). exact (set_list _ _ _ _ _ S0 N0 N1 I0 I1).
  - destruct H as (vs & -> & N0 & I0), H' as (vs' & -> & N1 & I1). exact (set_list _ _ _ _ _ S0 N0 N1 I0 I1).
Qed.
Lemma same_all_shows : forall D as_ as' rs rs', Forall2 (same_answers D) as_ as' -> Forall2 shows rs as_ -> Forall2 shows rs' as' -> Forall2 (same_outcome D) rs rs'.
Proof.
  intros D as_ as' rs rs' H. revert rs rs'. induction H; intros rs rs' H1 H2; inversion H1; inversion H2; subst; constructor.
  - eapply same_shows; eassumption.
  - apply IHForall2; assumption.
Qed.
Lemma contents_alike : forall C C' D d d', reachable C d -> reachable C' d' -> same_store D d d' -> alike D (contents d) (contents d').
Proof.
  intros C C' D d d' R R' (H1 & H2 & H3 & H4). split; auto.
  - intros x y. exact (p_C30_one_relation_per_pair C d x y R).
  - intros x y. exact (p_C30_one_relation_per_pair C' d' x y R').
Qed.
Lemma alike_same_machine : forall D m m' n n', same_machine n m -> same_machine n' m' -> alike D m m' -> alike D n n'.
Proof.
  intros D m m' n n' (S1 & S2) (S3 & S4) [H1 H2 H3 H4 H5 H6]. split.
  - intros x X. apply S1 in X. destruct (H1 _ X) as (x' & R & X'). exists x'. split; [exact R|apply S3; exact X'].
  - intros x X. apply S3 in X. destruct (H2 _ X) as (x' & R & X'). exists x'. split; [exact R|apply S1; exact X'].
  - intros x l X. apply S2 in X. destruct (H3 _ _ X) as (x' & R & X'). exists x'. split; [exact R|apply S4; exact X'].
  - intros x l X. apply S4 in X. destruct (H4 _ _ X) as (x' & R & X'). exists x'. split; [exact R|apply S2; exact X'].
  - intros x y X Y. apply S1 in X. apply S1 in Y. exact (H5 _ _ X Y).
  - intros x y X Y. apply S3 in X. apply S3 in Y. exact (H6 _ _ X Y).
Qed.

(** ** C166 *)
(** Two stores that stand for each other give answers that stand for each other to calls that stand for each other, and stand for each other afterwards. *)
Lemma p_C166_only_names : forall D C C' d d' cs cs', faithful D -> reachable C d -> reachable C' d' -> same_store D d d' ->
  Forall (call_typed C) cs -> Forall (call_typed C') cs' -> few d (no_failures cs) -> few d' (no_failures cs') -> Forall2 (same_call D C C') cs cs' ->
  Forall2 (same_outcome D) (answers C d (no_failures cs)) (answers C' d' (no_failures cs')) /\
  same_store D (graph_history C d (no_failures cs)) (graph_history C' d' (no_failures cs')).
Proof.
  intros D C C' d d' cs cs' F R R' S0 T T' W W' SC.
  assert (TH : typed_history C (no_failures cs)).
  { unfold typed_history, no_failures. apply Forall_map. cbn. exact T. }
  destruct (p_C155_library_is_machine C d (no_failures cs) R TH W) as (as_ & m & RU & SH & SM).
  pose proof (contents_alike C C' D d d' R R' S0) as A.
  destruct (same_m_run D C C' F cs cs' SC (contents d) (contents d') as_ m A RU) as (as' & m' & RU' & SA & A').
  destruct (p_C155_machine_is_library C' d' cs' as' m' R' T' W' RU') as (SH' & SM').
  split; [exact (same_all_shows D _ _ _ _ SA SH SH')|].
  destruct (alike_same_machine D m m' _ _ SM SM' A') as [H1 H2 H3 H4 _ _]. repeat split; assumption.
Qed.
