(** What the README promises. PropsReadme.v restates the lemmas [p_*] and [e_*]. *)
From Coq Require Import List NArith ZArith Bool Lia ZifyBool ZifyNat ZifyN.
From Verif Require Import Base BaseFacts Text TextFacts Keys KeysFacts Trust TrustFacts Certificate CertFacts Relation
  Storage StorageFacts Graph SearchFacts PathFacts Spec SpecFacts GraphFacts StateFacts ChainFacts AddFacts ImportFacts HistFacts
  Toy ToyFacts Witness GraphThms ReadmeSpec.
Import ListNotations.
Open Scope N_scope.

(** ** Lists of trusts *)
Lemma at_app1 : forall A (l r : list A) i x, (i < length l)%nat -> at_pos (l ++ r) i x <-> at_pos l i x.
Proof. intros A l r i x H. unfold at_pos. rewrite nth_error_app1 by exact H. reflexivity. Qed.
Lemma at_app2 : forall A (l r : list A) i x, at_pos (l ++ r) (length l + i) x <-> at_pos r i x.
Proof. intros A l r i x. unfold at_pos. rewrite nth_error_app2 by lia. replace (length l + i - length l)%nat with i by lia. reflexivity. Qed.
Lemma at_len : forall A (l : list A) i x, at_pos l i x -> (i < length l)%nat.
Proof. intros A l i x H. apply nth_error_Some. unfold at_pos in H. congruence. Qed.
Lemma at_in : forall A (l : list A) i x, at_pos l i x -> In x l.
Proof. intros A l i x H. eapply nth_error_In. exact H. Qed.
Lemma nth_error_Some_ex : forall A (l : list A) i, (i < length l)%nat -> exists x, at_pos l i x.
Proof. intros A l i H. unfold at_pos. destruct (nth_error l i) as [x|] eqn:E; [eauto|]. apply nth_error_None in E. lia. Qed.
Lemma key_len : forall c i k, key_at c i k -> (i < length c)%nat.
Proof. intros c i k (t & H & _). eapply at_len. exact H. Qed.

(** Cutting the part between two occurrences of a key keeps positions in order. *)
Section Cut.
Variables (l : certificate) (a : trust) (m : certificate) (b : trust) (r : certificate).
Let big := l ++ a :: m ++ b :: r.
Let cut := l ++ a :: r.
(** Position in [big] of position [i] of [cut]. *)
Definition lift (i : nat) : nat := if Nat.leb i (length l) then i else (i + S (length m))%nat.
Lemma lift_mono : forall i j, (i < j)%nat -> (lift i < lift j)%nat.
Proof. intros i j H. unfold lift. destruct (Nat.leb_spec i (length l)), (Nat.leb_spec j (length l)); lia. Qed.
Lemma cut_at : forall i t, at_pos cut i t -> at_pos big (lift i) t.
Proof.
  intros i t. unfold cut, big, lift. destruct (Nat.leb_spec i (length l)) as [H|H].
  - destruct (Nat.eq_dec i (length l)) as [->|N].
    + replace (length l) with (length l + 0)%nat by lia. rewrite !at_app2. auto.
    + rewrite !at_app1 by lia. auto.
  - replace i with (length l + S (i - length l - 1))%nat by lia. rewrite at_app2.
    replace (length l + S (i - length l - 1) + S (length m))%nat with (length l + S (length m + S (i - length l - 1)))%nat by lia. rewrite at_app2.
    unfold at_pos. cbn [nth_error]. rewrite nth_error_app2 by lia. replace (length m + S (i - length l - 1) - length m)%nat with (S (i - length l - 1)) by lia. auto.
Qed.
Lemma cut_key : forall i k, key_at cut i k -> key_at big (lift i) k.
Proof. intros i k (t & H & E). exists t. split; [apply cut_at; exact H|exact E]. Qed.
End Cut.

Section Paths.
Variable d : db.
Lemma path_cut : forall pk l a m b r, issued_for a = issued_for b -> trust_path d pk (l ++ a :: m ++ b :: r) -> trust_path d pk (l ++ a :: r).
Proof.
  intros pk l a m b r Same (K & P0 & Ps & Pr). split; [|split; [|split]].
  - destruct r as [|x r].
    + replace (length (l ++ [a]) - 1)%nat with (length l + 0)%nat by (rewrite app_length; cbn; lia). exists a.
      split; [apply at_app2; reflexivity|]. destruct K as (t & Ht & <-).
      replace (length (l ++ a :: m ++ [b]) - 1)%nat with (length l + S (length m + 0))%nat in Ht by (rewrite app_length; cbn [length]; rewrite app_length; cbn; lia).
      apply at_app2 in Ht. change (at_pos (m ++ [b]) (length m + 0) t) in Ht. apply at_app2 in Ht. cbn in Ht. injection Ht as <-. exact Same.
    + destruct K as (t & Ht & <-). exists t. split; [|reflexivity].
      replace (length (l ++ a :: m ++ b :: x :: r) - 1)%nat with (length l + S (length m + S (length r)))%nat in Ht
        by (rewrite app_length; cbn [length]; rewrite app_length; cbn; lia).
      apply at_app2 in Ht. change (at_pos (m ++ b :: x :: r) (length m + S (length r)) t) in Ht. apply at_app2 in Ht.
      replace (length (l ++ a :: x :: r) - 1)%nat with (length l + S (length r))%nat by (rewrite app_length; cbn; lia). apply at_app2. exact Ht.
  - intros t Ht. apply P0. destruct l as [|y l]; exact Ht.
  - intros i g t Hg Ht. destruct (Nat.eq_dec i (length l)) as [->|N].
    + replace (length l) with (length l + 0)%nat in Hg by lia. apply at_app2 in Hg. injection Hg as <-.
      replace (S (length l)) with (length l + 1)%nat in Ht by lia. apply at_app2 in Ht. change (at_pos r 0 t) in Ht. rewrite Same.
      apply (Ps (length l + S (length m + 0))%nat).
      * apply at_app2. change (at_pos (m ++ b :: r) (length m + 0) b). apply at_app2. reflexivity.
      * replace (S (length l + S (length m + 0))) with (length l + S (length m + 1))%nat by lia. apply at_app2.
        change (at_pos (m ++ b :: r) (length m + 1) t). apply at_app2. exact Ht.
    + apply (cut_at l a m b r) in Hg. apply (cut_at l a m b r) in Ht. apply (Ps (lift l m i)); [exact Hg|].
      replace (S (lift l m i)) with (lift l m (S i)); [exact Ht|]. unfold lift.
      destruct (Nat.leb_spec (S i) (length l)), (Nat.leb_spec i (length l)); lia.
  - intros i j (Hij & v & Hv & Ki & Kj). apply (Pr (lift l m i) (lift l m j)). split; [apply lift_mono; exact Hij|].
    exists v. split; [exact Hv|]. split; apply (cut_key l a m b r); assumption.
Qed.
Lemma dup_keys : forall c : certificate, NoDup (map issued_for c) \/
  exists l a m b r, c = l ++ a :: m ++ b :: r /\ issued_for a = issued_for b.
Proof.
  induction c as [|t c [IH|(l & a & m & b & r & -> & E)]]; [left; constructor| |].
  - destruct (in_dec pk_eq_dec (issued_for t) (map issued_for c)) as [H|H]; [|left; constructor; assumption].
    right. apply in_map_iff in H. destruct H as (b & E & Hb). apply in_split in Hb. destruct Hb as (m & r & ->).
    exists [], t, m, b, r. split; [reflexivity|]. symmetry. exact E.
  - right. exists (t :: l), a, m, b, r. split; [reflexivity|exact E].
Qed.
(** A path can be cut down to a chain, unless it leads to a root. *)
Lemma path_chain : forall n c pk, (length c <= n)%nat -> trust_path d pk c ->
  is_root d pk \/ exists c', (length c' <= length c)%nat /\ root_chain d pk c' /\ forall i j, ~ revokes_at d c' i j.
Proof.
  induction n as [|n IH]; intros c pk L P.
  - destruct c; [|cbn in L; lia]. destruct P as (K & _). apply key_len in K. cbn in K. lia.
  - destruct (dup_keys c) as [Nd|(l & a & m & b & r & -> & E)].
    + destruct (Nat.le_gt_cases 2 (length c)) as [L2|L2].
      * right. exists c. split; [lia|]. destruct P as (K & P0 & Ps & Pr). split; [|exact Pr]. split; [exact L2|]. split; [exact K|]. split; [exact P0|]. split; [exact Ps|].
        intros i j k Hij (t & Ht & Et) (u & Hu & Eu). exfalso.
        assert (i = j); [|lia]. pose proof (at_len _ _ _ _ Ht) as Li.
        apply (proj1 (NoDup_nth_error (map issued_for c)) Nd); [rewrite map_length; exact Li|].
        unfold at_pos in *. rewrite (map_nth_error _ _ _ Ht), (map_nth_error _ _ _ Hu). congruence.
      * left. destruct P as ((t & Ht & <-) & P0 & _). pose proof (at_len _ _ _ _ Ht). replace (length c - 1)%nat with 0%nat in Ht by lia. apply P0. exact Ht.
    + apply path_cut in P; [|exact E].
      assert (X : (length (l ++ a :: r) < length (l ++ a :: m ++ b :: r))%nat) by (rewrite !app_length; cbn [length]; rewrite app_length; cbn; lia).
      destruct (IH (l ++ a :: r) pk) as [H|(c' & L' & H)]; [lia|exact P|left; exact H|right; exists c'; split; [lia|exact H]].
Qed.
Lemma chain_path : forall pk c, root_chain d pk c -> (forall i j, ~ revokes_at d c i j) -> trust_path d pk c.
Proof. intros pk c (_ & K & P0 & Ps & _) Pr. exact (conj K (conj P0 (conj Ps Pr))). Qed.
(** One more trust. *)
Lemma path_snoc : forall b c t, trust_path d b c -> stored_trust d b t ->
  (forall v i, stored_revocation d v -> key_at c i (revoked_by v) -> rev_pk v <> issued_for t) -> trust_path d (issued_for t) (c ++ [t]).
Proof.
  intros b c t (K & P0 & Ps & Pr) Ht Hv. pose proof (key_len _ _ _ K) as L. split; [|split; [|split]].
  - exists t. split; [|reflexivity]. replace (length (c ++ [t]) - 1)%nat with (length c + 0)%nat by (rewrite app_length; cbn; lia). apply at_app2. reflexivity.
  - intros u Hu. apply P0. apply at_app1 in Hu; [exact Hu|lia].
  - intros i g u Hg Hu. pose proof (at_len _ _ _ _ Hu) as Lu. rewrite app_length in Lu. cbn in Lu.
    destruct (Nat.eq_dec (S i) (length c)) as [E|N].
    + replace (S i) with (length c + 0)%nat in Hu by lia. apply at_app2 in Hu. injection Hu as <-.
      apply at_app1 in Hg; [|lia]. destruct K as (g' & Hg' & Eg'). replace (length c - 1)%nat with i in Hg' by lia.
      unfold at_pos in *. replace g with g' by congruence. rewrite Eg'. exact Ht.
    + apply (Ps i); [apply at_app1 in Hg; [exact Hg|lia]|apply at_app1 in Hu; [exact Hu|lia]].
  - intros i j (Hij & v & Sv & Ki & (u & Hu & Eu)). pose proof (at_len _ _ _ _ Hu) as Lu. rewrite app_length in Lu. cbn in Lu.
    destruct Ki as (g & Hg & Eg). apply at_app1 in Hg; [|lia].
    destruct (Nat.eq_dec j (length c)) as [->|N].
    + replace (length c) with (length c + 0)%nat in Hu by lia. apply at_app2 in Hu. injection Hu as <-.
      apply (Hv v i Sv); [exists g; auto|]. symmetry. exact Eu.
    + apply at_app1 in Hu; [|lia]. apply (Pr i j). split; [exact Hij|]. exists v. split; [exact Sv|]. split; [exists g; auto|exists u; auto].
Qed.
End Paths.

(** The weight and the certificates of a key at the same time. *)
Lemma certs_beside : forall C d pk now fu w d', reachable C d -> call_typed C (G_weight pk now) -> small d ->
  graph_step C d (G_weight pk now, fu) = (Ok (GR_weight w), d') ->
  exists cs, graph_step C d (G_get_all_certs pk now, None) = (Ok (GR_certs cs), d').
Proof.
  intros C d pk now fu w d' R T Sm E. destruct (p_C23_queries_succeed C d (G_get_all_certs pk now) R T I) as (x & d1 & E1 & X).
  destruct x; try contradiction X. destruct (p_C35_weight_is_best_chain C d pk now None fu _ w d1 d' R T Sm E1 E) as (-> & _). eauto.
Qed.

(** ** C143 *)
(** A key with a path from a root has a weight. *)
Lemma p_C143_path_gives_weight : forall C d pk now fu w d' c, reachable C d -> call_typed C (G_weight pk now) -> small d ->
  graph_step C d (G_weight pk now, fu) = (Ok (GR_weight w), d') -> trust_path d' pk c -> w <> 0.
Proof.
  intros C d pk now fu w d' c R T Sm E P Z. destruct (certs_beside C d pk now fu w d' R T Sm E) as (cs & E1).
  destruct (p_C35_weight_is_best_chain C d pk now None fu cs w d' d' R T Sm E1 E) as (_ & _ & H). apply H in Z. destruct Z as [Nr ->].
  destruct (p_C24_certificates_exact C d pk now None [] d' R T E1) as [(Ro & _) X].
  destruct (path_chain d' (length c) c pk (le_n _) P) as [Hr|(c' & _ & Hc & Hv)].
  - apply Nr. unfold is_root in *. rewrite <- Ro. exact Hr.
  - apply (X c'). split; [exact Hc|]. intros i j Hij. destruct (Hv i j Hij).
Qed.
(** Exactly when the weight is 0: the key is no root, and on every chain of trusts from a root to it somebody has revoked a later
    key which is not the direct issuer of the last one. *)
Lemma p_C143_zero_exact : forall C d pk now fu w d', reachable C d -> call_typed C (G_weight pk now) -> small d ->
  graph_step C d (G_weight pk now, fu) = (Ok (GR_weight w), d') ->
  (w = 0 <-> ~ is_root d pk /\ forall c, root_chain d' pk c -> ~ (forall i j, revokes_at d' c i j -> direct_issuer_pos c j)).
Proof.
  intros C d pk now fu w d' R T Sm E. destruct (certs_beside C d pk now fu w d' R T Sm E) as (cs & E1).
  destruct (p_C35_weight_is_best_chain C d pk now None fu cs w d' d' R T Sm E1 E) as (_ & _ & ->).
  destruct (p_C24_certificates_exact C d pk now None cs d' R T E1) as [_ X]. split; intros [Nr H]; (split; [exact Nr|]).
  - subst cs. intros c Hc Hv. apply (X c). auto.
  - destruct cs as [|c cs]; [reflexivity|]. exfalso. destruct (proj1 (X c) (or_introl eq_refl)) as [Hc Hv]. exact (H c Hc Hv).
Qed.
(** Refuted: the root has revoked B, so the trusts R, A, B, D are no path, there is no other, and D has weight 4. *)
Lemma p_C143_zero_without_path_refuted : exists C d pk now w d', crypto_laws C /\ reachable C d /\ call_typed C (G_weight pk now) /\
  graph_step C d (G_weight pk now, None) = (Ok (GR_weight w), d') /\ ~ is_root d pk /\ (forall c, ~ trust_path d' pk c) /\ w <> 0.
Proof.
  assert (Ew : fst (sem W (after long) (G_weight (toy_key D) (at_ 10))) = Ok (GR_weight 4)) by (vm_compute; reflexivity).
  assert (Tw : call_typed W (G_weight (toy_key D) (at_ 10))) by typed1.
  assert (Ro : roots (after long) = [(toy_key R, 11)]) by (vm_compute; reflexivity).
  pose proof (after_reachable long long_typed) as Rl. pose proof (after_step long _ _ long_typed Tw Ew) as E.
  assert (Sm : small (db_of (after long))) by (vm_compute; reflexivity).
  assert (Nr : ~ is_root (db_of (after long)) (toy_key D)) by (rewrite is_root_in, Ro; intros [H|[]]; discriminate H).
  exists W, (db_of (after long)), (toy_key D), (at_ 10), 4. eexists.
  split; [apply toy_laws|]. split; [exact Rl|]. split; [exact Tw|]. split; [exact E|]. split; [exact Nr|]. split; [|discriminate].
  intros c P. pose proof (after_step long (G_get_all_certs (toy_key D) (at_ 10)) _ long_typed Tw long_certs) as E1.
  destruct (certs_beside W _ _ _ _ _ _ Rl Tw Sm E) as (cs & E2). rewrite E1 in E2. apply pair_equal_spec in E2. destruct E2 as [_ Ed].
  rewrite Ed in E1.
  destruct (p_C24_certificates_exact W _ _ _ None _ _ Rl Tw E1) as [Col X].
  destruct (path_chain _ (length c) c _ (le_n _) P) as [Hr|(c' & _ & Hc & Hv)].
  - apply Nr. unfold is_root in *. rewrite <- (proj1 Col). exact Hr.
  - assert (In c' [long_cert]) as [<-|[]] by (apply X; split; [exact Hc|intros i j Hij; destruct (Hv i j Hij)]).
    apply (Hv 0%nat 2%nat). split; [lia|]. exists (toy_rev R B 9). split; [|split].
    + change (stored (snd (db_of (after long), db_of (after (long ++ [G_weight (toy_key D) (at_ 10)])))) (RRev (toy_rev R B 9))).
      apply (proj2 Col). split; [|cbn; auto]. apply after_stored; [exact long_typed|in_tac].
    + eexists. split; reflexivity.
    + eexists. split; reflexivity.
Qed.
(** Two paths to B, and its weight. *)
Example e_C143_path : small (db_of (after two_ways)) /\ call_typed (toy false) (G_weight (toy_key B) (at_ 10)) /\
  trust_path (db_of (after (two_ways ++ [G_weight (toy_key B) (at_ 10)]))) (toy_key B) way2 /\
  graph_step (toy false) (db_of (after two_ways)) (G_weight (toy_key B) (at_ 10), None) = (Ok (GR_weight 16), db_of (after (two_ways ++ [G_weight (toy_key B) (at_ 10)]))).
Proof.
  assert (Tw : call_typed W (G_weight (toy_key B) (at_ 10))) by typed1.
  assert (Tl : Forall (call_typed W) (two_ways ++ [G_weight (toy_key B) (at_ 10)])) by (unfold two_ways, base; cbn [app]; typed1).
  split; [vm_compute; reflexivity|]. split; [exact Tw|]. split; [|apply after_step; [exact two_ways_typed|exact Tw|exact two_ways_weight]].
  assert (Rs : rels (after (two_ways ++ [G_weight (toy_key B) (at_ 10)])) =
    [RAuth (mk_auth (toy_trust R R 1000 1) (toy_key R)); RAuth (mk_auth (toy_trust R A 900 1) (toy_key R)); RAuth (mk_auth (toy_trust A B 800 1) (toy_key A));
     RAuth (mk_auth (toy_trust R B 700 1) (toy_key R))]) by (vm_compute; reflexivity).
  assert (Ro : roots (after (two_ways ++ [G_weight (toy_key B) (at_ 10)])) = [(toy_key R, 11)]) by (vm_compute; reflexivity).
  split; [|split; [|split]].
  - eexists. split; reflexivity.
  - intros t Ht. injection Ht as <-. split; [rewrite is_root_in, Ro; left; reflexivity|]. apply after_trust; [exact Tl|]. rewrite Rs. left. reflexivity.
  - intros i g t Hg Ht. apply after_trust; [exact Tl|]. rewrite Rs. unfold at_pos, way2 in Hg, Ht. destruct i as [|[|[|i]]]; cbn [nth_error] in Hg, Ht.
    + injection Hg as <-. injection Ht as <-. right. left. reflexivity.
    + injection Hg as <-. injection Ht as <-. right. right. left. reflexivity.
    + discriminate Ht.
    + destruct i; discriminate Ht.
  - intros i j (_ & v & Hv & _). pose proof (proj1 (stored_rev_in W _ v (inv_wf W _ (after_inv _ Tl))) Hv) as X. rewrite Rs in X. repeat (destruct X as [X|X]; [discriminate X|]). exact X.
Qed.

(** ** C144 *)
(** Whoever is trusted by a key with a path is trusted, unless a key on the path has revoked them. *)
Lemma p_C144_path_extends : forall C d b t now fu w d' c, reachable C d -> call_typed C (G_weight (issued_for t) now) -> small d ->
  graph_step C d (G_weight (issued_for t) now, fu) = (Ok (GR_weight w), d') ->
  trust_path d' b c -> stored_trust d' b t -> (forall v i, stored_revocation d' v -> key_at c i (revoked_by v) -> rev_pk v <> issued_for t) ->
  trust_path d' (issued_for t) (c ++ [t]) /\ w <> 0.
Proof.
  intros C d b t now fu w d' c R T Sm E P Ht Hv. pose proof (path_snoc d' b c t P Ht Hv) as P'. split; [exact P'|].
  exact (p_C143_path_gives_weight C d _ now fu w d' _ R T Sm E P').
Qed.
(** If nothing is revoked, the weight passed on is at least half of the weight of the one who trusts. *)
Lemma p_C144_half_weight : forall C d b t now fu fu' w w' d' d2, reachable C d -> call_typed C (G_weight b now) -> call_typed C (G_weight (issued_for t) now) -> small d ->
  (forall v, ~ stored_revocation d v) ->
  graph_step C d (G_weight b now, fu) = (Ok (GR_weight w), d') -> graph_step C d (G_weight (issued_for t) now, fu') = (Ok (GR_weight w'), d2) ->
  stored_trust d' b t -> (is_root d b -> exists t0, stored_trust d' b t0 /\ issued_for t0 = b) -> w / 2 <= w'.
Proof.
  intros C d b t now fu fu' w w' d' d2 R Tb Tk Sm Nv Eb Ek Ht Hr.
  destruct (certs_beside C d b now fu w d' R Tb Sm Eb) as (cs & Cb). destruct (certs_beside C d _ now fu' w' d2 R Tk Sm Ek) as (cs' & Ck).
  destruct (p_C35_weight_is_best_chain C d b now None fu cs w d' d' R Tb Sm Cb Eb) as (_ & [_ Gb] & Zb).
  destruct (p_C35_weight_is_best_chain C d _ now None fu' cs' w' d2 d2 R Tk Sm Ck Ek) as (_ & [Gk _] & _).
  destruct (p_C24_certificates_exact C d b now None cs d' R Tb Cb) as [[Ro Col] Xb].
  destruct (p_C24_certificates_exact C d _ now None cs' d2 R Tk Ck) as [[Ro2 Col2] Xk].
  assert (Same : forall x, stored d' x <-> stored d2 x) by (intros x; rewrite Col, Col2; reflexivity).
  assert (SameT : forall a u, stored_trust d' a u -> stored_trust d2 a u) by (intros a u H; apply (Same (RAuth (mk_auth u a))); exact H).
  assert (Nv2 : forall v, ~ stored_revocation d2 v) by (intros v H; apply (Nv v); apply (proj1 (proj1 (Col2 (RRev v)) H))).
  assert (Roots : forall k, is_root d' k <-> is_root d2 k) by (intros k; unfold is_root; rewrite Ro, Ro2; reflexivity).
  assert (Rinv : exists s, d = db_of s /\ inv C s) by (apply reachable_inv; exact R). destruct Rinv as (s & Es & Is).
  (* a chain for [k] not longer than [l ++ [t]] is enough *)
  assert (Enough : forall u l m, at_pos l 0 u -> root_max_len d (issued_for u) m -> root_chain d2 (issued_for t) l -> chain_weight m (length l - 1) <= w').
  { intros u l m Hu Hm Hl. apply Gk. right. exists l. split; [apply Xk; split; [exact Hl|]|].
    - intros i j (_ & v & Hv & _). destruct (Nv2 v Hv).
    - exists u, m. auto. }
  assert (Chain : forall c u m, at_pos c 0 u -> root_max_len d (issued_for u) m ->
    (forall x, at_pos c 0 x -> is_root d' (issued_for x) /\ stored_trust d' (issued_for x) x) ->
    (forall i g x, at_pos c i g -> at_pos c (S i) x -> stored_trust d' (issued_for g) x) -> key_at c (length c - 1) b ->
    (forall i j k, (i < j)%nat -> key_at c i k -> key_at c j k -> j = S i /\ (0 < i)%nat) -> chain_weight m (length c - 1) / 2 <= w').
  { intros c u m Hu Hm P0 Ps Kb Nr. pose proof (key_len _ _ _ Kb) as Lc.
    assert (Half : forall h, chain_weight m h / 2 <= chain_weight m (S h)).
    { intros h. destruct (N.lt_ge_cases (N.of_nat h) m) as [Hlt|Hge]; [rewrite (chain_weight_half m h Hlt); lia|].
      unfold chain_weight. replace (m - N.of_nat h) with 0 by lia. replace (m - N.of_nat (S h)) with 0 by lia. vm_compute. discriminate. }
    destruct (in_dec pk_eq_dec (issued_for t) (map issued_for c)) as [H|H].
    - apply in_map_iff in H. destruct H as (x & Ex & Hx). apply In_nth_error in Hx. destruct Hx as (n & Hn). pose proof (at_len _ _ _ _ Hn) as Ln.
      destruct n as [|n].
      + unfold at_pos in Hu. replace x with u in Ex by congruence. rewrite Ex in Hm.
        apply N.le_trans with (2 ^ m); [|apply Gk; left; exists m; auto].
        apply N.le_trans with (chain_weight m (length c - 1)); [apply N.div_le_upper_bound; lia|]. unfold chain_weight. apply N.pow_le_mono_r; lia.
      + assert (Pre : forall i y, at_pos (firstn (S (S n)) c) i y <-> (i < S (S n))%nat /\ at_pos c i y).
        { intros i y. unfold at_pos. split.
          - intros Hi. pose proof (at_len _ _ _ _ Hi) as Li. rewrite firstn_length in Li. split; [lia|]. rewrite <- (firstn_skipn (S (S n)) c), nth_error_app1; [exact Hi|rewrite firstn_length; lia].
          - intros (Li & Hi). rewrite <- (firstn_skipn (S (S n)) c), nth_error_app1 in Hi; [exact Hi|rewrite firstn_length; lia]. }
        assert (Lp : length (firstn (S (S n)) c) = S (S n)) by (rewrite firstn_length; lia).
        apply N.le_trans with (chain_weight m (length (firstn (S (S n)) c) - 1)).
        * apply N.le_trans with (chain_weight m (length c - 1)); [apply N.div_le_upper_bound; lia|]. apply chain_weight_mono. lia.
        * apply (Enough u); [apply Pre; split; [lia|exact Hu]|exact Hm|].
          split; [lia|]. split; [replace (length (firstn (S (S n)) c) - 1)%nat with (S n) by lia; exists x; split; [apply Pre; split; [lia|exact Hn]|exact Ex]|]. split; [|split].
          -- intros y Hy. apply Pre in Hy. destruct (P0 y (proj2 Hy)) as [Hy1 Hy2]. split; [apply Roots; exact Hy1|apply SameT; exact Hy2].
          -- intros i g y Hg Hy. apply Pre in Hg. apply Pre in Hy. apply SameT. exact (Ps i g y (proj2 Hg) (proj2 Hy)).
          -- intros i j k Hij (y & Hy & Ey) (z & Hz & Ez). apply Pre in Hy. apply Pre in Hz. apply (Nr i j k Hij); [exists y|exists z]; split; try apply Hy; try apply Hz; assumption.
    - apply N.le_trans with (chain_weight m (length (c ++ [t]) - 1)).
      + replace (length (c ++ [t]) - 1)%nat with (S (length c - 1)) by (rewrite app_length; cbn; lia). apply Half.
      + apply (Enough u); [apply at_app1; [lia|exact Hu]|exact Hm|]. split; [rewrite app_length; cbn; lia|]. split; [|split; [|split]].
        * exists t. split; [|reflexivity]. replace (length (c ++ [t]) - 1)%nat with (length c + 0)%nat by (rewrite app_length; cbn; lia). apply at_app2. reflexivity.
        * intros y Hy. apply at_app1 in Hy; [|lia]. destruct (P0 y Hy) as [Hy1 Hy2]. split; [apply Roots; exact Hy1|apply SameT; exact Hy2].
        * intros i g y Hg Hy. apply SameT. pose proof (at_len _ _ _ _ Hy) as Ly. rewrite app_length in Ly. cbn in Ly.
          destruct (Nat.eq_dec (S i) (length c)) as [E|N].
          -- replace (S i) with (length c + 0)%nat in Hy by lia. apply at_app2 in Hy. injection Hy as <-.
             apply at_app1 in Hg; [|lia]. destruct Kb as (g' & Hg' & Eg'). replace (length c - 1)%nat with i in Hg' by lia.
             unfold at_pos in *. replace g with g' by congruence. rewrite Eg'. exact Ht.
          -- apply (Ps i); [apply at_app1 in Hg; [exact Hg|lia]|apply at_app1 in Hy; [exact Hy|lia]].
        * intros i j k Hij (y & Hy & Ey) (z & Hz & Ez). pose proof (at_len _ _ _ _ Hz) as Lz. rewrite app_length in Lz. cbn in Lz.
          apply at_app1 in Hy; [|lia].
          destruct (Nat.eq_dec j (length c)) as [->|N].
          -- replace (length c) with (length c + 0)%nat in Hz by lia. apply at_app2 in Hz. injection Hz as <-. exfalso. apply H. rewrite Ez, <- Ey. apply in_map. eapply at_in. exact Hy.
          -- apply at_app1 in Hz; [|lia]. apply (Nr i j k Hij); [exists y|exists z]; auto. }
  destruct Gb as [[(m & Hm & ->)|(c & Hc & u & m & Hu & Hm & ->)]|[-> _]].
  - destruct Hr as (t0 & Ht0 & E0); [subst d; apply (is_root_max_len C s b Is); eauto|].
    replace (2 ^ m) with (chain_weight m (length [t0] - 1)) by (unfold chain_weight; f_equal; cbn; lia).
    apply (Chain [t0] t0 m); [reflexivity|rewrite E0; exact Hm| | | |].
    + intros x Hx. injection Hx as <-. rewrite E0. split; [|exact Ht0]. unfold is_root. rewrite Ro. subst d. apply (is_root_max_len C s b Is). eauto.
    + intros i g x _ Hx. apply at_len in Hx. cbn in Hx. lia.
    + exists t0. split; [reflexivity|exact E0].
    + intros i j k Hij _ Kj. apply key_len in Kj. cbn in Kj. lia.
  - apply Xb in Hc. destruct Hc as [(_ & Kb & P0 & Ps & Nr) _]. exact (Chain c u m Hu Hm P0 Ps Kb Nr).
  - apply N.le_0_l.
Qed.
(** The one root of a state. *)
Lemma one_root : forall s k f m, roots s = [(k, f)] -> f <= 16 -> m = 16 - f -> only_root (db_of s) k m.
Proof.
  intros s k f m Ro F ->. intros k' n. rewrite root_max_len_factor, Ro. unfold root_factor. cbn [find fst]. split.
  - intros (f' & Hf & E). destruct (pk_eqb k k') eqn:K; [|discriminate Hf]. apply pk_eqb_eq in K. cbn in Hf. injection Hf as <-. split; [congruence|lia].
  - intros (-> & ->). exists f. rewrite pk_eqb_refl. split; [reflexivity|lia].
Qed.

(** R trusts E, E trusts A, A trusts B and B trusts D; R has revoked A. *)
Definition detour : list graph_call := base ++
  [G_add_trust (toy_trust R 5 900 1) (toy_key R) (at_ 5); G_add_trust (toy_trust 5 A 900 1) (toy_key 5) (at_ 5);
   G_add_trust (toy_trust A B 900 1) (toy_key A) (at_ 5); G_add_trust (toy_trust B D 900 1) (toy_key B) (at_ 5); G_revoke (toy_rev R A 9)].
Lemma detour_typed : Forall (call_typed W) detour.
Proof. unfold detour, base. cbn [app]. typed1. Qed.
(** Refuted: B has weight 4 and trusts D, nobody has revoked B or D, and D has weight 0. *)
Lemma p_C144_transitive_refuted : exists C d b t now w d' d2, crypto_laws C /\ reachable C d /\ call_typed C (G_weight b now) /\ call_typed C (G_weight (issued_for t) now) /\
  ~ is_root d b /\ graph_step C d (G_weight b now, None) = (Ok (GR_weight w), d') /\ w <> 0 /\ stored_trust d' b t /\
  (forall v, stored_revocation d v -> rev_pk v <> b /\ rev_pk v <> issued_for t) /\
  graph_step C d (G_weight (issued_for t) now, None) = (Ok (GR_weight 0), d2).
Proof.
  assert (Eb : fst (sem W (after detour) (G_weight (toy_key B) (at_ 10))) = Ok (GR_weight 4)) by (vm_compute; reflexivity).
  assert (Ed : fst (sem W (after detour) (G_weight (toy_key D) (at_ 10))) = Ok (GR_weight 0)) by (vm_compute; reflexivity).
  assert (Tb : call_typed W (G_weight (toy_key B) (at_ 10))) by typed1. assert (Td : call_typed W (G_weight (toy_key D) (at_ 10))) by typed1.
  assert (Ro : roots (after detour) = [(toy_key R, 11)]) by (vm_compute; reflexivity).
  assert (Rs : rels (after detour) = [RAuth (mk_auth (toy_trust R R 1000 1) (toy_key R)); RAuth (mk_auth (toy_trust R 5 900 1) (toy_key R));
    RAuth (mk_auth (toy_trust 5 A 900 1) (toy_key 5)); RAuth (mk_auth (toy_trust A B 900 1) (toy_key A)); RAuth (mk_auth (toy_trust B D 900 1) (toy_key B));
    RRev (toy_rev R A 9)]) by (vm_compute; reflexivity).
  assert (T2 : Forall (call_typed W) (detour ++ [G_weight (toy_key B) (at_ 10)])) by (apply Forall_app; split; [exact detour_typed|constructor; [exact Tb|constructor]]).
  exists W, (db_of (after detour)), (toy_key B), (toy_trust B D 900 1), (at_ 10), 4. eexists. eexists.
  split; [apply toy_laws|]. split; [apply after_reachable; exact detour_typed|]. split; [exact Tb|]. split; [exact Td|].
  split; [rewrite is_root_in, Ro; intros [H|[]]; discriminate H|].
  split; [apply after_step; [exact detour_typed|exact Tb|exact Eb]|]. split; [discriminate|].
  split; [apply after_trust; [exact T2|in_tac]|]. split; [|apply after_step; [exact detour_typed|exact Td|exact Ed]].
  intros v Hv. pose proof (proj1 (stored_rev_in W _ v (inv_wf W _ (after_inv _ detour_typed))) Hv) as X. rewrite Rs in X.
  repeat (destruct X as [X|X]; [first [discriminate X|injection X as <-; split; intros Y; vm_compute in Y; discriminate Y]|]). destruct X.
Qed.
(** R trusts A, A trusts B and B trusts D, and the maximum length is 4. *)
Definition faq : list graph_call :=
  [G_set_root (toy_key R) 4; G_add_trust (toy_trust R R 1000 1) (toy_key R) (at_ 5); G_add_trust (toy_trust R A 900 1) (toy_key R) (at_ 5);
   G_add_trust (toy_trust A B 800 1) (toy_key A) (at_ 5); G_add_trust (toy_trust B D 700 1) (toy_key B) (at_ 5)].
Lemma faq_typed : Forall (call_typed W) faq.
Proof. unfold faq. typed1. Qed.
Lemma faq_rels : rels (after faq) = [RAuth (mk_auth (toy_trust R R 1000 1) (toy_key R)); RAuth (mk_auth (toy_trust R A 900 1) (toy_key R));
  RAuth (mk_auth (toy_trust A B 800 1) (toy_key A)); RAuth (mk_auth (toy_trust B D 700 1) (toy_key B))].
Proof. vm_compute. reflexivity. Qed.
(** A has weight 8 and trusts B, which has weight 4. *)
Example e_C144_half : small (db_of (after faq)) /\ (forall v, ~ stored_revocation (db_of (after faq)) v) /\
  stored_trust (db_of (after (faq ++ [G_weight (toy_key A) (at_ 10)]))) (toy_key A) (toy_trust A B 800 1) /\
  graph_step (toy false) (db_of (after faq)) (G_weight (toy_key A) (at_ 10), None) = (Ok (GR_weight 8), db_of (after (faq ++ [G_weight (toy_key A) (at_ 10)]))) /\
  fst (graph_step (toy false) (db_of (after faq)) (G_weight (toy_key B) (at_ 10), None)) = Ok (GR_weight 4).
Proof.
  split; [vm_compute; reflexivity|]. split; [|split; [|split]].
  - intros v Hv. pose proof (proj1 (stored_rev_in W _ v (inv_wf W _ (after_inv _ faq_typed))) Hv) as X. rewrite faq_rels in X.
    repeat (destruct X as [X|X]; [discriminate X|]). exact X.
  - apply after_trust; [unfold faq; cbn [app]; typed1|in_tac].
  - apply after_step; [exact faq_typed|typed1|vm_compute; reflexivity].
  - apply after_answer; [exact faq_typed|typed1|vm_compute; reflexivity].
Qed.

(** ** C145 *)
(** If all roots have the same maximum length [m], a key that is no root and whose first, that is shortest, certificate has [h] trusts after the root
    trust has the weight 2^(m - h), and 1 if [h] is above [m]. *)
Lemma p_C145_weight_by_distance : forall C d pk now fu fu' c cs w m d1 d2, reachable C d -> call_typed C (G_weight pk now) -> small d -> equal_roots d m -> ~ is_root d pk ->
  graph_step C d (G_get_all_certs pk now, fu) = (Ok (GR_certs (c :: cs)), d1) -> graph_step C d (G_weight pk now, fu') = (Ok (GR_weight w), d2) ->
  w = chain_weight m (length c - 1).
Proof.
  intros C d pk now fu fu' c cs w m d1 d2 R T Sm Em Nr E1 E2.
  destruct (p_C35_weight_is_best_chain C d pk now fu fu' (c :: cs) w d1 d2 R T Sm E1 E2) as (_ & [G1 G2] & Z).
  assert (Rinv : exists s, d = db_of s /\ inv C s) by (apply reachable_inv; exact R). destruct Rinv as (s & Es & Is).
  destruct (p_C47_certificates_ordered C d pk now fu (c :: cs) d1 R T E1) as [_ Ord].
  destruct (p_C24_certificates_exact C d pk now fu (c :: cs) d1 R T E1) as [[Ro _] X].
  destruct (proj1 (X c) (or_introl eq_refl)) as [(L & K & P0 & _) _].
  assert (Hc : exists u, at_pos c 0 u) by (destruct c as [|u c]; [cbn in L; lia|exists u; reflexivity]). destruct Hc as (u & Hu).
  assert (Hm : exists n, root_max_len d (issued_for u) n).
  { subst d. apply (is_root_max_len C s _ Is). destruct (P0 u Hu) as [H _]. unfold is_root in *. rewrite <- Ro. exact H. }
  destruct Hm as (n & Hn). pose proof (Em _ _ Hn) as ->.
  apply N.le_antisymm.
  - destruct G2 as [[(n & Hn' & _)|(c' & Hc' & u' & n & Hu' & Hn' & ->)]|[-> _]]; [| |apply N.le_0_l].
    + exfalso. apply Nr. subst d. apply (is_root_max_len C s _ Is). eauto.
    + rewrite (Em _ _ Hn'). apply chain_weight_mono. destruct Hc' as [<-|Hc']; [lia|]. apply In_nth_error in Hc'. destruct Hc' as (i & Hi).
      pose proof (Ord 0%nat (S i) c c' ltac:(lia) eq_refl Hi). lia.
  - apply G1. right. exists c. split; [left; reflexivity|]. exists u, m. auto.
Qed.
(** A root has the weight 2^m. *)
Lemma p_C145_root_weight : forall C d pk now fu w m d', reachable C d -> call_typed C (G_weight pk now) -> small d -> equal_roots d m -> is_root d pk ->
  graph_step C d (G_weight pk now, fu) = (Ok (GR_weight w), d') -> w = 2 ^ m.
Proof.
  intros C d pk now fu w m d' R T Sm Em Hr E. destruct (certs_beside C d pk now fu w d' R T Sm E) as (cs & E1).
  destruct (p_C35_weight_is_best_chain C d pk now None fu cs w d' d' R T Sm E1 E) as (_ & [G1 G2] & Z).
  assert (Rinv : exists s, d = db_of s /\ inv C s) by (apply reachable_inv; exact R). destruct Rinv as (s & Es & Is).
  assert (Hm : exists n, root_max_len d pk n) by (subst d; apply (is_root_max_len C s _ Is); exact Hr). destruct Hm as (n & Hn). pose proof (Em _ _ Hn) as ->.
  apply N.le_antisymm.
  - destruct G2 as [[(n & Hn' & ->)|(c' & Hc' & u' & n & Hu' & Hn' & ->)]|[-> _]]; [rewrite (Em _ _ Hn'); lia| |apply N.le_0_l].
    rewrite (Em _ _ Hn'). unfold chain_weight. apply N.pow_le_mono_r; lia.
  - apply G1. left. exists m. auto.
Qed.
(** The README is wrong here: the store of its example, a root with maximum length 4 and the chain R, A, B, C, gives the weights 16, 8, 4 and 2, not 8, 4, 2 and 1. *)
Lemma p_C145_readme_example : exists C d c a now, crypto_laws C /\ reachable C d /\ only_root d a 4 /\ length c = 4%nat /\ key_at c 0 a /\
  (forall b t, stored_trust d b t <-> exists i, at_pos c i t /\ key_at c (i - 1) b) /\ (forall v, ~ stored_revocation d v) /\
  (forall i k, key_at c i k -> exists w d', graph_step C d (G_weight k now, None) = (Ok (GR_weight w), d') /\ w = 2 ^ (4 - N.of_nat i) /\ w <> 2 ^ (3 - N.of_nat i)).
Proof.
  assert (Ro : roots (after faq) = [(toy_key R, 12)]) by (vm_compute; reflexivity).
  exists W, (db_of (after faq)), long_cert, (toy_key R), (at_ 10). split; [apply toy_laws|]. split; [apply after_reachable; exact faq_typed|].
  split; [apply (one_root _ _ 12); [exact Ro|lia|reflexivity]|]. split; [reflexivity|]. split; [eexists; split; reflexivity|]. split; [|split].
  - intros b t. rewrite (stored_trust_in W _ b t (inv_wf W _ (after_inv _ faq_typed))). rewrite faq_rels. split.
    + intros [H|[H|[H|[H|[]]]]]; injection H as <- <-; [exists 0%nat|exists 1%nat|exists 2%nat|exists 3%nat]; (split; [reflexivity|eexists; split; reflexivity]).
    + intros (i & Ht & (g & Hg & <-)). unfold at_pos, long_cert in Ht, Hg. destruct i as [|[|[|[|i]]]]; cbn [nth_error Nat.sub] in Ht, Hg.
      * injection Ht as <-. injection Hg as <-. left. reflexivity.
      * injection Ht as <-. injection Hg as <-. right. left. reflexivity.
      * injection Ht as <-. injection Hg as <-. right. right. left. reflexivity.
      * injection Ht as <-. injection Hg as <-. right. right. right. left. reflexivity.
      * destruct i; discriminate Ht.
  - intros v Hv. pose proof (proj1 (stored_rev_in W _ v (inv_wf W _ (after_inv _ faq_typed))) Hv) as X. rewrite faq_rels in X.
    repeat (destruct X as [X|X]; [discriminate X|]). exact X.
  - intros i k (t & Ht & <-). unfold at_pos, long_cert in Ht. destruct i as [|[|[|[|i]]]]; cbn [nth_error] in Ht; [| | | |destruct i; discriminate Ht]; injection Ht as <-;
      eexists; eexists; (split; [apply after_step; [exact faq_typed|typed1|vm_compute; reflexivity]|]); vm_compute; (split; [reflexivity|discriminate]).
Qed.
(** The same store: all its roots have length 4, and B's first certificate has two trusts after the root trust. *)
Example e_C145_distance : small (db_of (after faq)) /\ equal_roots (db_of (after faq)) 4 /\ ~ is_root (db_of (after faq)) (toy_key B) /\ is_root (db_of (after faq)) (toy_key R) /\
  fst (graph_step (toy false) (db_of (after faq)) (G_get_all_certs (toy_key B) (at_ 10), None)) = Ok (GR_certs [way2]) /\
  fst (graph_step (toy false) (db_of (after faq)) (G_weight (toy_key B) (at_ 10), None)) = Ok (GR_weight (chain_weight 4 2)).
Proof.
  assert (Ro : roots (after faq) = [(toy_key R, 12)]) by (vm_compute; reflexivity).
  split; [vm_compute; reflexivity|]. split; [|split; [|split; [|split]]].
  - intros k n H. apply (one_root _ _ 12 4 Ro) in H; [apply H|lia|reflexivity].
  - rewrite is_root_in, Ro. intros [H|[]]; discriminate H.
  - rewrite is_root_in, Ro. left. reflexivity.
  - apply after_answer; [exact faq_typed|typed1|vm_compute; reflexivity].
  - apply after_answer; [exact faq_typed|typed1|vm_compute; reflexivity].
Qed.

(** ** C146 *)
(** If all roots have the same maximum length, a key with a shorter certificate weighs at least as much, and more unless the maximum is used up. *)
Lemma p_C146_closer_is_heavier : forall C d a b now fa fa' fb fb' ca csa cb csb wa wb m d1 d2 d3 d4, reachable C d -> call_typed C (G_weight a now) -> call_typed C (G_weight b now) ->
  small d -> equal_roots d m -> ~ is_root d a -> ~ is_root d b ->
  graph_step C d (G_get_all_certs a now, fa) = (Ok (GR_certs (ca :: csa)), d1) -> graph_step C d (G_weight a now, fa') = (Ok (GR_weight wa), d2) ->
  graph_step C d (G_get_all_certs b now, fb) = (Ok (GR_certs (cb :: csb)), d3) -> graph_step C d (G_weight b now, fb') = (Ok (GR_weight wb), d4) ->
  (length ca < length cb)%nat -> wb <= wa /\ (N.of_nat (length ca - 1) < m -> wb < wa).
Proof.
  intros C d a b now fa fa' fb fb' ca csa cb csb wa wb m d1 d2 d3 d4 R Ta Tb Sm Em Na Nb E1 E2 E3 E4 L.
  rewrite (p_C145_weight_by_distance C d a now fa fa' ca csa wa m d1 d2 R Ta Sm Em Na E1 E2).
  rewrite (p_C145_weight_by_distance C d b now fb fb' cb csb wb m d3 d4 R Tb Sm Em Nb E3 E4).
  split; [apply chain_weight_mono; lia|]. intros H. unfold chain_weight.
  destruct (p_C24_certificates_exact C d a now fa (ca :: csa) d1 R Ta E1) as [_ X]. destruct (proj1 (X ca) (or_introl eq_refl)) as [(La & _) _].
  apply N.pow_lt_mono_r; lia.
Qed.
(** A root is heavier than every other key. *)
Lemma p_C146_root_is_heaviest : forall C d a b now fa fb wa wb m d2 d4, reachable C d -> call_typed C (G_weight a now) -> call_typed C (G_weight b now) ->
  small d -> equal_roots d m -> is_root d a -> ~ is_root d b ->
  graph_step C d (G_weight a now, fa) = (Ok (GR_weight wa), d2) -> graph_step C d (G_weight b now, fb) = (Ok (GR_weight wb), d4) -> wb <= wa /\ (0 < m -> wb < wa).
Proof.
  intros C d a b now fa fb wa wb m d2 d4 R Ta Tb Sm Em Ha Nb E2 E4. rewrite (p_C145_root_weight C d a now fa wa m d2 R Ta Sm Em Ha E2).
  destruct (certs_beside C d b now fb wb d4 R Tb Sm E4) as (cs & E3). destruct cs as [|cb cs].
  - destruct (p_C35_weight_is_best_chain C d b now None fb [] wb d4 d4 R Tb Sm E3 E4) as (_ & _ & H). rewrite (proj2 H (conj Nb eq_refl)).
    pose proof (N.pow_nonzero 2 m ltac:(discriminate)). lia.
  - rewrite (p_C145_weight_by_distance C d b now None fb cb cs wb m d4 d4 R Tb Sm Em Nb E3 E4).
    destruct (p_C24_certificates_exact C d b now None (cb :: cs) d4 R Tb E3) as [_ X]. destruct (proj1 (X cb) (or_introl eq_refl)) as [(Lb & _) _].
    unfold chain_weight. split; [apply N.pow_le_mono_r; lia|]. intros H. apply N.pow_lt_mono_r; lia.
Qed.
(** R has maximum length 1 and trusts A; the root 6 has maximum length 16 and trusts 7, who trusts B. *)
Definition two_roots : list graph_call :=
  [G_set_root (toy_key R) 1; G_set_root (toy_key 6) 16; G_add_trust (toy_trust R R 1000 1) (toy_key R) (at_ 5); G_add_trust (toy_trust R A 900 1) (toy_key R) (at_ 5);
   G_add_trust (toy_trust 6 6 1000 1) (toy_key 6) (at_ 5); G_add_trust (toy_trust 6 7 900 1) (toy_key 6) (at_ 5); G_add_trust (toy_trust 7 B 900 1) (toy_key 7) (at_ 5)].
Lemma two_roots_typed : Forall (call_typed W) two_roots.
Proof. unfold two_roots. typed1. Qed.
(** Not so if the roots have different lengths: every certificate of A is shorter than every one of B, and A weighs 1 and B 16384. *)
Lemma p_C146_needs_equal_lengths : exists C d a b now csa csb wa wb d1 d2 d3 d4, crypto_laws C /\ reachable C d /\ ~ is_root d a /\ ~ is_root d b /\
  graph_step C d (G_get_all_certs a now, None) = (Ok (GR_certs csa), d1) /\ graph_step C d (G_weight a now, None) = (Ok (GR_weight wa), d2) /\
  graph_step C d (G_get_all_certs b now, None) = (Ok (GR_certs csb), d3) /\ graph_step C d (G_weight b now, None) = (Ok (GR_weight wb), d4) /\
  csa <> [] /\ (forall ca cb, In ca csa -> In cb csb -> (length ca < length cb)%nat) /\ wa < wb.
Proof.
  assert (Ro : roots (after two_roots) = [(toy_key R, 15); (toy_key 6, 0)]) by (vm_compute; reflexivity).
  exists W, (db_of (after two_roots)), (toy_key A), (toy_key B), (at_ 10), [[toy_trust R R 1000 1; toy_trust R A 900 1]],
    [[toy_trust 6 6 1000 1; toy_trust 6 7 900 1; toy_trust 7 B 900 1]], 1, 16384. do 4 eexists.
  split; [apply toy_laws|]. split; [apply after_reachable; exact two_roots_typed|].
  split; [rewrite is_root_in, Ro; intros [H|[H|[]]]; discriminate H|]. split; [rewrite is_root_in, Ro; intros [H|[H|[]]]; discriminate H|].
  do 4 (split; [apply after_step; [exact two_roots_typed|typed1|vm_compute; reflexivity]|]).
  split; [discriminate|]. split; [|reflexivity]. intros ca cb [<-|[]] [<-|[]]. cbn. lia.
Qed.

(** A is one hop from the root and weighs 8, D three hops and weighs 2. *)
Example e_C146_closer : equal_roots (db_of (after faq)) 4 /\ ~ is_root (db_of (after faq)) (toy_key A) /\ ~ is_root (db_of (after faq)) (toy_key D) /\
  fst (graph_step (toy false) (db_of (after faq)) (G_get_all_certs (toy_key A) (at_ 10), None)) = Ok (GR_certs [[toy_trust R R 1000 1; toy_trust R A 900 1]]) /\
  fst (graph_step (toy false) (db_of (after faq)) (G_weight (toy_key A) (at_ 10), None)) = Ok (GR_weight 8) /\
  fst (graph_step (toy false) (db_of (after faq)) (G_get_all_certs (toy_key D) (at_ 10), None)) = Ok (GR_certs [way2 ++ [toy_trust B D 700 1]]) /\
  fst (graph_step (toy false) (db_of (after faq)) (G_weight (toy_key D) (at_ 10), None)) = Ok (GR_weight 2) /\ (2 < length (way2 ++ [toy_trust B D 700 1]))%nat.
Proof.
  assert (Ro : roots (after faq) = [(toy_key R, 12)]) by (vm_compute; reflexivity).
  split; [intros k n H; apply (one_root _ _ 12 4 Ro) in H; [apply H|lia|reflexivity]|].
  split; [rewrite is_root_in, Ro; intros [H|[]]; discriminate H|]. split; [rewrite is_root_in, Ro; intros [H|[]]; discriminate H|].
  do 4 (split; [apply after_answer; [exact faq_typed|typed1|vm_compute; reflexivity]|]). cbn. lia.
Qed.

(** ** C147 *)
(** The weight of a root, whatever is stored. *)
Lemma root_weighs : forall C d k m now fu w d', reachable C d -> call_typed C (G_weight k now) -> root_max_len d k m ->
  graph_step C d (G_weight k now, fu) = (Ok (GR_weight w), d') -> 2 ^ m <= w.
Proof.
  intros C d k m now fu w d' R T Hm E. apply reachable_inv in R. destruct R as (s & -> & Is).
  apply step_ok in E; [|exact Is|exact T]. cbn [sem fst snd run_ws fold_left] in E. destruct E as [E _]. injection E as <-.
  assert (X : root_weight (roots s) k = 2 ^ m).
  { destruct (root_weight_spec C s k Is) as [(m' & Hm' & X)|(Nr & _)]; [rewrite (root_max_len_fun _ _ _ _ Hm Hm'); exact X|].
    exfalso. apply Nr. apply (is_root_max_len C s k Is). eauto. }
  unfold weight_of. cbn [roots]. lia.
Qed.
Lemma only_root_same : forall d d' a m, tbl_roots d' = tbl_roots d -> only_root d a m -> only_root d' a m.
Proof. intros d d' a m E H k n. unfold root_max_len. rewrite E. apply H. Qed.
Lemma only_root_is : forall C d a m, reachable C d -> only_root d a m -> forall k, is_root d k <-> k = a.
Proof.
  intros C d a m R H k. apply reachable_inv in R. destruct R as (s & -> & Is). rewrite (is_root_max_len C s k Is). split.
  - intros (n & Hn). apply H in Hn. apply Hn.
  - intros ->. exists m. apply H. auto.
Qed.
(** The store holds just the trusts [ts] by [a]. *)
Definition holds_just (d : db) (a : public_key) (ts : list trust) : Prop :=
  forall x, stored d x <-> exists t, In t ts /\ x = RAuth (mk_auth (whole_trust t) a).
Lemma member_unexpired : forall C a now t i j b, member_trust C a now t i -> secs j <= secs now -> ~ db_expired j (RAuth (mk_auth (whole_trust t) b)).
Proof.
  intros C a now t i j b (_ & _ & _ & _ & H1 & H2) Hj X. cbn in X. unfold i64_of_u64 in X.
  destruct (N.ltb_spec (secs (expires_at t)) i64_bound), (N.ltb_spec (secs j) i64_bound); lia.
Qed.
(** Putting in one more trust of the root. *)
Lemma put_in : forall C d a m done t i now, reachable C d -> pk_valid C a -> only_root d a m -> 1 <= m -> holds_just d a done ->
  (forall u, In u done -> exists j, member_trust C a now u j) -> member_trust C a now t i -> ~ In (issued_for t) (map issued_for done) ->
  let d' := snd (graph_step C d (G_add_trust t a i, None)) in reachable C d' /\ only_root d' a m /\ holds_just d' a (done ++ [t]).
Proof.
  intros C d a m done t i now R Va Or Hm Hd Ud Ut Nt d'. unfold holds_just in Hd. pose proof Ut as (Tt & Ti & St & Hi & He & _).
  assert (T : call_typed C (G_add_trust t a i)) by (split; [exact Tt|split; [exact Va|exact Ti]]).
  assert (Tw : call_typed C (G_weight a i)) by (split; [exact Va|exact Ti]).
  assert (V : trust_verify C t a i = Ok tt).
  { apply trust_verify_exact. split; [|exact St]. intros [X|[X _]]; lia. }
  destruct (p_C38_add_trust_exact C d t a i R T) as [_ X]. destruct (X V) as (w & d1 & w' & d2 & E1 & E2 & Hw & _ & Imp).
  assert (W2 : 2 ^ m <= w) by (apply (root_weighs C d a m i None w d1 R Tw); [apply Or; auto|exact E1]).
  assert (2 <= 2 ^ m) by (change 2 with (2 ^ 1) at 1; apply N.pow_le_mono_r; lia).
  assert (w' <> 0).
  { destruct Hw as [[_ ->]|[_ ->]]; [lia|]. intros Z. apply N.div_small_iff in Z; lia. }
  assert (d' = d2) by (unfold d'; rewrite E2; reflexivity). subst d'. subst d2. specialize (Imp H0). destruct Imp as [Ro Im].
  assert (Col : collected d i d1).
  { apply reachable_inv in R. destruct R as (s & -> & Is). apply step_ok in E1; [|exact Is|exact Tw]. destruct E1 as [_ ->]. cbn [sem snd run_ws fold_left].
    apply (collected_gc C). apply (inv_wf C _ Is). }
  destruct Col as [Ro1 Col]. split; [apply reachable_step; assumption|]. split; [apply (only_root_same d); [congruence|exact Or]|].
  assert (H1d : forall x, stored d1 x <-> exists u, In u done /\ x = RAuth (mk_auth (whole_trust u) a)).
  { intros x. rewrite Col, Hd. split; [intros [Y _]; exact Y|]. intros (u & Hu & ->). split; [eauto|]. destruct (Ud u Hu) as (j & Uj).
    apply (member_unexpired C a now u j i a Uj Hi). }
  assert (Fresh : forall z, stored d1 z -> ~ same_keys (RAuth (mk_auth t a)) z).
  { intros z Hz [K1 _]. apply H1d in Hz. destruct Hz as (u & Hu & ->). cbn in K1. apply Nt. rewrite K1. apply (in_map issued_for _ _ Hu). }
  intros x. rewrite Im. split.
  - intros [[_ Hx]|[[K [Hx _]]|[-> _]]].
    + apply H1d in Hx. destruct Hx as (u & Hu & ->). exists u. split; [apply in_or_app; left; exact Hu|reflexivity].
    + destruct (Fresh x Hx K).
    + exists t. split; [apply in_or_app; right; left; reflexivity|reflexivity].
  - intros (u & Hu & ->). apply in_app_or in Hu. destruct Hu as [Hu|[<-|[]]].
    + left. assert (Hs : stored d1 (RAuth (mk_auth (whole_trust u) a))) by (apply H1d; eauto). split; [apply Fresh; exact Hs|exact Hs].
    + right. right. split; [reflexivity|]. intros z Hz K. destruct (Fresh z Hz K).
Qed.
Lemma put_all : forall C a m now ts d done, reachable C d -> pk_valid C a -> only_root d a m -> 1 <= m -> holds_just d a done ->
  (forall u, In u done -> exists j, member_trust C a now u j) -> (forall t i, In (t, i) ts -> member_trust C a now t i) ->
  NoDup (map issued_for (done ++ map fst ts)) ->
  let d' := graph_history C d (no_failures (map (fun x => G_add_trust (fst x) a (snd x)) ts)) in reachable C d' /\ only_root d' a m /\ holds_just d' a (done ++ map fst ts).
Proof.
  intros C a m now. induction ts as [|[t i] ts IH]; intros d done R Va Or Hm Hd Ud Ut Nd.
  - cbn. rewrite app_nil_r. auto.
  - cbn [map fst snd no_failures graph_history fold_left].
    assert (Nt : ~ In (issued_for t) (map issued_for done)).
    { rewrite map_app in Nd. cbn [map fst] in Nd. apply NoDup_remove_2 in Nd. intros H. apply Nd. apply in_or_app. left. exact H. }
    destruct (put_in C d a m done t i now R Va Or Hm Hd Ud (Ut t i (or_introl eq_refl)) Nt) as (R1 & Or1 & Hd1).
    assert (Q : done ++ t :: map fst ts = (done ++ [t]) ++ map fst ts) by (rewrite <- app_assoc; reflexivity).
    cbn [map fst] in Nd. rewrite Q in *. apply IH; [exact R1|exact Va|exact Or1|exact Hm|exact Hd1| | |exact Nd].
    + intros u Hu. apply in_app_or in Hu. destruct Hu as [Hu|[<-|[]]]; [apply Ud; exact Hu|]. exists i. apply Ut. left. reflexivity.
    + intros u j Hu. apply Ut. right. exact Hu.
Qed.
(** After the calls of the README's first use case, [get_weight_from(pk, a)] is 2^(n-1) for the members, with [n] cut to 16, and 0 for every other key, also
    for [a] itself. *)
Lemma p_C147_subnetwork : forall C a n t0 i0 ts now pk fu w d', pk_valid C a -> n < u32_bound -> 1 <= n -> issued_for t0 = a ->
  NoDup (a :: map (fun x => issued_for (fst x)) ts) -> member_trust C a now t0 i0 -> (forall t i, In (t, i) ts -> member_trust C a now t i) ->
  let d := graph_history C empty_db (no_failures (subnetwork_calls a n t0 i0 ts)) in
  small d -> call_typed C (G_weight_from pk a now) -> graph_step C d (G_weight_from pk a now, fu) = (Ok (GR_weight w), d') ->
  reachable C d /\
  (In pk (map (fun x => issued_for (fst x)) ts) -> w = 2 ^ (N.min n 16 - 1)) /\ (~ In pk (map (fun x => issued_for (fst x)) ts) -> w = 0).
Proof.
  intros C a n t0 i0 ts now pk fu w d' Va Hn Hn1 E0 Nd U0 Ut d Sm Tq E.
  assert (R0 : reachable C empty_db) by (exists []; split; [constructor|reflexivity]).
  assert (Ts : call_typed C (G_set_root a n)) by (split; assumption).
  set (d1 := snd (graph_step C empty_db (G_set_root a n, None))).
  assert (R1 : reachable C d1) by (apply reachable_step; assumption).
  assert (E1 : graph_step C empty_db (G_set_root a n, None) = (Ok GR_unit, d1)).
  { unfold d1. change empty_db with (db_of empty_state). rewrite (step_none C empty_state _ (inv_empty C) Ts). reflexivity. }
  destruct (p_C40_set_root_exact C empty_db a n None d1 R0 Ts E1) as (Rel & _ & Mx).
  set (m := N.min n 16). assert (Hm : 1 <= m) by (unfold m; lia).
  assert (Or : only_root d1 a m).
  { intros k q. rewrite Mx. split.
    - intros [(z & Hz & _)|(-> & _ & ->)]; [discriminate Hz|auto].
    - intros (-> & ->). right. split; [reflexivity|]. split; [intros []|reflexivity]. }
  assert (H1 : holds_just d1 a []).
  { intros x. split; [|intros (t & [] & _)]. intros Hx. exfalso. destruct x as [u|v]; cbn [stored] in Hx; unfold stored_trust, stored_revocation in Hx; rewrite Rel in Hx; apply Hx. }
  assert (Key : map issued_for ([] ++ map fst ((t0, i0) :: ts)) = a :: map (fun x => issued_for (fst x)) ts) by (cbn; rewrite E0, map_map; reflexivity).
  destruct (put_all C a m now ((t0, i0) :: ts) d1 [] R1 Va Or Hm H1) as (R & Ord & Hd).
  { intros u []. }
  { intros t i [X|X]; [injection X as <- <-; exact U0|apply Ut; exact X]. }
  { rewrite Key. exact Nd. }
  change (graph_history C d1 (no_failures (map (fun x => G_add_trust (fst x) a (snd x)) ((t0, i0) :: ts)))) with d in R, Ord, Hd.
  cbn [app map fst] in Hd. split; [exact R|].
  assert (Tc : call_typed C (G_get_all_certs pk now)) by (destruct Tq as (T1 & _ & T3); split; assumption).
  destruct (p_C23_queries_succeed C d (G_get_all_certs pk now) R Tc I) as (x & d2 & Ec & X). destruct x as [| |cs|]; try contradiction X. clear X.
  destruct (p_C23_queries_succeed C d (G_get_all_certs_from pk a now) R Tq I) as (x & d3 & Ef & X). destruct x as [| |cf|]; try contradiction X. clear X.
  destruct (p_C46_weight_from_exact C d pk a now None fu cf w d3 d' R Tq Sm Ef E) as [G1 G2].
  pose proof (p_C46_from_is_filter C d pk a now None None cs cf d2 d3 R Tq Ec Ef) as F.
  destruct (p_C24_certificates_exact C d pk now None cs d2 R Tc Ec) as [[Ro Col] X].
  assert (All : forall x, stored d2 x <-> exists t, In t (t0 :: map fst ts) /\ x = RAuth (mk_auth (whole_trust t) a)).
  { intros x. rewrite Col. unfold holds_just in Hd. rewrite Hd. split; [intros [Y _]; exact Y|]. intros (u & Hu & ->). split; [eauto|].
    assert (Uu : exists j, member_trust C a now u j).
    { destruct Hu as [<-|Hu]; [eauto|]. apply in_map_iff in Hu. destruct Hu as ([u' j] & <- & Hu). exists j. apply Ut. exact Hu. }
    destruct Uu as (j & Uj). apply (member_unexpired C a now u j now a Uj). lia. }
  assert (AllT : forall b t, stored_trust d2 b t <-> b = a /\ exists u, In u (t0 :: map fst ts) /\ t = whole_trust u).
  { intros b t. change (stored d2 (RAuth (mk_auth t b)) <-> b = a /\ exists u, In u (t0 :: map fst ts) /\ t = whole_trust u). rewrite All. split.
    - intros (u & Hu & Eu). injection Eu as -> ->. eauto.
    - intros (-> & u & Hu & ->). eauto. }
  assert (NoRev : forall v, ~ stored_revocation d2 v).
  { intros v Hv. apply (All (RRev v)) in Hv. destruct Hv as (u & _ & Hu). discriminate Hu. }
  assert (IsR : forall k, is_root d2 k <-> k = a) by (intros k; unfold is_root; rewrite Ro; apply (only_root_is C d a m R Ord)).
  (* the shape of a chain *)
  assert (Shape : forall c, root_chain d2 pk c -> pk <> a /\ In pk (map (fun x => issued_for (fst x)) ts) /\ length c = 2%nat /\ key_at c 0 a).
  { intros c (L & (u & Hu & Eu) & P0 & Ps & Nr).
    assert (Hc : exists g, at_pos c 0 g) by (destruct c as [|g c]; [cbn in L; lia|exists g; reflexivity]). destruct Hc as (g & Hg).
    assert (Kg : issued_for g = a) by (apply IsR; apply P0; exact Hg).
    assert (L2 : length c = 2%nat).
    { destruct (Nat.eq_dec (length c) 2) as [Q|Q]; [exact Q|]. exfalso.
      assert (Hx : exists y, at_pos c 1 y) by (apply nth_error_Some_ex; lia). destruct Hx as (y & Hy).
      assert (Hx : exists z, at_pos c 2 z) by (apply nth_error_Some_ex; lia). destruct Hx as (z & Hz).
      pose proof (Ps 1%nat y z Hy Hz) as Sz. apply AllT in Sz. destruct Sz as [Ky _].
      destruct (Nr 0%nat 1%nat a ltac:(lia)) as [_ Z]; [exists g; auto|exists y; auto|lia]. }
    rewrite L2 in Hu. change (2 - 1)%nat with 1%nat in Hu.
    assert (Na : pk <> a).
    { intros ->. destruct (Nr 0%nat 1%nat a ltac:(lia)) as [_ Z]; [exists g; auto|exists u; auto|lia]. }
    split; [exact Na|]. split; [|split; [exact L2|exists g; auto]].
    pose proof (Ps 0%nat g u Hg Hu) as Su. apply AllT in Su. destruct Su as (_ & y & [<-|Hy] & ->).
    - exfalso. apply Na. rewrite <- Eu, <- E0. reflexivity.
    - cbn [whole_trust issued_for] in Eu. subst pk. apply in_map_iff in Hy. destruct Hy as (p & <- & Hp). apply (in_map (fun x => issued_for (fst x)) _ _ Hp). }
  assert (Wm : forall c v, In c cf -> cert_weight d c v -> v = 2 ^ (m - 1)).
  { intros c v Hc (u & q & Hu & Hq & ->). apply F in Hc. destruct Hc as [Hc _]. apply X in Hc. destruct Hc as [Hc _]. apply Shape in Hc. destruct Hc as (_ & _ & L & _).
    rewrite L. apply Ord in Hq. destruct Hq as [_ ->]. unfold chain_weight. f_equal. }
  split.
  - intros Hp. apply in_map_iff in Hp. destruct Hp as ([t i] & Et & Ht). cbn [fst] in Et.
    assert (Na : pk <> a).
    { intros ->. inversion Nd as [|? ? Hni _]; subst. apply Hni. apply in_map_iff. exists (t, i). split; [exact Et|exact Ht]. }
    assert (Hc : In [whole_trust t0; whole_trust t] cf).
    { apply F. split; [|exists 0%nat, (whole_trust t0); split; [reflexivity|exact E0]]. apply X. split; [|intros k j (_ & v & Hv & _); destruct (NoRev v Hv)].
      split; [cbn; lia|]. split; [exists (whole_trust t); split; [reflexivity|exact Et]|]. split; [|split].
      - intros y Hy. injection Hy as <-. cbn [whole_trust issued_for]. rewrite E0. split; [apply IsR; reflexivity|]. apply AllT. split; [reflexivity|].
        exists t0. split; [left; reflexivity|reflexivity].
      - intros k g y Hg Hy. destruct k as [|k]; [|destruct k; discriminate Hy]. injection Hg as <-. injection Hy as <-. cbn [whole_trust issued_for]. rewrite E0.
        apply AllT. split; [reflexivity|]. exists t. split; [right; apply (in_map fst _ _ Ht)|reflexivity].
      - intros k j b Hkj Kk Kj. pose proof (key_len _ _ _ Kj) as Lj. cbn in Lj. assert (j = 1%nat) as -> by lia. assert (k = 0%nat) as -> by lia. exfalso.
        destruct Kk as (y & Hy & Ey). destruct Kj as (z & Hz & Ez). injection Hy as <-. injection Hz as <-. cbn [whole_trust issued_for] in Ey, Ez. congruence. }
    assert (Wc : cert_weight d [whole_trust t0; whole_trust t] (2 ^ (m - 1))).
    { exists (whole_trust t0), m. split; [reflexivity|]. split; [apply Ord; split; [exact E0|reflexivity]|]. unfold chain_weight. reflexivity. }
    destruct G2 as [(c & Hcf & Hw)|[_ Z]].
    + exact (Wm c w Hcf Hw).
    + exfalso. apply (Z (2 ^ (m - 1))). eauto.
  - intros Np. destruct G2 as [(c & Hcf & Hw)|[Z _]]; [|exact Z]. exfalso. apply F in Hcf. destruct Hcf as [Hc _]. apply X in Hc. destruct Hc as [Hc _]. apply Shape in Hc.
    apply Np. apply Hc.
Qed.
(** The authority 1 and the members 2 and 3, at second 100: member 2 has weight 8, key 4 and the authority itself 0. *)
Definition abc : list graph_call := subnetwork_calls (toy_key R) 4 (toy_trust R R 1000 1) (at_ 5) [(toy_trust R A 900 1, at_ 6); (toy_trust R B 900 2, at_ 7)].
Example e_C147_abc : Forall (call_typed (toy false)) abc /\ graph_history (toy false) empty_db (no_failures abc) = db_of (after abc) /\ small (db_of (after abc)) /\
  NoDup [toy_key R; toy_key A; toy_key B] /\
  member_trust (toy false) (toy_key R) (at_ 100) (toy_trust R R 1000 1) (at_ 5) /\ member_trust (toy false) (toy_key R) (at_ 100) (toy_trust R A 900 1) (at_ 6) /\
  member_trust (toy false) (toy_key R) (at_ 100) (toy_trust R B 900 2) (at_ 7) /\
  fst (graph_step (toy false) (db_of (after abc)) (G_weight_from (toy_key A) (toy_key R) (at_ 100), None)) = Ok (GR_weight 8) /\
  fst (graph_step (toy false) (db_of (after abc)) (G_weight_from (toy_key D) (toy_key R) (at_ 100), None)) = Ok (GR_weight 0) /\
  fst (graph_step (toy false) (db_of (after abc)) (G_weight_from (toy_key R) (toy_key R) (at_ 100), None)) = Ok (GR_weight 0).
Proof.
  assert (Ta : Forall (call_typed W) abc) by (unfold abc, subnetwork_calls; cbn [map fst snd]; typed1).
  assert (M : forall x e i j, e < i64_bound -> i < u64_bound -> j < u64_bound -> j <= 100 -> 100 < e -> trust_verify W (toy_trust R x e i) (toy_key R) (at_ 100) = Ok tt ->
    member_trust W (toy_key R) (at_ 100) (toy_trust R x e i) (at_ j)).
  { intros x e i j He Hi Hj H1 H2 V. apply trust_verify_exact in V. split; [apply toy_trust_typed; [unfold i64_bound, u64_bound in *; lia|exact Hi]|]. split; [apply secs_wf; exact Hj|].
    split; [apply V|]. split; [exact H1|]. split; [exact H2|exact He]. }
  split; [exact Ta|]. split; [exact (run_calls_history W abc empty_state (inv_empty W) Ta)|]. split; [vm_compute; reflexivity|].
  split; [repeat (constructor; [cbn; intros H; repeat (destruct H as [H|H]; [discriminate H|]); exact H|]); constructor|].
  do 3 (split; [apply M; try reflexivity; try (vm_compute; discriminate); vm_compute; reflexivity|]).
  split; [|split]; (apply after_answer; [exact Ta|typed1|vm_compute; reflexivity]).
Qed.

(** ** C148 *)
Lemma factor_keeps : forall ws s k f, root_factor (roots s) k = Some f -> root_factor (roots (run_ws ws s)) k = Some f.
Proof.
  induction ws as [|w ws IH]; intros s k f H; [exact H|]. cbn [run_ws fold_left]. apply IH. destruct w as [now|x|pk f']; [exact H|exact H|]. cbn [apply_w roots].
  unfold root_factor in *. induction (roots s) as [|[k' g] l IHl]; [discriminate H|]. cbn [app find fst] in *. destruct (pk_eqb k' k); [exact H|]. apply IHl. exact H.
Qed.
(** A root stays a root with the same length, and has at least its weight at every time, whatever calls come. *)
Lemma p_C148_roots_stay : forall C d k m es now fu w d', reachable C d -> root_max_len d k m -> typed_history C es -> call_typed C (G_weight k now) ->
  graph_step C (graph_history C d es) (G_weight k now, fu) = (Ok (GR_weight w), d') ->
  root_max_len (graph_history C d es) k m /\ 2 ^ m <= w.
Proof.
  intros C d k m es now fu w d' R Hm Th T E. pose proof (history_reachable C d es R Th) as R'.
  assert (Hm' : root_max_len (graph_history C d es) k m).
  { apply reachable_inv in R. destruct R as (s & -> & Is). destruct (history_writes C es s (inv_wf C s Is) Th) as (ws & -> & _).
    apply root_max_len_factor in Hm. apply root_max_len_factor. destruct Hm as (f & Hf & Em). exists f. split; [apply factor_keeps; exact Hf|exact Em]. }
  split; [exact Hm'|]. exact (root_weighs C _ k m now fu w d' R' T Hm' E).
Qed.
(** A revokes the root R, R's own trust expires, and another length is asked for: R keeps the length 4 and the weight 16. *)
Definition later : list graph_call := [G_revoke (toy_rev A R 9); G_set_root (toy_key R) 2].
Example e_C148_root : root_max_len (db_of (after faq)) (toy_key R) 4 /\ typed_history (toy false) (no_failures later) /\
  graph_history (toy false) (db_of (after faq)) (no_failures later) = db_of (after (faq ++ later)) /\
  fst (graph_step (toy false) (db_of (after (faq ++ later))) (G_weight (toy_key R) (at_ 2000), None)) = Ok (GR_weight 16).
Proof.
  assert (Ro : roots (after faq) = [(toy_key R, 12)]) by (vm_compute; reflexivity).
  assert (Tl : Forall (call_typed W) later) by (unfold later; typed1).
  assert (Tb : Forall (call_typed W) (faq ++ later)) by (apply Forall_app; split; [exact faq_typed|exact Tl]).
  split; [apply (one_root _ _ 12 4 Ro); [lia|reflexivity|split; reflexivity]|]. split; [|split].
  - unfold later, no_failures. cbn [map]. inversion Tl as [|? ? X1 Y]; subst. inversion Y as [|? ? X2 _]; subst. repeat constructor; assumption.
  - unfold after at 2, run_calls. rewrite fold_left_app. exact (run_calls_history W later (after faq) (after_inv _ faq_typed) Tl).
  - apply after_answer; [exact Tb|typed1|vm_compute; reflexivity].
Qed.
