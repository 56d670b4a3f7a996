(** A clock that was wrong for a while: C201. *)
From Coq Require Import List NArith ZArith Bool Lia Permutation ZifyBool ZifyNat ZifyN.
From Verif Require Import Base BaseFacts Text Keys KeysFacts Trust TrustFacts Certificate Relation Storage StorageFacts Graph SearchFacts PathFacts
  Spec SpecFacts StateFacts GraphFacts GraphThms MachineSpec MachineThms ReadmeThms VisitorThms BlowupThms CopySpec CopyThms JumpSpec Witness Toy ToyFacts.
Import ListNotations.
Open Scope N_scope.

Definition expired_b (now : duration) (x : relation) : bool :=
  match x with RAuth a => (i64_of_u64 (secs (expires_at (auth_trust a))) <=? i64_of_u64 (secs now))%Z | RRev _ => false end.
Lemma expired_b_spec : forall now x, expired_b now x = true <-> db_expired now x.
Proof. intros now [a|v]; cbn [expired_b db_expired]; [apply Z.leb_le|]. split; [discriminate|intros []]. Qed.

Lemma end_key : forall (pre : certificate) x, key_at (pre ++ [x]) (length (pre ++ [x]) - 1) (issued_for x).
Proof.
  intros pre x. exists x. split; [|reflexivity]. unfold at_pos. rewrite app_length. cbn [length]. rewrite nth_error_app2 by lia.
  replace (length pre + 1 - 1 - length pre)%nat with 0%nat by lia. reflexivity.
Qed.

Section Machines.
Variable C : crypto.
Variable A : machine.
Variable now : duration.
Let A1 := m_collect A now.
Hypothesis One : forall x y, holds A x -> holds A y -> same_keys x y -> x = y.
Hypothesis Whole : forall x, holds A x -> whole x = x.
Hypothesis Signed_t : forall t b, holds A1 (RAuth (mk_auth t b)) -> acceptable C b t now.

(** A part of [A]: the roots, all revocations, and at least the trusts [L]. *)
Definition rest_of (L : list auth) (m : machine) : Prop :=
  (forall k l, root_of m k l <-> root_of A k l) /\ (forall x, holds m x -> holds A x) /\ (forall v, holds A (RRev v) -> holds m (RRev v)) /\
  (forall y, In y L -> holds m (RAuth y)) /\ exists M, forall x, holds m x <-> In x M.
Definition lasting (L : list auth) : Prop := forall y, In y L -> holds A1 (RAuth y).

Lemma rest_collect : forall L m, lasting L -> rest_of L m -> rest_of L (m_collect m now).
Proof.
  intros L m P (S1 & S2 & S3 & S4 & M & S5). split; [exact S1|]. split; [intros x [H _]; apply S2; exact H|]. split; [intros v H; split; [apply S3; exact H|intros []]|].
  split; [intros y I; split; [apply S4; exact I|apply P; exact I]|]. exists (filter (fun x => negb (expired_b now x)) M). intros x. rewrite filter_In, negb_true_iff. cbn [m_collect holds].
  rewrite S5, <- (expired_b_spec now x). split; intros [H1 H2]; (split; [exact H1|]); [apply not_true_is_false; exact H2|]. rewrite H2. discriminate.
Qed.
Lemma rest_import : forall L m y, holds A (RAuth y) -> rest_of L m -> rest_of (L ++ [y]) (m_import m (RAuth y)).
Proof.
  intros L m y Hy (S1 & S2 & S3 & S4 & M & S5).
  assert (U : forall z, holds m z -> same_keys (RAuth y) z -> z = RAuth y) by (intros z I K; symmetry; apply One; [exact Hy|apply S2; exact I|exact K]).
  assert (Keep : forall z, holds m z -> holds (m_import m (RAuth y)) z).
  { intros z Hz. cbn [m_import holds]. destruct (same_keys_dec (RAuth y) z) as [K|K]; [|left; auto]. right. left. split; [exact K|]. split; [exact Hz|]. rewrite (U z Hz K). apply not_before_self. }
  assert (Now : holds (m_import m (RAuth y)) (RAuth y)).
  { destruct (some_pair (RAuth y) M) as [(z & I & K)|N0].
    - apply S5 in I. rewrite (U z I K) in I. apply Keep. exact I.
    - cbn [m_import holds]. right. right. split; [symmetry; apply Whole; exact Hy|]. intros z Hz K. apply S5 in Hz. destruct (N0 z Hz K). }
  assert (Old : forall x, holds (m_import m (RAuth y)) x -> holds m x \/ x = RAuth y).
  { intros x. cbn [m_import holds]. intros [(_ & H)|[(_ & H & _)|(-> & _)]]; [left; exact H|left; exact H|right; exact (Whole _ Hy)]. }
  split; [exact S1|]. split; [|split; [|split]].
  - intros x H. destruct (Old x H) as [H'| ->]; [apply S2; exact H'|exact Hy].
  - intros v H. apply Keep. apply S3. exact H.
  - intros z I. apply in_app_iff in I. destruct I as [I|[<-|[]]]; [apply Keep; apply S4; exact I|exact Now].
  - exists (M ++ [RAuth y]). intros x. rewrite in_app_iff. split.
    + intros H. destruct (Old x H) as [H'| ->]; [left; apply S5; exact H'|right; left; reflexivity].
    + intros [H|[<-|[]]]; [apply Keep; apply S5; exact H|exact Now].
Qed.

(** A trust of [A] is taken on again if its giver has the weight. *)
Lemma again_trust : forall L m t b a ms, lasting L -> rest_of L m -> holds A1 (RAuth (mk_auth t b)) ->
  (exists v, (2 <= v \/ (b = issued_for t /\ 1 <= v)) /\ ((exists l, root_of m b l /\ v = 2 ^ l) \/ (exists c, m_chain (m_collect m now) b c /\ m_worth m c v))) ->
  m_add_trust C m t b now a ms -> (exists p, a = A_weight p) /\ rest_of (L ++ [mk_auth t b]) (last ms m).
Proof.
  intros L m t b a ms P S0 H (v & Hv & W) Ca. pose proof (rest_collect L m P S0) as Sc.
  assert (Pos : forall p, m_passes (m_collect m now) b (issued_for t) p -> 0 < p).
  { intros p (w & (G & _) & K). assert (Le : v <= w).
    { apply G. destruct W as [(l & R & E)|(c & K1 & (t0 & l & K2 & K3 & K4))]; [left; exists l; auto|]. right. exists c. split; [exact K1|]. exists t0, l. auto. }
    destruct K as [(E & ->)|(E & ->)]; [lia|]. destruct Hv as [Hv|[E' _]]; [|contradiction]. pose proof (N.div_str_pos w 2 ltac:(lia)). lia. }
  inversion Ca as [Na|Ac Ps|p Ac Ps Pp]; subst.
  - destruct (Na (Signed_t t b H)).
  - specialize (Pos 0 Ps). lia.
  - split; [eauto|]. cbn [last]. apply rest_import; [apply H|exact Sc].
Qed.
Lemma lasting_app : forall L y, lasting L -> holds A1 (RAuth y) -> lasting (L ++ [y]).
Proof. intros L x P H y I. apply in_app_iff in I. destruct I as [I|[<-|[]]]; [apply P; exact I|exact H]. Qed.
Definition clean (c : certificate) : Prop :=
  forall i j v, (i < j)%nat -> holds A (RRev v) -> key_at c i (revoked_by v) -> key_at c j (rev_pk v) -> False.
Lemma again_prefix : forall L m pk c pre t post b, rest_of L m -> lasting L -> clean c -> m_chain A1 pk c -> c = pre ++ t :: post ->
  (forall a, In a (cert_auths pre) -> In a L) -> (2 <= length pre)%nat -> key_at pre (length pre - 1) b -> m_chain (m_collect m now) b pre.
Proof.
  intros L m pk c pre t post b S0 P Cl (H1 & H2 & H3 & H4 & H5 & H6) E I Le K. pose proof (rest_collect L m P S0) as (S1 & S2 & S3 & S4 & _).
  assert (Up : forall i x, at_pos pre i x -> at_pos c i x).
  { intros i x H. unfold at_pos in *. rewrite E, nth_error_app1; [exact H|]. apply nth_error_Some. congruence. }
  assert (Uk : forall i k, key_at pre i k -> key_at c i k) by (intros i k (x & H & Ex); exists x; split; [apply Up; exact H|exact Ex]).
  split; [exact Le|]. split; [exact K|]. split; [|split; [|split]].
  - intros u Hu. destruct (H3 u (Up _ _ Hu)) as ((l & R) & _). split; [exists l; apply S1; exact R|]. apply S4. apply I.
    destruct pre as [|x pre]; [discriminate Hu|]. injection Hu as ->. left. reflexivity.
  - intros i g u Hg Hu. apply S4. apply I. destruct pre as [|x pre]; [destruct i; discriminate Hg|].
    apply (nth_error_In _ (S i)). apply with_issuers_nth. exists u, g. auto.
  - intros i j k Lt Ki Kj. exact (H5 i j k Lt (Uk _ _ Ki) (Uk _ _ Kj)).
  - intros i j v Lt Hv Ki Kj. destruct (Cl i j v Lt (S2 _ Hv) (Uk _ _ Ki) (Uk _ _ Kj)).
Qed.
Lemma again_rest : forall pk c post pre g L m a ms, m_chain A1 pk c -> long_enough A c -> clean c -> c = (pre ++ [g]) ++ post ->
  lasting L -> rest_of L m -> (forall x, In x (cert_auths (pre ++ [g])) -> In x L) ->
  m_add_all C now m post (issued_for g) a ms ->
  a = A_done /\ exists L', rest_of L' (last ms m) /\ lasting L' /\ (forall x, In x L \/ In x (cert_auths c) -> In x L').
Proof.
  intros pk c post. induction post as [|t post IH]; intros pre g L m a ms Hc Le Cl E P S0 I H.
  - rewrite app_nil_r in E. subst c. inversion H; subst. split; [reflexivity|]. exists L. split; [exact S0|]. split; [exact P|].
    intros x [X|X]; [exact X|apply I; exact X].
  - pose proof Hc as (H1 & H2 & H3 & H4 & H5 & H6).
    assert (Lp : (length c = length (pre ++ [g]) + 1 + length post)%nat) by (rewrite E, app_length; cbn [length]; lia).
    assert (Hh : holds A1 (RAuth (mk_auth t (issued_for g)))).
    { apply (H4 (length pre)); unfold at_pos; rewrite E.
      - rewrite <- app_assoc, nth_error_app2, Nat.sub_diag by lia. reflexivity.
      - rewrite nth_error_app2 by (rewrite app_length; cbn [length]; lia). rewrite app_length. cbn [length]. replace (S (length pre) - (length pre + 1))%nat with 0%nat by lia. reflexivity. }
    assert (Hr : exists t0 l, at_pos c 0 t0 /\ at_pos (pre ++ [g]) 0 t0 /\ root_of A (issued_for t0) l).
    { destruct (nth_error_Some_ex _ (pre ++ [g]) 0) as (t0 & H0); [rewrite app_length; cbn [length]; lia|]. exists t0.
      assert (H0' : at_pos c 0 t0) by (unfold at_pos in *; rewrite E, nth_error_app1; [exact H0|rewrite app_length; cbn [length]; lia]).
      destruct (H3 t0 H0') as ((l & R) & _). exists l. auto. }
    destruct Hr as (t0 & l & At & Ap & R). pose proof (Le t0 l At R) as Ln. pose proof S0 as (S1 & _).
    assert (Wt : exists v, (2 <= v \/ (issued_for g = issued_for t /\ 1 <= v)) /\
                  ((exists l, root_of m (issued_for g) l /\ v = 2 ^ l) \/ (exists c, m_chain (m_collect m now) (issued_for g) c /\ m_worth m c v))).
    { destruct pre as [|x pre].
      - cbn in Ap. injection Ap as <-. exists (2 ^ l). split; [left|left; exists l; split; [apply S1; exact R|reflexivity]].
        cbn [app length] in Lp. apply (N.pow_le_mono_r 2 1 l); lia.
      - exists (2 ^ (l - N.of_nat (length ((x :: pre) ++ [g]) - 1))). rewrite app_length in *. cbn [length] in *. split; [left; apply (N.pow_le_mono_r 2 1); lia|]. right.
        exists ((x :: pre) ++ [g]). split.
        + apply (again_prefix L m pk c ((x :: pre) ++ [g]) t post); try assumption; [rewrite app_length; cbn [length]; lia|apply end_key].
        + exists t0, l. split; [exact Ap|]. split; [apply S1; exact R|]. rewrite app_length. reflexivity. }
    inversion H as [|? ? ? ? ? Ht|? ? ? ? p ms1 ? ms2 Ht Hr2]; subst.
    + destruct (again_trust L m t (issued_for g) A_refused ms P S0 Hh Wt Ht) as ((p & Ep) & _). discriminate Ep.
    + destruct (again_trust L m t (issued_for g) (A_weight p) ms1 P S0 Hh Wt Ht) as (_ & Sn).
      specialize (IH (pre ++ [g]) t (L ++ [mk_auth t (issued_for g)]) (last ms1 m) a ms2 Hc Le Cl).
      destruct IH as (Ea & L' & Sl & Pl & Il); try assumption.
      * symmetry. exact (app_assoc_reverse (pre ++ [g]) [t] post).
      * apply lasting_app; assumption.
      * intros x J. rewrite cert_auths_snoc in J. apply in_app_iff in J. apply in_app_iff. destruct J as [J|[<-|[]]]; [left; apply I; exact J|right; left; reflexivity].
      * split; [exact Ea|]. exists L'.
        rewrite last_two. split; [exact Sl|]. split; [exact Pl|]. intros x [J|J]; apply Il; [left; apply in_app_iff; left; exact J|right; exact J].
Qed.
Lemma again_cert : forall pk c L m a ms, m_chain A1 pk c -> long_enough A c -> clean c -> lasting L -> rest_of L m ->
  m_call C m (G_add c now) a ms ->
  a = A_done /\ exists L', rest_of L' (last ms m) /\ lasting L' /\ (forall x, In x L \/ In x (cert_auths c) -> In x L').
Proof.
  intros pk c L m a ms Hc Le Cl P S0 H. pose proof Hc as (H1 & H2 & H3 & _). destruct c as [|t c]; [cbn in H1; lia|].
  destruct (H3 t eq_refl) as ((l & R) & Hh).
  assert (Wt : exists v, (2 <= v \/ (issued_for t = issued_for t /\ 1 <= v)) /\
                ((exists l, root_of m (issued_for t) l /\ v = 2 ^ l) \/ (exists c, m_chain (m_collect m now) (issued_for t) c /\ m_worth m c v))).
  { exists (2 ^ l). split; [right; split; [reflexivity|]|left; exists l; split; [apply (proj1 S0); exact R|reflexivity]]. pose proof (N.pow_nonzero 2 l ltac:(lia)). lia. }
  inversion H as [| | |? ? ? ? ? Ha| | | | | | |]; subst. inversion Ha as [|? ? ? ? ? Ht|? ? ? ? p ms1 ? ms2 Ht Hr2]; subst.
  - destruct (again_trust L m t (issued_for t) A_refused ms P S0 Hh Wt Ht) as ((p & Ep) & _). discriminate Ep.
  - destruct (again_trust L m t (issued_for t) (A_weight p) ms1 P S0 Hh Wt Ht) as (_ & Sn).
    destruct (again_rest pk (t :: c) c [] t (L ++ [mk_auth t (issued_for t)]) (last ms1 m) a ms2 Hc Le Cl eq_refl) as (Ea & L' & Sl & Pl & Il); try assumption.
    + apply lasting_app; assumption.
    + intros x [<-|[]]. apply in_app_iff. right. left. reflexivity.
    + split; [exact Ea|]. exists L'. rewrite last_two. split; [exact Sl|]. split; [exact Pl|]. intros x [J|J]; apply Il; [left; apply in_app_iff; left; exact J|right; exact J].
Qed.
Lemma again_certs : forall cs L m as_ m', (forall c, In c cs -> (exists pk, m_chain A1 pk c) /\ long_enough A c /\ clean c) ->
  lasting L -> rest_of L m -> m_run C m (no_failures (map (fun c => G_add c now) cs)) as_ m' ->
  as_ = map (fun _ => A_done) cs /\ exists L', rest_of L' m' /\ (forall c y, In c cs -> In y (cert_auths c) -> In y L') /\ (forall y, In y L -> In y L').
Proof.
  intros cs. induction cs as [|c cs IH]; intros L m as_ m' Hc P S0 H.
  - inversion H; subst. split; [reflexivity|]. exists L. split; [exact S0|]. split; [intros c y []|auto].
  - cbn [map no_failures] in H. inversion H as [|? ? ? ? a ms as' ? K1 K2|]; subst.
    destruct (Hc c (or_introl eq_refl)) as ((pk & Hk) & Le & Cl). destruct (again_cert pk c L m a ms Hk Le Cl P S0 K1) as (-> & L1 & S1 & P1 & I1).
    destruct (IH L1 (last ms m) as' m' (fun c' J => Hc c' (or_intror J)) P1 S1 K2) as (-> & L' & S2 & I2 & I3).
    split; [reflexivity|]. exists L'. split; [exact S2|]. split; [|intros y J; apply I3, I1; left; exact J].
    intros c' y [<-|J] Iy; [apply I3, I1; right; exact Iy|exact (I2 c' y J Iy)].
Qed.
Lemma again_chains : forall cs L m k now' c, rest_of L m -> (forall c y, In c cs -> In y (cert_auths c) -> In y L) -> (m_chain (m_collect A now') k c -> In c cs) ->
  (m_chain (m_collect m now') k c <-> m_chain (m_collect A now') k c).
Proof.
  intros cs L m k now' c (S1 & S2 & S3 & S4 & _) Hcs Hk. split.
  - intros (H1 & H2 & H3 & H4 & H5 & H6). split; [exact H1|]. split; [exact H2|]. split; [|split; [|split; [exact H5|]]].
    + intros t Ht. destruct (H3 t Ht) as ((l & R) & Hh & Ne). split; [exists l; apply S1; exact R|]. split; [apply S2; exact Hh|exact Ne].
    + intros i g t Hg Ht. destruct (H4 i g t Hg Ht) as (Hh & Ne). split; [apply S2; exact Hh|exact Ne].
    + intros i j v Lt (Hh & Ne) Ki Kj. apply (H6 i j v Lt); [|exact Ki|exact Kj]. split; [apply S3; exact Hh|exact Ne].
  - intros Hc. pose proof (Hk Hc) as Ic. destruct Hc as (H1 & H2 & H3 & H4 & H5 & H6).
    split; [exact H1|]. split; [exact H2|]. split; [|split; [|split; [exact H5|]]].
    + intros t Ht. destruct (H3 t Ht) as ((l & R) & Hh & Ne). split; [exists l; apply S1; exact R|]. split; [|exact Ne]. apply S4, (Hcs c _ Ic).
      destruct c as [|t' c']; [discriminate Ht|]. injection Ht as ->. left. reflexivity.
    + intros i g t Hg Ht. destruct (H4 i g t Hg Ht) as (Hh & Ne). split; [|exact Ne]. apply S4, (Hcs c _ Ic). destruct c as [|t' c']; [destruct i; discriminate Hg|].
      apply (nth_error_In _ (S i)). apply with_issuers_nth. exists t, g. auto.
    + intros i j v Lt (Hh & Ne) Ki Kj. apply (H6 i j v Lt); [|exact Ki|exact Kj]. split; [apply S2; exact Hh|exact Ne].
Qed.
End Machines.

(** ** C201 *)
(** Questions leave the roots and the revocations, and bring nothing. *)
Lemma questions_leave : forall C es d, reachable C d -> typed_history C es -> only_questions es ->
  let d' := graph_history C d es in
  (forall k l, root_max_len d' k l <-> root_max_len d k l) /\ (forall x, stored d' x -> stored d x) /\ (forall v, stored d (RRev v) -> stored d' (RRev v)).
Proof.
  intros C es d R T Q. apply reachable_inv in R. destruct R as (s & -> & I). destruct (history_writes C es s (inv_wf C s I) T) as (ws & E & W).
  cbn zeta. rewrite E.
  refine (run_invariant C (fun s' => (forall k l, root_max_len (db_of s') k l <-> root_max_len (db_of s) k l) /\ (forall x, stored (db_of s') x -> stored (db_of s) x) /\
    (forall v, stored (db_of s) (RRev v) -> stored (db_of s') (RRev v))) es _ ws s W (inv_wf C s I) _).
  - intros s' w c fu Ws (H1 & H2 & H3) Ic Tc Wr Wo. apply (proj1 (Forall_forall _ _) Q) in Ic. cbn [fst] in Ic. destruct w as [n|x|k f].
    + destruct (collected_gc C s' n Ws) as [E1 E2]. split; [|split].
      * intros k l. rewrite <- H1. unfold root_max_len. rewrite E1. reflexivity.
      * intros x Hx. apply E2 in Hx. apply H2. apply Hx.
      * intros v Hv. apply E2. split; [apply H3; exact Hv|intros []].
    + exfalso. destruct x as [a|v]; cbn [write_of] in Wr; destruct Wr as [Wr _]; [destruct c; try contradiction Ic; contradiction Wr|rewrite Wr in Ic; contradiction Ic].
    + exfalso. destruct Wr as (n & -> & _). contradiction Ic.
  - split; [intros; reflexivity|]. split; auto.
Qed.
Lemma few_leaves : forall C es d, reachable C d -> typed_history C es -> only_questions es -> few d [] -> few (graph_history C d es) [].
Proof.
  intros C es d R T Q F. apply few_after; [exact R|exact T|]. unfold few in *. cbn [map list_sum fold_right] in F.
  assert (E : list_sum (map (fun e => offered (fst e)) es) = 0%nat); [|rewrite E; exact F].
  clear - Q. induction Q as [|[c fu] es H Q IH]; [reflexivity|]. cbn [map fst]. change (offered c + list_sum (map (fun e => offered (fst e)) es) = 0)%nat. rewrite IH.
  destruct c; try destruct H; reflexivity.
Qed.

(** Questions at any times are asked, however wrong the clock. Then the certificates that were told of the keys [ks] before are added again. If none is longer than its
    root allows and none has a key revoked by a key before it, every call succeeds, and then every question about these keys is answered as it was before. *)
Lemma p_C201_brought_back : forall C d es asked now ks, reachable C d -> typed_history C es -> only_questions es ->
  duration_wf asked -> secs asked < i64_bound -> duration_wf now -> secs now < i64_bound -> Forall (pk_valid C) ks ->
  within d (told C d asked ks) -> fresh now (told C d asked ks) -> unrevoked d (told C d asked ks) ->
  few d [] -> few (graph_history C d es) (adding_again C d asked now ks) ->
  let d1 := graph_history C d es in
  let d2 := graph_history C d1 (adding_again C d asked now ks) in
  (forall r, In r (answers C d1 (adding_again C d asked now ks)) -> r = Ok GR_unit) /\
  forall k now' q, In k ks -> secs asked <= secs now' < i64_bound -> call_typed C q -> question k now' q ->
    same_answer (fst (graph_step C d2 (q, None))) (fst (graph_step C d (q, None))).
Proof.
  intros C d es asked now ks R Te Qe Tk Sk Tn Sn Vk Wi Fr Un F F1 d1 d2. set (A0 := contents d). set (A := m_collect A0 asked). rewrite Forall_forall in Vk.
  set (cs := told C d asked ks). fold cs in Un, Fr, Wi. fold d1 in F1.
  destruct (questions_leave C es d R Te Qe) as (Lv1 & Lv2 & Lv3). fold d1 in Lv1, Lv2, Lv3.
  assert (R1 : reachable C d1) by (apply history_reachable; assumption).
  assert (One : forall x y, holds A0 x -> holds A0 y -> same_keys x y -> x = y) by (intros x y Hx Hy; exact (p_C30_one_relation_per_pair C d x y R Hx Hy)).
  assert (Who : forall x, holds A0 x -> whole x = x) by (intros x H; exact (proj1 (held_rel C d x R H))).
  assert (Wf0 : forall x, holds A0 x -> rel_wf C x) by (intros x H; exact (proj2 (held_rel C d x R H))).
  destruct (p_C29_stored_is_authentic C d R) as [Au1 Au2].
  assert (Ux : forall n x, secs n < i64_bound -> holds A0 x -> (exists a, x = RAuth a) -> ~ db_expired n x <-> secs n < secs (rel_expires_at x) < i64_bound).
  { intros n x Hn Hx Ha. apply unexpired_secs; [exact Hn| |exact Ha]. destruct (Wf0 x Hx) as (_ & _ & _ & _ & (W & _)). exact W. }
  assert (Sgt : forall t b, holds (m_collect A0 now) (RAuth (mk_auth t b)) -> acceptable C b t now).
  { intros t b [H Ne]. split; [exact (Au1 b t H)|]. apply (Ux now _ Sn H ltac:(eauto)) in Ne. cbn [rel_expires_at auth_trust] in Ne. intros [X|[X _]]; lia. }
  assert (Cin0 : forall c, In c cs <-> exists k, In k ks /\ m_chain A k c).
  { intros c. unfold cs, told. rewrite in_flat_map. split; intros (k & I & H); exists k; (split; [exact I|]); apply (told_are C d asked k R F (Vk k I) Tk); exact H. }
  assert (Cin : forall c, In c cs -> exists k, In k ks /\ m_chain (m_collect A0 now) k c).
  { intros c Ic. pose proof Ic as Jc. apply Cin0 in Ic. destruct Ic as (k & Ik & H1 & H2 & H3 & H4 & H5 & H6). exists k. split; [exact Ik|].
    assert (Ne : forall t b, In t c -> holds A (RAuth (mk_auth t b)) -> holds (m_collect A0 now) (RAuth (mk_auth t b))).
    { intros t b It [Ht Na]. split; [exact Ht|]. apply (Ux asked _ Sk Ht ltac:(eauto)) in Na. apply (Ux now _ Sn Ht ltac:(eauto)).
      destruct (Wf0 _ Ht) as (_ & _ & _ & _ & (_ & W)). pose proof (Fr c t Jc It) as Bf. cbn [rel_expires_at auth_trust] in *. destruct Bf as [Bf|[_ Bf]]; lia. }
    split; [exact H1|]. split; [exact H2|]. split; [|split; [|split; [exact H5|]]].
    - intros t Ht. destruct (H3 t Ht) as (Rt & Hh). split; [exact Rt|]. apply Ne; [exact (nth_error_In _ _ Ht)|exact Hh].
    - intros i g t Hg Ht. apply Ne; [exact (nth_error_In _ _ Ht)|exact (H4 i g t Hg Ht)].
    - intros i j v Lt (Hh & _) Ki Kj. apply (H6 i j v Lt); [|exact Ki|exact Kj]. split; [exact Hh|intros []]. }
  assert (Tt : forall c t, In c cs -> In t c -> trust_typed C t).
  { intros c t Ic It. apply Cin in Ic. destruct Ic as (k & _ & Hc). destruct (chain_holds _ _ _ _ Hc It) as (b & [Hb _]).
    destruct (Wf0 _ Hb) as (W1 & W2 & W3 & (W4 & W5) & (W6 & W7)). cbn in *. unfold trust_typed, duration_wf. split; [exact W1|]. split; [exact W3|]. split; split; try assumption; lia. }
  assert (Tc : typed_history C (adding_again C d asked now ks)).
  { unfold adding_again, no_failures. fold cs. apply Forall_forall. intros x Hx. apply in_map_iff in Hx. destruct Hx as (y & <- & Hy). cbn [fst].
    apply in_map_iff in Hy. destruct Hy as (c & <- & Ic). split; [|exact Tn]. apply Forall_forall. intros t It. exact (Tt c t Ic It). }
  destruct (p_C155_library_is_machine C d1 _ R1 Tc F1) as (as_ & m' & Hr & Hs & Hm).
  assert (Fin : exists M, forall x, stored d1 x <-> In x M).
  { destruct (reachable_inv C d1 R1) as (s1 & E1 & I1). exists (rels s1). intros x. rewrite E1. apply (stored_in C). apply I1. }
  assert (S0 : rest_of A0 [] (contents d1)).
  { split; [exact Lv1|]. split; [exact Lv2|]. split; [exact Lv3|]. split; [intros y []|exact Fin]. }
  destruct (again_certs C A0 now One Who Sgt cs [] (contents d1) as_ m') as (-> & L & S2 & I2 & _).
  { intros c Ic. split; [apply Cin in Ic; destruct Ic as (k & _ & Hc); eauto|]. split; [intros t l Ht Rl; exact (Wi c t l Ic Ht Rl)|].
    intros i j v Lt Hv Ki Kj. exact (Un c i j v Ic Lt Ki Kj Hv). }
  { intros x []. }
  { exact S0. }
  { exact Hr. }
  split.
  { intros r Ir. assert (X : forall rs l, Forall2 shows rs l -> (forall a, In a l -> a = A_done) -> forall r, In r rs -> r = Ok GR_unit).
    { intros rs l G0. induction G0 as [|x y rs l G1 G2 IH]; intros G r0 I0; [destruct I0|]. destruct I0 as [<-|I0].
      - rewrite (G y (or_introl eq_refl)) in G1. exact G1.
      - apply IH; [intros a Ia; apply G; right; exact Ia|exact I0]. }
    refine (X _ _ Hs _ r Ir). intros a Ia. apply in_map_iff in Ia; destruct Ia as (? & <- & _); reflexivity. }
  intros k now' q Ik [Ln Ln'] Tq Q.
  assert (S4 : rest_of A0 L (contents d2)).
  { destruct Hm as [M1 M2]. fold d2 in M1, M2. destruct S2 as (T1 & T2 & T3 & T4 & M & T5). split; [intros x l; rewrite (M2 x l); apply T1|].
    split; [intros x Hx; apply T2, M1; exact Hx|]. split; [intros v Hv; apply M1, T3; exact Hv|]. split; [intros y Iy; apply M1, T4; exact Iy|]. exists M. intros x. rewrite (M1 x). apply T5. }
  assert (Later : forall x, holds A0 x -> ~ db_expired now' x -> ~ db_expired asked x).
  { intros [a|v] Hx Ne; [|intros []]. apply (Ux now' _ Ln' Hx ltac:(eauto)) in Ne. apply (Ux asked _ Sk Hx ltac:(eauto)). lia. }
  assert (Sch : forall c, m_chain (m_collect (contents d2) now') k c <-> m_chain (m_collect A0 now') k c).
  { intros c. apply (again_chains A0 cs L (contents d2) k now' c S4 I2).
    intros (H1 & H2 & H3 & H4 & H5 & H6). apply Cin0. exists k. split; [exact Ik|]. split; [exact H1|]. split; [exact H2|]. split; [|split; [|split; [exact H5|]]].
    + intros t Ht. destruct (H3 t Ht) as (Rt & Hh & Ne). split; [exact Rt|]. split; [exact Hh|exact (Later _ Hh Ne)].
    + intros i g t Hg Ht. destruct (H4 i g t Hg Ht) as (Hh & Ne). split; [exact Hh|exact (Later _ Hh Ne)].
    + intros i j v Lt (Hh & _) Ki Kj. apply (H6 i j v Lt); [|exact Ki|exact Kj]. split; [exact Hh|intros []]. }
  assert (R2 : reachable C d2) by (apply history_reachable; [exact R1|exact Tc]).
  assert (F2 : few d2 []) by exact (few_after C _ d1 R1 Tc F1).
  assert (Off : offered q = 0%nat) by (destruct Q; reflexivity).
  destruct (one_answer C d q R F Tq Off) as (a & ms & Ka & Sa). destruct (one_answer C d2 q R2 F2 Tq Off) as (b & ns & Kb & Sb).
  fold A0 in Ka. destruct S4 as (Rts & _).
  assert (Wth : forall c v, m_worth (m_collect (contents d2) now') c v <-> m_worth (m_collect A0 now') c v).
  { intros c v. split; intros (t & l & H1 & H2 & H3); exists t, l; (split; [exact H1|]; split; [apply Rts; exact H2|exact H3]). }
  destruct Q as [|i| |i]; inversion Ka as [| | | |? ? w Ha|? ? ? w Ha| | | | |]; subst; inversion Kb as [| | | |? ? w' Hb|? ? ? w' Hb| | | | |]; subst; cbn [shows] in Sa, Sb.
  - rewrite Sa, Sb. cbn [same_answer]. do 2 f_equal. apply (greatest_one _ _ _ Hb). revert Ha. apply greatest_ext. intros v. split; (intros [(l & H1 & H2)|(c & H1 & H2)]; [left; exists l; split; [apply Rts; exact H1|exact H2]|right; exists c; split; [apply Sch; exact H1|apply Wth; exact H2]]).
  - rewrite Sa, Sb. cbn [same_answer]. do 2 f_equal. apply (greatest_one _ _ _ Hb). revert Ha. apply greatest_ext. intros v. split; (intros (c & H1 & H2 & H3); exists c; split; [apply Sch; exact H1|split; [exact H2|apply Wth; exact H3]]).
  - destruct Sa as (ca & Ea & Na & Ia & _). destruct Sb as (cb & Eb & Nb & Ib & _). rewrite Ea, Eb. cbn [same_answer]. apply NoDup_Permutation; [exact Nb|exact Na|].
    intros c. rewrite Ia, Ib. apply Sch.
  - destruct Sa as (ca & Ea & Na & Ia & _). destruct Sb as (cb & Eb & Nb & Ib & _). rewrite Ea, Eb. cbn [same_answer]. apply NoDup_Permutation; [exact Nb|exact Na|].
    intros c. rewrite Ia, Ib, Sch. reflexivity.
Qed.

(** ** Concrete stores *)
(** A weight asked for with a clock that runs far ahead. *)
Definition far_ahead : list (graph_call * option nat) := [(G_weight (toy_key 9) (from_secs 5000), None)].
(** Such a question takes away what everyone is told of a key, and adding the certificates again does not bring it back if one ends with a trust given by a revoked key:
    before, it counted for its direct receiver. No call fails. *)
Lemma p_C201_wrong_clock_harmless_refuted : exists C d es asked k, crypto_laws C /\ reachable C d /\ typed_history C es /\ only_questions es /\
  within d (told C d asked [k]) /\ fresh asked (told C d asked [k]) /\ few d [] /\ few (graph_history C d es) (adding_again C d asked asked [k]) /\
  length (certs_told C d asked k) = 2%nat /\ certs_told C (graph_history C d es) asked k = [] /\
  (forall r, In r (answers C (graph_history C d es) (adding_again C d asked asked [k])) -> r = Ok GR_unit) /\
  certs_told C (graph_history C (graph_history C d es) (adding_again C d asked asked [k])) asked k = [].
Proof.
  exists (toy true), copy_revoked, far_ahead, (from_secs 8), (toy_key 5). split; [apply toy_laws|]. split; [apply copy_reachable|]. split; [repeat constructor|]. split; [repeat constructor|].
  split; [apply within_dec; intros c I; vm_compute in I; repeat (destruct I as [<-|I]; [vm_compute; discriminate|]); destruct I|].
  split; [apply fresh_dec; vm_compute; reflexivity|]. split; [vm_compute; reflexivity|]. split; [vm_compute; reflexivity|]. split; [vm_compute; reflexivity|]. split; [vm_compute; reflexivity|].
  split; [intros r I; vm_compute in I; repeat (destruct I as [<-|I]; [reflexivity|]); destruct I|]. vm_compute; reflexivity.
Qed.
Lemma unrevoked_dec : forall C d cs, reachable C d -> few d [] -> (forall c t, In c cs -> In t c -> pk_valid C (issued_for t)) ->
  forallb (forallb (fun t => match revocations_told C d (issued_for t) with [] => true | _ => false end)) cs = true -> unrevoked d cs.
Proof.
  intros C d cs R F Hv H c i j v Ic _ _ (t & Ht & E) Hs. pose proof (nth_error_In _ _ Ht) as It. rewrite forallb_forall in H. specialize (H c Ic). rewrite forallb_forall in H. specialize (H t It).
  pose proof (proj2 (revs_told_are C d (issued_for t) R F (Hv c t Ic It) v) (conj Hs (eq_sym E))) as X. destruct (revocations_told C d (issued_for t)); [destruct X|discriminate H].
Qed.
(** In a store with revocations, what is told of key 3 is lost and brought back. *)
Example e_C201_key3 : reachable (toy true) copy_revoked /\ typed_history (toy true) far_ahead /\ only_questions far_ahead /\ pk_valid (toy true) (toy_key 3) /\
  within copy_revoked (told (toy true) copy_revoked (from_secs 8) [toy_key 3]) /\ fresh (from_secs 9) (told (toy true) copy_revoked (from_secs 8) [toy_key 3]) /\
  unrevoked copy_revoked (told (toy true) copy_revoked (from_secs 8) [toy_key 3]) /\
  few copy_revoked [] /\ few (graph_history (toy true) copy_revoked far_ahead) (adding_again (toy true) copy_revoked (from_secs 8) (from_secs 9) [toy_key 3]) /\
  length (certs_told (toy true) copy_revoked (from_secs 8) (toy_key 3)) = 2%nat /\
  certs_told (toy true) (graph_history (toy true) copy_revoked far_ahead) (from_secs 8) (toy_key 3) = [] /\
  fst (graph_step (toy true) (graph_history (toy true) (graph_history (toy true) copy_revoked far_ahead) (adding_again (toy true) copy_revoked (from_secs 8) (from_secs 9) [toy_key 3]))
    (G_weight (toy_key 3) (from_secs 10), None)) = Ok (GR_weight 16).
Proof.
  split; [apply copy_reachable|]. split; [repeat constructor|]. split; [repeat constructor|]. split; [repeat constructor|].
  split; [apply within_dec; intros c I; vm_compute in I; repeat (destruct I as [<-|I]; [vm_compute; discriminate|]); destruct I|].
  split; [apply fresh_dec; vm_compute; reflexivity|].
  split; [apply (unrevoked_dec (toy true)); [apply copy_reachable|vm_compute; reflexivity| |vm_compute; reflexivity]; intros c t Ic It; vm_compute in Ic;
          repeat (destruct Ic as [<-|Ic]; [repeat (destruct It as [<-|It]; [repeat constructor|]); destruct It|]); destruct Ic|].
  split; [vm_compute; reflexivity|]. split; [vm_compute; reflexivity|]. split; [vm_compute; reflexivity|]. split; vm_compute; reflexivity.
Qed.
