(** Stories do not depend on who plays them: C167, C168. *)
From Coq Require Import List NArith ZArith Bool Lia Permutation ZifyBool ZifyNat ZifyN.
From Verif Require Import Base BaseFacts Text Keys KeysFacts Trust TrustFacts Certificate Relation Storage Graph Service Spec SpecFacts
  ServiceSpec MachineSpec ServiceMachine ServiceFacts ServiceWitness ServiceThms DisguiseSpec DisguiseThms TestsSpec Toy ToyFacts.
Import ListNotations.
Open Scope N_scope.

(** ** Casts *)
Section Cast.
Variable C : crypto.
Hypothesis L : crypto_laws C.
Variables (n : nat) (last : N) (p : cast).
Hypothesis G : good_cast C n last p.

Lemma cast_key : forall i, (i < n)%nat -> pk_valid C (person C p i).
Proof. intros i H. apply kp_public_valid; [exact L|]. apply G. exact H. Qed.
Lemma cast_time : forall s, s <= last -> shows_time p s < i64_bound.
Proof.
  intros s H. destruct G as (_ & _ & M & B). destruct (N.eq_dec s last) as [->|N0]; [exact B|].
  pose proof (M s last ltac:(lia) ltac:(lia)). lia.
Qed.
Lemma cast_moment : forall s, s <= last -> duration_wf (moment p s).
Proof. intros s H. split; [|reflexivity]. pose proof (cast_time s H). unfold i64_bound, u64_bound in *. cbn [secs moment from_secs]. lia. Qed.
Lemma cast_order : forall s r, s <= last -> r <= last -> (shows_time p s < shows_time p r <-> s < r).
Proof.
  intros s r Hs Hr. destruct G as (_ & _ & M & _). split; [|intros; apply M; assumption].
  intros H. destruct (N.lt_trichotomy s r) as [X|[X|X]]; [exact X|subst; lia|]. pose proof (M r s X Hs). lia.
Qed.
Lemma makes_trust : forall b k e i t, (b < n)%nat -> makes C p (by_for b k e i) t ->
  issued_for t = person C p k /\ expires_at t = moment p e /\ issued_at t = moment p i /\ sig_valid C (trust_sig t) /\
  signed_trust C (person C p b) t.
Proof.
  intros b k e i t Hb H. cbn [makes] in H. destruct G as (V & _).
  destruct (trust_create_ok C unit _ _ _ _ t L (V b Hb) H) as (A1 & A2 & A3 & A4 & _ & A6).
  do 4 (split; [assumption|]). unfold signed_trust. change (trust_message C t) with (trust_signature_bytes C (issued_for t) (expires_at t) (issued_at t)). rewrite A1, A2, A3. exact A6.
Qed.

Lemma makes_whole : forall b k e i t, (b < n)%nat -> makes C p (by_for b k e i) t -> whole_trust t = t.
Proof.
  intros b k e i t Hb H. destruct (makes_trust b k e i t Hb H) as (A1 & A2 & A3 & _). destruct t as [a x s y]. cbn in *. subst. reflexivity.
Qed.
Lemma makes_revocation : forall b k a v, (b < n)%nat -> @revocation_create C unit (people p b) (person C p k) (moment p a) = Ok v ->
  rev_pk v = person C p k /\ revoked_at v = moment p a /\ revoked_by v = person C p b /\ sig_valid C (rev_sig v) /\ signed_revocation C v.
Proof.
  intros b k a v Hb H. destruct G as (V & _).
  destruct (revocation_created C unit _ _ _ v L (V b Hb) H) as (A1 & A2 & A3 & A4).
  do 3 (split; [assumption|]). split; [|apply revocation_verify_exact; exact A4].
  unfold revocation_create in H. apply bind_ok in H. destruct H as (s & Hs & H). injection H as <-. cbn [rev_sig].
  match type of Hs with context [kp_sign C ?a ?b] => destruct (kp_sign C a b) as [s'| | |] eqn:K end; try discriminate.
  injection Hs as ->. eapply kp_sign_sig_valid; [apply (V b Hb)|exact K].
Qed.
Lemma acts_typed : forall a c, about_act n last a -> acts C p a c -> call_typed C c.
Proof.
  intros a c A H. destruct a; cbn [about_act about_trust] in A; cbn [acts] in H.
  - subst c. split; [apply cast_key|]; apply A.
  - destruct H as (t & M & ->). destruct A as ((Ab & Ak & Ae & Ai) & An).
    destruct (makes_trust _ _ _ _ _ Ab M) as (B1 & B2 & B3 & B4 & _).
    cbn [call_typed]. unfold trust_typed. rewrite B1, B2, B3. repeat split; try assumption; try apply cast_key; try apply cast_moment; assumption.
  - destruct H as (v & M & ->). destruct A as (Ab & Ak & Aa).
    destruct (makes_revocation _ _ _ _ Ab M) as (B1 & B2 & B3 & B4 & _).
    cbn [call_typed]. unfold revocation_typed. rewrite B1, B2, B3. repeat split; try assumption; try apply cast_key; try apply cast_moment; assumption.
  - subst c. destruct A. split; [apply cast_key|apply cast_moment]; assumption.
  - subst c. destruct A. split; [apply cast_key|apply cast_moment]; assumption.
  - subst c. destruct A as (A1 & A2 & A3). split; [apply cast_key; assumption|]. split; [apply cast_key|apply cast_moment]; assumption.
Qed.
Lemma acts_offered : forall a c, acts C p a c -> (offered c <= 1)%nat.
Proof.
  intros a c H. destruct a; cbn [acts] in H; try (subst c; cbn; lia).
  - destruct H as (t & _ & ->). cbn. lia.
  - destruct H as (v & _ & ->). cbn. lia.
Qed.
Lemma acts_few : forall as_ cs, Forall2 (acts C p) as_ cs -> N.of_nat (length as_) + 17 < u32_bound -> few empty_db (no_failures cs).
Proof.
  intros as_ cs H B. unfold few. assert (K : (list_sum (map (fun e => offered (fst e)) (no_failures cs)) <= length as_)%nat).
  { clear B. induction H; [cbn; lia|]. cbn [no_failures map list_sum fold_right fst length]. pose proof (acts_offered _ _ H).
    unfold no_failures, list_sum in IHForall2. lia. }
  cbn [tbl_relations empty_db length]. lia.
Qed.
Lemma acts_all_typed : forall as_ cs, Forall (about_act n last) as_ -> Forall2 (acts C p) as_ cs -> Forall (call_typed C) cs.
Proof.
  intros as_ cs A H. induction H; [constructor|]. inversion A as [|? ? A1 A2]. subst. constructor; [eapply acts_typed; eassumption|auto].
Qed.
End Cast.

(** ** Two casts *)
Section Casts.
Variables C C' : crypto.
Hypothesis L : crypto_laws C.
Hypothesis L' : crypto_laws C'.
Variables (n : nat) (last : N) (p p' : cast).
Hypothesis G : good_cast C n last p.
Hypothesis G' : good_cast C' n last p'.

Definition recast : disguise := mk_disguise
  (fun a a' => exists i, (i < n)%nat /\ a = person C p i /\ a' = person C' p' i)
  (fun s s' => exists u, u <= last /\ s = shows_time p u /\ s' = shows_time p' u)
  (fun t t' => exists x, about_trust n last x /\ makes C p x t /\ makes C' p' x t').

Lemma recast_faithful : faithful recast.
Proof.
  split; [|split; [|split]]; cbn [names clock seals recast].
  - intros a a' b b' (i & Hi & -> & ->) (j & Hj & -> & ->). split; intros E.
    + destruct G as (_ & X & _). rewrite (X i j Hi Hj E). reflexivity.
    + destruct G' as (_ & X & _). rewrite (X i j Hi Hj E). reflexivity.
  - intros s s' r r' (u & Hu & -> & ->) (v & Hv & -> & ->).
    rewrite (cast_order C n last p G u v Hu Hv), (cast_order C' n last p' G' u v Hu Hv). reflexivity.
  - intros s s' (u & Hu & -> & ->). split; [exact (cast_time C n last p G u Hu)|exact (cast_time C' n last p' G' u Hu)].
  - intros t t' ([b k e i] & A & M & M'). exists (by_for b k e i). split; [exact A|]. destruct A as (Ab & _).
    rewrite (makes_whole C L n last p G _ _ _ _ _ Ab M), (makes_whole C' L' n last p' G' _ _ _ _ _ Ab M'). auto.
Qed.
Lemma recast_name : forall i, (i < n)%nat -> names recast (person C p i) (person C' p' i).
Proof. intros i H. exists i. auto. Qed.
Lemma recast_moment : forall s, s <= last -> same_time recast (moment p s) (moment p' s).
Proof. intros s H. split; [|reflexivity]. exists s. auto. Qed.
Lemma recast_trust : forall x t t', about_trust n last x -> makes C p x t -> makes C' p' x t' -> same_trust recast t t'.
Proof.
  intros [b k e i] t t' A M M'. pose proof A as (Ab & Ak & Ae & Ai).
  destruct (makes_trust C L n last p G _ _ _ _ _ Ab M) as (B1 & B2 & B3 & _).
  destruct (makes_trust C' L' n last p' G' _ _ _ _ _ Ab M') as (B1' & B2' & B3' & _).
  unfold same_trust. rewrite B1, B2, B3, B1', B2', B3'.
  split; [apply recast_name; assumption|]. split; [apply recast_moment; assumption|]. split; [apply recast_moment; assumption|].
  exists (by_for b k e i). auto.
Qed.
Lemma recast_call : forall a c c', about_act n last a -> acts C p a c -> acts C' p' a c' -> same_call recast C C' c c'.
Proof.
  intros a c c' A H H'. destruct a; cbn [about_act] in A; cbn [acts] in H, H'.
  - subst. split; [apply recast_name; apply A|reflexivity].
  - destruct H as (t & M & ->), H' as (t' & M' & ->). destruct A as (A & An). cbn [same_call].
    split; [exact (recast_trust _ _ _ A M M')|]. pose proof A as (Ab & _).
    split; [apply recast_name; exact Ab|]. split; [apply recast_moment; exact An|].
    destruct (makes_trust C L n last p G _ _ _ _ _ Ab M) as (_ & _ & _ & _ & X).
    destruct (makes_trust C' L' n last p' G' _ _ _ _ _ Ab M') as (_ & _ & _ & _ & X'). tauto.
  - destruct H as (v & M & ->), H' as (v' & M' & ->). destruct A as (Ab & Ak & Aa). cbn [same_call].
    destruct (makes_revocation C L n last p G _ _ _ _ Ab M) as (B1 & B2 & B3 & _ & X).
    destruct (makes_revocation C' L' n last p' G' _ _ _ _ Ab M') as (B1' & B2' & B3' & _ & X').
    split; [|tauto]. unfold same_revocation. rewrite B1, B2, B3, B1', B2', B3'.
    split; [apply recast_name; exact Ak|]. split; [apply recast_name; exact Ab|apply recast_moment; exact Aa].
  - subst. destruct A. split; [apply recast_name|apply recast_moment]; assumption.
  - subst. destruct A. split; [apply recast_name|apply recast_moment]; assumption.
  - subst. destruct A as (A1 & A2 & A3). split; [apply recast_name; assumption|]. split; [apply recast_name|apply recast_moment]; assumption.
Qed.
Lemma recast_calls : forall as_ cs cs', Forall (about_act n last) as_ -> Forall2 (acts C p) as_ cs -> Forall2 (acts C' p') as_ cs' ->
  Forall2 (same_call recast C C') cs cs'.
Proof.
  intros as_ cs cs' A H. revert cs'. induction H; intros cs' H'; inversion H' as [|? ? ? ? X Y]; subst; [constructor|].
  inversion A as [|? ? A1 A2]; subst. constructor; [eapply recast_call; eassumption|auto].
Qed.
Lemma recast_cert : forall c c' ys, tells_signer C n last p -> Forall (about_trust n last) ys -> Forall2 (same_trust recast) c c' ->
  Forall2 (fun t x => makes C p x t) c ys -> Forall2 (fun t x => makes C' p' x t) c' ys.
Proof.
  intros c c' ys T A H. revert ys A. induction H as [|t t' c c' H0 H IH]; intros ys A M; inversion M as [|? x ? ys0 M1 M2]; subst; [constructor|].
  inversion A as [|? ? A1 A2]; subst. constructor; [|apply IH; assumption].
  destruct H0 as (_ & _ & _ & (x0 & B & N1 & N2)). rewrite (T x x0 t A1 B M1 N1). exact N2.
Qed.
Lemma recast_sees : forall r r' o, tells_signer C n last p -> about_seen n last o -> same_outcome recast r r' -> sees C p r o -> sees C' p' r' o.
Proof.
  intros r r' o T A S0 H. destruct o; cbn [sees] in *.
  - subst r. cbn in S0. destruct r' as [[]| | |]; try contradiction. reflexivity.
  - subst r. cbn in S0. destruct r' as [[]| | |]; try contradiction. subst. reflexivity.
  - destruct H as (l & -> & ys & Py & Hy). cbn [same_outcome] in S0. destruct r' as [[| |l'|]| | |]; try contradiction.
    exists l'. split; [reflexivity|]. destruct S0 as (q & Pq & Q).
    assert (Hq : Forall2 (Forall2 (fun t x => makes C' p' x t)) q ys).
    { assert (Ay : Forall (Forall (about_trust n last)) ys).
      { cbn [about_seen] in A. rewrite Forall_forall in *. intros y Y. apply A. eapply Permutation_in; eassumption. }
      clear - T Ay Hy Q. revert ys Ay Hy. induction Q; intros ys Ay Hy; inversion Hy; subst; [constructor|].
      inversion Ay; subst. constructor; [eapply recast_cert; eassumption|apply IHQ; assumption]. }
    destruct (Permutation_Forall2 Pq Hq) as (ys' & P1 & P2). exists ys'. split; [|exact P2].
    eapply Permutation_trans; [apply Permutation_sym; exact P1|exact Py].
Qed.
Lemma recast_all_sees : forall rs rs' os, tells_signer C n last p -> Forall (about_seen n last) os -> Forall2 (same_outcome recast) rs rs' ->
  Forall2 (sees C p) rs os -> Forall2 (sees C' p') rs' os.
Proof.
  intros rs rs' os T A O. revert os A. induction O; intros os A Q; inversion Q; subst; [constructor|]. inversion A; subst.
  constructor; [eapply recast_sees; eassumption|apply IHO; assumption].
Qed.
End Casts.

(** ** C167 *)
(** If a story goes as told with one cast, it goes as told with every cast. *)
Lemma p_C167_any_cast : forall C C' n last p p' s, crypto_laws C -> crypto_laws C' -> good_cast C n last p -> good_cast C' n last p' ->
  tells_signer C n last p -> about_people n last s -> can_play C p s -> goes_as_told C p s -> goes_as_told C' p' s.
Proof.
  intros C C' n last p p' s L L' G G' T (A1 & A2 & A3) (cs & P) H cs' P'. specialize (H cs P).
  assert (E : forall X, reachable X empty_db) by (intros X; exists []; split; [constructor|reflexivity]).
  assert (S0 : same_store (recast C C' n last p p') empty_db empty_db).
  { assert (N0 : forall x, ~ stored empty_db x).
    { intros x X. destruct x; cbn [stored] in X; unfold stored_trust, stored_revocation in X; cbn in X;
        repeat match goal with H : _ /\ _ |- _ => destruct H | H : exists _, _ |- _ => destruct H end; try discriminate; contradiction. }
    assert (N1 : forall k m, ~ root_max_len empty_db k m) by (intros k m (w & X & _); discriminate X).
    split; [|split; [|split]].
    - intros x X. destruct (N0 _ X).
    - intros x X. destruct (N0 _ X).
    - intros k m X. destruct (N1 _ _ X).
    - intros k m X. destruct (N1 _ _ X). }
  assert (B : N.of_nat (length (map fst s)) + 17 < u32_bound) by (rewrite map_length; exact A3).
  destruct (p_C166_only_names (recast C C' n last p p') C C' empty_db empty_db cs cs'
    (recast_faithful C C' L L' n last p p' G G') (E C) (E C') S0
    (acts_all_typed C L n last p G _ _ A1 P) (acts_all_typed C' L' n last p' G' _ _ A1 P')
    (acts_few C p _ _ P B) (acts_few C' p' _ _ P' B)
    (recast_calls C C' L L' n last p p' G G' _ _ _ A1 P P')) as (O & _).
  exact (recast_all_sees C C' n last p p' _ _ _ T A2 O H).
Qed.

(** ** The tests of the repository *)
(** The toy keys, with a clock that shows the moments themselves. *)
Definition toy_cast : cast := mk_cast (fun i => toy_kp (N.of_nat i)) (fun s => s).
Definition toy_made (x : told_trust) : trust := match x with by_for b k e i => toy_trust (N.of_nat b) (N.of_nat k) e i end.
Definition toy_call (a : act) : graph_call :=
  match a with
  | Set_root k m => G_set_root (toy_key (N.of_nat k)) m
  | Trusts b k e i now => G_add_trust (toy_made (by_for b k e i)) (toy_key (N.of_nat b)) (from_secs now)
  | Revokes b k at_ => G_revoke (toy_rev (N.of_nat b) (N.of_nat k) at_)
  | Ask_weight k now => G_weight (toy_key (N.of_nat k)) (from_secs now)
  | Ask_certs k now => G_get_all_certs (toy_key (N.of_nat k)) (from_secs now)
  | Ask_certs_from k i now => G_get_all_certs_from (toy_key (N.of_nat k)) (toy_key (N.of_nat i)) (from_secs now)
  end.
Definition toy_seen (o : seen) : result graph_error graph_reply :=
  match o with Done => Ok GR_unit | Weight w => Ok (GR_weight w) | Certs xs => Ok (GR_certs (map (map toy_made) xs)) end.
Definition as_toy (s : story) : Prop :=
  answers (toy false) empty_db (no_failures (map toy_call (map fst s))) = map toy_seen (map snd s).

Lemma toy_acts : forall w a c, acts (toy w) toy_cast a c <-> c = toy_call a.
Proof.
  intros w a c. destruct a; try reflexivity; cbn [acts toy_call]; split.
  - intros (t & M & ->). cbn [makes] in M. injection M as <-. reflexivity.
  - intros ->. eexists. split; reflexivity.
  - intros (v & M & ->). injection M as <-. reflexivity.
  - intros ->. eexists. split; reflexivity.
Qed.
Lemma toy_acts_all : forall w as_, Forall2 (acts (toy w) toy_cast) as_ (map toy_call as_).
Proof. intros w as_. induction as_; constructor; [apply toy_acts; reflexivity|assumption]. Qed.
Lemma toy_acts_unique : forall w as_ cs, Forall2 (acts (toy w) toy_cast) as_ cs -> cs = map toy_call as_.
Proof. intros w as_ cs H. induction H; [reflexivity|]. apply toy_acts in H. cbn [map]. congruence. Qed.
Lemma toy_sees : forall o, sees (toy false) toy_cast (toy_seen o) o.
Proof.
  intros [|w|xs]; try reflexivity. eexists. split; [reflexivity|]. exists xs. split; [apply Permutation_refl|].
  assert (K : forall x, Forall2 (fun t y => makes (toy false) toy_cast y t) (map toy_made x) x).
  { intros x. induction x as [|[b k e i] x IH]; constructor; [reflexivity|exact IH]. }
  induction xs; constructor; [apply K|assumption].
Qed.
Lemma toy_goes : forall s, as_toy s -> goes_as_told (toy false) toy_cast s.
Proof.
  intros s H cs P. rewrite (toy_acts_unique _ _ _ P), H. generalize (map snd s). intros os. induction os; constructor; [apply toy_sees|assumption].
Qed.
Lemma toy_plays : forall s, can_play (toy false) toy_cast s.
Proof. intros s. eexists. apply toy_acts_all. Qed.
Lemma toy_person_inj : forall w n i j, (n <= 256)%nat -> (i < n)%nat -> (j < n)%nat -> person (toy w) toy_cast i = person (toy w) toy_cast j -> i = j.
Proof.
  intros w n i j Hn Hi Hj H. injection H as H. apply (f_equal N_of_u8) in H. rewrite !N_of_u8_of_N in H by lia. lia.
Qed.
Lemma toy_good : forall w n last, (n <= 256)%nat -> last < i64_bound -> good_cast (toy w) n last toy_cast.
Proof.
  intros w n last Hn Hl. split; [intros; apply toy_kp_valid|]. split; [intros i j; apply toy_person_inj; exact Hn|].
  split; [intros; assumption|exact Hl].
Qed.
Lemma toy_tells : forall w n last, (n <= 256)%nat -> tells_signer (toy w) n last toy_cast.
Proof.
  intros w n last Hn [b k e i] [b' k' e' i'] t (A1 & A2 & _) (B1 & B2 & _) M M'. cbn [makes] in M, M'.
  change (Ok (E := unit) (toy_made (by_for b k e i)) = Ok t) in M. change (Ok (E := unit) (toy_made (by_for b' k' e' i')) = Ok t) in M'.
  rewrite <- M' in M. clear M' t. assert (E : toy_made (by_for b k e i) = toy_made (by_for b' k' e' i')) by congruence. clear M.
  assert (Ek : person (toy w) toy_cast k = person (toy w) toy_cast k') by exact (f_equal issued_for E).
  assert (Ee : e = e') by exact (f_equal (fun t => secs (expires_at t)) E).
  assert (Ei : i = i') by exact (f_equal (fun t => secs (issued_at t)) E).
  assert (Eb : firstn 32 (sig_raw (trust_sig (toy_made (by_for b k e i)))) = firstn 32 (sig_raw (trust_sig (toy_made (by_for b' k' e' i')))))
    by (rewrite E; reflexivity).
  assert (F : forall b k e i, firstn 32 (sig_raw (trust_sig (toy_made (by_for b k e i)))) = toy_secret (N.of_nat b)) by reflexivity.
  rewrite !F in Eb. rewrite (toy_person_inj w n k k' Hn A2 B2 Ek), Ee, Ei.
  assert (Ep : person (toy w) toy_cast b = person (toy w) toy_cast b') by (unfold person; cbn [people toy_cast]; rewrite !toy_kp_public; unfold toy_key; congruence).
  rewrite (toy_person_inj w n b b' Hn A1 B1 Ep). reflexivity.
Qed.

Lemma repo_tests_toy : Forall as_toy repo_tests.
Proof. repeat constructor; vm_compute; reflexivity. Qed.
Lemma repo_tests_about : Forall (about_people 6 200000) repo_tests.
Proof. repeat constructor; vm_compute; try reflexivity; try discriminate. Qed.
Lemma repo_tests_in_time : Forall in_time repo_tests.
Proof. repeat constructor; vm_compute; discriminate. Qed.

(** ** The service *)
Lemma service_goes : forall C p as_ es d, crypto_laws C -> wasm32 C = true -> service_reachable C d -> Forall2 (plays C p) as_ es ->
  exists cs, Forall2 (acts C p) as_ cs /\
    forall os, Forall2 (sees C p) (answers C d (no_failures cs)) os -> Forall2 (hears C p) (responses C d es) os.
Proof.
  intros C p as_ es d L Hw R H. revert d R. induction H as [|a e as_ es (cp & c & g & -> & Ty & Ad & Rq & A) H IH]; intros d R.
  { exists []. split; [constructor|]. intros os O. exact (match O with Forall2_nil _ => Forall2_nil _ | _ => I end). }
  destruct (service_step C d (cp, c, None)) as [r d'] eqn:E.
  assert (R' : service_reachable C d').
  { destruct R as (es0 & T0 & <-). exists (es0 ++ [(cp, c, None)]). split.
    - apply Forall_app. split; [exact T0|]. constructor; [exact Ty|constructor].
    - unfold service_history. rewrite fold_left_app. cbn [fold_left]. unfold service_history in E. rewrite E. reflexivity. }
  destruct (IH d' R') as (cs & P & Q). exists (g :: cs). split; [constructor; assumption|].
  intros os O. cbn [no_failures map answers] in O. cbn [responses]. rewrite E.
  destruct (p_C66_admitted_calls C d cp c g None r d' L Hw R Ty Ad Rq E) as [(x & y & Eg & -> & Tl)|(e & Eg & ->)]; rewrite Eg in O; cbn [fst snd] in O |- *.
  - inversion O as [|? o ? os' O1 O2]; subst. constructor; [|apply Q; exact O2].
    exists y. split; [reflexivity|]. destruct o; cbn [sees] in O1.
    + injection O1 as ->. destruct c, y; try contradiction; reflexivity.
    + injection O1 as ->. destruct c, y; try contradiction; cbn [tells] in Tl;
        first [left; subst; reflexivity|right; destruct Tl as (-> & ->); eexists; reflexivity].
    + destruct O1 as (l & X & Hl). injection X as ->. destruct c, y; try contradiction; eexists; exists l; (split; [reflexivity|]); split; assumption.
  - inversion O as [|? o ? os' O1 O2]; subst. exfalso. destruct o; cbn [sees] in O1; try discriminate O1. destruct O1 as (l & X & _). discriminate X.
Qed.
Lemma told_served : forall C p s, crypto_laws C -> wasm32 C = true -> goes_as_told C p s -> served_as_told C p s.
Proof.
  intros C p s L Hw H es P.
  destruct (service_goes C p _ es empty_db L Hw ltac:(exists []; split; [constructor|reflexivity]) P) as (cs & A & Q).
  apply Q, H, A.
Qed.

Lemma can_play_service : forall C n last p a, crypto_laws C -> wasm32 C = true -> good_cast C n last p -> about_act n last a ->
  match a with Trusts _ _ _ i now => i <= now | _ => True end -> exists e, plays C p a e.
Proof.
  intros C n last p a L Hw G A I.
  assert (PK : forall i, (i < n)%nat -> peer_key C (peer_id_to_base58 (pk_to_peer_id C (person C p i))) (person C p i)).
  { intros i Hi. pose proof (cast_key C L n last p G i Hi) as V. apply peer_key_text; [exact L|exact V|]. exact (wasm_no_rsa C _ Hw V). }
  assert (NR : forall i, (i < n)%nat -> pk_fmt (person C p i) <> Rsa).
  { intros i Hi. exact (wasm_no_rsa C _ Hw (cast_key C L n last p G i Hi)). }
  assert (TB : forall s, s <= last -> shows_time p s < u64_bound).
  { intros s Hs. pose proof (cast_time C n last p G s Hs). unfold i64_bound, u64_bound in *. lia. }
  assert (MO : forall s r, s <= r -> r <= last -> shows_time p s <= shows_time p r).
  { intros s r H1 H2. destruct G as (_ & _ & M & _). destruct (N.eq_dec s r) as [->|D]; [apply N.le_refl|]. apply N.lt_le_incl, M; [lia|exact H2]. }
  assert (VK : forall i, (i < n)%nat -> kp_fmt (people p i) <> Rsa) by (intros i Hi; exact (NR i Hi)).
  destruct a; cbn [about_act] in A.
  - exists (owner_call, S_set_root (peer_id_to_base58 (pk_to_peer_id C (person C p k))) max_chain_len, None). destruct A as (Ak & Am).
    eexists _, _, _. split; [reflexivity|]. split; [exact Am|]. split; [reflexivity|]. split; [|reflexivity]. split; [apply PK; exact Ak|reflexivity].
  - destruct A as ((Ab & Ak & Ae & Ai) & An).
    destruct (trust_create_total C unit (people p b) (person C p k) (moment p expires) (moment p issued) L (VK b Ab)) as (t & M).
    destruct (makes_trust C L n last p G b k expires issued t Ab M) as (B1 & B2 & B3 & B4 & _).
    exists (timed_call 2, S_add_trust (dto_of_trust C t) (peer_id_to_base58 (pk_to_peer_id C (person C p b))) (shows_time p now), None).
    eexists _, _, _. split; [reflexivity|]. split.
    { split; [|apply TB; exact An]. unfold dto_trust_typed, dto_of_trust. cbn [dt_expires_at dt_issued_at]. rewrite B2, B3. split; apply TB; assumption. }
    split.
    { split; [apply timed_host|]. unfold dto_of_trust. cbn [dt_issued_at]. rewrite B3. apply MO; assumption. }
    split; [|exists t; split; [exact M|reflexivity]]. split; [|split; [apply PK; exact Ab|reflexivity]].
    apply dto_of_trust_record; [exact L|rewrite B1; exact (cast_key C L n last p G k Ak)|rewrite B1; exact (NR k Ak)|exact B4|rewrite B2; reflexivity|rewrite B3; reflexivity].
  - destruct A as (Ab & Ak & Aa).
    destruct (revocation_create_total C unit (people p b) (person C p k) (moment p at_) L (VK b Ab)) as (v & M).
    destruct (makes_revocation C L n last p G b k at_ v Ab M) as (B1 & B2 & B3 & B4 & _).
    exists (timed_call 1, S_revoke (dto_of_revocation C v) (shows_time p at_), None).
    eexists _, _, _. split; [reflexivity|]. split.
    { split; [|apply TB; exact Aa]. unfold dto_of_revocation. cbn [dr_revoked_at]. rewrite B2. apply TB; assumption. }
    split.
    { split; [apply timed_host|]. unfold dto_of_revocation. cbn [dr_revoked_at]. rewrite B2. apply N.le_refl. }
    split; [|exists v; split; [exact M|reflexivity]].
    apply dto_of_revocation_record; [exact L|rewrite B1; exact (cast_key C L n last p G k Ak)|rewrite B1; exact (NR k Ak)
      |rewrite B3; exact (cast_key C L n last p G b Ab)|rewrite B3; exact (NR b Ab)|exact B4|rewrite B2; reflexivity].
  - exists (timed_call 1, S_get_weight (peer_id_to_base58 (pk_to_peer_id C (person C p k))) (shows_time p now), None). destruct A as (Ak & An).
    eexists _, _, _. split; [reflexivity|]. split; [exact (TB _ An)|]. split; [apply timed_host|]. split; [|reflexivity]. split; [apply PK; exact Ak|reflexivity].
  - exists (timed_call 1, S_get_all_certs (peer_id_to_base58 (pk_to_peer_id C (person C p k))) (shows_time p now), None). destruct A as (Ak & An).
    eexists _, _, _. split; [reflexivity|]. split; [exact (TB _ An)|]. split; [apply timed_host|]. split; [|reflexivity]. split; [apply PK; exact Ak|reflexivity].
  - exists (timed_call 2, S_get_all_certs_from (peer_id_to_base58 (pk_to_peer_id C (person C p k))) (peer_id_to_base58 (pk_to_peer_id C (person C p issuer))) (shows_time p now), None).
    destruct A as (Ak & Ai & An).
    eexists _, _, _. split; [reflexivity|]. split; [exact (TB _ An)|]. split; [apply timed_host|]. split; [|reflexivity].
    split; [apply PK; exact Ak|]. split; [apply PK; exact Ai|reflexivity].
Qed.

(** A cast of its own can do in the service whatever a story tells, in the right order of times. *)
Lemma p_C167_can_be_played : forall C n last p s, crypto_laws C -> wasm32 C = true -> good_cast C n last p -> about_people n last s -> in_time s ->
  exists es, Forall2 (plays C p) (map fst s) es.
Proof.
  intros C n last p s L Hw G (A & _) T. unfold in_time in T. induction (map fst s) as [|a as_ IH]; [exists []; constructor|].
  inversion A as [|? ? A1 A2]; inversion T as [|? ? T1 T2]; subst. destruct (IH A2 T2) as (es & E).
  destruct (can_play_service C n last p a L Hw G A1 T1) as (e & P). exists (e :: es). constructor; assumption.
Qed.
(** What goes as told in the library goes as told in the service. *)
Lemma p_C167_served : forall C p s, crypto_laws C -> wasm32 C = true -> goes_as_told C p s -> served_as_told C p s.
Proof. exact told_served. Qed.

(** People with secrets from 100 on, every second with a secp256k1 key, and a clock that runs faster and later. *)
Definition other_cast : cast := mk_cast (fun i => mk_kp (if Nat.even i then Ed25519 else Secp256k1) (toy_secret (N.of_nat i + 100))) (fun s => 3 * s + 1000).
Lemma other_good : good_cast (toy true) 6 200000 other_cast.
Proof.
  split; [|split; [|split]].
  - intros i _. destruct (Nat.even i) eqn:E; unfold kp_valid; cbn [people other_cast]; rewrite E; repeat split.
  - intros i j Hi Hj. do 6 (destruct i as [|i]; [do 6 (destruct j as [|j]; [first [reflexivity|discriminate]|]); lia|]). lia.
  - intros s r H _. cbn [shows_time other_cast]. lia.
  - reflexivity.
Qed.
(** The calls of a test by this cast stand for the calls by the toy cast. *)
Example e_C166_recast : exists D cs cs', faithful D /\ Forall2 (same_call D (toy false) (toy true)) cs cs' /\ Forall (call_typed (toy false)) cs /\
  Forall (call_typed (toy true)) cs' /\ cs = map toy_call (map fst (test_get_one_cert 100)) /\ cs' <> cs.
Proof.
  assert (E : can_play (toy true) other_cast (test_get_one_cert 100)).
  { unfold can_play. cbn [test_get_one_cert chain_added map seq app fst Nat.sub]. eexists. repeat constructor; eexists; split; reflexivity. }
  destruct E as (cs' & E). pose proof repo_tests_about as A. rewrite Forall_forall in A. destruct (A (test_get_one_cert 100)) as (A1 & _); [cbn; tauto|].
  pose proof (toy_good false 6 200000 ltac:(lia) ltac:(reflexivity)) as G. pose proof (toy_acts_all false (map fst (test_get_one_cert 100))) as P.
  exists (recast (toy false) (toy true) 6 200000 toy_cast other_cast), (map toy_call (map fst (test_get_one_cert 100))), cs'.
  split; [apply recast_faithful; auto using toy_laws, other_good|].
  split; [eapply recast_calls; eauto using toy_laws, other_good|].
  split; [eapply acts_all_typed; eauto using toy_laws|]. split; [eapply acts_all_typed; eauto using toy_laws, other_good|]. split; [reflexivity|].
  inversion E as [|? x ? xs E1 E2]. cbn [acts] in E1. subst x. intros X. discriminate X.
Qed.

(** Good casts: the toy people, who tell their signatures apart, and the others. *)
Example e_C167_casts : good_cast (toy false) 6 200000 toy_cast /\ tells_signer (toy false) 6 200000 toy_cast /\ good_cast (toy true) 6 200000 other_cast.
Proof. split; [apply toy_good; [lia|reflexivity]|]. split; [apply toy_tells; lia|exact other_good]. Qed.

(** ** C168 *)
(** Every test of the service's repository passes in the library, whoever plays it and whenever. *)
Lemma p_C168_repo_tests : forall C p s, crypto_laws C -> good_cast C 6 200000 p -> In s repo_tests -> goes_as_told C p s.
Proof.
  intros C p s L G I. pose proof repo_tests_toy as T. pose proof repo_tests_about as A. rewrite Forall_forall in T, A.
  apply (p_C167_any_cast (toy false) C 6 200000 toy_cast p s); auto.
  - apply toy_laws.
  - apply toy_good; [lia|reflexivity].
  - apply toy_tells. lia.
  - apply toy_plays.
  - apply toy_goes. auto.
Qed.

(** And in the service, where it can be played. *)
Lemma p_C168_repo_tests_served : forall C p s, crypto_laws C -> wasm32 C = true -> good_cast C 6 200000 p -> In s repo_tests ->
  served_as_told C p s /\ exists es, Forall2 (plays C p) (map fst s) es.
Proof.
  intros C p s L Hw G I. split; [apply told_served; [exact L|exact Hw|]; apply p_C168_repo_tests; assumption|].
  pose proof repo_tests_about as A. rewrite Forall_forall in A. apply (p_C167_can_be_played C 6 200000 p s L Hw G (A s I)).
  pose proof repo_tests_in_time as T. rewrite Forall_forall in T. exact (T s I).
Qed.

(** One of the stories, with the answers the service gives when the other cast plays it. *)
Example e_C168_played : In (test_get_one_cert 101) repo_tests /\ (forall es, Forall2 (plays (toy true) other_cast) (map fst (test_get_one_cert 101)) es ->
  exists rs cs, nth_error (responses (toy true) empty_db es) 6 = Some (Ok (mk_response true None (P_certs rs))) /\
    Forall2 (certificate_record (toy true)) rs cs /\ lists (toy true) other_cast cs [told_chain 5 160 100]).
Proof.
  assert (I : In (test_get_one_cert 101) repo_tests) by (cbn; tauto). split; [exact I|]. intros es P.
  pose proof (proj1 (p_C168_repo_tests_served (toy true) other_cast _ (toy_laws true) eq_refl other_good I) es P) as H.
  apply (Forall2_flip' _ (fun o r => hears (toy true) other_cast r o) (fun a b X => X)) in H. destruct (Forall2_at _ _ _ 6%nat (Certs [told_chain 5 160 100]) H eq_refl) as (r & E & (x & -> & rs & cs & -> & H1 & H2)).
  exists rs, cs. auto.
Qed.


(** The other test, [add_root_not_owner] (312-326): whoever is not the creator cannot set a root, whatever they send and whatever is stored. *)
Lemma p_C168_not_owner : forall C d cp p n fu, init_peer_id cp <> service_creator_peer_id cp ->
  service_step C d (cp, S_set_root p n, fu) = (Ok (mk_response false (Some SVE_NotOwner) P_none), d).
Proof.
  intros C d cp p n fu H. rewrite service_plan. unfold plan. destruct (bytes_eqb (service_creator_peer_id cp) (init_peer_id cp)) eqn:E; [apply bytes_eqb_eq in E; congruence|reflexivity].
Qed.
