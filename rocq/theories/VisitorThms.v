(** Proofs about what callers of the service cannot do without the signatures of others. *)
From Coq Require Import List NArith ZArith Bool Lia ZifyBool ZifyNat ZifyN Permutation.
From Verif Require Import Base BaseFacts Text TextFacts Keys KeysFacts Trust TrustFacts Certificate CertFacts Relation
  Storage StorageFacts Graph SearchFacts PathFacts Service Spec SpecFacts GraphFacts StateFacts ChainFacts AddFacts ImportFacts HistFacts
  Toy ToyFacts Witness GraphThms ServiceSpec ServiceFacts ServiceThms ServiceWitness ReadmeSpec ReadmeThms InfluenceSpec InfluenceThms VisitorSpec.
Import ListNotations.
Open Scope N_scope.

Lemma same_keys_dec : forall x y, same_keys x y \/ ~ same_keys x y.
Proof.
  intros x y. unfold same_keys. destruct (pk_eqb (rel_issued_for x) (rel_issued_for y)) eqn:A; destruct (pk_eqb (rel_issued_by x) (rel_issued_by y)) eqn:B;
    rewrite ?pk_eqb_eq, ?pk_eqb_neq in *; tauto.
Qed.
Section Keeps.
Variables (C : crypto) (Q : relation -> Prop) (now : duration) (d0 : db).
Hypothesis Qk : forall x y, same_keys x y -> Q x -> Q y.
Definition kept (d : db) : Prop := tbl_roots d = tbl_roots d0 /\ forall x, Q x -> ~ db_expired now x -> (stored d x <-> stored d0 x).
Definition bears (c : graph_call) : Prop :=
  (forall k n, c <> G_set_root k n) /\ (forall t, call_time c = Some t -> in_order t now) /\
  (forall x, offers c x -> genuine C c x -> ~ Q x \/ superseded d0 now x).
Lemma write_keeps : forall s w c, inv C s -> write_of C c w -> write_ok C w -> bears c -> kept (db_of s) -> kept (db_of (apply_w s w)).
Proof.
  intros s w c I Wr Wo (B1 & B2 & B3) [Ro K]. pose proof (effect_write C s w c I Wr Wo) as E. destruct w as [t|x|k m]; cbn [effect_of effect_on] in E.
  - destruct E as [Ro1 Col]. split; [congruence|]. intros x Hx Ne. rewrite Col, (K x Hx Ne). split; [intros [H _]; exact H|]. intros H. split; [exact H|].
    intros Ex. apply Ne. exact (expired_later now t x (B2 t Wr) Ex).
  - destruct E as [Ro1 Im]. split; [congruence|]. intros y Hy Ne. rewrite <- (K y Hy Ne), Im.
    assert (Sp : same_keys x y -> superseded d0 now x).
    { intros Sk. destruct (B3 x (write_of_offers C c x Wr) (write_of_genuine C c x Wr)) as [Nq|Sp]; [|exact Sp]. exfalso. apply Nq. exact (Qk y x (same_keys_sym x y Sk) Hy). }
    assert (Un : forall z z', stored (db_of s) z -> stored (db_of s) z' -> same_keys z z' -> z = z').
    { intros z z' Hz Hz' [S1 S2]. apply (stored_in C s z (inv_wf C s I)) in Hz. apply (stored_in C s z' (inv_wf C s I)) in Hz'.
      apply (pair_unique (rels s)); try assumption. apply (wf_nodup C). apply I. }
    assert (Sx : same_keys x y -> exists z, stored (db_of s) z /\ same_keys x z /\ ~ before (rel_issued_at z) (rel_issued_at x)).
    { intros Sk. destruct (Sp Sk) as (z & Z1 & Z2 & Z3 & Z4). exists z. split; [|split; assumption]. apply K; [|exact Z2|exact Z1].
      apply (Qk y z); [|exact Hy]. destruct Sk, Z3. split; congruence. }
    assert (Wx : same_keys x (whole x)) by (destruct x; split; reflexivity).
    split.
    + intros [[_ H]|[(_ & H & _)|[-> H]]]; [exact H|exact H|]. exfalso. destruct (Sx Wx) as (z & Z1 & Z2 & Z3). exact (Z3 (H z Z1 Z2)).
    + intros H. destruct (same_keys_dec x y) as [Sk|Nk]; [|left; split; assumption].
      right. left. split; [exact Sk|]. split; [exact H|]. destruct (Sx Sk) as (z & Z1 & Z2 & Z3).
      rewrite (Un y z H Z1); [exact Z3|]. destruct Sk, Z2. split; congruence.
  - destruct Wr as (n & -> & _). exfalso. exact (B1 k n eq_refl).
Qed.
Lemma writes_keep : forall c ws s, inv C s -> writes_of C [c] ws -> bears (fst c) -> kept (db_of s) -> kept (db_of (run_ws ws s)).
Proof.
  intros c ws. induction ws as [|w ws IH]; intros s I W B K; [exact K|]. inversion W as [|? ? (e & He & T & Wr & Wo) W']; subst. destruct He as [<-|[]].
  cbn [run_ws fold_left]. apply IH; [eapply inv_step; eassumption|exact W'|exact B|]. eapply write_keeps; eassumption.
Qed.
Lemma service_keeps : forall es d, crypto_laws C -> service_reachable C d -> service_events_typed es ->
  (forall cp c fu g, In (cp, c, fu) es -> requests C cp c g -> admitted cp c -> bears g) -> kept d -> kept (service_history C d es).
Proof.
  induction es as [|[[cp c] fu] es IH]; intros d L Rs T B K; [exact K|]. inversion T as [|? ? T1 T2]; subst. cbn [fst snd] in T1.
  change (service_history C d (_ :: es)) with (service_history C (snd (service_step C d (cp, c, fu))) es).
  apply IH; [exact L|apply service_reachable_step; assumption|exact T2|intros cp' c' fu' g H; apply (B cp' c' fu' g); right; exact H|].
  rewrite service_plan. destruct (plan C cp c) as [[g|a]|e| |] eqn:P; cbn [carry_out snd]; try exact K.
  assert (Q1 : requests C cp c g) by exact (plan_requests C cp c g P). pose proof (plan_admitted C cp c g P) as A.
  assert (Bg : bears g) by exact (B cp c fu g (or_introl eq_refl) Q1 A). pose proof (p_C66_service_stores C d L Rs) as R.
  apply reachable_inv in R. destruct R as (s & -> & I).
  destruct (step_writes C s g fu (inv_wf C s I) (requests_typed C cp c g L T1 Q1)) as (ws & E & W).
  assert (X : kept (snd (graph_step C (db_of s) (g, fu)))) by (rewrite E; exact (writes_keep (g, fu) ws s I W Bg K)).
  destruct (graph_step C (db_of s) (g, fu)) as [[x|e| |] d']; exact X.
Qed.
Lemma visits_keep : forall es, crypto_laws C -> service_reachable C d0 -> service_events_typed es -> visits C (fun x => ~ Q x) d0 now es -> kept (service_history C d0 es).
Proof.
  intros es L Rs T V. apply service_keeps; try assumption; [|split; [reflexivity|tauto]].
  intros cp c fu g Hin Rq A. destruct (V cp c fu Hin) as (V1 & V2 & V3). split; [|split; [|intros x; apply V3; exact Rq]].
  - intros k n ->. destruct c; cbn [requests] in Rq; try contradiction. apply (V1 _ _ eq_refl). exact A.
  - intros t Ht. destruct c, g; cbn [requests] in Rq; try contradiction; cbn [call_time] in Ht; try discriminate Ht; injection Ht as <-;
      repeat match goal with H : _ /\ _ |- _ => destruct H end; subst; cbn [given_time unchecked_time inserts_cert is_get_weight_from orb admitted] in *;
      eapply V2; try reflexivity; tauto.
Qed.
End Keeps.

Lemma same_response_refl : forall z, same_response z z.
Proof. intros [[z1 z2 z3]|e| |]; cbn [same_response]; try reflexivity. destruct z3; auto. Qed.
Lemma same_step : forall C d d2 cp q g pk now, requests C cp q g -> admitted cp q -> about pk now g ->
  same_answer (fst (graph_step C d (g, None))) (fst (graph_step C d2 (g, None))) ->
  same_response (fst (service_step C d (cp, q, None))) (fst (service_step C d2 (cp, q, None))).
Proof.
  intros C d d2 cp q g pk now Rq A Ab Sa. rewrite !service_plan, (plan_complete C cp q g Rq A). cbn [carry_out].
  destruct (graph_step C d (g, None)) as [r d'], (graph_step C d2 (g, None)) as [r' d2']. cbn [fst] in Sa.
  destruct r as [x|e| |], r' as [x'|e'| |]; try discriminate Sa; try (destruct x; discriminate Sa).
  - cbn [fst]. destruct x, x'; cbn [same_answer] in Sa; try discriminate Sa; try (injection Sa as <-); try apply same_response_refl;
      destruct q, g; cbn [requests] in Rq; try contradiction; cbn [payload_of same_response]; auto using Permutation_map.
    exfalso. destruct Ab as [X|[X|[(i & X)|(i & X)]]]; discriminate X.
  - cbn [same_answer] in Sa. injection Sa as <-. apply same_response_refl.
  - apply same_response_refl.
  - apply same_response_refl.
Qed.

(** ** C157 *)
(** Visitors who bring nothing signed by keys with a path of trusts from a root, but what the store has or has newer, change no response
    about any key's certificates and weight at [now]. *)
Lemma p_C157_visitors : forall C d es now pk cp q g, crypto_laws C -> service_reachable C d -> service_events_typed es ->
  visits C (fun x => ~ linked d now (rel_issued_by x)) d now es -> small d -> small (service_history C d es) ->
  service_typed q -> requests C cp q g -> admitted cp q -> about pk now g ->
  same_response (fst (service_step C d (cp, q, None))) (fst (service_step C (service_history C d es) (cp, q, None))).
Proof.
  intros C d es now pk cp q g L Rs T V Sm Sm2 Tq Rq A Ab. apply (same_step C d _ cp q g pk now Rq A Ab).
  assert (Qk : forall x y, same_keys x y -> linked d now (rel_issued_by x) -> linked d now (rel_issued_by y)) by (intros x y [_ E]; rewrite E; auto).
  destruct (visits_keep C (fun x => linked d now (rel_issued_by x)) now d Qk es L Rs T V) as [Ro X].
  assert (Rs2 : service_reachable C (service_history C d es)).
  { destruct Rs as (es0 & T0 & <-). exists (es0 ++ es). split; [apply Forall_app; split; assumption|]. unfold service_history. rewrite fold_left_app. reflexivity. }
  apply (same_answers C d _ pk now (p_C66_service_stores C d L Rs) (p_C66_service_stores C _ L Rs2) Ro);
    [|exact Sm|exact Sm2|exact (requests_typed C cp q g L Tq Rq)|exact Ab].
  intros c. apply (counting_linked d _ now pk c Ro X).
Qed.
(** ** C158 *)
(** Nobody changes the weight the service tells of a key with that key's signatures alone, replays and made-up records. *)
Lemma p_C158_own_weight : forall C d es pk cp p ts, crypto_laws C -> service_reachable C d -> service_events_typed es ->
  visits C (fun x => rel_issued_by x = pk) d (from_secs ts) es -> small d -> small (service_history C d es) ->
  ts < u64_bound -> peer_key C p pk ->
  fst (service_step C (service_history C d es) (cp, S_get_weight p ts, None)) = fst (service_step C d (cp, S_get_weight p ts, None)).
Proof.
  intros C d es pk cp p ts L Rs T V Sm Sm2 Tt Pk. rewrite !service_plan. destruct (plan C cp (S_get_weight p ts)) as [[g|a]|e| |] eqn:P; try reflexivity.
  pose proof (plan_requests C cp _ g P) as Rq. destruct g; cbn [requests] in Rq; try contradiction. destruct Rq as [Pk' ->].
  assert (E : pk0 = pk) by exact (peer_key_fun C p _ _ Pk' Pk). subst pk0. clear Pk' P.
  assert (Qk : forall x y, same_keys x y -> rel_issued_by x <> pk -> rel_issued_by y <> pk) by (intros x y [_ E]; rewrite E; auto).
  assert (V' : visits C (fun x => ~ (rel_issued_by x <> pk)) d (from_secs ts) es).
  { intros cp' c' fu H. destruct (V cp' c' fu H) as (V1 & V2 & V3). split; [exact V1|]. split; [exact V2|]. intros g x H1 H2 H3.
    destruct (V3 g x H1 H2 H3) as [H4|H4]; [left; intros N; exact (N H4)|right; exact H4]. }
  destruct (visits_keep C (fun x => rel_issued_by x <> pk) (from_secs ts) d Qk es L Rs T V') as [Ro X].
  assert (Rs2 : service_reachable C (service_history C d es)).
  { destruct Rs as (es0 & T0 & <-). exists (es0 ++ es). split; [apply Forall_app; split; assumption|]. unfold service_history. rewrite fold_left_app. reflexivity. }
  pose proof (p_C66_service_stores C d L Rs) as R. pose proof (p_C66_service_stores C _ L Rs2) as R2.
  assert (Tg : call_typed C (G_weight pk (from_secs ts))) by (split; [exact (peer_key_valid C p pk L Pk)|apply from_secs_wf; exact Tt]).
  destruct (weight_answer C d pk (from_secs ts) R Tg) as (w & d1 & E1). destruct (weight_answer C _ pk (from_secs ts) R2 Tg) as (w' & d2 & E2).
  pose proof (own_le C d _ (from_secs ts) pk None None w w' d1 d2 R R2 Tg Sm Sm2 Ro X E1 E2) as A.
  pose proof (own_le C _ d (from_secs ts) pk None None w' w d2 d1 R2 R Tg Sm2 Sm (eq_sym Ro) (fun x N1 N2 => iff_sym (X x N1 N2)) E2 E1) as B.
  cbn [carry_out]. rewrite E1, E2. cbn [fst]. replace w' with w by lia. reflexivity.
Qed.
(** ** Examples *)
Definition base_rels : list relation := [RAuth (mk_auth (toy_trust 1 1 1000 1) (toy_key 1)); RAuth (mk_auth (toy_trust 1 2 900 1) (toy_key 1))].
Definition base_state : state := mk_state base_rels [(toy_key 1, 11)].
Lemma base_state_store : base_store = db_of base_state.
Proof. vm_compute. reflexivity. Qed.
Lemma base_state_wf : wf (toy true) base_state.
Proof.
  split.
  - repeat constructor; vm_compute; reflexivity.
  - cbn. constructor; [|constructor; [intros []|constructor]]. intros [X|[]]. discriminate X.
  - repeat constructor.
Qed.
Lemma base_linked : forall now k, linked base_store now k -> k = toy_key 1 \/ k = toy_key 2.
Proof.
  intros now k H. rewrite base_state_store in H. destruct H as [k H|b t _ [H _]].
  - apply is_root_in in H. destruct H as [H|[]]. left. symmetry. exact H.
  - apply (stored_trust_in (toy true) base_state b t base_state_wf) in H. destruct H as [H|[H|[]]]; injection H as <- <-; [left|right]; reflexivity.
Qed.
Definition intruders : list service_event :=
  [(script_call, S_insert_cert stranger_cert 6, None); (timed_call 2, S_add_trust (trust_rec 1 2 900 1) (pid 1) 6, None);
   (timed_call 2, S_add_trust (trust_rec 7 7 9000 1) (pid 1) 6, None); (timed_call 1, S_revoke (rev_rec 7 2 6) 6, None)].
Lemma requests_is : forall C cp c g g', admitted cp c -> requests C cp c g' -> plan C cp c = Ok (inl g) -> g' = g.
Proof. intros C cp c g g' A R P. rewrite (plan_complete C cp c g' R A) in P. congruence. Qed.
(** The stranger inserts their own certificate, brings a trust that is stored already, passes their own trust off as one of the root, and revokes
    key 2, which keeps the weight 16. *)
Example e_C157_intruders : service_events_typed intruders /\
  visits (toy true) (fun x => ~ linked base_store (from_secs 6) (rel_issued_by x)) base_store (from_secs 6) intruders /\
  stored_revocation (service_history (toy true) base_store intruders) (toy_rev 7 2 6) /\
  small base_store /\ small (service_history (toy true) base_store intruders) /\
  map (fun d => told_weight (service_step (toy true) d (timed_call 1, S_get_weight (pid 2) 6, None))) [base_store; service_history (toy true) base_store intruders] = [Some 16; Some 16].
Proof.
  assert (N7 : ~ linked base_store (from_secs 6) (toy_key 7)) by (intros H; apply base_linked in H; destruct H as [H|H]; discriminate H).
  split; [|split; [|split; [|split; [|split]]]].
  - unfold intruders, service_events_typed. repeat (constructor; [cbn; repeat split; try (repeat constructor; vm_compute; reflexivity); vm_compute; reflexivity|]). constructor.
  - intros cp c fu Hin. split; [|split].
    + intros p n ->. destruct Hin as [H|[H|[H|[H|[]]]]]; discriminate H.
    + intros ts i G _. destruct Hin as [H|[H|[H|[H|[]]]]]; injection H as <- <- <-; injection G as <- <-; split; vm_compute; try discriminate; reflexivity.
    + intros g x Rq Of Ge. destruct Hin as [H|[H|[H|[H|[]]]]]; injection H as <- <- <-.
      * assert (E : g = G_add [toy_trust 7 7 9000 1] (from_secs 6)) by (eapply requests_is; [|exact Rq|vm_compute; reflexivity]; exact I). subst g. left.
        destruct x as [[t b]|v]; [|discriminate Of]. cbn [rel_issued_by offers issued_by auth_trust] in *. destruct Of as [[Of ->]|(i & g & H1 & H2 & _)].
        -- injection Of as <-. exact N7.
        -- destruct i; cbn in H2; [discriminate H2|destruct i; discriminate H2].
      * assert (E : g = G_add_trust (toy_trust 1 2 900 1) (toy_key 1) (from_secs 6)).
        { eapply requests_is; [|exact Rq|vm_compute; reflexivity]. split; [apply timed_host|vm_compute; discriminate]. } subst g. right.
        destruct x as [a|v]; [|discriminate Of]. destruct Of as [H1 H2]. destruct a as [t b]. cbn [auth_trust issued_by] in *. subst t b.
        exists (RAuth (mk_auth (toy_trust 1 2 900 1) (toy_key 1))). split; [rewrite base_state_store; apply (stored_in (toy true) _ _ base_state_wf); right; left; reflexivity|].
        split; [intros X; vm_compute in X; apply X; reflexivity|]. split; [split; reflexivity|]. intros X. vm_compute in X. destruct X as [X|[_ X]]; discriminate X.
      * assert (E : g = G_add_trust (toy_trust 7 7 9000 1) (toy_key 1) (from_secs 6)).
        { eapply requests_is; [|exact Rq|vm_compute; reflexivity]. split; [apply timed_host|vm_compute; discriminate]. } subst g. exfalso.
        destruct x as [a|v]; [|discriminate Of]. destruct Of as [H1 H2]. destruct a as [t b]. cbn [auth_trust issued_by] in *. subst t b.
        destruct Ge as [Ge (n & Hn & Nb)]. injection Hn as <-.
        pose proof (proj2 (trust_verify_exact (toy true) (toy_trust 7 7 9000 1) (toy_key 1) (from_secs 6)) (conj Nb Ge)) as X. vm_compute in X. discriminate X.
      * assert (E : g = G_revoke (toy_rev 7 2 6)).
        { eapply requests_is; [|exact Rq|vm_compute; reflexivity]. split; [apply timed_host|vm_compute; discriminate]. } subst g. left.
        destruct x as [a|v]; [destruct Of|]. injection Of as <-. exact N7.
  - split; [split; vm_compute; reflexivity|]. vm_compute. repeat (first [left; reflexivity|right]).
  - vm_compute. reflexivity.
  - vm_compute. reflexivity.
  - vm_compute. reflexivity.
Qed.
Definition by_two : list service_event :=
  [(timed_call 2, S_add_trust (trust_rec 2 2 9000 1) (pid 2) 6, None); (timed_call 1, S_revoke (rev_rec 2 1 6) 6, None)].
(** Key 2 trusts itself and revokes the root; its weight is 16 before and after. *)
Example e_C158_two : service_events_typed by_two /\ visits (toy true) (fun x => rel_issued_by x = toy_key 2) base_store (from_secs 6) by_two /\
  stored_trust (service_history (toy true) base_store by_two) (toy_key 2) (toy_trust 2 2 9000 1) /\
  map (fun d => told_weight (service_step (toy true) d (timed_call 1, S_get_weight (pid 2) 6, None))) [base_store; service_history (toy true) base_store by_two] = [Some 16; Some 16].
Proof.
  split; [|split; [|split]].
  - unfold by_two, service_events_typed. repeat (constructor; [cbn; repeat split; vm_compute; reflexivity|]). constructor.
  - intros cp c fu Hin. split; [|split].
    + intros p n ->. destruct Hin as [H|[H|[]]]; discriminate H.
    + intros ts i G _. destruct Hin as [H|[H|[]]]; injection H as <- <- <-; injection G as <- <-; split; vm_compute; try discriminate; reflexivity.
    + intros g x Rq Of Ge. left. destruct Hin as [H|[H|[]]]; injection H as <- <- <-.
      * assert (E : g = G_add_trust (toy_trust 2 2 9000 1) (toy_key 2) (from_secs 6)).
        { eapply requests_is; [|exact Rq|vm_compute; reflexivity]. split; [apply timed_host|vm_compute; discriminate]. } subst g.
        destruct x as [[t b]|v]; [|discriminate Of]. destruct Of as [_ H]. exact H.
      * assert (E : g = G_revoke (toy_rev 2 1 6)).
        { eapply requests_is; [|exact Rq|vm_compute; reflexivity]. split; [apply timed_host|vm_compute; discriminate]. } subst g.
        destruct x as [a|v]; [destruct Of|]. injection Of as <-. reflexivity.
  - split; [split; vm_compute; reflexivity|]. split; [split; vm_compute; reflexivity|]. vm_compute. repeat (first [left; reflexivity|right]).
  - vm_compute. reflexivity.
Qed.
