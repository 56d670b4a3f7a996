(** The properties of the service in their final form. PropsService.v restates them. *)
From Coq Require Import List NArith ZArith Bool Lia ZifyBool ZifyNat ZifyN Setoid.
From Coq Require String.
Import String.StringSyntax.
From Verif Require Import Base BaseFacts Text TextFacts Keys KeysFacts Trust TrustFacts Certificate CertFacts Relation
  Storage StorageFacts Graph PathFacts Service Spec SpecFacts GraphFacts StateFacts ChainFacts ImportFacts HistFacts
  ServiceSpec ServiceFacts Toy ToyFacts GraphThms ServiceWitness.
Import ListNotations.
Open Scope N_scope.

(** * Witnesses *)
Lemma pid_key : forall n, peer_key (toy true) (pid n) (toy_key n).
Proof. intros n. apply peer_key_text; [apply toy_laws|apply toy_key_valid|discriminate]. Qed.
Lemma secp_pid_key : peer_key (toy true) secp_pid secp_key.
Proof. apply peer_key_text; [apply toy_laws|repeat split|discriminate]. Qed.
Lemma service_base_typed : service_events_typed service_base.
Proof. repeat constructor. Qed.
Lemma base_reachable : service_reachable (toy true) base_store.
Proof. exists service_base. split; [exact service_base_typed|reflexivity]. Qed.
Lemma timed_host : forall i, host_time (timed_call i) i.
Proof.
  intros i. exists from_clock, []. split; [|repeat split]. unfold timed_call. cbn [tetraplets].
  rewrite nth_error_app2 by (rewrite repeat_length; apply le_n). rewrite repeat_length, Nat.sub_diag. reflexivity.
Qed.
Lemma script_not_host : forall i, ~ host_time script_call i.
Proof.
  intros i (t & ts & H & Hs & _). unfold script_call in H. cbn [tetraplets] in H.
  destruct i as [|[|[|i]]]; cbn in H; try (injection H as <- <-; discriminate Hs). destruct i; discriminate H.
Qed.
Lemma timed_not_later : forall i j, (i < j)%nat -> ~ host_time (timed_call i) j.
Proof.
  intros i j Hij (t & ts & H & _). unfold timed_call in H. cbn [tetraplets] in H.
  assert (X : nth_error (repeat [from_script] i ++ [[from_clock]]) j = None).
  { apply nth_error_None. rewrite app_length, repeat_length. cbn. lia. }
  congruence.
Qed.
Lemma timed_not_before : forall i j, (j < i)%nat -> ~ host_time (timed_call i) j.
Proof.
  intros i j Hij (t & ts & H & Hs & _). unfold timed_call in H. cbn [tetraplets] in H.
  rewrite nth_error_app1 in H by (rewrite repeat_length; exact Hij).
  assert (X : In (t :: ts) (repeat [from_script] i)) by (eapply nth_error_In; exact H).
  apply repeat_spec in X. injection X as -> ->. discriminate Hs.
Qed.
Lemma succeeds_resp : forall r, succeeds r = true -> exists resp d', r = (Ok resp, d') /\ success resp = true.
Proof. intros [[resp|e| |] d'] H; try discriminate H. exists resp, d'. auto. Qed.
Lemma fails_resp : forall resp d', succeeds (Ok resp, d') = false -> success resp = false.
Proof. intros resp d' H. exact H. Qed.

(** * What admitted calls do *)
Lemma plan_complete : forall C cp c g, requests C cp c g -> admitted cp c -> plan C cp c = Ok (inl g).
Proof.
  intros C cp c g H A. destruct c, g; cbn [requests] in H; try contradiction; cbn [admitted] in A; cbn [plan]; unfold gcall.
  - destruct H as [H ->]. rewrite A, (proj2 (bytes_eqb_eq _ _) eq_refl). apply extract_ok in H. rewrite H. reflexivity.
  - destruct H as [H ->]. rewrite H. reflexivity.
  - destruct H as [H ->]. apply cert_of_dto_ok in H. rewrite H. reflexivity.
  - destruct H as [H ->]. apply check_ok in A. apply extract_ok in H. rewrite A, H. reflexivity.
  - destruct H as (H & H' & ->). apply check_ok in A. apply extract_ok in H, H'. rewrite A, H, H'. reflexivity.
  - destruct H as [H ->]. apply check_ok in A. apply extract_ok in H. rewrite A, H. reflexivity.
  - destruct H as (H & H' & ->). apply check_ok in A. apply extract_ok in H, H'. rewrite A, H, H'. reflexivity.
  - destruct H as [H ->]. apply check_ok in A. apply extract_ok in H. rewrite A, H. reflexivity.
  - destruct H as (H & H' & ->). apply check_ok in A. apply extract_ok in H, H'. rewrite A, H, H'. reflexivity.
  - destruct H as (H & H' & ->). destruct A as [A L]. apply check_ok in A. apply trust_of_dto_ok in H. apply extract_ok in H'. rewrite H', A.
    cbn [bind]. replace (timestamp_sec <? dt_issued_at t) with false by lia. rewrite H. reflexivity.
  - destruct A as [A L]. apply check_ok in A. apply revocation_of_dto_ok in H. rewrite A. cbn [bind].
    replace (timestamp_sec <? dr_revoked_at r) with false by lia. rewrite H. reflexivity.
  - apply extract_ok in H. rewrite H. reflexivity.
Qed.

Lemma payload_tells : forall C s cp c g fu x d', crypto_laws C -> wasm32 C = true -> inv C s -> service_typed c -> requests C cp c g ->
  graph_step C (db_of s) (g, fu) = (Ok x, d') -> tells C c x (payload_of C c x).
Proof.
  intros C s cp c g fu x d' L Hw I T H E. pose proof (requests_typed C cp c g L T H) as Tg.
  pose proof (step_reply C s g fu x d' I Tg E) as Y. pose proof E as E'. apply step_ok in E'; [|exact I|exact Tg]. destruct E' as [E' _].
  apply sem_reply in E'.
  assert (Wf : forall y, In y (rels s) -> rel_wf C y) by (intros y; apply Forall_forall; apply (wf_rels C); apply I).
  assert (X : forall cs, (forall ch t, In ch cs -> In t ch -> exists b, In (RAuth (mk_auth t b)) (rels s)) ->
     Forall2 (certificate_record C) (map (dto_of_cert C) cs) cs).
  { induction cs as [|ch cs IH]; intros Z; [constructor|]. cbn [map]. constructor; [|apply IH; intros ch' t H1 H2; eapply Z; [right; exact H1|exact H2]].
    assert (Zc : forall t, In t ch -> exists b, In (RAuth (mk_auth t b)) (rels s)) by (intros t; apply Z; left; reflexivity).
    clear Z IH. unfold certificate_record, dto_of_cert. induction ch as [|t ch IH]; [constructor|]. cbn [map]. constructor; [|apply IH; intros t' H'; apply Zc; right; exact H'].
    destruct (Zc t (or_introl eq_refl)) as (b & Hb). apply Wf in Hb. destruct Hb as (V1 & V2 & V3 & (V4 & N4) & (V5 & N5)). cbn in *.
    apply dto_of_trust_record; try assumption. apply wasm_no_rsa with (C := C); assumption. }
  destruct c, g; cbn [requests] in H; try contradiction; destruct x; cbn [reply_of] in E'; try contradiction; cbn [payload_of tells]; auto.
  clear E' E H. induction vs as [|v vs IH]; [constructor|]. cbn [map]. constructor; [|apply IH; intros v' H'; apply Y; right; exact H'].
  specialize (Y v (or_introl eq_refl)). apply Wf in Y. destruct Y as (V1 & V2 & V3 & (V4 & N4) & _). cbn in *.
  apply dto_of_revocation_record; try assumption; apply wasm_no_rsa with (C := C); assumption.
Qed.

(** ** C66 *)
(** A call that the service lets through and whose texts and records describe keys, certificates,
    trusts and revocations is the corresponding call of the graph. *)
Lemma p_C66_admitted_calls : forall C d cp c g fu r d', crypto_laws C -> wasm32 C = true -> service_reachable C d -> service_typed c ->
  admitted cp c -> requests C cp c g -> service_step C d (cp, c, fu) = (r, d') ->
  (exists x p, graph_step C d (g, fu) = (Ok x, d') /\ r = Ok (mk_response true None p) /\ tells C c x p) \/
  (exists e, graph_step C d (g, fu) = (Err e, d') /\ r = Ok (mk_response false (Some (SVE_TGError e)) (empty_payload c))).
Proof.
  intros C d cp c g fu r d' L Hw R T A H E. pose proof (service_reachable_graph C d L R) as Rg.
  pose proof (requests_typed C cp c g L T H) as Tg.
  rewrite service_plan, (plan_complete C cp c g H A) in E. cbn [carry_out] in E.
  destruct (graph_step C d (g, fu)) as [y d1] eqn:Eg. pose proof Rg as Rs. apply reachable_inv in Rs. destruct Rs as (s & -> & I).
  destruct (p_C23_calls_answer C _ g fu y d1 Rg Tg Eg) as [(x & -> & _)|(e & ->)]; injection E as <- <-.
  - left. exists x, (payload_of C c x). split; [reflexivity|]. split; [reflexivity|]. eapply payload_tells; eassumption.
  - right. exists e. auto.
Qed.
(** Every other call fails and changes nothing, or is one of the functions that only compute. *)
Lemma p_C66_other_calls : forall C d cp c fu resp d', service_step C d (cp, c, fu) = (Ok resp, d') ->
  (exists g, requests C cp c g /\ admitted cp c) \/ (d' = d /\ (local_call c = true \/ success resp = false)).
Proof.
  intros C d cp c fu resp d' E. rewrite service_plan in E. destruct (plan C cp c) as [[g|a]|e| |] eqn:P; cbn [carry_out] in E; try discriminate E.
  - left. exists g. split; [eapply plan_requests; exact P|eapply plan_admitted; exact P].
  - right. injection E as <- <-. split; [reflexivity|]. left. eapply plan_graph; exact P.
  - right. injection E as <- <-. auto.
Qed.
(** So the stores the service can leave are stores the graph can leave, and what the graph theorems
    say of reachable stores holds of the service. *)
Lemma p_C66_service_stores : forall C d, crypto_laws C -> service_reachable C d -> reachable C d.
Proof. exact service_reachable_graph. Qed.

(** An admitted call with its graph call, and its answer. *)
Example e_C66_call : admitted (timed_call 1) (S_get_weight (pid 2) 6) /\
  requests (toy true) (timed_call 1) (S_get_weight (pid 2) 6) (G_weight (toy_key 2) (from_secs 6)) /\
  told_weight (service_step (toy true) base_store (timed_call 1, S_get_weight (pid 2) 6, None)) = Some 16.
Proof. split; [apply timed_host|]. split; [split; [apply pid_key|reflexivity]|]. vm_compute. reflexivity. Qed.

(** ** C65 *)
(** A service call always returns a response, except [insert_cert_raw] with a text on which the
    certificate parser panics. *)
Lemma p_C65_calls_respond : forall C d cp c fu r d', crypto_laws C -> service_reachable C d -> service_typed c ->
  service_step C d (cp, c, fu) = (r, d') ->
  (exists resp, r = Ok resp) \/ (exists s ts, c = S_insert_cert_raw s ts /\ cert_from_str C s = Panic /\ r = Panic /\ d' = d).
Proof.
  intros C d cp c fu r d' L R T E. rewrite service_plan in E. destruct (plan C cp c) as [[g|a]|e| |] eqn:P; cbn [carry_out] in E.
  - pose proof (requests_typed C cp c g L T (plan_requests C cp c g P)) as Tg.
    destruct (graph_step C d (g, fu)) as [y d1] eqn:Eg.
    destruct (p_C23_calls_answer C _ g fu y d1 (service_reachable_graph C d L R) Tg Eg) as [(x & -> & _)|(e & ->)]; injection E as <- <-; eauto.
  - injection E as <- <-. eauto.
  - injection E as <- <-. eauto.
  - injection E as <- <-. destruct (plan_total C cp c (or_introl P)) as (s & ts & -> & H). right. exists s, ts. auto.
  - destruct (plan_total C cp c (or_intror P)) as (s & ts & -> & H). cbn [plan] in P. rewrite H in P. discriminate.
Qed.

(** Refuted without that exception: the empty text. *)
Lemma p_C65_calls_respond_refuted : exists C d cp c, crypto_laws C /\ service_reachable C d /\ service_typed c /\
  service_step C d (cp, c, None) = (Panic, d).
Proof.
  exists (toy true), base_store, script_call, (S_insert_cert_raw [] 5). split; [apply toy_laws|]. split; [exact base_reachable|].
  split; [reflexivity|]. rewrite service_plan. reflexivity.
Qed.

(** ** C54 *)
(** A response says success and carries no error, or says failure, gives an error and its payload
    is empty. *)
Lemma p_C54_failed_calls_are_empty : forall C d cp c fu resp d', service_step C d (cp, c, fu) = (Ok resp, d') ->
  (success resp = true /\ error resp = None) \/
  (success resp = false /\ (exists e, error resp = Some e) /\ reply resp = empty_payload c).
Proof.
  intros C d cp c fu resp d' E. rewrite service_plan in E. destruct (plan C cp c) as [[g|a]|e| |]; cbn [carry_out] in E; try discriminate E.
  - destruct (graph_step C d (g, fu)) as [[x|e| |] d1]; try discriminate E; injection E as <- <-; cbn; eauto.
  - injection E as <- <-. cbn. auto.
  - injection E as <- <-. cbn. eauto.
Qed.

Example e_C54_outcomes : succeeds (service_step (toy true) base_store (timed_call 1, S_get_weight (pid 2) 6, None)) = true /\
  succeeds (service_step (toy true) base_store (script_call, S_get_weight (pid 2) 6, None)) = false.
Proof. split; vm_compute; reflexivity. Qed.

(** ** C41 *)
Lemma graph_step_roots : forall C s g fu d', inv C s -> call_typed C g -> snd (graph_step C (db_of s) (g, fu)) = d' ->
  tbl_roots d' = tbl_roots (db_of s) \/ exists k n, g = G_set_root k n /\ root_set (db_of s) k (N.min n 16) d'.
Proof.
  intros C s g fu d' I T E.
  assert (X : (exists k n, g = G_set_root k n) \/ forall k n, g <> G_set_root k n).
  { destruct g; try (right; discriminate). left. eauto. }
  destruct X as [(k & n & ->)|X].
  - assert (Y : d' = db_of s \/ d' = db_of (apply_w s (W_root k (get_weight_factor n)))).
    { destruct (graph_step_sem C s (G_set_root k n) fu (inv_wf C s I) T) as [H|(_ & j & H)]; rewrite H in E; cbn [snd sem] in E; subst d'; [right; reflexivity|].
      destruct j as [|[|j]]; [left|right|right]; reflexivity. }
    destruct Y as [->| ->]; [left; reflexivity|]. right. exists k, n. split; [reflexivity|].
    replace (N.min n 16) with (16 - get_weight_factor n) by (unfold get_weight_factor, MAX_WEIGHT_FACTOR; lia).
    apply (root_set_write C); [exact I|]. unfold get_weight_factor, MAX_WEIGHT_FACTOR. lia.
  - left. destruct (step_writes C s g fu (inv_wf C s I) T) as (ws & H & Wo). rewrite H in E. subst d'.
    apply (run_invariant C (fun s' => tbl_roots (db_of s') = tbl_roots (db_of s)) [(g, fu)]) with (ws := ws); [|exact Wo|apply I|reflexivity].
    intros s' w c fu' W' Q Hin _ Wr _. destruct Hin as [Hin|[]]. injection Hin as <- <-. destruct w as [now|y|pk f]; try exact Q.
    destruct Wr as (n & -> & _). exfalso. eapply X. reflexivity.
Qed.

(** One call: the roots stay as they are, or the creator of the service called [set_root] and the
    one key it names became a root, if it was none. *)
Lemma p_C41_only_the_owner_sets_roots : forall C d cp c fu r d', crypto_laws C -> service_reachable C d -> service_typed c ->
  service_step C d (cp, c, fu) = (r, d') ->
  tbl_roots d' = tbl_roots d \/
  exists p n k, c = S_set_root p n /\ init_peer_id cp = service_creator_peer_id cp /\ peer_key C p k /\ root_set d k (N.min n 16) d'.
Proof.
  intros C d cp c fu r d' L R T E. pose proof (service_reachable_graph C d L R) as Rg. apply reachable_inv in Rg. destruct Rg as (s & -> & I).
  assert (Ed : d' = snd (service_step C (db_of s) (cp, c, fu))) by (rewrite E; reflexivity).
  rewrite service_plan in Ed. destruct (plan C cp c) as [[g|a]|e| |] eqn:P; try (left; subst d'; reflexivity).
  pose proof (plan_requests C cp c g P) as Rq. pose proof (plan_admitted C cp c g P) as Ad. pose proof (requests_typed C cp c g L T Rq) as Tg.
  destruct (graph_step_roots C s g fu d' I Tg) as [H|(k & n & -> & H)]; [|auto|].
  - rewrite Ed. cbn [carry_out]. destruct (graph_step C (db_of s) (g, fu)) as [[x|e| |] d1]; reflexivity.
  - right. destruct c; cbn [requests] in Rq; try contradiction. destruct Rq as [K ->]. exists peer_id, max_chain_len, k. auto.
Qed.
Lemma root_max_len_tbl : forall d d' k m, tbl_roots d' = tbl_roots d -> root_max_len d' k m -> root_max_len d k m.
Proof. intros d d' k m E H. unfold root_max_len in *. rewrite E in H. exact H. Qed.
(** All histories: every root was set by the creator, with that length. *)
Lemma p_C41_every_root_is_the_owners : forall C es k m, crypto_laws C -> service_events_typed es ->
  root_max_len (service_history C empty_db es) k m ->
  exists cp p n fu, In (cp, S_set_root p n, fu) es /\ init_peer_id cp = service_creator_peer_id cp /\ peer_key C p k /\ m = N.min n 16.
Proof.
  intros C es k m L. induction es as [|[[cp c] fu] es IH] using rev_ind; intros T H.
  - exfalso. destruct H as (w & H & _). cbn [tbl_roots empty_db service_history fold_left first_row find] in H. discriminate H.
  - apply Forall_app in T. destruct T as [T1 T2]. inversion T2 as [|? ? Tc _]; subst. cbn [fst snd] in Tc.
    unfold service_history in *. rewrite fold_left_app in H. cbn [fold_left] in H.
    set (d := fold_left (fun d e => snd (service_step C d e)) es empty_db) in *.
    destruct (service_step C d (cp, c, fu)) as [r d'] eqn:E. cbn [snd] in H.
    assert (Z : root_max_len d k m -> exists cp0 p n fu0, In (cp0, S_set_root p n, fu0) (es ++ [(cp, c, fu)]) /\
       init_peer_id cp0 = service_creator_peer_id cp0 /\ peer_key C p k /\ m = N.min n 16).
    { intros H'. destruct (IH T1 H') as (cp0 & p & n & fu0 & Hin & Z). exists cp0, p, n, fu0. split; [apply in_or_app; auto|exact Z]. }
    destruct (p_C41_only_the_owner_sets_roots C d cp c fu r d' L) as [H'|(p & n & k' & -> & O & K & (_ & _ & H'))]; try assumption.
    + exists es. split; [exact T1|reflexivity].
    + apply Z. eapply root_max_len_tbl; eassumption.
    + apply H' in H. destruct H as [H|(-> & _ & ->)]; [apply Z; exact H|]. exists cp, p, n, fu. split; [apply in_or_app; right; left; reflexivity|auto].
Qed.

(** The stranger's attempt, the owner's success. *)
Example e_C41_calls : succeeds (service_step (toy true) base_store (script_call, S_set_root (pid 3) 5, None)) = false /\
  succeeds (service_step (toy true) base_store (owner_call, S_set_root (pid 3) 5, None)) = true.
Proof. split; vm_compute; reflexivity. Qed.

(** ** C49 *)
Lemma plan_time : forall C cp c g ts i, given_time c = Some (ts, i) -> plan C cp c = Ok g -> inserts_cert c = false -> is_get_weight_from c = false -> host_time cp i.
Proof.
  intros C cp c g ts i G P N1 N2. destruct g as [g|a].
  - pose proof (plan_admitted C cp c g P) as A. destruct c; cbn in G, N1, N2; try discriminate; injection G as <- <-; cbn [admitted] in A; try tauto.
    exfalso. apply plan_requests in P. cbn in P. exact P.
  - pose proof (plan_graph C cp c a P) as A. destruct c; cbn in G, N1, N2, A; try discriminate; injection G as <- <-. cbn [plan] in P.
    apply check_ok. destruct (check_timestamp_tetraplets cp 2) as [[]|?| |]; try discriminate P. reflexivity.
Qed.
(** Refuted: [get_weight_from] accepts a time that does not come from the host's clock. *)
Lemma p_C49_times_come_from_host_refuted : exists C d cp c ts i resp d', crypto_laws C /\ wasm32 C = true /\ service_reachable C d /\
  service_typed c /\ given_time c = Some (ts, i) /\ ~ host_time cp i /\ service_step C d (cp, c, None) = (Ok resp, d') /\ success resp = true.
Proof.
  assert (X : succeeds (service_step (toy true) base_store (timed_call 1, S_get_weight_from (pid 2) (pid 1) 6, None)) = true) by (vm_compute; reflexivity).
  apply succeeds_resp in X. destruct X as (resp & d' & E & H).
  exists (toy true), base_store, (timed_call 1), (S_get_weight_from (pid 2) (pid 1) 6), 6, 2%nat, resp, d'.
  split; [apply toy_laws|]. split; [reflexivity|]. split; [exact base_reachable|]. split; [reflexivity|]. split; [reflexivity|].
  split; [apply timed_not_later; lia|]. auto.
Qed.
(** And it refuses a time that does. *)
Lemma p_C49_host_time_accepted_refuted : exists C d cp p q ts resp d', crypto_laws C /\ wasm32 C = true /\ service_reachable C d /\
  (exists k, peer_key C p k) /\ (exists k, peer_key C q k) /\ host_time cp 2 /\
  service_step C d (cp, S_get_weight_from p q ts, None) = (Ok resp, d') /\ error resp = Some SVE_InvalidTimestampTetraplet.
Proof.
  exists (toy true), base_store, (timed_call 2), (pid 2), (pid 1), 6. eexists. eexists.
  split; [apply toy_laws|]. split; [reflexivity|]. split; [exact base_reachable|]. split; [eexists; apply pid_key|]. split; [eexists; apply pid_key|].
  split; [apply timed_host|]. split; [rewrite service_plan; reflexivity|reflexivity].
Qed.
(** [insert_cert] accepts any time. *)
Lemma p_C49_insert_cert_unchecked_refuted : exists C d cp r ts resp d', crypto_laws C /\ wasm32 C = true /\ service_reachable C d /\
  service_typed (S_insert_cert r ts) /\ (forall i, ~ host_time cp i) /\ service_step C d (cp, S_insert_cert r ts, None) = (Ok resp, d') /\ success resp = true /\
  exists x, stored d' x /\ ~ stored d x.
Proof.
  assert (X : succeeds (service_step (toy true) base_store (script_call, S_insert_cert future_cert 5, None)) = true) by (vm_compute; reflexivity).
  apply succeeds_resp in X. destruct X as (resp & d' & E & H).
  assert (Ed : d' = snd (service_step (toy true) base_store (script_call, S_insert_cert future_cert 5, None))) by (rewrite E; reflexivity).
  exists (toy true), base_store, script_call, future_cert, 5, resp, d'.
  split; [apply toy_laws|]. split; [reflexivity|]. split; [exact base_reachable|]. split; [split; [repeat constructor|reflexivity]|].
  split; [exact script_not_host|]. split; [exact E|]. split; [exact H|].
  exists (RAuth (mk_auth (toy_trust 1 3 900 500) (toy_key 1))). split.
  - rewrite Ed. split; [split; reflexivity|]. split; [split; reflexivity|]. vm_compute. repeat (first [left; reflexivity|right]).
  - intros (_ & _ & X). revert X. vm_compute. intuition discriminate.
Qed.
(** All calls but [insert_cert], [insert_cert_raw] and [get_weight_from]. *)
Lemma p_C49_times_come_from_host_partial : forall C d cp c fu resp d' ts i, inserts_cert c = false -> is_get_weight_from c = false ->
  given_time c = Some (ts, i) -> ~ host_time cp i ->
  service_step C d (cp, c, fu) = (Ok resp, d') -> success resp = false /\ d' = d.
Proof.
  intros C d cp c fu resp d' ts i N1 N2 G H E. rewrite service_plan in E. destruct (plan C cp c) as [g|e| |] eqn:P; try discriminate E.
  - exfalso. apply H. eapply plan_time; eassumption.
  - injection E as <- <-. auto.
Qed.
(** [get_weight_from] wants argument 1, the issuer, to come from the host's clock. *)
Lemma p_C49_get_weight_from_checks_issuer : forall C d cp p q ts fu resp d', ~ host_time cp 1 ->
  service_step C d (cp, S_get_weight_from p q ts, fu) = (Ok resp, d') -> success resp = false /\ d' = d.
Proof.
  intros C d cp p q ts fu resp d' H E. rewrite service_plan in E. destruct (plan C cp (S_get_weight_from p q ts)) as [g|e| |] eqn:P; try discriminate E.
  - exfalso. apply H. apply check_ok. cbn [plan] in P. destruct (check_timestamp_tetraplets cp 1) as [[]|?| |]; try discriminate P. reflexivity.
  - injection E as <- <-. auto.
Qed.

(** ** C50, C51, C63, C64 for the service *)
Lemma requests_time : forall C cp c g now, requests C cp c g -> call_time g = Some now -> exists ts i, given_time c = Some (ts, i) /\ now = from_secs ts.
Proof.
  intros C cp c g now H E. destruct c, g; cbn [requests] in H; try contradiction; cbn [call_time] in E; try discriminate E; injection E as <-;
    cbn [given_time]; repeat match goal with H : _ /\ _ |- _ => destruct H end; subst; eauto.
Qed.
(** Refuted: at second 10 key 2 has weight 16; a stranger inserts their own certificate with a time
    of their choice; now key 2 has weight 0. *)
Lemma p_C50_strangers_cannot_erase_refuted : exists C d cp c p d', crypto_laws C /\ wasm32 C = true /\ service_reachable C d /\ service_typed c /\
  (forall i, ~ host_time cp i) /\ init_peer_id cp <> service_creator_peer_id cp /\ snd (service_step C d (cp, c, None)) = d' /\
  told_weight (service_step C d (timed_call 1, S_get_weight p 10, None)) = Some 16 /\
  told_weight (service_step C d' (timed_call 1, S_get_weight p 10, None)) = Some 0.
Proof.
  exists (toy true), base_store, script_call, (S_insert_cert stranger_cert 5000), (pid 2). eexists.
  split; [apply toy_laws|]. split; [reflexivity|]. split; [exact base_reachable|]. split; [split; [repeat constructor|reflexivity]|].
  split; [exact script_not_host|]. split; [intros X; vm_compute in X; discriminate X|]. split; [reflexivity|]. split; vm_compute; reflexivity.
Qed.
(** What a service call can remove from the store: trusts expired at the time it was given, which is
    the host's unless the call is [insert_cert], [insert_cert_raw] or [get_weight_from]; and what a
    genuine newer relation between the same keys replaces. *)
Lemma p_C50_what_calls_remove : forall C d cp c fu r d' x, crypto_laws C -> service_reachable C d -> service_typed c ->
  service_step C d (cp, c, fu) = (r, d') -> stored d x -> ~ stored d' x ->
  (exists ts i, given_time c = Some (ts, i) /\ db_expired (from_secs ts) x /\
     (host_time cp i \/ inserts_cert c = true \/ is_get_weight_from c = true)) \/
  (exists g y, requests C cp c g /\ admitted cp c /\ offers g y /\ genuine C g y /\ same_keys x y /\ before (rel_issued_at x) (rel_issued_at y)).
Proof.
  intros C d cp c fu r d' x L R T E Sx Nx. pose proof (service_reachable_graph C d L R) as Rg. apply reachable_inv in Rg. destruct Rg as (s & -> & I).
  assert (Ed : d' = snd (service_step C (db_of s) (cp, c, fu))) by (rewrite E; reflexivity). rewrite service_step_db in Ed.
  apply stored_in with (C := C) in Sx; [|apply I].
  destruct (lost C (asked C cp c fu) s x I (asked_typed C cp c fu L T) Sx) as (s' & E' & I' & [H|(g & fu' & Hin & H)]).
  - exfalso. apply Nx. rewrite Ed, E'. apply stored_in with (C := C); [apply I'|exact H].
  - apply asked_in in Hin. destruct Hin as [P ->]. pose proof (plan_requests C cp c g P) as Rq.
    destruct H as [(now & Hn & Hx)|(y & Ho & Hg & Hk & Hb)].
    + left. destruct (requests_time C cp c g now Rq Hn) as (ts & i & G & ->). exists ts, i. split; [exact G|]. split; [exact Hx|].
      destruct (inserts_cert c) eqn:N1; [auto|]. destruct (is_get_weight_from c) eqn:N2; [auto|]. left. eapply plan_time; eassumption.
    + right. exists g, y. split; [exact Rq|]. split; [eapply plan_admitted; exact P|]. auto.
Qed.
Example e_C50_expired : stored base_store (RAuth (mk_auth (toy_trust 1 2 900 1) (toy_key 1))) /\
  db_expired (from_secs 5000) (RAuth (mk_auth (toy_trust 1 2 900 1) (toy_key 1))).
Proof.
  split; [|intros X; vm_compute in X; discriminate X]. split; [split; reflexivity|]. split; [split; reflexivity|]. vm_compute. repeat (first [left; reflexivity|right]).
Qed.
(** Refuted: at second 5 a certificate made at second 500 is stored. *)
Lemma p_C51_nothing_from_the_future_refuted : exists C d cp c ts i resp d' x, crypto_laws C /\ wasm32 C = true /\ service_reachable C d /\ service_typed c /\
  given_time c = Some (ts, i) /\ service_step C d (cp, c, None) = (Ok resp, d') /\ success resp = true /\
  stored d' x /\ ~ stored d x /\ ts < secs (rel_issued_at x).
Proof.
  assert (X : succeeds (service_step (toy true) base_store (script_call, S_insert_cert future_cert 5, None)) = true) by (vm_compute; reflexivity).
  apply succeeds_resp in X. destruct X as (resp & d' & E & H).
  assert (Ed : d' = snd (service_step (toy true) base_store (script_call, S_insert_cert future_cert 5, None))) by (rewrite E; reflexivity).
  exists (toy true), base_store, script_call, (S_insert_cert future_cert 5), 5, 1%nat, resp, d', (RAuth (mk_auth (toy_trust 1 3 900 500) (toy_key 1))).
  split; [apply toy_laws|]. split; [reflexivity|]. split; [exact base_reachable|]. split; [split; [repeat constructor|reflexivity]|].
  split; [reflexivity|]. split; [exact E|]. split; [exact H|]. split; [|split; [|reflexivity]].
  - rewrite Ed. split; [split; reflexivity|]. split; [split; reflexivity|]. vm_compute. repeat (first [left; reflexivity|right]).
  - intros (_ & _ & X). revert X. vm_compute. intuition discriminate.
Qed.
(** What a service call can add. *)
Lemma p_C51_what_calls_add : forall C d cp c fu r d' x, crypto_laws C -> service_reachable C d -> service_typed c ->
  service_step C d (cp, c, fu) = (r, d') -> stored d' x -> ~ stored d x ->
  exists g y, requests C cp c g /\ admitted cp c /\ offers g y /\ genuine C g y /\ x = whole y.
Proof.
  intros C d cp c fu r d' x L R T E Sx Nx. pose proof (service_reachable_graph C d L R) as Rg. apply reachable_inv in Rg. destruct Rg as (s & -> & I).
  assert (Ed : d' = snd (service_step C (db_of s) (cp, c, fu))) by (rewrite E; reflexivity). rewrite service_step_db in Ed.
  destruct (gained C (asked C cp c fu) s I (asked_typed C cp c fu L T)) as (s' & E' & I' & H).
  rewrite Ed, E' in Sx. apply stored_in with (C := C) in Sx; [|apply I']. destruct (H x Sx) as [H'|(g & fu' & y & Hin & Ho & Hg & ->)].
  - exfalso. apply Nx. apply stored_in with (C := C); [apply I|exact H'].
  - apply asked_in in Hin. destruct Hin as [P ->]. exists g, y. split; [eapply plan_requests; exact P|]. split; [eapply plan_admitted; exact P|]. auto.
Qed.
Lemma offered_time : forall C cp c g y, requests C cp c g -> admitted cp c -> offers g y -> inserts_cert c = false ->
  exists ts i, given_time c = Some (ts, i) /\ host_time cp i /\ secs (rel_issued_at (whole y)) <= ts.
Proof.
  intros C cp c g y Rq Ad Ho N1.
  destruct c, g; cbn [requests] in Rq; try contradiction; try discriminate N1; destruct y as [a|v0]; cbn [offers offers_trust] in Ho; try contradiction; try discriminate Ho.
  - destruct Rq as ((_ & _ & Ei & _) & _ & _). cbn [admitted] in Ad. destruct Ad as [Ad Le]. destruct Ho as [Ho _]. exists timestamp_sec, 2%nat.
    split; [reflexivity|]. split; [exact Ad|]. cbn. rewrite Ho, Ei. exact Le.
  - injection Ho as ->. destruct Rq as (_ & _ & Ei & _). cbn [admitted] in Ad. destruct Ad as [Ad Le]. exists timestamp_sec, 1%nat.
    split; [reflexivity|]. split; [exact Ad|]. cbn. rewrite Ei. exact Le.
Qed.
(** All calls but [insert_cert] and [insert_cert_raw]: what they store was made no later than the
    time they were given, and that is the host's. *)
Lemma p_C51_nothing_from_the_future_partial : forall C d cp c fu r d' x, crypto_laws C -> service_reachable C d -> service_typed c ->
  inserts_cert c = false -> service_step C d (cp, c, fu) = (r, d') -> stored d' x -> ~ stored d x ->
  exists ts i, given_time c = Some (ts, i) /\ host_time cp i /\ secs (rel_issued_at x) <= ts.
Proof.
  intros C d cp c fu r d' x L R T N1 E Sx Nx. destruct (p_C51_what_calls_add C d cp c fu r d' x L R T E Sx Nx) as (g & y & Rq & Ad & Ho & _ & ->).
  eapply offered_time; eassumption.
Qed.
(** All histories without those two calls. *)
Lemma p_C51_nothing_from_the_future_history_partial : forall C es x, crypto_laws C -> service_events_typed es ->
  (forall cp c fu, In (cp, c, fu) es -> inserts_cert c = false) -> stored (service_history C empty_db es) x ->
  exists cp c fu ts i, In (cp, c, fu) es /\ given_time c = Some (ts, i) /\ host_time cp i /\ secs (rel_issued_at x) <= ts.
Proof.
  intros C es x L T N H. rewrite service_history_db in H. change empty_db with (db_of empty_state) in H.
  destruct (gained C (asked_all C es) empty_state (inv_empty C) (asked_all_typed C es L T)) as (s' & E & I & G).
  rewrite E in H. apply stored_in with (C := C) in H; [|apply I]. destruct (G x H) as [[]|(g & fu & y & Hin & Ho & _ & ->)].
  apply asked_all_in in Hin. destruct Hin as (cp & c & Hin & P).
  destruct (offered_time C cp c g y (plan_requests C cp c g P) (plan_admitted C cp c g P) Ho (N _ _ _ Hin)) as (ts & i & Z).
  exists cp, c, fu, ts, i. auto.
Qed.

(** A future-dated trust offered to [add_trust] is refused, a past one stored. *)
Example e_C51_add_trust : succeeds (service_step (toy true) base_store (timed_call 2, S_add_trust (trust_rec 1 3 900 500) (pid 1) 5, None)) = false /\
  succeeds (service_step (toy true) base_store (timed_call 2, S_add_trust (trust_rec 1 3 900 5) (pid 1) 5, None)) = true.
Proof. split; vm_compute; reflexivity. Qed.

(** ** C52 *)
Lemma p_C52_trust_record_roundtrip : forall C t, crypto_laws C -> trust_fits C t -> pk_fmt (issued_for t) <> Rsa ->
  trust_of_dto C (dto_of_trust C t) = Ok t.
Proof.
  intros C t L (V1 & V2 & (_ & N1) & (_ & N2)) NR. apply trust_of_dto_ok. apply dto_of_trust_record; assumption.
Qed.
Lemma p_C52_certificate_record_roundtrip : forall C c, crypto_laws C -> (forall t, In t c -> trust_fits C t /\ pk_fmt (issued_for t) <> Rsa) ->
  cert_of_dto C (dto_of_cert C c) = Ok c.
Proof.
  intros C c L H. apply cert_of_dto_ok. unfold certificate_record, dto_of_cert. induction c as [|t c IH]; [constructor|].
  cbn [map]. constructor; [|apply IH; intros t' H'; apply H; right; exact H'].
  apply trust_of_dto_ok. destruct (H t (or_introl eq_refl)). apply p_C52_trust_record_roundtrip; assumption.
Qed.
Lemma p_C52_revocation_record_roundtrip : forall C v, crypto_laws C -> pk_valid C (rev_pk v) -> pk_fmt (rev_pk v) <> Rsa ->
  pk_valid C (revoked_by v) -> pk_fmt (revoked_by v) <> Rsa -> sig_valid C (rev_sig v) -> whole_secs (revoked_at v) ->
  revocation_of_dto C (dto_of_revocation C v) = Ok v.
Proof.
  intros C v L V1 N1 V2 N2 V3 (_ & N3). apply revocation_of_dto_ok. apply dto_of_revocation_record; assumption.
Qed.
(** A record is turned into a value exactly if it describes one. *)
Lemma p_C52_records_exact : forall C,
  (forall r t, trust_of_dto C r = Ok t <-> trust_record C r t) /\
  (forall r c, cert_of_dto C r = Ok c <-> certificate_record C r c) /\
  (forall r v, revocation_of_dto C r = Ok v <-> revocation_record C r v).
Proof. intros C. split; [apply trust_of_dto_ok|]. split; [apply cert_of_dto_ok|apply revocation_of_dto_ok]. Qed.

Example e_C52_fits : trust_fits (toy true) (toy_trust 1 2 900 1) /\ pk_fmt (issued_for (toy_trust 1 2 900 1)) <> Rsa /\
  trust_fits (toy true) (mk_trust secp_key (from_secs 9) (mk_sig Secp256k1 [x30]) (from_secs 1)).
Proof.
  split; [apply toy_trust_fits; reflexivity|]. split; [discriminate|]. split; [repeat split|]. split; [reflexivity|]. split; split; reflexivity.
Qed.

(** ** C53 *)
(** [verify_trust] says exactly whether the trust is signed by the issuer and not expired. *)
Lemma p_C53_verify_trust_exact : forall C d cp r q ts fu d' resp,
  service_step C d (cp, S_verify_trust r q ts, fu) = (Ok resp, d') ->
  d' = d /\
  (success resp = true <-> host_time cp 2 /\ exists t k, trust_record C r t /\ peer_key C q k /\ signed_trust C k t /\ ~ before (expires_at t) (from_secs ts)).
Proof.
  intros C d cp r q ts fu d' resp E. rewrite service_plan in E. 
  assert (Z : (exists x, plan C cp (S_verify_trust r q ts) = Ok x) <-> host_time cp 2 /\ exists t k, trust_record C r t /\ peer_key C q k /\ signed_trust C k t /\ ~ before (expires_at t) (from_secs ts)).
  { cbn [plan]. split.
    - intros (x & P). destruct (check_cases cp 2) as [(Ec & H)|(Ec & _)]; rewrite Ec in P; [|discriminate P]. split; [exact H|]. cbn [bind] in P.
      destruct (extract_cases C q) as [(k & Ek & K)|(e & Ek)]; rewrite Ek in P; [|discriminate P]. cbn [bind] in P.
      destruct (trust_of_dto_cases C r) as [(t & Et)|(e & Et)]; rewrite Et in P; [|discriminate P]. cbn [map_err bind] in P.
      destruct (trust_verify_total C t k (from_secs ts)) as [V|(e & V)]; rewrite V in P; [|discriminate P].
      apply trust_verify_exact in V. exists t, k. split; [apply trust_of_dto_ok; exact Et|]. tauto.
    - intros (H & t & k & Rt & K & Hs & Hb). apply check_ok in H. apply extract_ok in K. apply trust_of_dto_ok in Rt. rewrite H, K, Rt. cbn [map_err bind].
      assert (V : trust_verify C t k (from_secs ts) = Ok tt) by (apply trust_verify_exact; auto). rewrite V. eexists. reflexivity. }
  destruct (plan C cp (S_verify_trust r q ts)) as [g|e| |] eqn:P; cbn [carry_out] in E; try discriminate E.
  - destruct g as [g|a]; [exfalso; apply plan_requests in P; exact P|]. injection E as <- <-. split; [reflexivity|]. rewrite <- Z. cbn. split; [eauto|auto].
  - injection E as <- <-. split; [reflexivity|]. rewrite <- Z. cbn. split; [discriminate|]. intros (x & H). discriminate H.
Qed.
(** [get_trust_bytes], signing, [issue_trust], [verify_trust], [add_trust]: for all keys, whatever
    their kinds. *)
Lemma p_C53_trust_flow : forall C d kp p k q e i cp cp' fu, crypto_laws C -> wasm32 C = true -> kp_valid C kp ->
  peer_key C p k -> peer_key C q (kp_public C kp) -> e < u64_bound -> i < u64_bound ->
  exists m s r t,
    service_step C d (cp, S_get_trust_bytes p e i, fu) = (Ok (mk_response true None (P_bytes m)), d) /\
    kp_sign C kp m = Ok s /\
    service_step C d (cp', S_issue_trust p e i (sig_raw s), fu) = (Ok (mk_response true None (P_trust r)), d) /\
    trust_record C r t /\ issued_for t = k /\ expires_at t = from_secs e /\ issued_at t = from_secs i /\ signed_trust C (kp_public C kp) t /\
    (forall cp2 d2 fu2 ts, host_time cp2 2 -> ts <= e ->
       service_step C d2 (cp2, S_verify_trust r q ts, fu2) = (Ok (mk_response true None P_none), d2)) /\
    (forall cp2 d2 ts, service_reachable C d2 -> host_time cp2 2 -> i <= ts -> ts <= e ->
       exists w d3, service_step C d2 (cp2, S_add_trust r q ts, None) = (Ok (mk_response true None (P_added w)), d3)).
Proof.
  intros C d kp p k q e i cp cp' fu L Hw V K Q Be Bi.
  assert (NR : kp_fmt kp <> Rsa) by (destruct V as [V _]; intros X; rewrite X in V; cbn in V; rewrite Hw in V; discriminate).
  destruct (trust_create_total C unit kp k (from_secs e) (from_secs i) L NR) as (t0 & Et).
  pose proof (trust_created C unit kp k (from_secs e) (from_secs i) t0 (from_secs e) L V Et) as (T1 & T2 & T3 & T4 & _).
  unfold trust_create in Et. destruct (kp_sign C kp (trust_signature_bytes C k (from_secs e) (from_secs i))) as [s|x| |] eqn:Es; try discriminate Et.
  cbn [unwrap bind] in Et. apply Ok_inj in Et. subst t0. cbn [issued_for expires_at issued_at] in *.
  assert (Nb : ~ before (from_secs e) (from_secs e)) by (unfold before; lia).
  specialize (T4 Nb). apply trust_verify_exact in T4. destruct T4 as [_ Sg].
  set (t := mk_trust k (from_secs e) (sig_from_bytes (pk_fmt k) (sig_raw s)) (from_secs i)).
  assert (Sg' : signed_trust C (kp_public C kp) t).
  { unfold signed_trust in *. unfold t. cbn [trust_sig] in *. unfold trust_message in *. cbn [issued_for expires_at issued_at] in *.
    revert Sg. unfold pk_verify, sig_from_bytes. cbn [sig_raw]. auto. }
  assert (Kv : pk_valid C k) by (eapply peer_key_valid; eassumption).
  assert (Rt : trust_record C (dto_of_trust C t) t).
  { apply dto_of_trust_record; try assumption; try reflexivity; [apply wasm_no_rsa with (C := C); assumption|]. exact (proj1 Kv). }
  exists (trust_signature_bytes C k (from_secs e) (from_secs i)), s, (dto_of_trust C t), t.
  pose proof K as K'. apply extract_ok in K'. pose proof Q as Q'. apply extract_ok in Q'. pose proof Rt as Rt'. apply trust_of_dto_ok in Rt'.
  split. { rewrite service_plan. cbn [plan]. rewrite K'. reflexivity. }
  split; [exact Es|].
  split. { rewrite service_plan. cbn [plan]. rewrite K'. reflexivity. }
  split; [exact Rt|]. split; [reflexivity|]. split; [reflexivity|]. split; [reflexivity|]. split; [exact Sg'|].
  assert (Vt : forall ts, ts <= e -> trust_verify C t (kp_public C kp) (from_secs ts) = Ok tt).
  { intros ts Hts. apply trust_verify_exact. split; [|exact Sg']. unfold before. cbn. lia. }
  split.
  - intros cp2 d2 fu2 ts H Hts. rewrite service_plan. cbn [plan]. apply check_ok in H. rewrite H, Q', Rt'. cbn [map_err bind]. rewrite Vt by exact Hts. reflexivity.
  - intros cp2 d2 ts R2 H H1 H2. pose proof (service_reachable_graph C d2 L R2) as Rg.
    assert (Rq : requests C cp2 (S_add_trust (dto_of_trust C t) q ts) (G_add_trust t (kp_public C kp) (from_secs ts))) by (cbn; auto).
    assert (Ad : admitted cp2 (S_add_trust (dto_of_trust C t) q ts)) by (cbn; auto).
    assert (Ty : service_typed (S_add_trust (dto_of_trust C t) q ts)) by (split; [split; [exact Be|exact Bi]|lia]).
    pose proof (requests_typed C _ _ _ L Ty Rq) as Tg.
    destruct (p_C38_add_trust_exact C d2 t (kp_public C kp) (from_secs ts) Rg Tg) as [_ X]. destruct (X (Vt ts H2)) as (w & d1 & w' & d3 & _ & E & _).
    rewrite service_plan, (plan_complete C _ _ _ Rq Ad). cbn [carry_out]. rewrite E. exists w', d3. reflexivity.
Qed.
(** The key pair of an Ed25519 issuer and a Secp256k1 subject meet the hypotheses. *)
Example e_C53_mixed : kp_valid (toy true) (toy_kp 1) /\ peer_key (toy true) secp_pid secp_key /\ peer_key (toy true) (pid 1) (kp_public (toy true) (toy_kp 1)).
Proof. split; [apply toy_kp_valid|]. split; [exact secp_pid_key|apply pid_key]. Qed.
(** The same for revocations. *)
Lemma p_C53_revocation_flow : forall C d kp p k q a cp cp' fu, crypto_laws C -> wasm32 C = true -> kp_valid C kp ->
  peer_key C p k -> peer_key C q (kp_public C kp) -> a < u64_bound ->
  exists m s r v,
    service_step C d (cp, S_get_revocation_bytes p a, fu) = (Ok (mk_response true None (P_bytes m)), d) /\
    kp_sign C kp m = Ok s /\
    service_step C d (cp', S_issue_revocation q p a (sig_raw s), fu) = (Ok (mk_response true None (P_revocation r)), d) /\
    revocation_record C r v /\ rev_pk v = k /\ revoked_by v = kp_public C kp /\ revoked_at v = from_secs a /\ signed_revocation C v /\
    (forall cp2 d2 ts, service_reachable C d2 -> host_time cp2 1 -> a <= ts -> ts < u64_bound ->
       exists d3, service_step C d2 (cp2, S_revoke r ts, None) = (Ok (mk_response true None P_none), d3) /\ imported d2 (RRev v) d3).
Proof.
  intros C d kp p k q a cp cp' fu L Hw V K Q Ba.
  assert (NR : kp_fmt kp <> Rsa) by (destruct V as [V _]; intros X; rewrite X in V; cbn in V; rewrite Hw in V; discriminate).
  destruct (revocation_create_total C unit kp k (from_secs a) L NR) as (v0 & Ev).
  pose proof (revocation_created C unit kp k (from_secs a) v0 L V Ev) as (T1 & T2 & T3 & T4).
  unfold revocation_create in Ev. destruct (kp_sign C kp (revocation_signature_bytes C k (from_secs a))) as [s|x| |] eqn:Es; try discriminate Ev.
  cbn [unwrap bind] in Ev. apply Ok_inj in Ev. subst v0. cbn [rev_pk revoked_at revoked_by] in *.
  apply revocation_verify_exact in T4.
  set (v := mk_rev k (from_secs a) (kp_public C kp) (sig_from_bytes (pk_fmt (kp_public C kp)) (sig_raw s))).
  assert (Sg' : signed_revocation C v).
  { unfold signed_revocation in *. unfold v. cbn [rev_sig revoked_by] in *. unfold revocation_message in *. cbn [rev_pk revoked_at] in *.
    revert T4. unfold pk_verify, sig_from_bytes. cbn [sig_raw]. auto. }
  assert (Kv : pk_valid C k) by (eapply peer_key_valid; eassumption). assert (Qv : pk_valid C (kp_public C kp)) by (eapply peer_key_valid; eassumption).
  assert (Rv : revocation_record C (dto_of_revocation C v) v).
  { apply dto_of_revocation_record; try assumption; try reflexivity; try (apply wasm_no_rsa with (C := C); assumption). exact (proj1 Qv). }
  exists (revocation_signature_bytes C k (from_secs a)), s, (dto_of_revocation C v), v.
  pose proof K as K'. apply extract_ok in K'. pose proof Q as Q'. apply extract_ok in Q'.
  split. { rewrite service_plan. cbn [plan]. rewrite K'. reflexivity. }
  split; [exact Es|].
  split. { rewrite service_plan. cbn [plan]. rewrite K', Q'. reflexivity. }
  split; [exact Rv|]. split; [reflexivity|]. split; [reflexivity|]. split; [reflexivity|]. split; [exact Sg'|].
  intros cp2 d2 ts R2 H H1 H2. pose proof (service_reachable_graph C d2 L R2) as Rg.
  assert (Rq : requests C cp2 (S_revoke (dto_of_revocation C v) ts) (G_revoke v)) by (cbn; auto).
  assert (Ad : admitted cp2 (S_revoke (dto_of_revocation C v) ts)) by (cbn; auto).
  assert (Ty : service_typed (S_revoke (dto_of_revocation C v) ts)) by (split; [exact Ba|exact H2]).
  pose proof (requests_typed C _ _ _ L Ty Rq) as Tg.
  destruct (p_C30_revoke_imports C d2 v Rg Tg) as [X _]. destruct (X Sg') as (d3 & E & Im).
  rewrite service_plan, (plan_complete C _ _ _ Rq Ad). cbn [carry_out]. rewrite E. exists d3. split; [reflexivity|exact Im].
Qed.

(** ** C55 *)
(** [export_revocations] lists exactly the stored revocations of the key, once each; every one of
    them is accepted by [revoke] of any other instance of the service. *)
Lemma p_C55_export_revocations_exact : forall C d cp p fu resp d', crypto_laws C -> wasm32 C = true -> service_reachable C d ->
  service_step C d (cp, S_export_revocations p, fu) = (Ok resp, d') -> success resp = true ->
  d' = d /\ exists k rs vs, peer_key C p k /\ reply resp = P_revocations rs /\ Forall2 (revocation_record C) rs vs /\ NoDup vs /\
    (forall v, In v vs <-> stored_revocation d v /\ rev_pk v = k) /\
    (forall r cp2 d2 ts, In r rs -> service_reachable C d2 -> host_time cp2 1 -> dr_revoked_at r <= ts -> ts < u64_bound ->
       exists v d3, In v vs /\ revocation_record C r v /\
         service_step C d2 (cp2, S_revoke r ts, None) = (Ok (mk_response true None P_none), d3) /\ imported d2 (RRev v) d3).
Proof.
  intros C d cp p fu resp d' L Hw R E Ok_. destruct (p_C66_other_calls C d cp _ fu resp d' E) as [(g & Rq & Ad)|(_ & [X|X])]; [|discriminate X|congruence].
  destruct (p_C66_admitted_calls C d cp (S_export_revocations p) g fu _ d' L Hw R Logic.I Ad Rq E) as [(x & pl & Eg & Er & Tl)|(e & Eg & Er)].
  2:{ apply Ok_inj in Er. subst resp. discriminate Ok_. }
  apply Ok_inj in Er. subst resp. destruct g; cbn [requests] in Rq; try contradiction.
  pose proof (service_reachable_graph C d L R) as Rg.
  destruct x; cbn [tells] in Tl; try contradiction. destruct pl; cbn [tells] in Tl; try contradiction.
  pose proof (peer_key_valid C p pk L Rq) as Kv.
  destruct (p_C55_get_revocations_exact C d pk fu vs d' Rg Kv Eg) as (-> & ND & Ex).
  split; [reflexivity|]. exists pk, rs, vs. split; [exact Rq|]. split; [reflexivity|]. split; [exact Tl|]. split; [exact ND|]. split; [exact Ex|].
  intros r cp2 d2 ts Hr R2 H H1 H2.
  assert (Y : exists v, In v vs /\ revocation_record C r v).
  { clear - Tl Hr. induction Tl as [|r0 v0 rs vs H0 Tl IH]; [destruct Hr|]. destruct Hr as [->|Hr]; [exists v0; split; [left; reflexivity|exact H0]|].
    destruct (IH Hr) as (v & Hv & Z). exists v. split; [right; exact Hv|exact Z]. }
  destruct Y as (v & Hv & Rv). pose proof (service_reachable_graph C d2 L R2) as Rg2.
  assert (Rq2 : requests C cp2 (S_revoke r ts) (G_revoke v)) by exact Rv.
  assert (Ad2 : admitted cp2 (S_revoke r ts)) by (cbn; auto).
  assert (Ty : service_typed (S_revoke r ts)) by (split; [lia|exact H2]).
  pose proof (requests_typed C _ _ _ L Ty Rq2) as Tg.
  apply Ex in Hv. destruct (p_C29_stored_is_authentic C d Rg) as [_ Au].
  destruct (p_C30_revoke_imports C d2 v Rg2 Tg) as [X _]. destruct (X (Au v (proj1 Hv))) as (d3 & E3 & Im).
  exists v, d3. split; [apply Ex; exact Hv|]. split; [exact Rv|].
  rewrite service_plan, (plan_complete C _ _ _ Rq2 Ad2). cbn [carry_out]. rewrite E3. split; [reflexivity|exact Im].
Qed.

Example e_C55_export : exists v, snd (service_step (toy true) base_store (timed_call 1, S_revoke (rev_rec 1 2 4) 6, None)) = v /\
  succeeds (service_step (toy true) v (script_call, S_export_revocations (pid 2), None)) = true /\
  fst (service_step (toy true) v (script_call, S_export_revocations (pid 2), None)) = Ok (mk_response true None (P_revocations [rev_rec 1 2 4])).
Proof. eexists. split; [reflexivity|]. split; vm_compute; reflexivity. Qed.
