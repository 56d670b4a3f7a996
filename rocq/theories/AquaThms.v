(** The properties of the Aqua scripts in their final form. PropsAqua.v restates them. *)
From Coq Require Import List NArith ZArith Bool Lia ZifyBool ZifyNat ZifyN Setoid.
From Coq Require String.
Import String.StringSyntax.
From Verif Require Import Base BaseFacts Text TextFacts Keys KeysFacts Trust TrustFacts Certificate CertFacts Relation
  Storage StorageFacts Graph PathFacts Service Spec SpecFacts GraphFacts StateFacts ChainFacts ImportFacts HistFacts
  ServiceSpec ServiceFacts Toy ToyFacts GraphThms ServiceWitness ServiceThms Aqua AquaSpec AquaFacts.
Import ListNotations.
Open Scope N_scope.

(** * Issuing *)
Lemma sign_trust_good : forall C net issuer kp k e i, crypto_laws C -> wasm32 C = true -> signer C net issuer kp -> pk_valid C k ->
  exists s, sign_with net issuer (trust_signature_bytes C k (from_secs e) (from_secs i)) = Some s /\
    trust_asked C (kp_public C kp) k e i (mk_trust k (from_secs e) (sig_from_bytes (pk_fmt k) s) (from_secs i)).
Proof.
  intros C net issuer kp k e i L W (V & Q & G) K.
  assert (NR : kp_fmt kp <> Rsa) by (destruct V as [V _]; intros X; rewrite X in V; cbn in V; rewrite W in V; discriminate).
  destruct (kp_sign_total C kp (trust_signature_bytes C k (from_secs e) (from_secs i)) L NR) as (s & Es).
  exists (sig_raw s). split; [apply G; exact Es|]. repeat split.
  destruct (kp_sign_verify C kp _ s L V Es) as [Y _]. revert Y.
  unfold signed_trust, trust_message. cbn [issued_for expires_at issued_at trust_sig]. unfold pk_verify, sig_from_bytes. cbn [sig_raw]. auto.
Qed.
Lemma sign_rev_good : forall C net q kp k i, crypto_laws C -> wasm32 C = true -> signer C net q kp -> pk_valid C k ->
  exists s, sign_with net q (revocation_signature_bytes C k (from_secs i)) = Some s /\
    revocation_asked C (kp_public C kp) k i (mk_rev k (from_secs i) (kp_public C kp) (sig_from_bytes (pk_fmt (kp_public C kp)) s)).
Proof.
  intros C net q kp k i L W (V & Q & G) K.
  assert (NR : kp_fmt kp <> Rsa) by (destruct V as [V _]; intros X; rewrite X in V; cbn in V; rewrite W in V; discriminate).
  destruct (kp_sign_total C kp (revocation_signature_bytes C k (from_secs i)) L NR) as (s & Es).
  exists (sig_raw s). split; [apply G; exact Es|]. repeat split.
  destruct (kp_sign_verify C kp _ s L V Es) as [Y _]. revert Y.
  unfold signed_revocation, revocation_message. cbn [rev_pk revoked_at revoked_by rev_sig]. unfold pk_verify, sig_from_bytes. cbn [sig_raw]. auto.
Qed.
Lemma made_record : forall C k e s i, crypto_laws C -> wasm32 C = true -> pk_valid C k ->
  trust_record C (dto_of_trust C (mk_trust k (from_secs e) (sig_from_bytes (pk_fmt k) s) (from_secs i))) (mk_trust k (from_secs e) (sig_from_bytes (pk_fmt k) s) (from_secs i)).
Proof.
  intros C k e s i L W K. apply dto_of_trust_record; try assumption; try reflexivity; [apply wasm_no_rsa with (C := C); assumption|]. exact (proj1 K).
Qed.
Lemma made_revocation : forall C k i b s, crypto_laws C -> wasm32 C = true -> pk_valid C k -> pk_valid C b ->
  revocation_record C (dto_of_revocation C (mk_rev k (from_secs i) b (sig_from_bytes (pk_fmt b) s))) (mk_rev k (from_secs i) b (sig_from_bytes (pk_fmt b) s)).
Proof.
  intros C k i b s L W K B. apply dto_of_revocation_record; try assumption; try reflexivity;
    try (apply wasm_no_rsa with (C := C); assumption). exact (proj1 B).
Qed.

(** ** C88 *)
(** [issue_trust] changes no store and gives exactly one of a trust and an error. *)
Lemma p_C88_issue_trust_only_computes : forall C net src issuer p e i st r st', aq_issue_trust C net src issuer p e i st = (r, st') ->
  unchanged st st' /\ ((exists x, r = Ok ([x], [])) \/ (exists x, r = Ok ([], [x]))).
Proof.
  intros C net src issuer p e i st r st' E. apply issue_trust_step in E. destruct E as [U E]. split; [exact U|].
  destruct E as [(k & s & _ & _ & ->)|[(k & _ & _ & ->)|(_ & x & ->)]]; eauto.
Qed.
(** It fails only if the peer id has no key or the Sig service does not sign. *)
Lemma p_C88_issue_trust_fails_exactly : forall C net src issuer p e i st,
  (exists x, fst (aq_issue_trust C net src issuer p e i st) = Ok ([], [x])) <->
  forall k, peer_key C p k -> sign_with net issuer (sha256 C (pk_encode k ++ le_bytes 8 e ++ le_bytes 8 i)) = None.
Proof.
  intros C net src issuer p e i st. destruct (aq_issue_trust C net src issuer p e i st) as [r st'] eqn:E. cbn [fst].
  apply issue_trust_step in E. destruct E as [_ E]. unfold trust_signature_bytes, trust_metadata in E. cbn [secs from_secs] in E. split.
  - intros (x & H) k K. destruct E as [(k' & s & K' & G & ->)|[(k' & K' & G & ->)|(N & _)]]; [discriminate H| |exfalso; exact (N k K)].
    rewrite (peer_key_fun C p k k' K K'). exact G.
  - intros H. destruct E as [(k & s & K & G & ->)|[(k & _ & _ & ->)|(_ & x & ->)]]; eauto. rewrite (H k K) in G. discriminate G.
Qed.
(** With a Sig service that signs for the issuer, it gives a trust with the asked contents that the
    issuer's key accepts. *)
Lemma p_C88_issued_trust_is_genuine : forall C net src issuer kp p k e i st, crypto_laws C -> wasm32 C = true ->
  signer C net issuer kp -> peer_key C p k ->
  exists x t, fst (aq_issue_trust C net src issuer p e i st) = Ok ([x], []) /\ trust_record C x t /\ trust_asked C (kp_public C kp) k e i t.
Proof.
  intros C net src issuer kp p k e i st L W S1 K. pose proof (peer_key_valid C p k L K) as Kv.
  destruct (sign_trust_good C net issuer kp k e i L W S1 Kv) as (s & G & A).
  destruct (aq_issue_trust C net src issuer p e i st) as [r st'] eqn:E. cbn [fst]. apply issue_trust_step in E.
  destruct E as [_ [(k' & s' & K' & G' & ->)|[(k' & K' & G' & ->)|(N & _)]]]; [| |exfalso; exact (N k K)];
    pose proof (peer_key_fun C p k k' K K') as <-; rewrite G in G'; [|discriminate G']. injection G' as <-.
  eexists _, _. split; [reflexivity|]. split; [apply made_record; assumption|exact A].
Qed.
(** The same for revocations. *)
Lemma p_C88_issue_revocation_only_computes : forall C net src q p i st r st', aq_issue_revocation C net src q p i st = (r, st') ->
  unchanged st st' /\ ((exists x, r = Ok ([x], [])) \/ (exists x, r = Ok ([], [x]))).
Proof.
  intros C net src q p i st r st' E. apply issue_revocation_step in E. destruct E as [U E]. split; [exact U|].
  destruct E as [(k & b & s & _ & _ & _ & ->)|[(k & _ & _ & ->)|(_ & x & ->)]]; eauto.
Qed.
Lemma p_C88_issued_revocation_is_genuine : forall C net src q kp p k i st, crypto_laws C -> wasm32 C = true ->
  signer C net q kp -> peer_key C p k ->
  exists x v, fst (aq_issue_revocation C net src q p i st) = Ok ([x], []) /\ revocation_record C x v /\ revocation_asked C (kp_public C kp) k i v.
Proof.
  intros C net src q kp p k i st L W S1 K. pose proof (peer_key_valid C p k L K) as Kv.
  destruct (sign_rev_good C net q kp k i L W S1 Kv) as (s & G & A).
  destruct (aq_issue_revocation C net src q p i st) as [r st'] eqn:E. cbn [fst]. apply issue_revocation_step in E.
  destruct S1 as (V & Q & _).
  destruct E as [_ [(k' & b & s' & K' & B' & G' & ->)|[(k' & K' & G' & ->)|([N|N] & _)]]]; [| |exfalso; exact (N k K)|exfalso; exact (N _ Q)];
    pose proof (peer_key_fun C p k k' K K') as <-; rewrite G in G'; [|discriminate G']. injection G' as <-.
  pose proof (peer_key_fun C q _ _ Q B') as <-.
  eexists _, _. split; [reflexivity|]. split; [apply made_revocation; try assumption; apply kp_public_valid; assumption|exact A].
Qed.

(** * Importing *)
Lemma queries_collect : forall C d b now w d1, reachable C d -> pk_valid C b -> duration_wf now ->
  graph_step C d (G_weight b now, None) = (Ok (GR_weight w), d1) -> collected d now d1.
Proof.
  intros C d b now w d1 R B N E. apply reachable_inv in R. destruct R as (s & -> & I).
  apply step_ok in E; [|exact I|split; assumption]. destruct E as [_ ->]. cbn [sem snd run_ws fold_left]. apply (collected_gc C). apply I.
Qed.
Lemma root_has_weight : forall C d k now w d1, reachable C d -> pk_valid C k -> duration_wf now -> is_root d k ->
  graph_step C d (G_weight k now, None) = (Ok (GR_weight w), d1) -> w <> 0.
Proof.
  intros C d k now w d1 R B N K E. apply reachable_inv in R. destruct R as (s & -> & I).
  apply step_ok in E; [|exact I|split; assumption]. destruct E as [E _]. cbn [sem fst] in E. injection E as <-.
  unfold weight_of. cbn [roots apply_w]. destruct (root_weight_spec C s k I) as [(m & _ & ->)|(N' & _)]; [|contradiction].
  assert (2 ^ m <> 0) by (apply N.pow_nonzero; discriminate). lia.
Qed.
Lemma graph_ok_nofault : forall C d c fu x d', reachable C d -> call_typed C c -> graph_step C d (c, fu) = (Ok x, d') ->
  graph_step C d (c, None) = (Ok x, d').
Proof.
  intros C d c fu x d' R T E. destruct (p_C48_failures_are_safe C d c R T) as (es & _ & _ & H).
  destruct (H fu (Ok x) d' E) as [<-|(X & _)]; [reflexivity|discriminate X].
Qed.
Lemma graph_add_ok : forall C d t b now w d', reachable C d -> call_typed C (G_add_trust t b now) ->
  graph_step C d (G_add_trust t b now, None) = (Ok (GR_weight w), d') ->
  signed_trust C b t /\ ~ before (expires_at t) now /\
  exists w0 d1, graph_step C d (G_weight b now, None) = (Ok (GR_weight w0), d1) /\ collected d now d1 /\
    ((((w0 = 0 \/ (w0 = 1 /\ b <> issued_for t))) /\ d' = d1) \/
     ((0 < w0 /\ (w0 = 1 -> b = issued_for t)) /\ imported d1 (RAuth (mk_auth t b)) d')).
Proof.
  intros C d t b now w d' R T E. destruct (p_C38_add_trust_exact C d t b now R T) as [X Y].
  destruct (trust_verify_total C t b now) as [V|(e & V)]; [|rewrite (X e V) in E; discriminate E].
  destruct (Y V) as (w0 & d1 & w' & d2 & E1 & E2 & E3 & E4 & E5). rewrite E2 in E. injection E as -> ->.
  apply trust_verify_exact in V. destruct V as [V1 V2]. split; [exact V2|]. split; [exact V1|]. exists w0, d1. split; [exact E1|].
  destruct T as (T1 & T2 & T3). split; [eapply queries_collect; eassumption|].
  destruct (N.eq_dec w 0) as [->|Nz].
  - left. split; [|apply E4; reflexivity]. destruct E3 as [[_ <-]|[K E3]]; [left; reflexivity|]. symmetry in E3. apply N.div_small_iff in E3; [|discriminate].
    assert (w0 = 0 \/ w0 = 1) as [Z|Z] by lia; auto.
  - right. split; [|apply E5; exact Nz]. destruct E3 as [[K ->]|[K ->]]; [split; [lia|auto]|].
    assert (2 <= w0). { destruct (N.lt_ge_cases w0 2) as [Z|Z]; [|exact Z]. exfalso. apply Nz. apply N.div_small. exact Z. }
    split; lia.
Qed.

Lemma import_trust_step : forall C net node o oi x issuer now st r st', crypto_laws C -> wasm32 C = true -> service_reachable C (st node) ->
  dto_trust_typed x -> now < u64_bound -> aq_import_trust C net node o oi x issuer now st = (r, st') ->
  only_at node st st' /\
  ((r = Ok [] /\ exists t b w, trust_record C x t /\ peer_key C issuer b /\ dt_issued_at x <= now /\ call_typed C (G_add_trust t b (from_secs now)) /\
      graph_step C (st node) (G_add_trust t b (from_secs now), None) = (Ok (GR_weight w), st' node)) \/
   (exists t b e, r = Ok [AE_service (Some (SVE_TGError e))] /\ trust_record C x t /\ peer_key C issuer b /\ dt_issued_at x <= now /\ call_typed C (G_add_trust t b (from_secs now)) /\
      graph_step C (st node) (G_add_trust t b (from_secs now), fault net node (S_add_trust x issuer now)) = (Err e, st' node)) \/
   (unchanged st st' /\ (exists e, r = Ok [AE_service (Some e)]) /\
      ~ (dt_issued_at x <= now /\ (exists t, trust_record C x t) /\ exists b, peer_key C issuer b))).
Proof.
  intros C net node o oi x issuer now st r st' L W R T Bn E. unfold aq_import_trust, sbind in E.
  set (c := S_add_trust x issuer now) in *. set (cp := mk_params (initiator net) (creator_on net node) node [o; oi; clock_of node]) in *.
  assert (H2 : host_time cp 2) by (apply clock_host; reflexivity).
  assert (Ty : service_typed c) by (split; assumption).
  destruct (extract_cases C issuer) as [(b & X & B)|(e & X)].
  - destruct (trust_of_dto_cases C x) as [(t & Y)|(e & Y)].
    + destruct (N.ltb now (dt_issued_at x)) eqn:F.
      * rewrite call_step in E. fold cp in E. unfold c in E. cbn [plan] in E. rewrite X in E. cbn [bind] in E.
        apply check_ok in H2. rewrite H2 in E. cbn [bind] in E. rewrite F in E. cbn [carry_out fst snd success] in E.
        unfold sret, error_in in E. cbn [error] in E. apply pair_equal_spec in E. destruct E as [<- <-].
        split; [apply put_only|]. right. right. split; [apply put_unchanged; reflexivity|]. split; [eauto|]. intros (Z & _). lia.
      * pose proof Y as Y'. apply trust_of_dto_ok in Y'. 
        destruct (call_on C net node [o; oi; clock_of node] c st) as [r1 st1] eqn:E1.
        assert (Rq : requests C cp c (G_add_trust t b (from_secs now))) by (cbn; auto).
        assert (Ad : admitted cp c) by (cbn; split; [exact H2|lia]).
        pose proof (requests_typed C cp c _ L Ty Rq) as Tg.
        destruct (graph_call_step C net node _ c _ st r1 st1 L W R Ty Ad Rq E1) as [O [(y & p & G & -> & Tl)|(e & G & ->)]].
        -- cbn [success] in E. unfold sret in E. apply pair_equal_spec in E. destruct E as [<- <-]. split; [exact O|]. left. split; [reflexivity|].
           cbn in Tl. destruct y as [|w| |]; try contradiction. exists t, b, w. repeat (split; [assumption || lia|]).
           eapply graph_ok_nofault; [eapply service_reachable_graph; eassumption|exact Tg|exact G].
        -- cbn [success] in E. unfold sret, error_in in E. cbn [error] in E. apply pair_equal_spec in E. destruct E as [<- <-]. split; [exact O|]. right. left.
           exists t, b, e. repeat (split; [assumption || lia || reflexivity|]). exact G.
    + rewrite call_step in E. fold cp in E. unfold c in E. cbn [plan] in E. rewrite X in E. cbn [bind] in E.
      apply check_ok in H2. rewrite H2 in E. cbn [bind] in E. rewrite Y in E. cbn [map_err bind] in E.
      assert (Z : forall t, ~ trust_record C x t) by (intros t Ht; apply trust_of_dto_ok in Ht; congruence).
      destruct (now <? dt_issued_at x); cbn [carry_out fst snd success] in E; unfold sret, error_in in E; cbn [error] in E;
        apply pair_equal_spec in E; destruct E as [<- <-]; (split; [apply put_only|]); right; right; (split; [apply put_unchanged; reflexivity|]);
        (split; [eauto|]); intros (_ & (t & Ht) & _); exact (Z t Ht).
  - rewrite call_step in E. fold cp in E. unfold c in E. cbn [plan] in E. rewrite X in E. cbn [bind carry_out fst snd success] in E.
    unfold sret, error_in in E. cbn [error] in E. apply pair_equal_spec in E. destruct E as [<- <-].
    split; [apply put_only|]. right. right. split; [apply put_unchanged; reflexivity|]. split; [eauto|].
    intros (_ & _ & b & B). apply extract_ok in B. congruence.
Qed.

(** The trust a script made, when it comes to be imported. *)
Lemma made_trust_back : forall C k e s i t, crypto_laws C -> wasm32 C = true -> pk_valid C k ->
  trust_record C (dto_of_trust C (mk_trust k (from_secs e) (sig_from_bytes (pk_fmt k) s) (from_secs i))) t ->
  t = mk_trust k (from_secs e) (sig_from_bytes (pk_fmt k) s) (from_secs i).
Proof.
  intros C k e s i t L W K H. pose proof (made_record C k e s i L W K) as H'. apply trust_of_dto_ok in H, H'. congruence.
Qed.

(** ** C89 *)
(** No error of [add_trust] means: the issuer signed the trust, it was neither made after nor expired before the time of
    the node, and the node added it to its graph: it stored it if the issuer has weight enough. *)
Lemma p_C89_add_trust_done : forall C net src node issuer p e i now st st', crypto_laws C -> wasm32 C = true -> network_state C st ->
  e < u64_bound -> i < u64_bound -> now < u64_bound -> aq_add_trust C net src node issuer p e i now st = (Ok [], st') ->
  only_at node st st' /\
  exists b k t w d1, peer_key C issuer b /\ peer_key C p k /\ trust_asked C b k e i t /\ i <= now /\ now <= e /\
    graph_step C (st node) (G_weight b (from_secs now), None) = (Ok (GR_weight w), d1) /\ collected (st node) (from_secs now) d1 /\
    (((w = 0 \/ (w = 1 /\ b <> k)) /\ st' node = d1) \/
     ((0 < w /\ (w = 1 -> b = k)) /\ imported d1 (RAuth (mk_auth t b)) (st' node))).
Proof.
  intros C net src node issuer p e i now st st' L W N Be Bi Bn E. unfold aq_add_trust, sbind in E.
  destruct (aq_issue_trust C net src issuer p e i st) as [r1 st1] eqn:E1. apply issue_trust_step in E1. destruct E1 as [U1 E1].
  destruct E1 as [(k & s & K & G & ->)|[(k & _ & _ & ->)|(_ & x & ->)]]; cbn [fst snd bang] in E; [|discriminate E|discriminate E].
  match type of E with context [aq_import_trust C net node ?o ?oi ?x issuer now st1] => destruct (aq_import_trust C net node o oi x issuer now st1) as [r2 st2] eqn:E2 end.
  pose proof (peer_key_valid C p k L K) as Kv.
  apply import_trust_step in E2; try assumption; [|rewrite U1; apply N|split; [exact Be|exact Bi]].
  destruct E2 as [O2 [(-> & t & b & w & Rt & B & Hi & Tg & Gs)|[(t & b & x & -> & _)|(_ & (x & ->) & _)]]]; cbn [append_error] in E; unfold sret in E; [|discriminate E|discriminate E].
  apply pair_equal_spec in E. destruct E as [_ <-].
  split. { intros n Hn. rewrite O2 by exact Hn. apply U1. }
  apply made_trust_back in Rt; try assumption. subst t. rewrite U1 in Gs.
  apply graph_add_ok in Gs; [|eapply service_reachable_graph; [exact L|apply N]|exact Tg]. destruct Gs as (Sg & Ex & w0 & d1 & Gw & Col & D).
  exists b, k, (mk_trust k (from_secs e) (sig_from_bytes (pk_fmt k) s) (from_secs i)), w0, d1. split; [exact B|]. split; [exact K|]. split; [repeat split; exact Sg|].
  cbn [dto_of_trust dt_issued_at issued_at] in Hi. split; [exact Hi|]. split; [|split; [exact Gw|split; [exact Col|exact D]]].
  cbn [expires_at] in Ex. destruct (N.le_gt_cases now e) as [Z|Z]; [exact Z|]. exfalso. apply Ex. left. exact Z.
Qed.
(** With a Sig service that signs for the issuer and databases that do not fail, exactly the clocks decide; an error leaves
    all stores as they were. *)
Lemma p_C89_add_trust_exact : forall C net src node issuer kp p k e i now st r st', crypto_laws C -> wasm32 C = true -> network_state C st ->
  e < u64_bound -> i < u64_bound -> now < u64_bound -> signer C net issuer kp -> no_faults net -> peer_key C p k ->
  aq_add_trust C net src node issuer p e i now st = (r, st') ->
  ((i <= now /\ now <= e) /\ r = Ok []) \/ (~ (i <= now /\ now <= e) /\ (exists x, r = Ok [x]) /\ unchanged st st').
Proof.
  intros C net src node issuer kp p k e i now st r st' L W N Be Bi Bn Sg F K E. unfold aq_add_trust, sbind in E.
  pose proof (peer_key_valid C p k L K) as Kv.
  destruct (sign_trust_good C net issuer kp k e i L W Sg Kv) as (s & G & A). destruct Sg as (V & Q & _).
  destruct (aq_issue_trust C net src issuer p e i st) as [r1 st1] eqn:E1. apply issue_trust_step in E1. destruct E1 as [U1 E1].
  destruct E1 as [(k' & s' & K' & G' & ->)|[(k' & K' & G' & ->)|(Nk & _)]]; [| |exfalso; exact (Nk k K)];
    pose proof (peer_key_fun C p k k' K K') as <-; rewrite G in G'; [|discriminate G']. injection G' as <-. cbn [fst snd bang] in E.
  match type of E with context [aq_import_trust C net node ?o ?oi ?x issuer now st1] => destruct (aq_import_trust C net node o oi x issuer now st1) as [r2 st2] eqn:E2 end.
  assert (Rn : service_reachable C (st1 node)) by (rewrite U1; apply N).
  assert (Ty : dto_trust_typed (dto_of_trust C (mk_trust k (from_secs e) (sig_from_bytes (pk_fmt k) s) (from_secs i)))) by (split; assumption).
  apply import_trust_step in E2; try assumption.
  destruct E2 as [O2 [(-> & t & b & w & Rt & B & Hi & Tg & Gs)|[(t & b & x & -> & Rt & B & Hi & Tg & Gs)|(U2 & (x & ->) & Nn)]]];
    cbn [append_error] in E; unfold sret in E; apply pair_equal_spec in E; destruct E as [<- <-].
  - left. split; [|reflexivity]. apply made_trust_back in Rt; try assumption. subst t.
    apply graph_add_ok in Gs; [|eapply service_reachable_graph; [exact L|exact Rn]|exact Tg]. destruct Gs as (_ & Ex & _).
    cbn [dto_of_trust dt_issued_at issued_at expires_at] in *. split; [exact Hi|].
    destruct (N.le_gt_cases now e) as [Z|Z]; [exact Z|]. exfalso. apply Ex. left. exact Z.
  - right. pose proof (made_trust_back _ _ _ _ _ _ L W Kv Rt) as ->. pose proof (peer_key_fun C issuer _ _ Q B) as <-.
    rewrite F in Gs. pose proof (service_reachable_graph C _ L Rn) as Rg. destruct (p_C38_add_trust_exact C _ _ _ _ Rg Tg) as [X Y].
    destruct (trust_verify_total C (mk_trust k (from_secs e) (sig_from_bytes (pk_fmt k) s) (from_secs i)) (kp_public C kp) (from_secs now)) as [Vt|(y & Vt)].
    + destruct (Y Vt) as (w0 & d1 & w' & d2 & _ & Z & _). rewrite Z in Gs. discriminate Gs.
    + split.
      * intros (H1 & H2). assert (trust_verify C (mk_trust k (from_secs e) (sig_from_bytes (pk_fmt k) s) (from_secs i)) (kp_public C kp) (from_secs now) = Ok tt); [|congruence].
        apply trust_verify_exact. split; [|apply A]. unfold before. cbn. lia.
      * split; [eexists; reflexivity|]. rewrite (X y Vt) in Gs. apply pair_equal_spec in Gs. destruct Gs as [_ Gs].
        intros n. destruct (list_eq_dec Byte.byte_eq_dec n node) as [->|Hn]; [rewrite <- Gs; apply U1|rewrite O2 by exact Hn; apply U1].
  - right. split; [|split; [eexists; reflexivity|eapply unchanged_trans; eassumption]]. intros (H1 & _). apply Nn.
    split; [exact H1|]. split; [eexists; apply made_record; assumption|eauto].
Qed.

(** ** C90 *)
Lemma set_root_step : forall C net src node p n st r st', crypto_laws C -> wasm32 C = true -> service_reachable C (st node) -> n < u32_bound ->
  aq_set_root C net src node p n st = (r, st') ->
  only_at node st st' /\ exists resp, r = Ok resp /\
  ((success resp = true /\ owns net node /\ exists k, peer_key C p k /\ call_typed C (G_set_root k n) /\
     graph_step C (st node) (G_set_root k n, None) = (Ok GR_unit, st' node)) \/
   (success resp = false /\ (exists e, error resp = Some e) /\
     (unchanged st st' /\ (owns net node -> forall k, ~ peer_key C p k) \/
      exists k e, peer_key C p k /\ owns net node /\ graph_step C (st node) (G_set_root k n, fault net node (S_set_root p n)) = (Err e, st' node)))).
Proof.
  intros C net src node p n st r st' L W R Bn E. unfold aq_set_root in E. pose proof E as E0.
  rewrite call_step in E. cbn [plan service_creator_peer_id init_peer_id] in E.
  destruct (bytes_eqb (creator_on net node) (initiator net)) eqn:B.
  - apply bytes_eqb_eq in B. destruct (extract_cases C p) as [(k & X & K)|(e & X)].
    + assert (Rq : requests C (mk_params (initiator net) (creator_on net node) node [src 0%nat; src 1%nat]) (S_set_root p n) (G_set_root k n)) by (cbn; auto).
      pose proof (requests_typed C _ (S_set_root p n) _ L Bn Rq) as Tg.
      destruct (graph_call_step C net node _ (S_set_root p n) _ st r st' L W R Bn (eq_sym B) Rq E0) as [O [(x & y & G & -> & Tl)|(e & G & ->)]].
      * split; [exact O|]. eexists. split; [reflexivity|]. left. split; [reflexivity|]. split; [symmetry; exact B|]. exists k. split; [exact K|]. split; [exact Tg|].
        cbn in Tl. destruct x; try contradiction. eapply graph_ok_nofault; [eapply service_reachable_graph; eassumption|exact Tg|exact G].
      * split; [exact O|]. eexists. split; [reflexivity|]. right. split; [reflexivity|]. split; [eexists; reflexivity|]. right.
        exists k, e. split; [exact K|]. split; [symmetry; exact B|exact G].
    + rewrite X in E. cbn [bind carry_out fst snd] in E. apply pair_equal_spec in E. destruct E as [<- <-].
      split; [apply put_only|]. eexists. split; [reflexivity|]. right. split; [reflexivity|]. split; [eexists; reflexivity|]. left.
      split; [apply put_unchanged; reflexivity|]. intros _ k K. apply extract_ok in K. congruence.
  - cbn [carry_out fst snd] in E. apply pair_equal_spec in E. destruct E as [<- <-].
    split; [apply put_only|]. eexists. split; [reflexivity|]. right. split; [reflexivity|]. split; [eexists; reflexivity|]. left.
    split; [apply put_unchanged; reflexivity|]. intros Ow. exfalso. unfold owns in Ow. rewrite Ow, (proj2 (bytes_eqb_eq _ _) eq_refl) in B. discriminate B.
Qed.

(** No error of [add_root_trust] means: the user owns the service of the node, the key became a root there (if it was none)
    and its own trust, signed by it, was imported. *)
Lemma p_C90_add_root_trust_done : forall C net src node p n e i now st st', crypto_laws C -> wasm32 C = true -> network_state C st ->
  n < u32_bound -> e < u64_bound -> i < u64_bound -> now < u64_bound ->
  aq_add_root_trust C net src node p n e i now st = (Ok [], st') ->
  only_at node st st' /\ owns net node /\
  exists k t d1 d2, peer_key C p k /\ trust_asked C k k e i t /\ i <= now /\ now <= e /\
    root_set (st node) k (N.min n 16) d1 /\ collected d1 (from_secs now) d2 /\ imported d2 (RAuth (mk_auth t k)) (st' node).
Proof.
  intros C net src node p n e i now st st' L W N Bm Be Bi Bn E. unfold aq_add_root_trust, sbind in E.
  destruct (aq_issue_trust C net src p p e i st) as [r1 st1] eqn:E1. apply issue_trust_step in E1. destruct E1 as [U1 E1].
  destruct E1 as [(k & s & K & G & ->)|[(k & _ & _ & ->)|(_ & x & ->)]]; cbn [fst snd bang] in E; [|discriminate E|discriminate E].
  pose proof (network_unchanged C _ _ U1 N) as N1.
  destruct (aq_set_root C net src node p n st1) as [r0 st0] eqn:E0.
  pose proof E0 as E0'. unfold aq_set_root in E0'. apply call_network with (C := C) in E0'; [|exact Bm|exact N1]. destruct E0' as [N0 _].
  apply set_root_step in E0; try assumption; [|apply N1]. destruct E0 as (O0 & resp & -> & [(Su & Ow & k' & K' & Tk & Gr)|(Su & (x & Ex) & _)]); rewrite Su in E; [|unfold sret in E; discriminate E].
  pose proof (peer_key_fun C p k k' K K') as <-.
  match type of E with context [aq_import_trust C net node ?o ?oi ?x p now st0] => destruct (aq_import_trust C net node o oi x p now st0) as [r2 st2] eqn:E2 end.
  pose proof (peer_key_valid C p k L K) as Kv.
  apply import_trust_step in E2; try assumption; [|apply N0|split; [exact Be|exact Bi]].
  destruct E2 as [O2 [(-> & t & b & w & Rt & B & Hi & Tg & Gs)|[(t & b & x & -> & _)|(_ & (x & ->) & _)]]]; cbn [append_error] in E; unfold sret in E; [|discriminate E|discriminate E].
  apply pair_equal_spec in E. destruct E as [_ <-].
  split. { intros m Hm. rewrite O2, O0 by exact Hm. apply U1. }
  split; [exact Ow|].
  apply made_trust_back in Rt; try assumption. subst t. pose proof (peer_key_fun C p k b K B) as <-.
  pose proof (service_reachable_graph C _ L (N0 node)) as R0. pose proof (service_reachable_graph C _ L (N1 node)) as R1.
  apply (p_C40_set_root_exact C _ _ _ _ _ R1 Tk) in Gr. rewrite U1 in Gr.
  apply graph_add_ok in Gs; [|exact R0|exact Tg]. destruct Gs as (Sg & Ex & w0 & d1 & Gw & Col & D).
  exists k, (mk_trust k (from_secs e) (sig_from_bytes (pk_fmt k) s) (from_secs i)), (st0 node), d1.
  split; [exact K|]. split; [repeat split; exact Sg|]. cbn [dto_of_trust dt_issued_at issued_at expires_at] in *. split; [exact Hi|].
  split. { destruct (N.le_gt_cases now e) as [Z|Z]; [exact Z|]. exfalso. apply Ex. left. exact Z. }
  split; [exact Gr|]. split; [exact Col|]. destruct D as [([Z|(_ & Z)] & _)|(_ & D)]; [|cbn in Z; congruence|exact D].
  exfalso. refine (root_has_weight C _ k (from_secs now) w0 d1 R0 Kv _ _ Gw Z); [apply from_secs_wf; exact Bn|].
  destruct Gr as (_ & Gr & _). apply Gr. right. reflexivity.
Qed.
(** Someone else gets an error and nothing changes. *)
Lemma p_C90_only_the_owner : forall C net src node p n e i now st r st', crypto_laws C -> wasm32 C = true -> network_state C st ->
  n < u32_bound -> ~ owns net node -> aq_add_root_trust C net src node p n e i now st = (r, st') ->
  (exists x, r = Ok [x]) /\ unchanged st st'.
Proof.
  intros C net src node p n e i now st r st' L W N Bm No E. unfold aq_add_root_trust, sbind in E.
  destruct (aq_issue_trust C net src p p e i st) as [r1 st1] eqn:E1. apply issue_trust_step in E1. destruct E1 as [U1 E1].
  destruct E1 as [(k & s & K & G & ->)|[(k & _ & _ & ->)|(_ & x & ->)]]; cbn [fst snd bang] in E.
  2,3: unfold sret in E; apply pair_equal_spec in E; destruct E as [<- <-]; split; [eexists; reflexivity|exact U1].
  destruct (aq_set_root C net src node p n st1) as [r0 st0] eqn:E0.
  apply set_root_step in E0; try assumption; [|rewrite U1; apply N].
  destruct E0 as (O0 & resp & -> & [(_ & Ow & _)|(Su & (x & Ex) & [(U & _)|(k0 & y & _ & Ow & _)])]); [contradiction| |contradiction].
  rewrite Su in E. unfold sret in E. apply pair_equal_spec in E. destruct E as [<- <-]. split; [eexists; reflexivity|]. eapply unchanged_trans; eassumption.
Qed.
(** The owner succeeds if the Sig service signs for the key, the databases do not fail and the clocks agree. *)
Lemma p_C90_add_root_trust_completes : forall C net src node p kp n e i now st r st', crypto_laws C -> wasm32 C = true -> network_state C st ->
  n < u32_bound -> e < u64_bound -> i < u64_bound -> now < u64_bound -> signer C net p kp -> no_faults net -> owns net node -> i <= now -> now <= e ->
  aq_add_root_trust C net src node p n e i now st = (r, st') -> r = Ok [].
Proof.
  intros C net src node p kp n e i now st r st' L W N Bm Be Bi Bn Sg F Ow Hi He E. unfold aq_add_root_trust, sbind in E.
  pose proof (proj1 (proj2 Sg)) as K. pose proof (peer_key_valid C p _ L K) as Kv.
  destruct (sign_trust_good C net p kp _ e i L W Sg Kv) as (s & G & A). set (k := kp_public C kp) in *.
  destruct (aq_issue_trust C net src p p e i st) as [r1 st1] eqn:E1. apply issue_trust_step in E1. destruct E1 as [U1 E1].
  destruct E1 as [(k' & s' & K' & G' & ->)|[(k' & K' & G' & ->)|(Nk & _)]]; [| |exfalso; exact (Nk k K)];
    pose proof (peer_key_fun C p k k' K K') as <-; rewrite G in G'; [|discriminate G']. injection G' as <-. cbn [fst snd bang] in E.
  pose proof (network_unchanged C _ _ U1 N) as N1.
  destruct (aq_set_root C net src node p n st1) as [r0 st0] eqn:E0.
  pose proof E0 as E0'. unfold aq_set_root in E0'. apply call_network with (C := C) in E0'; [|exact Bm|exact N1]. destruct E0' as [N0 _].
  apply set_root_step in E0; try assumption; [|apply N1].
  destruct E0 as (O0 & resp & -> & [(Su & _ & k2 & K2 & Tk & Gr)|(Su & (x & Ex) & [(_ & Nk)|(k0 & y & K0 & _ & Gr)])]); rewrite Su in E.
  2:{ exfalso. exact (Nk Ow k K). }
  2:{ exfalso. pose proof (peer_key_fun C p k k0 K K0) as <-. rewrite F in Gr.
      destruct (reachable_inv C _ (service_reachable_graph C _ L (N1 node))) as (sx & Es & I). rewrite Es in Gr.
      rewrite (step_none C sx _ I) in Gr by (split; [exact Kv|exact Bm]). cbn [sem] in Gr. discriminate Gr. }
  match type of E with context [aq_import_trust C net node ?o ?oi ?x p now st0] => destruct (aq_import_trust C net node o oi x p now st0) as [r2 st2] eqn:E2 end.
  assert (Ty : dto_trust_typed (dto_of_trust C (mk_trust k (from_secs e) (sig_from_bytes (pk_fmt k) s) (from_secs i)))) by (split; assumption).
  apply import_trust_step in E2; try assumption; [|apply N0].
  destruct E2 as [O2 [(-> & t & b & w & Rt & B & Hi' & Tg & Gs)|[(t & b & x & -> & Rt & B & Hi' & Tg & Gs)|(U2 & (x & ->) & Nn)]]];
    cbn [append_error] in E; unfold sret in E; apply pair_equal_spec in E; destruct E as [<- <-]; [reflexivity| |].
  - exfalso. pose proof (made_trust_back _ _ _ _ _ _ L W Kv Rt) as ->. pose proof (peer_key_fun C p k b K B) as <-.
    rewrite F in Gs. pose proof (service_reachable_graph C _ L (N0 node)) as Rg. destruct (p_C38_add_trust_exact C _ _ _ _ Rg Tg) as [X Y].
    assert (Vt : trust_verify C (mk_trust k (from_secs e) (sig_from_bytes (pk_fmt k) s) (from_secs i)) k (from_secs now) = Ok tt).
    { apply trust_verify_exact. split; [|apply A]. unfold before. cbn. lia. }
    destruct (Y Vt) as (w0 & d1 & w' & d2 & _ & Z & _). rewrite Z in Gs. discriminate Gs.
  - exfalso. apply Nn. split; [exact Hi|]. split; [eexists; apply made_record; assumption|eauto].
Qed.

(** ** C91 *)
Lemma made_revocation_back : forall C k i b s v, crypto_laws C -> wasm32 C = true -> pk_valid C k -> pk_valid C b ->
  revocation_record C (dto_of_revocation C (mk_rev k (from_secs i) b (sig_from_bytes (pk_fmt b) s))) v ->
  v = mk_rev k (from_secs i) b (sig_from_bytes (pk_fmt b) s).
Proof.
  intros C k i b s v L W K B H. pose proof (made_revocation C k i b s L W K B) as H'. apply revocation_of_dto_ok in H, H'. congruence.
Qed.
Lemma import_revocation_step : forall C net node o x now st r st', crypto_laws C -> wasm32 C = true -> service_reachable C (st node) ->
  dr_revoked_at x < u64_bound -> now < u64_bound -> aq_import_revocation C net node o x now st = (r, st') ->
  only_at node st st' /\
  ((r = Ok [] /\ exists v, revocation_record C x v /\ dr_revoked_at x <= now /\ revocation_typed C v /\
      graph_step C (st node) (G_revoke v, None) = (Ok GR_unit, st' node)) \/
   (exists v e, r = Ok [AE_service (Some (SVE_TGError e))] /\ revocation_record C x v /\ dr_revoked_at x <= now /\ revocation_typed C v /\
      graph_step C (st node) (G_revoke v, fault net node (S_revoke x now)) = (Err e, st' node)) \/
   (unchanged st st' /\ (exists e, r = Ok [AE_service (Some e)]) /\ ~ (dr_revoked_at x <= now /\ exists v, revocation_record C x v))).
Proof.
  intros C net node o x now st r st' L W R T Bn E. unfold aq_import_revocation, sbind in E.
  set (c := S_revoke x now) in *. set (cp := mk_params (initiator net) (creator_on net node) node [o; clock_of node]) in *.
  assert (H1 : host_time cp 1) by (apply clock_host; reflexivity).
  assert (Ty : service_typed c) by (split; assumption).
  destruct (N.ltb now (dr_revoked_at x)) eqn:F.
  - rewrite call_step in E. fold cp in E. unfold c in E. cbn [plan] in E.
    apply check_ok in H1. rewrite H1 in E. cbn [bind] in E. rewrite F in E. cbn [carry_out fst snd success] in E.
    unfold sret, error_in in E. cbn [error] in E. apply pair_equal_spec in E. destruct E as [<- <-].
    split; [apply put_only|]. right. right. split; [apply put_unchanged; reflexivity|]. split; [eexists; reflexivity|]. intros (Z & _). lia.
  - destruct (revocation_of_dto_cases C x) as [(v & Y)|(e & Y)].
    + pose proof Y as Y'. apply revocation_of_dto_ok in Y'.
      destruct (call_on C net node [o; clock_of node] c st) as [r1 st1] eqn:E1.
      assert (Rq : requests C cp c (G_revoke v)) by exact Y'.
      assert (Ad : admitted cp c) by (cbn; split; [exact H1|lia]).
      pose proof (requests_typed C cp c _ L Ty Rq) as Tg.
      destruct (graph_call_step C net node _ c _ st r1 st1 L W R Ty Ad Rq E1) as [O [(y & p & G & -> & Tl)|(e & G & ->)]].
      * cbn [success] in E. unfold sret in E. apply pair_equal_spec in E. destruct E as [<- <-]. split; [exact O|]. left. split; [reflexivity|].
        cbn in Tl. destruct y; try contradiction. exists v. repeat (split; [assumption || lia|]).
        eapply graph_ok_nofault; [eapply service_reachable_graph; eassumption|exact Tg|exact G].
      * cbn [success] in E. unfold sret, error_in in E. cbn [error] in E. apply pair_equal_spec in E. destruct E as [<- <-]. split; [exact O|]. right. left.
        exists v, e. repeat (split; [assumption || lia || reflexivity|]). exact G.
    + rewrite call_step in E. fold cp in E. unfold c in E. cbn [plan] in E.
      apply check_ok in H1. rewrite H1 in E. cbn [bind] in E. rewrite F, Y in E. cbn [map_err bind carry_out fst snd success] in E.
      unfold sret, error_in in E. cbn [error] in E. apply pair_equal_spec in E. destruct E as [<- <-].
      split; [apply put_only|]. right. right. split; [apply put_unchanged; reflexivity|]. split; [eexists; reflexivity|].
      intros (_ & v & Hv). apply revocation_of_dto_ok in Hv. congruence.
Qed.

(** No error of [revoke] means that a revocation signed by the revoker was imported on the node. *)
Lemma p_C91_revoke_done : forall C net src node q p i now st st', crypto_laws C -> wasm32 C = true -> network_state C st ->
  i < u64_bound -> now < u64_bound -> aq_revoke C net src node q p i now st = (Ok [], st') ->
  only_at node st st' /\
  exists b k v, peer_key C q b /\ peer_key C p k /\ revocation_asked C b k i v /\ i <= now /\ imported (st node) (RRev v) (st' node).
Proof.
  intros C net src node q p i now st st' L W N Bi Bn E. unfold aq_revoke, sbind in E.
  destruct (aq_issue_revocation C net src q p i st) as [r1 st1] eqn:E1. apply issue_revocation_step in E1. destruct E1 as [U1 E1].
  destruct E1 as [(k & b & s & K & B & G & ->)|[(k & _ & _ & ->)|(_ & x & ->)]]; cbn [fst snd bang] in E; [|discriminate E|discriminate E].
  match type of E with context [aq_import_revocation C net node ?o ?x now st1] => destruct (aq_import_revocation C net node o x now st1) as [r2 st2] eqn:E2 end.
  pose proof (peer_key_valid C p k L K) as Kv. pose proof (peer_key_valid C q b L B) as Bv.
  apply import_revocation_step in E2; try assumption; [|rewrite U1; apply N].
  destruct E2 as [O2 [(-> & v & Rt & Hi & Tv & Gs)|[(v & x & -> & _)|(_ & (x & ->) & _)]]]; cbn [append_error] in E; unfold sret in E; [|discriminate E|discriminate E].
  apply pair_equal_spec in E. destruct E as [_ <-].
  split. { intros m Hm. rewrite O2 by exact Hm. apply U1. }
  apply made_revocation_back in Rt; try assumption. rewrite U1 in Gs.
  assert (Rg : reachable C (st node)) by (eapply service_reachable_graph; [exact L|apply N]).
  destruct (p_C30_revoke_imports C (st node) v Rg Tv) as [X Y].
  exists b, k, v. split; [exact B|]. split; [exact K|].
  assert (Sg : signed_revocation C v).
  { destruct (pk_verify C (revoked_by v) (revocation_message C v) (rev_sig v)) as [[]|z| |] eqn:Z; [exact Z| | |];
      exfalso; (destruct Y as (e & Y); [unfold signed_revocation; congruence|]); rewrite Gs in Y; discriminate Y. }
  split; [rewrite Rt in *; repeat split; exact Sg|]. split; [exact Hi|].
  destruct (X Sg) as (d' & G' & Im). rewrite Gs in G'. apply pair_equal_spec in G'. destruct G' as [_ ->]. exact Im.
Qed.
(** With a good Sig service and databases that do not fail exactly the clocks decide. *)
Lemma p_C91_revoke_exact : forall C net src node q kp p k i now st r st', crypto_laws C -> wasm32 C = true -> network_state C st ->
  i < u64_bound -> now < u64_bound -> signer C net q kp -> no_faults net -> peer_key C p k ->
  aq_revoke C net src node q p i now st = (r, st') ->
  (i <= now /\ r = Ok []) \/ (now < i /\ (exists x, r = Ok [x]) /\ unchanged st st').
Proof.
  intros C net src node q kp p k i now st r st' L W N Bi Bn Sg F K E. unfold aq_revoke, sbind in E.
  pose proof (peer_key_valid C p k L K) as Kv.
  destruct (sign_rev_good C net q kp k i L W Sg Kv) as (s & G & A). destruct Sg as (V & Q & _).
  pose proof (kp_public_valid C kp L V) as Bv.
  destruct (aq_issue_revocation C net src q p i st) as [r1 st1] eqn:E1. apply issue_revocation_step in E1. destruct E1 as [U1 E1].
  destruct E1 as [(k' & b & s' & K' & B' & G' & ->)|[(k' & K' & G' & ->)|([Nk|Nk] & _)]]; [| |exfalso; exact (Nk k K)|exfalso; exact (Nk _ Q)];
    pose proof (peer_key_fun C p k k' K K') as <-; rewrite G in G'; [|discriminate G']. injection G' as <-. cbn [fst snd bang] in E.
  pose proof (peer_key_fun C q _ _ Q B') as <-.
  match type of E with context [aq_import_revocation C net node ?o ?x now st1] => destruct (aq_import_revocation C net node o x now st1) as [r2 st2] eqn:E2 end.
  assert (Rn : service_reachable C (st1 node)) by (rewrite U1; apply N).
  apply import_revocation_step in E2; try assumption.
  destruct E2 as [O2 [(-> & v & Rt & Hi & Tv & Gs)|[(v & x & -> & Rt & Hi & Tv & Gs)|(U2 & (x & ->) & Nn)]]];
    cbn [append_error] in E; unfold sret in E; apply pair_equal_spec in E; destruct E as [<- <-].
  - left. split; [exact Hi|reflexivity].
  - exfalso. apply made_revocation_back in Rt; try assumption. subst v.
    rewrite F in Gs. pose proof (service_reachable_graph C _ L Rn) as Rg.
    destruct (p_C30_revoke_imports C _ _ Rg Tv) as [X _]. destruct X as (d' & X & _); [apply A|]. rewrite X in Gs. discriminate Gs.
  - right. split; [|split; [eexists; reflexivity|eapply unchanged_trans; eassumption]].
    destruct (N.lt_ge_cases now i) as [Z|Z]; [exact Z|]. exfalso. apply Nn. split; [exact Z|]. eexists. apply made_revocation; assumption.
Qed.

(** ** C92 *)
(** The queries of the interface answer as the graph of the node at the time of the node. *)
Lemma p_C92_get_weight : forall C net src node p k now st r st', crypto_laws C -> wasm32 C = true -> network_state C st -> now < u64_bound ->
  peer_key C p k -> aq_get_weight C net src node p now st = (r, st') ->
  answers_as C net node (S_get_weight p now) (G_weight k (from_secs now)) st st' r.
Proof.
  intros C net src node p k now st r st' L W N Bn K E. eapply graph_call_step; try eassumption; [apply N| |cbn; auto].
  apply clock_host. reflexivity.
Qed.
Lemma p_C92_get_all_certs : forall C net src node p k now st r st', crypto_laws C -> wasm32 C = true -> network_state C st -> now < u64_bound ->
  peer_key C p k -> aq_get_all_certs C net src node p now st = (r, st') ->
  answers_as C net node (S_get_all_certs p now) (G_get_all_certs k (from_secs now)) st st' r.
Proof.
  intros C net src node p k now st r st' L W N Bn K E. eapply graph_call_step; try eassumption; [apply N| |cbn; auto].
  apply clock_host. reflexivity.
Qed.
Lemma p_C92_get_all_certs_from : forall C net src node p k q b now st r st', crypto_laws C -> wasm32 C = true -> network_state C st -> now < u64_bound ->
  peer_key C p k -> peer_key C q b -> aq_get_all_certs_from C net src node p q now st = (r, st') ->
  answers_as C net node (S_get_all_certs_from p q now) (G_get_all_certs_from k b (from_secs now)) st st' r.
Proof.
  intros C net src node p k q b now st r st' L W N Bn K B E. eapply graph_call_step; try eassumption; [apply N| |cbn; auto].
  apply clock_host. reflexivity.
Qed.
Lemma p_C92_get_host_certs : forall C net node k now st r st', crypto_laws C -> wasm32 C = true -> network_state C st -> now < u64_bound ->
  peer_key C node k -> aq_get_host_certs C net node now st = (r, st') ->
  answers_as C net node (S_get_host_certs now) (G_get_all_certs k (from_secs now)) st st' r.
Proof.
  intros C net node k now st r st' L W N Bn K E. eapply graph_call_step; try eassumption; [apply N| |cbn; auto].
  apply clock_host. reflexivity.
Qed.
Lemma p_C92_get_host_certs_from : forall C net node k o q b now st r st', crypto_laws C -> wasm32 C = true -> network_state C st -> now < u64_bound ->
  peer_key C node k -> peer_key C q b -> aq_get_host_certs_from C net node o q now st = (r, st') ->
  answers_as C net node (S_get_host_certs_from q now) (G_get_all_certs_from k b (from_secs now)) st st' r.
Proof.
  intros C net node k o q b now st r st' L W N Bn K B E. eapply graph_call_step; try eassumption; [apply N| |cbn; auto].
  apply clock_host. reflexivity.
Qed.
Lemma p_C92_verify_trust : forall C net src node x q now st r st', aq_verify_trust C net src node x q now st = (r, st') ->
  unchanged st st' /\ exists resp, r = Ok resp /\
  (success resp = true <-> exists t k, trust_record C x t /\ peer_key C q k /\ signed_trust C k t /\ ~ before (expires_at t) (from_secs now)).
Proof.
  intros C net src node x q now st r st' E. unfold aq_verify_trust in E. pose proof E as E0. apply local_step in E0; [|reflexivity].
  destruct E0 as (U & resp & -> & _). split; [exact U|]. exists resp. split; [reflexivity|].
  unfold call_on in E. destruct (service_step C (st node) _) as [r1 d1] eqn:S1. apply pair_equal_spec in E. destruct E as [-> _].
  apply p_C53_verify_trust_exact in S1. destruct S1 as [_ S1]. rewrite S1. split; [intros [_ H]; exact H|]. intros H. split; [|exact H].
  apply clock_host. reflexivity.
Qed.
(** Except [get_weight_from]: the service looks at the origin of the issuer. Unless the issuer itself came from the clock of
    the node the call is refused. *)
Lemma p_C98_get_weight_from_refused : forall C net src node p q now st r st',
  (forall ts, src 1%nat <> mk_tetraplet node (str "peer") (str "timestamp_sec") :: ts) ->
  aq_get_weight_from C net src node p q now st = (r, st') ->
  r = Ok (mk_response false (Some SVE_InvalidTimestampTetraplet) (P_weight 0 [])) /\ unchanged st st'.
Proof.
  intros C net src node p q now st r st' H E. unfold aq_get_weight_from in E. rewrite call_step in E. cbn [plan] in E.
  match type of E with context [check_timestamp_tetraplets ?cp 1] => destruct (check_cases cp 1) as [(X & Y)|(X & Y)] end.
  - exfalso. destruct Y as (t & ts & Y & Y1 & Y2 & Y3). cbn [tetraplets nth_error host_id] in *. injection Y as Y.
    apply (H ts). rewrite Y. destruct t as [a b c]. cbn in *. congruence.
  - rewrite X in E. cbn [bind carry_out fst snd empty_payload] in E. apply pair_equal_spec in E. destruct E as [<- <-].
    split; [reflexivity|]. apply put_unchanged. reflexivity.
Qed.

Lemma p_C98_get_weight_from_answers_partial : forall C net src node p k q b now ts st r st', crypto_laws C -> wasm32 C = true -> network_state C st -> now < u64_bound ->
  peer_key C p k -> peer_key C q b -> src 1%nat = mk_tetraplet node (str "peer") (str "timestamp_sec") :: ts ->
  aq_get_weight_from C net src node p q now st = (r, st') ->
  answers_as C net node (S_get_weight_from p q now) (G_weight_from k b (from_secs now)) st st' r.
Proof.
  intros C net src node p k q b now ts st r st' L W N Bn K B O E. eapply graph_call_step; try eassumption; [apply N| |cbn; auto].
  eexists. eexists. split; [cbn [tetraplets nth_error]; rewrite O; reflexivity|]. repeat split.
Qed.

(** ** C93 *)
Lemma literal_text : forall C, peer_id_to_base58 (pk_to_peer_id C root_key) = fluence_root_peer_id /\
  peer_id_to_base58 (pk_to_peer_id C label_key) = label_peer_id.
Proof. intros C. split; vm_compute; reflexivity. Qed.
Lemma literal_valid : forall C, literal_keys C -> pk_valid C root_key /\ pk_valid C label_key.
Proof.
  intros C [A B]. split; (split; [reflexivity|]); unfold root_key, label_key; cbn [pk_fmt pk_raw raw_key_ok]; [rewrite A|rewrite B]; reflexivity.
Qed.
Lemma literal_peers : forall C, crypto_laws C -> literal_keys C ->
  peer_key C fluence_root_peer_id root_key /\ peer_key C label_peer_id label_key.
Proof.
  intros C L K. destruct (literal_valid C K) as [A B]. destruct (literal_text C) as [X Y].
  split; [rewrite <- X|rewrite <- Y]; apply peer_key_text; try assumption; discriminate.
Qed.
Lemma text_is : forall C k s b, crypto_laws C -> wasm32 C = true -> pk_valid C k -> pk_valid C b -> peer_id_to_base58 (pk_to_peer_id C b) = s ->
  bytes_eqb (peer_id_to_base58 (pk_to_peer_id C k)) s = true <-> k = b.
Proof.
  intros C k s b L W V B <-. rewrite bytes_eqb_eq. split; [|intros ->; reflexivity]. intros H.
  eapply peer_key_fun; [apply peer_key_text; [exact L|exact V|apply (wasm_no_rsa C k W V)]|]. rewrite H.
  apply peer_key_text; [exact L|exact B|apply (wasm_no_rsa C b W B)].
Qed.

(** The certificates labelling.aqua counts. *)
Definition counts (c : certificate) : Prop := exists a b t, c = [a; b; t] /\ issued_for a = root_key /\ issued_for b = label_key.
Lemma labelled_counts : forall C c, crypto_laws C -> wasm32 C = true -> literal_keys C -> (forall t, In t c -> pk_valid C (issued_for t)) ->
  (labelled (dto_of_cert C c) = [true] /\ counts c) \/ (labelled (dto_of_cert C c) = [] /\ ~ counts c).
Proof.
  intros C c L W K V. destruct (literal_valid C K) as [Kr Kl]. destruct (literal_text C) as [Tr Tl].
  assert (X : forall t, In t c -> bytes_eqb (dt_issued_for (dto_of_trust C t)) fluence_root_peer_id = true <-> issued_for t = root_key)
    by (intros t Ht; apply (text_is C); auto).
  assert (Y : forall t, In t c -> bytes_eqb (dt_issued_for (dto_of_trust C t)) label_peer_id = true <-> issued_for t = label_key)
    by (intros t Ht; apply (text_is C); auto).
  unfold dto_of_cert. destruct c as [|a [|b [|t [|u c]]]]; try (right; split; [reflexivity|intros (p & q & r & E & _); discriminate E]).
  cbn [map labelled]. specialize (X a (or_introl eq_refl)). specialize (Y b (or_intror (or_introl eq_refl))).
  destruct (bytes_eqb (dt_issued_for (dto_of_trust C a)) fluence_root_peer_id).
  - destruct (bytes_eqb (dt_issued_for (dto_of_trust C b)) label_peer_id).
    + left. split; [reflexivity|]. exists a, b, t. split; [reflexivity|]. split; [apply X|apply Y]; reflexivity.
    + right. split; [reflexivity|]. intros (p & q & r & E & _ & H). injection E as <- <- <-. apply Y in H. discriminate H.
  - right. split; [reflexivity|]. intros (p & q & r & E & H & _). injection E as <- <- <-. apply X in H. discriminate H.
Qed.
Lemma counted_once : forall C cs, crypto_laws C -> wasm32 C = true -> literal_keys C -> (forall c t, In c cs -> In t c -> pk_valid C (issued_for t)) ->
  NoDup cs -> (forall c c', In c cs -> In c' cs -> counts c -> counts c' -> c = c') ->
  (flat_map labelled (map (dto_of_cert C) cs) = [true] /\ exists c, In c cs /\ counts c) \/
  (flat_map labelled (map (dto_of_cert C) cs) = [] /\ ~ exists c, In c cs /\ counts c).
Proof.
  intros C cs L W K. induction cs as [|c cs IH]; intros V ND U.
  { right. split; [reflexivity|]. intros (c & [] & _). }
  inversion ND as [|? ? NI ND']; subst. cbn [map flat_map].
  assert (IH' := IH (fun c' t H => V c' t (or_intror H)) ND' (fun a b Ha Hb => U a b (or_intror Ha) (or_intror Hb))).
  destruct (labelled_counts C c L W K (fun t => V c t (or_introl eq_refl))) as [[E H]|[E H]]; rewrite E; cbn [app].
  - left. split; [|exists c; split; [left; reflexivity|exact H]]. f_equal. destruct IH' as [[_ (c' & Hc & Hn)]|[-> _]]; [|reflexivity].
    exfalso. apply NI. rewrite (U c c' (or_introl eq_refl) (or_intror Hc) H Hn). exact Hc.
  - destruct IH' as [[-> (c' & Hc & Hn)]|[-> Hn]].
    + left. split; [reflexivity|]. exists c'. split; [right; exact Hc|exact Hn].
    + right. split; [reflexivity|]. intros (c' & [<-|Hc] & Hn'); [contradiction|]. apply Hn. exists c'. auto.
Qed.
Lemma three_chain : forall d k a b t, root_chain d k [a; b; t] <->
  (is_root d (issued_for a) /\ stored_trust d (issued_for a) a) /\ stored_trust d (issued_for a) b /\ stored_trust d (issued_for b) t /\
  issued_for t = k /\ issued_for a <> issued_for b /\ issued_for a <> k.
Proof.
  intros d k a b t. unfold root_chain, key_at, at_pos. split.
  - intros (_ & (x & E & F) & H0 & H1 & H2). cbn in E. injection E as <-. split; [apply H0; reflexivity|].
    split; [apply (H1 0%nat); reflexivity|]. split; [apply (H1 1%nat); reflexivity|]. split; [exact F|]. split; intros Q.
    + destruct (H2 0%nat 1%nat (issued_for b)) as [_ X]; [lia|exists a; auto|exists b; auto|]. lia.
    + destruct (H2 0%nat 2%nat k) as [X _]; [lia|exists a; auto|exists t; auto|]. lia.
  - intros (R0 & R1 & R2 & F & D1 & D2). split; [cbn; lia|]. split; [exists t; split; [reflexivity|exact F]|].
    split; [intros x E; injection E as <-; exact R0|]. split.
    + intros i g x Hg Hx. destruct i as [|[|[|i]]]; cbn in Hg, Hx; try discriminate; injection Hg as <-; injection Hx as <-; assumption.
    + intros i j q Hij (x & Hx & Qx) (y & Hy & Qy).
      destruct i as [|[|[|i]]]; cbn in Hx; try discriminate; [| | |destruct i; discriminate]; injection Hx as <-;
        (destruct j as [|[|[|j]]]; cbn in Hy; try lia; try discriminate; [..|destruct j; discriminate]); try (injection Hy as <-); try lia; congruence.
Qed.
Lemma counted_certificates : forall C s k, inv C s -> (exists c, In c (certs_from_of s k label_key) /\ counts c) <-> vouched (db_of s) k.
Proof.
  intros C s k I. assert (W := inv_wf C s I). split.
  - intros (c & Hc & a & b & t & -> & Ea & Eb). apply in_certs_from in Hc. destruct Hc as [Hc _]. apply (certs_of_exact C) in Hc; [|exact W].
    destruct Hc as [Hc Hr]. apply three_chain in Hc. destruct Hc as ((R0 & S0) & S1 & S2 & F & D1 & D2). rewrite Ea in *. rewrite Eb in *.
    split; [congruence|]. split; [exact R0|]. split; [exists a; auto|]. split; [exists b; auto|]. split; [exists t; auto|].
    intros (v & V1 & V2 & V3). specialize (Hr 0%nat 2%nat). assert (Z : direct_issuer_pos [a; b; t] 2); [|discriminate Z].
    apply Hr. split; [lia|]. exists v. split; [exact V3|]. split; [exists a|exists t]; (split; [reflexivity|congruence]).
  - intros (D & R0 & (a & Ea & Sa) & (b & Eb & Sb) & (t & Et & St) & NV). exists [a; b; t]. split; [|exists a, b, t; auto].
    apply in_certs_from. split; [|exists b; split; [right; left; reflexivity|exact Eb]]. apply (certs_of_exact C); [exact W|]. split.
    + apply three_chain. rewrite Ea, Eb. split; [auto|]. split; [exact Sb|]. split; [exact St|]. split; [exact Et|]. split; [discriminate|congruence].
    + intros i j (Hij & v & V & (x & Hx & Qx) & (y & Hy & Qy)). unfold direct_issuer_pos. cbn [length]. unfold at_pos in Hx, Hy.
      destruct j as [|[|[|j]]]; [lia|reflexivity| |destruct j; discriminate Hy]. exfalso. cbn in Hy. injection Hy as <-.
      destruct i as [|[|i]]; [| |lia]; cbn in Hx; injection Hx as <-.
      * apply NV. exists v. split; [congruence|]. split; [congruence|exact V].
      * assert (Q : RAuth (mk_auth t label_key) = RRev v); [|discriminate Q].
        apply (pair_unique (rels s)); [apply (wf_nodup C); exact W|apply (stored_trust_in C); assumption|apply (stored_rev_in C); assumption| |];
          cbn [rel_issued_for rel_issued_by issued_by auth_trust]; congruence.
Qed.
Lemma counted_unique : forall C s k c c', inv C s -> In c (certs_from_of s k label_key) -> In c' (certs_from_of s k label_key) -> counts c -> counts c' -> c = c'.
Proof.
  intros C s k c c' I Hc Hc' (a & b & t & -> & Ea & Eb) (a' & b' & t' & -> & Ea' & Eb'). assert (W := inv_wf C s I).
  apply in_certs_from in Hc, Hc'. destruct Hc as [Hc _], Hc' as [Hc' _]. apply (certs_of_exact C) in Hc, Hc'; try exact W.
  destruct Hc as [Hc _], Hc' as [Hc' _]. apply three_chain in Hc, Hc'. destruct Hc as ((_ & Sa) & Sb & St & Et & _), Hc' as ((_ & Sa') & Sb' & St' & Et' & _).
  assert (U : forall x y q q', stored_trust (db_of s) q x -> stored_trust (db_of s) q' y -> issued_for x = issued_for y -> q = q' -> x = y).
  { intros x y q q' Hx Hy E F. subst q'. apply (stored_trust_in C) in Hx, Hy; try exact W.
    assert (Q : RAuth (mk_auth x q) = RAuth (mk_auth y q)); [|injection Q; auto].
    apply (pair_unique (rels s)); [apply (wf_nodup C); exact W|assumption|assumption|exact E|reflexivity]. }
  f_equal; [|f_equal; [|f_equal]]; (eapply U; [eassumption|eassumption| |]); congruence.
Qed.
Lemma stored_keys : forall C s x, inv C s -> In x (rels s) -> pk_valid C (rel_issued_for x).
Proof. intros C s x I H. pose proof (wf_rels C s (inv_wf C s I)) as F. rewrite Forall_forall in F. apply F in H. apply H. Qed.
Lemma certs_keys : forall C s k c t, inv C s -> In c (certs_of s k) -> In t c -> pk_valid C (issued_for t).
Proof.
  intros C s k c t I Hc Ht. assert (W := inv_wf C s I). apply (certs_of_exact C) in Hc; [|exact W]. destruct Hc as [(_ & _ & H0 & H1 & _) _].
  apply In_nth_error in Ht. destruct Ht as (n & Ht). destruct n as [|n].
  - destruct (H0 t Ht) as [_ X]. apply (stored_trust_in C) in X; [|exact W]. exact (stored_keys C s _ I X).
  - destruct (nth_error c n) as [g|] eqn:G; [|apply nth_error_None in G; assert (nth_error c (S n) <> None) by congruence;
      apply nth_error_Some in H; lia].
    specialize (H1 n g t G Ht). apply (stored_trust_in C) in H1; [|exact W]. exact (stored_keys C s _ I H1).
Qed.

(** labelling.aqua: a node is told to be a Fluence peer exactly if its own store vouches for its key at the time of its clock.
    Without a failure of the database there is an answer. *)
Lemma p_C93_is_fluence_peer_exact : forall C net node k now st r st', crypto_laws C -> wasm32 C = true -> literal_keys C -> network_state C st ->
  now < u64_bound -> peer_key C node k -> is_fluence_peer C net node now st = (r, st') ->
  only_at node st st' /\
  ((exists b, r = Ok ([b], []) /\ collected (st node) (from_secs now) (st' node) /\ (b = true <-> vouched (st' node) k)) \/
   (exists e, r = Ok ([], [e]) /\ exists c, fault net node c <> None)).
Proof.
  intros C net node k now st r st' L W K N Bn Hk E. destruct (literal_peers C L K) as [_ Pl].
  assert (Vk := peer_key_valid C _ _ L Hk). destruct (literal_valid C K) as [_ Vl].
  unfold is_fluence_peer, sbind, aq_get_host_certs_from in E. rewrite call_step in E. cbn [plan host_id] in E.
  match type of E with context [check_timestamp_tetraplets ?cp 1] =>
    assert (X : check_timestamp_tetraplets cp 1 = Ok tt) by (apply check_ok; apply clock_host; reflexivity); rewrite X in E; clear X end.
  apply extract_ok in Hk, Pl. rewrite Hk, Pl in E. cbn [bind gcall carry_out] in E.
  pose proof (service_reachable_graph C _ L (N node)) as Rg. apply reachable_inv in Rg. destruct Rg as (s & Es & Inv). rewrite Es in *.
  assert (T : call_typed C (G_get_all_certs_from k label_key (from_secs now))) by (split; [exact Vk|split; [exact Vl|apply from_secs_wf; exact Bn]]).
  set (c := S_get_host_certs_from label_peer_id now) in *.
  destruct (graph_step_sem C s (G_get_all_certs_from k label_key (from_secs now)) (fault net node c) (inv_wf C s Inv) T) as [G|(F & n & G)];
    rewrite G in E; cbn [fst snd] in E.
  - cbn [sem fst snd run_ws fold_left payload_of c] in E. apply pair_equal_spec in E. destruct E as [<- <-]. split; [apply put_only|]. left.
    rewrite put_same. cbn [certs_in reply]. set (s' := apply_w s (W_gc (from_secs now))) in *. pose proof (inv_gc C s (from_secs now) Inv) as Inv'.
    fold s' in Inv'.
    assert (Q := counted_once C (certs_from_of s' k label_key) L W K).
    assert (V : forall c' t, In c' (certs_from_of s' k label_key) -> In t c' -> pk_valid C (issued_for t)).
    { intros c' t H1 H2. apply in_certs_from in H1. eapply certs_keys; [exact Inv'|apply H1|exact H2]. }
    assert (ND : NoDup (certs_from_of s' k label_key)).
    { unfold certs_from_of. apply NoDup_filter. apply found_certs_nodup. apply (wf_nodup C). apply Inv'. }
    specialize (Q V ND (fun a b => counted_unique C s' k a b Inv')).
    pose proof (counted_certificates C s' k Inv') as Z. pose proof (collected_gc C s (from_secs now) (inv_wf C s Inv)) as Col. fold s' in Col.
    cbn [success]. destruct Q as [[Q1 Q2]|[Q1 Q2]]; unfold certs_in; cbn [reply]; rewrite Q1.
    + exists true. split; [reflexivity|]. split; [exact Col|]. split; [intros _; apply Z; exact Q2|reflexivity].
    + exists false. split; [reflexivity|]. split; [exact Col|]. split; [discriminate|]. intros H. apply Z in H. contradiction.
  - apply pair_equal_spec in E. destruct E as [<- <-]. split; [apply put_only|]. right. eexists. split; [reflexivity|]. exists c. exact F.
Qed.
