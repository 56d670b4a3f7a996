(** What a new trust, a new root and joined roots do to the weights the service tells: C213, C214, C215. *)
From Coq Require Import List NArith ZArith Bool Lia.
From Verif Require Import Base BaseFacts Text Keys KeysFacts Trust TrustFacts Certificate CertFacts Relation Storage StorageFacts Graph Spec SpecFacts GraphFacts StateFacts GraphThms ReadmeThms InfluenceSpec InfluenceThms ExtendThms Toy ToyFacts Witness.
From Verif Require Import Service ServiceSpec ServiceFacts ServiceThms ServedThms ServiceWitness CopyServiceThms PartsServedThms SeverThms ServedBackThms AnewThms CrownThms JoinThms ExtendSpec SeverSpec AnewSpec CrownSpec JoinSpec.
Import ListNotations.
Open Scope N_scope.

(** The service tells the weight of the graph. *)
Lemma weight_told : forall C d cp p k ts, crypto_laws C -> service_reachable C d -> ts < u64_bound -> peer_key C p k -> host_time cp 1 ->
  exists w e, graph_step C d (G_weight k (from_secs ts), None) = (Ok (GR_weight w), e) /\ fst (service_step C d (cp, S_get_weight p ts, None)) = Ok (mk_response true None (P_weight w p)).
Proof.
  intros C d cp p k ts L R Hs K Ht.
  assert (T : call_typed C (G_weight k (from_secs ts))) by (split; [eapply peer_key_valid; eassumption|apply from_secs_wf; exact Hs]).
  destruct (weight_answer C d k (from_secs ts) (p_C66_service_stores C d L R) T) as (w & e & E). exists w, e. split; [exact E|]. apply (weight_response C d cp p k ts w K Ht). rewrite E. reflexivity.
Qed.
(** ** C213 *)
(** At the service: a renewed trust changes no weight that is told before it expires. *)
Lemma p_C213_service_weight : forall C d r t i b cp ts w d' p k ts' cp1 cp2 z, crypto_laws C -> service_reachable C d -> small d -> small d' ->
  trust_record C r t -> peer_key C i b -> host_time cp 2 -> dto_trust_typed r -> dt_issued_at r <= ts -> ts <= ts' < dt_expires_at r -> dt_expires_at r < i64_bound ->
  service_step C d (cp, S_add_trust r i ts, None) = (Ok (mk_response true None (P_added w)), d') -> w <> 0 ->
  (forall x, stored d x -> same_keys (RAuth (mk_auth t b)) x -> before (rel_issued_at x) (issued_at t)) -> live d (from_secs ts') b z -> issued_for z = issued_for t ->
  peer_key C p k -> host_time cp1 1 -> host_time cp2 1 ->
  exists v, fst (service_step C d (cp1, S_get_weight p ts', None)) = Ok (mk_response true None (P_weight v p)) /\ fst (service_step C d' (cp2, S_get_weight p ts', None)) = Ok (mk_response true None (P_weight v p)).
Proof.
  intros C d r t i b cp ts w d' p k ts' cp1 cp2 z L R Sm Sm' Tr Pk Ht Tt Bt Bx Bx2 E Nz New Lz Ez K Ht1 Ht2.
  pose proof (p_C66_service_stores C d L R) as Rd. assert (Hs : ts < u64_bound) by (unfold i64_bound, u64_bound in *; lia). assert (Hs' : ts' < u64_bound) by (unfold i64_bound, u64_bound in *; lia).
  assert (Rq : requests C cp (S_add_trust r i ts) (G_add_trust t b (from_secs ts))) by (split; [exact Tr|split; [exact Pk|reflexivity]]).
  assert (Ad : admitted cp (S_add_trust r i ts)) by (split; [exact Ht|exact Bt]).
  assert (Ty : service_typed (S_add_trust r i ts)) by (split; [exact Tt|exact Hs]).
  assert (Tc : call_typed C (G_add_trust t b (from_secs ts))) by (apply (requests_typed C cp (S_add_trust r i ts) _ L); [exact Ty|exact Rq]).
  assert (R' : service_reachable C d') by (pose proof (service_reachable_step C d cp (S_add_trust r i ts) None Ty R) as X; rewrite E in X; exact X).
  assert (Eg : graph_step C d (G_add_trust t b (from_secs ts), None) = (Ok (GR_weight w), d')).
  { rewrite service_plan, (plan_complete C cp _ _ Rq Ad) in E. cbn [carry_out] in E. destruct (graph_step C d (G_add_trust t b (from_secs ts), None)) as [[y|e| |] d2]; try discriminate E.
    destruct y; try discriminate E. injection E as -> ->. reflexivity. }
  destruct Tr as (Trk & Tre & Tri & Trs).
  destruct (weight_told C d cp1 p k ts' L R Hs' K Ht1) as (v & e1 & E1 & A1). destruct (weight_told C d' cp2 p k ts' L R' Hs' K Ht2) as (v' & e2 & E2 & A2).
  assert (T : call_typed C (G_weight k (from_secs ts'))) by (split; [eapply peer_key_valid; eassumption|apply from_secs_wf; exact Hs']).
  assert (Ex : secs (from_secs ts) <= secs (from_secs ts') < secs (expires_at t)) by (rewrite Tre; exact Bx).
  assert (Ex3 : secs (expires_at t) < i64_bound) by (rewrite Tre; exact Bx2).
  exists v. split; [exact A1|]. rewrite (p_C213_weights C d t b (from_secs ts) w d' k (from_secs ts') z None None v v' e1 e2 Rd Sm Sm' Tc Eg Nz Ex Ex3 New T E1 E2 Lz Ez). exact A2.
Qed.
(** Key 1 renews its trust for key 2 in the store of [C213_example_served]: the weight of key 4 stays. *)
Example e_C213_served_weights : let d' := snd (service_step (toy true) grown_store (timed_call 2, S_add_trust (trust_rec 1 2 2000 90) (pid 1) 95, None)) in
  small grown_store /\ small d' /\ peer_key (toy true) (pid 4) (toy_key 4) /\ host_time (timed_call 1) 1 /\
  map (fun d => fst (service_step (toy true) d (timed_call 1, S_get_weight (pid 4) 96, None))) [grown_store; d'] = [Ok (mk_response true None (P_weight 8 (pid 4))); Ok (mk_response true None (P_weight 8 (pid 4)))].
Proof.
  cbv zeta. split; [vm_compute; reflexivity|]. split; [vm_compute; reflexivity|]. split; [apply extract_ok; vm_compute; reflexivity|]. split; [apply timed_host|]. vm_compute. reflexivity.
Qed.
(** ** C214 *)
(** At the service: once the owner has set a root, the weight of a peer is the greatest of what it was, what the certificates that begin with the root give it, and what it has as that root; if the root was one before, it is what it was. *)
Lemma p_C214_service_weight : forall C d p k n cp d' q k' ts cp1 cp2, crypto_laws C -> service_reachable C d -> small d -> peer_key C p k -> service_typed (S_set_root p n) -> ts < u64_bound ->
  service_step C d (cp, S_set_root p n, None) = (Ok (mk_response true None P_none), d') -> peer_key C q k' -> host_time cp1 1 -> host_time cp2 1 ->
  exists w w', fst (service_step C d (cp1, S_get_weight q ts, None)) = Ok (mk_response true None (P_weight w q)) /\ fst (service_step C d' (cp2, S_get_weight q ts, None)) = Ok (mk_response true None (P_weight w' q)) /\
    (is_root d k -> w' = w) /\
    (~ is_root d k -> greatest (fun x => x = w \/ (k' = k /\ x = 2 ^ N.min n 16) \/ exists c, chain_below d (from_secs ts) k k' c /\ x = chain_weight (N.min n 16) (length c - 1)) w').
Proof.
  intros C d p k n cp d' q k' ts cp1 cp2 L R Sm Pk Ty Hs E K Ht1 Ht2.
  assert (R' : service_reachable C d') by (pose proof (service_reachable_step C d cp (S_set_root p n) None Ty R) as X; rewrite E in X; exact X).
  assert (Rq : requests C cp (S_set_root p n) (G_set_root k n)) by (split; [exact Pk|reflexivity]).
  assert (Tv : call_typed C (G_set_root k n)) by (apply (requests_typed C cp (S_set_root p n) (G_set_root k n) L Ty); exact Rq).
  assert (Eg : graph_step C d (G_set_root k n, None) = (Ok GR_unit, d')).
  { rewrite service_plan in E. destruct (plan C cp (S_set_root p n)) as [[g|a]|e| |] eqn:P; try discriminate E.
    - pose proof (plan_admitted C cp _ _ P) as A. pose proof (plan_complete C cp (S_set_root p n) (G_set_root k n) Rq A) as P'. rewrite P in P'. injection P' as ->.
      cbn [carry_out] in E. destruct (graph_step C d (G_set_root k n, None)) as [r d2] eqn:Eq. destruct (p_C23_calls_answer C d (G_set_root k n) None r d2 (p_C66_service_stores C d L R) Tv Eq) as [(y & -> & Hy)|(e & ->)]; [|discriminate E].
      destruct y; try contradiction Hy. injection E as <-. reflexivity.
    - exfalso. revert P. cbn [plan]. unfold gcall. destruct (bytes_eqb (service_creator_peer_id cp) (init_peer_id cp)); [|discriminate]. destruct (extract_public_key C p); discriminate. }
  destruct (weight_told C d cp1 q k' ts L R Hs K Ht1) as (w & e1 & E1 & A1). destruct (weight_told C d' cp2 q k' ts L R' Hs K Ht2) as (w' & e2 & E2 & A2).
  assert (T : call_typed C (G_weight k' (from_secs ts))) by (split; [eapply peer_key_valid; eassumption|apply from_secs_wf; exact Hs]).
  exists w, w'. split; [exact A1|]. split; [exact A2|].
  exact (p_C214_weights C d k n None d' k' (from_secs ts) None None w w' e1 e2 (p_C66_service_stores C d L R) Sm Tv T Eg E1 E2).
Qed.
(** The owner makes key 2 a root in the store of [C214_example_served]: key 2 weighs more, and key 4 what it did, for key 2 has given no record to itself. *)
Example e_C214_served_weights : let d' := snd (service_step (toy true) grown_store (owner_call, S_set_root (pid 2) 9, None)) in
  fst (service_step (toy true) grown_store (owner_call, S_set_root (pid 2) 9, None)) = Ok (mk_response true None P_none) /\
  map (fun d => fst (service_step (toy true) d (timed_call 1, S_get_weight (pid 2) 96, None))) [grown_store; d'] = [Ok (mk_response true None (P_weight 16 (pid 2))); Ok (mk_response true None (P_weight 512 (pid 2)))] /\
  map (fun d => fst (service_step (toy true) d (timed_call 1, S_get_weight (pid 4) 96, None))) [grown_store; d'] = [Ok (mk_response true None (P_weight 8 (pid 4))); Ok (mk_response true None (P_weight 8 (pid 4)))].
Proof. cbv zeta. split; [vm_compute; reflexivity|]. split; vm_compute; reflexivity. Qed.
(** ** C215 *)
(** At the service: the weight told of a peer is the greater of those told at the two. *)
Lemma p_C215_service_weight : forall C d1 d2 d p k ts cp1 cp2 cp, crypto_laws C -> service_reachable C d1 -> service_reachable C d2 -> service_reachable C d -> small d1 -> small d2 -> small d -> ts < u64_bound ->
  same_relations d1 d -> same_relations d2 d -> roots_joined d1 d2 d -> peer_key C p k -> host_time cp1 1 -> host_time cp2 1 -> host_time cp 1 ->
  exists w1 w2, fst (service_step C d1 (cp1, S_get_weight p ts, None)) = Ok (mk_response true None (P_weight w1 p)) /\ fst (service_step C d2 (cp2, S_get_weight p ts, None)) = Ok (mk_response true None (P_weight w2 p)) /\
    fst (service_step C d (cp, S_get_weight p ts, None)) = Ok (mk_response true None (P_weight (N.max w1 w2) p)).
Proof.
  intros C d1 d2 d p k ts cp1 cp2 cp L R1 R2 R Sm1 Sm2 Sm Hs S1 S2 J K H1 H2 H.
  destruct (weight_told C d1 cp1 p k ts L R1 Hs K H1) as (w1 & e1 & E1 & A1). destruct (weight_told C d2 cp2 p k ts L R2 Hs K H2) as (w2 & e2 & E2 & A2). destruct (weight_told C d cp p k ts L R Hs K H) as (w & e & E & A).
  assert (T : call_typed C (G_weight k (from_secs ts))) by (split; [eapply peer_key_valid; eassumption|apply from_secs_wf; exact Hs]).
  exists w1, w2. split; [exact A1|]. split; [exact A2|].
  rewrite <- (p_C215_weights C d1 d2 d k (from_secs ts) None None None w1 w2 w e1 e2 e (p_C66_service_stores C d1 L R1) (p_C66_service_stores C d2 L R2) (p_C66_service_stores C d L R) Sm1 Sm2 Sm T S1 S2 J E1 E2 E). exact A.
Qed.
(** The weights of key 4 in the three stores of [C215_example_served]. *)
Example e_C215_served_weights : let d1 := service_history (toy true) empty_db one_root in let d2 := service_history (toy true) empty_db other_root in let d := service_history (toy true) empty_db both_roots in
  small d1 /\ small d2 /\ small d /\ peer_key (toy true) (pid 4) (toy_key 4) /\ host_time (timed_call 1) 1 /\
  map (fun d => fst (service_step (toy true) d (timed_call 1, S_get_weight (pid 4) 9, None))) [d1; d2; d] =
    [Ok (mk_response true None (P_weight 16 (pid 4))); Ok (mk_response true None (P_weight 8 (pid 4))); Ok (mk_response true None (P_weight 16 (pid 4)))].
Proof.
  cbv zeta. split; [vm_compute; reflexivity|]. split; [vm_compute; reflexivity|]. split; [vm_compute; reflexivity|]. split; [apply extract_ok; vm_compute; reflexivity|]. split; [apply timed_host|]. vm_compute. reflexivity.
Qed.
