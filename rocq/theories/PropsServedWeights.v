(** What a new trust, a new root and joined roots do to the weights the service tells. Every proof is a lemma of ServedWeightsThms.v. *)
From Coq Require Import List NArith ZArith Bool.
From Verif Require Import Base Text Keys Trust Certificate Relation Storage Graph GraphFacts Service Spec ServiceSpec.

From Verif Require Import Toy Witness ServiceWitness ReadmeThms CopyServiceThms SeverThms ServedBackThms AnewThms CrownThms JoinThms ServedWeightsThms InfluenceSpec ExtendSpec AnewSpec CrownSpec JoinSpec.
Import ListNotations.
Open Scope N_scope.

(** ** C213 *)
(** At the service: a renewed trust changes no weight that is told before it expires. *)
Theorem C213_service_weight : forall C d r t i b cp ts w d' p k ts' cp1 cp2 z, crypto_laws C -> service_reachable C d -> small d -> small d' ->
  trust_record C r t -> peer_key C i b -> host_time cp 2 -> dto_trust_typed r -> dt_issued_at r <= ts -> ts <= ts' < dt_expires_at r -> dt_expires_at r < i64_bound ->
  service_step C d (cp, S_add_trust r i ts, None) = (Ok (mk_response true None (P_added w)), d') -> w <> 0 ->
  (forall x, stored d x -> same_keys (RAuth (mk_auth t b)) x -> before (rel_issued_at x) (issued_at t)) -> live d (from_secs ts') b z -> issued_for z = issued_for t ->
  peer_key C p k -> host_time cp1 1 -> host_time cp2 1 ->
  exists v, fst (service_step C d (cp1, S_get_weight p ts', None)) = Ok (mk_response true None (P_weight v p)) /\ fst (service_step C d' (cp2, S_get_weight p ts', None)) = Ok (mk_response true None (P_weight v p)).
Proof. exact p_C213_service_weight. Qed.
Print Assumptions C213_service_weight.

(** Key 1 renews its trust for key 2 in the store of [C213_example_served]: the weight of key 4 stays. *)
Example C213_example_served_weights : let d' := snd (service_step (toy true) grown_store (timed_call 2, S_add_trust (trust_rec 1 2 2000 90) (pid 1) 95, None)) in
  small grown_store /\ small d' /\ peer_key (toy true) (pid 4) (toy_key 4) /\ host_time (timed_call 1) 1 /\
  map (fun d => fst (service_step (toy true) d (timed_call 1, S_get_weight (pid 4) 96, None))) [grown_store; d'] = [Ok (mk_response true None (P_weight 8 (pid 4))); Ok (mk_response true None (P_weight 8 (pid 4)))].
Proof. exact e_C213_served_weights. Qed.

(** ** C214 *)
(** At the service: once the owner has set a root, the weight of a peer is the greatest of what it was, what the certificates that begin with the root give it, and what it has as that root; if the root was one before, it is what it was. *)
Theorem C214_service_weight : forall C d p k n cp d' q k' ts cp1 cp2, crypto_laws C -> service_reachable C d -> small d -> peer_key C p k -> service_typed (S_set_root p n) -> ts < u64_bound ->
  service_step C d (cp, S_set_root p n, None) = (Ok (mk_response true None P_none), d') -> peer_key C q k' -> host_time cp1 1 -> host_time cp2 1 ->
  exists w w', fst (service_step C d (cp1, S_get_weight q ts, None)) = Ok (mk_response true None (P_weight w q)) /\ fst (service_step C d' (cp2, S_get_weight q ts, None)) = Ok (mk_response true None (P_weight w' q)) /\
    (is_root d k -> w' = w) /\
    (~ is_root d k -> greatest (fun x => x = w \/ (k' = k /\ x = 2 ^ N.min n 16) \/ exists c, chain_below d (from_secs ts) k k' c /\ x = chain_weight (N.min n 16) (length c - 1)) w').
Proof. exact p_C214_service_weight. Qed.
Print Assumptions C214_service_weight.

(** The owner makes key 2 a root in the store of [C214_example_served]: key 2 weighs more, and key 4 what it did, for key 2 has given no record to itself. *)
Example C214_example_served_weights : let d' := snd (service_step (toy true) grown_store (owner_call, S_set_root (pid 2) 9, None)) in
  fst (service_step (toy true) grown_store (owner_call, S_set_root (pid 2) 9, None)) = Ok (mk_response true None P_none) /\
  map (fun d => fst (service_step (toy true) d (timed_call 1, S_get_weight (pid 2) 96, None))) [grown_store; d'] = [Ok (mk_response true None (P_weight 16 (pid 2))); Ok (mk_response true None (P_weight 512 (pid 2)))] /\
  map (fun d => fst (service_step (toy true) d (timed_call 1, S_get_weight (pid 4) 96, None))) [grown_store; d'] = [Ok (mk_response true None (P_weight 8 (pid 4))); Ok (mk_response true None (P_weight 8 (pid 4)))].
Proof. exact e_C214_served_weights. Qed.

(** ** C215 *)
(** At the service: the weight told of a peer is the greater of those told at the two. *)
Theorem C215_service_weight : forall C d1 d2 d p k ts cp1 cp2 cp, crypto_laws C -> service_reachable C d1 -> service_reachable C d2 -> service_reachable C d -> small d1 -> small d2 -> small d -> ts < u64_bound ->
  same_relations d1 d -> same_relations d2 d -> roots_joined d1 d2 d -> peer_key C p k -> host_time cp1 1 -> host_time cp2 1 -> host_time cp 1 ->
  exists w1 w2, fst (service_step C d1 (cp1, S_get_weight p ts, None)) = Ok (mk_response true None (P_weight w1 p)) /\ fst (service_step C d2 (cp2, S_get_weight p ts, None)) = Ok (mk_response true None (P_weight w2 p)) /\
    fst (service_step C d (cp, S_get_weight p ts, None)) = Ok (mk_response true None (P_weight (N.max w1 w2) p)).
Proof. exact p_C215_service_weight. Qed.
Print Assumptions C215_service_weight.

(** The weights of key 4 in the three stores of [C215_example_served]. *)
Example C215_example_served_weights : let d1 := service_history (toy true) empty_db one_root in let d2 := service_history (toy true) empty_db other_root in let d := service_history (toy true) empty_db both_roots in
  small d1 /\ small d2 /\ small d /\ peer_key (toy true) (pid 4) (toy_key 4) /\ host_time (timed_call 1) 1 /\
  map (fun d => fst (service_step (toy true) d (timed_call 1, S_get_weight (pid 4) 9, None))) [d1; d2; d] =
    [Ok (mk_response true None (P_weight 16 (pid 4))); Ok (mk_response true None (P_weight 8 (pid 4))); Ok (mk_response true None (P_weight 16 (pid 4)))].
Proof. exact e_C215_served_weights. Qed.
