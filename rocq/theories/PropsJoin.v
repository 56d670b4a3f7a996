(** Roots act independently of each other. Every proof is a lemma of JoinThms.v. *)
From Coq Require Import List NArith ZArith Bool.
From Verif Require Import Base Text Keys Trust Certificate Relation Storage Graph GraphFacts Service Spec ServiceSpec.

From Verif Require Import Toy Witness ServiceWitness ReadmeThms SeverThms JoinThms JoinSpec.
Import ListNotations.
Open Scope N_scope.

(** ** C215 *)
(** The certificates that begin with a root depend on the trusts and revocations only, not on the other roots. *)
Theorem C215_alone : forall C d d' k pk now fu fu' cs cs' e e', reachable C d -> reachable C d' -> call_typed C (G_get_all_certs pk now) -> same_relations d d' -> is_root d k -> is_root d' k ->
  graph_step C d (G_get_all_certs pk now, fu) = (Ok (GR_certs cs), e) -> graph_step C d' (G_get_all_certs pk now, fu') = (Ok (GR_certs cs'), e') ->
  forall c, key_at c 0 k -> (In c cs <-> In c cs').
Proof. exact p_C215_alone. Qed.
Print Assumptions C215_alone.

(** With the roots of two stores that hold the same relations the certificates are those of the two. *)
Theorem C215_joined : forall C d1 d2 d pk now fu1 fu2 fu cs1 cs2 cs e1 e2 e, reachable C d1 -> reachable C d2 -> reachable C d -> call_typed C (G_get_all_certs pk now) ->
  same_relations d1 d -> same_relations d2 d -> roots_joined d1 d2 d ->
  graph_step C d1 (G_get_all_certs pk now, fu1) = (Ok (GR_certs cs1), e1) -> graph_step C d2 (G_get_all_certs pk now, fu2) = (Ok (GR_certs cs2), e2) ->
  graph_step C d (G_get_all_certs pk now, fu) = (Ok (GR_certs cs), e) -> forall c, In c cs <-> In c cs1 \/ In c cs2.
Proof. exact p_C215_joined. Qed.
Print Assumptions C215_joined.

(** The weight of a key is the greater of the two. *)
Theorem C215_weights : forall C d1 d2 d pk now fu1 fu2 fu w1 w2 w e1 e2 e, reachable C d1 -> reachable C d2 -> reachable C d -> small d1 -> small d2 -> small d -> call_typed C (G_weight pk now) ->
  same_relations d1 d -> same_relations d2 d -> roots_joined d1 d2 d ->
  graph_step C d1 (G_weight pk now, fu1) = (Ok (GR_weight w1), e1) -> graph_step C d2 (G_weight pk now, fu2) = (Ok (GR_weight w2), e2) ->
  graph_step C d (G_weight pk now, fu) = (Ok (GR_weight w), e) -> w = N.max w1 w2.
Proof. exact p_C215_weights. Qed.
Print Assumptions C215_weights.

(** The same for the certificates through an issuer. *)
Theorem C215_from : forall C d1 d2 d pk i now fu1 fu2 fu cs1 cs2 cs e1 e2 e, reachable C d1 -> reachable C d2 -> reachable C d -> call_typed C (G_get_all_certs_from pk i now) ->
  same_relations d1 d -> same_relations d2 d -> roots_joined d1 d2 d ->
  graph_step C d1 (G_get_all_certs_from pk i now, fu1) = (Ok (GR_certs cs1), e1) -> graph_step C d2 (G_get_all_certs_from pk i now, fu2) = (Ok (GR_certs cs2), e2) ->
  graph_step C d (G_get_all_certs_from pk i now, fu) = (Ok (GR_certs cs), e) -> forall c, In c cs <-> In c cs1 \/ In c cs2.
Proof. exact p_C215_from. Qed.
Print Assumptions C215_from.

(** The weight of a key through an issuer is the greater of the two. *)
Theorem C215_weights_from : forall C d1 d2 d pk i now fu1 fu2 fu w1 w2 w e1 e2 e, reachable C d1 -> reachable C d2 -> reachable C d -> small d1 -> small d2 -> small d -> call_typed C (G_weight_from pk i now) ->
  same_relations d1 d -> same_relations d2 d -> roots_joined d1 d2 d ->
  graph_step C d1 (G_weight_from pk i now, fu1) = (Ok (GR_weight w1), e1) -> graph_step C d2 (G_weight_from pk i now, fu2) = (Ok (GR_weight w2), e2) ->
  graph_step C d (G_weight_from pk i now, fu) = (Ok (GR_weight w), e) -> w = N.max w1 w2.
Proof. exact p_C215_weights_from. Qed.
Print Assumptions C215_weights_from.

(** At the service: the records told of a key are those told at the two. *)
Theorem C215_service : forall C d1 d2 d p ts cp1 cp2 cp rs1 rs2, crypto_laws C -> service_reachable C d1 -> service_reachable C d2 -> service_reachable C d -> ts < u64_bound ->
  same_relations d1 d -> same_relations d2 d -> roots_joined d1 d2 d ->
  fst (service_step C d1 (cp1, S_get_all_certs p ts, None)) = Ok (mk_response true None (P_certs rs1)) -> fst (service_step C d2 (cp2, S_get_all_certs p ts, None)) = Ok (mk_response true None (P_certs rs2)) ->
  host_time cp 1 ->
  exists rs, fst (service_step C d (cp, S_get_all_certs p ts, None)) = Ok (mk_response true None (P_certs rs)) /\ forall x, In x rs <-> In x rs1 \/ In x rs2.
Proof. exact p_C215_service. Qed.
Print Assumptions C215_service.

Example C215_example_mutual : reachable W (db_of (after root_a)) /\ reachable W (db_of (after root_b)) /\ reachable W (db_of (after root_ab)) /\
  small (db_of (after root_a)) /\ small (db_of (after root_b)) /\ small (db_of (after root_ab)) /\
  same_relations (db_of (after root_a)) (db_of (after root_ab)) /\ same_relations (db_of (after root_b)) (db_of (after root_ab)) /\ roots_joined (db_of (after root_a)) (db_of (after root_b)) (db_of (after root_ab)) /\
  fst (graph_step W (db_of (after root_a)) (G_weight (toy_key D) (at_ 10), None)) = Ok (GR_weight 16) /\
  fst (graph_step W (db_of (after root_b)) (G_weight (toy_key D) (at_ 10), None)) = Ok (GR_weight 8) /\
  fst (graph_step W (db_of (after root_ab)) (G_weight (toy_key D) (at_ 10), None)) = Ok (GR_weight 16).
Proof. exact e_C215_mutual. Qed.

(** The weight of D through A in the three stores. *)
Example C215_example_through : call_typed W (G_weight_from (toy_key D) (toy_key A) (at_ 10)) /\
  fst (graph_step W (db_of (after root_a)) (G_weight_from (toy_key D) (toy_key A) (at_ 10), None)) = Ok (GR_weight 16) /\
  fst (graph_step W (db_of (after root_b)) (G_weight_from (toy_key D) (toy_key A) (at_ 10), None)) = Ok (GR_weight 0) /\
  fst (graph_step W (db_of (after root_ab)) (G_weight_from (toy_key D) (toy_key A) (at_ 10), None)) = Ok (GR_weight 16).
Proof. exact e_C215_through. Qed.

Example C215_example_served : let d1 := service_history (toy true) empty_db one_root in let d2 := service_history (toy true) empty_db other_root in let d := service_history (toy true) empty_db both_roots in
  service_reachable (toy true) d1 /\ service_reachable (toy true) d2 /\ service_reachable (toy true) d /\ same_relations d1 d /\ same_relations d2 d /\ roots_joined d1 d2 d /\ host_time (timed_call 1) 1 /\
  map (fun d => told_certs (service_step (toy true) d (timed_call 1, S_get_all_certs (pid 4) 9, None))) [d1; d2; d] = [2; 1; 3]%nat.
Proof. exact e_C215_served. Qed.
