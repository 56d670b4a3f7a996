(** Clocks that disagree. Every proof is a lemma of ClockThms.v. *)
From Coq Require Import List NArith ZArith Bool.
From Verif Require Import Base Text Keys Trust Certificate Relation Storage Graph Service Spec ServiceSpec ClockSpec.
From Verif Require Import Toy Witness ServiceWitness StateFacts GraphFacts ClockThms.
Import ListNotations.
Open Scope N_scope.

(** ** C191 *)
(** A call at two times between which nothing expires gives the same answer and leaves the same store. *)
Theorem C191_one_call : forall C d c a b fu, reachable C d -> call_typed C c -> clear_call d a b c ->
  same_but_clock a b (fst (graph_step C d (at_time a c, fu))) (fst (graph_step C d (at_time b c, fu))) /\
  snd (graph_step C d (at_time a c, fu)) = snd (graph_step C d (at_time b c, fu)).
Proof. exact p_C191_one_call. Qed.
Print Assumptions C191_one_call.

(** So do whole histories on two stores whose clocks differ. *)
Theorem C191_clocks : forall C es d, reachable C d -> (forall c a b fu, In (c, (a, b), fu) es -> call_typed C c /\ duration_wf a) -> no_expiry_between C d es ->
  graph_history C d (map one es) = graph_history C d (map other es) /\
  forall es1 c a b fu es2, es = es1 ++ (c, (a, b), fu) :: es2 ->
    same_but_clock a b (fst (graph_step C (graph_history C d (map one es1)) (at_time a c, fu))) (fst (graph_step C (graph_history C d (map other es1)) (at_time b c, fu))).
Proof. exact p_C191_clocks. Qed.
Print Assumptions C191_clocks.

(** The service, at two timestamps between which nothing it keeps or is given expires. *)
Theorem C191_service : forall C d cp c ts ts' fu, crypto_laws C -> service_reachable C d -> service_typed c -> clear_request C d cp ts ts' c ->
  same_but_time ts ts' (fst (service_step C d (cp, told ts c, fu))) (fst (service_step C d (cp, told ts' c, fu))) /\
  snd (service_step C d (cp, told ts c, fu)) = snd (service_step C d (cp, told ts' c, fu)).
Proof. exact p_C191_service. Qed.
Print Assumptions C191_service.

(** Whole histories of service calls, each call at two timestamps. *)
Theorem C191_services : forall C es d, crypto_laws C -> service_reachable C d -> (forall cp c ts ts' fu, In (cp, c, (ts, ts'), fu) es -> service_typed c) -> clear_requests C d es ->
  service_history C d (map first_time es) = service_history C d (map second_time es) /\
  forall es1 cp c ts ts' fu es2, es = es1 ++ (cp, c, (ts, ts'), fu) :: es2 ->
    same_but_time ts ts' (fst (service_step C (service_history C d (map first_time es1)) (cp, told ts c, fu)))
                         (fst (service_step C (service_history C d (map second_time es1)) (cp, told ts' c, fu))).
Proof. exact p_C191_services. Qed.
Print Assumptions C191_services.

(** The hypotheses are met; at both clocks the holder weighs 8. At seconds 690 and 700, with an expiry in between, the weights of B differ:
    16 and 8. *)
Example C191_example_two_hosts : reachable W (db_of (after two_ways)) /\ no_expiry_between W (db_of (after two_ways)) drifting /\
  (forall c a b fu, In (c, (a, b), fu) drifting -> call_typed W c /\ duration_wf a) /\
  fst (graph_step W (graph_history W (db_of (after two_ways)) (map other [nth 0 drifting (G_weight (toy_key 4) (from_secs 0), (from_secs 0, from_secs 0), None)]))
         (G_weight (toy_key 4) (from_secs 690), None)) = Ok (GR_weight 8) /\
  fst (graph_step W (db_of (after two_ways)) (G_weight (toy_key 3) (from_secs 690), None)) = Ok (GR_weight 16) /\
  fst (graph_step W (db_of (after two_ways)) (G_weight (toy_key 3) (from_secs 700), None)) = Ok (GR_weight 8).
Proof. exact e_C191_two_hosts. Qed.

(** The service with the store of [ServiceWitness.service_base], asked at seconds 600 and 880 to add a trust that expires at 890: the
    hypotheses are met and both times the answer is the weight 8. *)
Example C191_example_timestamps : service_reachable (toy true) base_store /\ clear_request (toy true) base_store (timed_call 2) 600 880 (S_add_trust (trust_rec 2 3 890 500) (pid 2) 0) /\
  fst (service_step (toy true) base_store (timed_call 2, S_add_trust (trust_rec 2 3 890 500) (pid 2) 600, None)) = Ok (mk_response true None (P_added 8)) /\
  fst (service_step (toy true) base_store (timed_call 2, S_add_trust (trust_rec 2 3 890 500) (pid 2) 880, None)) = Ok (mk_response true None (P_added 8)).
Proof. exact e_C191_timestamps. Qed.

(** There, two calls, each at two timestamps: a weight is asked for and the trust added. *)
Example C191_example_requests : service_reachable (toy true) base_store /\ (forall cp c ts ts' fu, In (cp, c, (ts, ts'), fu) asked_and_added -> service_typed c) /\
  clear_requests (toy true) base_store asked_and_added /\
  service_history (toy true) base_store (map second_time asked_and_added) <> base_store.
Proof. exact e_C191_requests. Qed.
