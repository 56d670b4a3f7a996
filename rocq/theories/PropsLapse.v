(** How long certificates last. Every proof is a lemma of LapseThms.v. *)
From Coq Require Import List NArith ZArith Bool.
From Verif Require Import Base Text Keys Trust Certificate Relation Storage Graph GraphFacts Service Spec ServiceSpec.

From Verif Require Import Toy Witness ServiceWitness PartsServedThms LapseThms JumpServedSpec ExtendSpec LapseSpec.
Import ListNotations.
Open Scope N_scope.

(** ** C211 *)
(** While only questions are asked, a certificate is told exactly until one of its trusts expires. *)
Theorem C211_certificates : forall C d pk a b fu fu' cs cs' d1 d2 es, reachable C d -> call_typed C (G_get_all_certs pk a) -> call_typed C (G_get_all_certs pk b) -> in_order a b ->
  graph_step C d (G_get_all_certs pk a, fu) = (Ok (GR_certs cs), d1) -> typed_history C es -> asked_until b es ->
  graph_step C (graph_history C d1 es) (G_get_all_certs pk b, fu') = (Ok (GR_certs cs'), d2) ->
  forall c, In c cs' <-> In c cs /\ lasting b c.
Proof. exact p_C211_certificates. Qed.
Print Assumptions C211_certificates.

(** So the certificates tell the weight at every later time: it is that of the key as a root, or that of the best certificate that has lasted, and nothing if there is none. *)
Theorem C211_weights : forall C d pk a b fu fu' cs w d1 d2 es, reachable C d -> small d -> call_typed C (G_get_all_certs pk a) -> call_typed C (G_weight pk b) -> in_order a b ->
  graph_step C d (G_get_all_certs pk a, fu) = (Ok (GR_certs cs), d1) -> typed_history C es -> asked_until b es ->
  graph_step C (graph_history C d1 es) (G_weight pk b, fu') = (Ok (GR_weight w), d2) ->
  greatest (fun v => (exists m, root_max_len d pk m /\ v = 2 ^ m) \/ exists c, In c cs /\ lasting b c /\ cert_weight d c v) w /\
  (w = 0 <-> ~ is_root d pk /\ forall c, In c cs -> ~ lasting b c).
Proof. exact p_C211_weights. Qed.
Print Assumptions C211_weights.

(** At the service: the records of a certificate are told exactly until one of them expires. *)
Theorem C211_service : forall C d cp p ts rs d1 es cp' ts', crypto_laws C -> service_reachable C d -> ts <= ts' -> ts' < i64_bound ->
  service_step C d (cp, S_get_all_certs p ts, None) = (Ok (mk_response true None (P_certs rs)), d1) -> service_events_typed es -> s_asked_until ts' es -> host_time cp' 1 ->
  exists rs', fst (service_step C (service_history C d1 es) (cp', S_get_all_certs p ts', None)) = Ok (mk_response true None (P_certs rs')) /\
    forall x, In x rs' <-> In x rs /\ s_lasting ts' x.
Proof. exact p_C211_service. Qed.
Print Assumptions C211_service.

(** The weight of the peer at every later time can be told from them. *)
Theorem C211_service_weight : forall C d cp p k ts rs d1 es cp' ts', crypto_laws C -> wasm32 C = true -> service_reachable C d -> small d -> ts <= ts' -> ts' < i64_bound -> peer_key C p k ->
  service_step C d (cp, S_get_all_certs p ts, None) = (Ok (mk_response true None (P_certs rs)), d1) -> service_events_typed es -> s_asked_until ts' es -> host_time cp' 1 ->
  exists w, fst (service_step C (service_history C d1 es) (cp', S_get_weight p ts', None)) = Ok (mk_response true None (P_weight w p)) /\
    greatest (fun v => (exists m, root_max_len d k m /\ v = 2 ^ m) \/ exists x, In x rs /\ s_lasting ts' x /\ record_weight C d x v) w /\
    (w = 0 <-> ~ is_root d k /\ forall x, In x rs -> ~ s_lasting ts' x).
Proof. exact p_C211_service_weight. Qed.
Print Assumptions C211_service_weight.

(** B has two certificates, of which one lasts until second 700. *)
Example C211_example_two_ways : reachable W (db_of (after two_ways)) /\ small (db_of (after two_ways)) /\ in_order (at_ 10) (at_ 700) /\ asked_until (at_ 700) (no_failures asked_meanwhile) /\
  fst (graph_step W (db_of (after two_ways)) (G_get_all_certs (toy_key B) (at_ 10), None)) = Ok (GR_certs [way1; way2]) /\ ~ lasting (at_ 700) way1 /\ lasting (at_ 700) way2 /\ lasting (at_ 699) way1 /\
  answer_after W (db_of (after two_ways)) asked_meanwhile (G_get_all_certs (toy_key B) (at_ 700)) = Ok (GR_certs [way2]) /\
  answer_after W (db_of (after two_ways)) asked_meanwhile (G_weight (toy_key B) (at_ 699)) = Ok (GR_weight 16) /\
  answer_after W (db_of (after two_ways)) asked_meanwhile (G_weight (toy_key B) (at_ 700)) = Ok (GR_weight 8).
Proof. exact e_C211_two_ways. Qed.

(** The certificate of key 4 lasts until its trust of key 2 expires at second 900; then key 4 weighs nothing. *)
Example C211_example_served : service_reachable (toy true) longer_store /\ small longer_store /\ host_time (timed_call 1) 1 /\ peer_key (toy true) (pid 4) (toy_key 4) /\
  s_asked_until 900 [(timed_call 1, S_get_weight (pid 2) 700, None)] /\
  fst (service_step (toy true) longer_store (timed_call 1, S_get_all_certs (pid 4) 30, None)) = Ok (mk_response true None (P_certs [longer_cert])) /\
  s_lasting 899 longer_cert /\ ~ s_lasting 900 longer_cert /\
  map (fun ts => fst (service_step (toy true) (service_history (toy true) longer_store [(timed_call 1, S_get_all_certs (pid 4) 30, None); (timed_call 1, S_get_weight (pid 2) 700, None)])
    (timed_call 1, S_get_weight (pid 4) ts, None))) [899; 900] = [Ok (mk_response true None (P_weight 4 (pid 4))); Ok (mk_response true None (P_weight 0 (pid 4)))].
Proof. exact e_C211_served. Qed.
