(** What a new root adds. Every proof is a lemma of CrownThms.v. *)
From Coq Require Import List NArith ZArith Bool.
From Verif Require Import Base Text Keys Trust Certificate Relation Storage Graph GraphFacts Service Spec ServiceSpec.

From Verif Require Import Toy Witness ServiceWitness ReadmeThms SeverThms ServedBackThms CrownThms InfluenceSpec ExtendSpec CrownSpec.
Import ListNotations.
Open Scope N_scope.

(** ** C214 *)
(** Once a root was set, the certificates of before are told, and those that begin with the trust of the root for itself. *)
Theorem C214_certificates : forall C d k n fu d' pk now fu1 fu2 cs cs' d1 d2, reachable C d -> call_typed C (G_set_root k n) -> call_typed C (G_get_all_certs pk now) ->
  graph_step C d (G_set_root k n, fu) = (Ok GR_unit, d') ->
  graph_step C d (G_get_all_certs pk now, fu1) = (Ok (GR_certs cs), d1) -> graph_step C d' (G_get_all_certs pk now, fu2) = (Ok (GR_certs cs'), d2) ->
  forall c, In c cs' <-> In c cs \/ chain_below d now k pk c.
Proof. exact p_C214_certificates. Qed.
Print Assumptions C214_certificates.

(** Setting a root again changes no certificates. *)
Theorem C214_again : forall C d k n fu d' pk now fu1 fu2 cs cs' d1 d2, reachable C d -> call_typed C (G_set_root k n) -> call_typed C (G_get_all_certs pk now) -> is_root d k ->
  graph_step C d (G_set_root k n, fu) = (Ok GR_unit, d') ->
  graph_step C d (G_get_all_certs pk now, fu1) = (Ok (GR_certs cs), d1) -> graph_step C d' (G_get_all_certs pk now, fu2) = (Ok (GR_certs cs'), d2) ->
  forall c, In c cs' <-> In c cs.
Proof. exact p_C214_again. Qed.
Print Assumptions C214_again.

(** The weight of a key is then the greatest of what it was, what those certificates give it, and what it has as that root; if the root was one before, it is what it was. *)
Theorem C214_weights : forall C d k n fu d' pk now fu1 fu2 w1 w2 d1 d2, reachable C d -> small d -> call_typed C (G_set_root k n) -> call_typed C (G_weight pk now) ->
  graph_step C d (G_set_root k n, fu) = (Ok GR_unit, d') ->
  graph_step C d (G_weight pk now, fu1) = (Ok (GR_weight w1), d1) -> graph_step C d' (G_weight pk now, fu2) = (Ok (GR_weight w2), d2) ->
  (is_root d k -> w2 = w1) /\
  (~ is_root d k -> greatest (fun x => x = w1 \/ (pk = k /\ x = 2 ^ N.min n 16) \/ exists c, chain_below d now k pk c /\ x = chain_weight (N.min n 16) (length c - 1)) w2).
Proof. exact p_C214_weights. Qed.
Print Assumptions C214_weights.

(** At the service: once the owner has set a root, the records told of before are told, and beyond them only records of certificates that begin with the peer; none if the peer was a root before. *)
Theorem C214_service : forall C d p k n cp d' q ts cp1 cp2 rs, crypto_laws C -> wasm32 C = true -> service_reachable C d -> peer_key C p k -> service_typed (S_set_root p n) -> ts < u64_bound ->
  service_step C d (cp, S_set_root p n, None) = (Ok (mk_response true None P_none), d') ->
  fst (service_step C d (cp1, S_get_all_certs q ts, None)) = Ok (mk_response true None (P_certs rs)) -> host_time cp2 1 ->
  exists rs', fst (service_step C d' (cp2, S_get_all_certs q ts, None)) = Ok (mk_response true None (P_certs rs')) /\
    (forall x, In x rs -> In x rs') /\ (forall x, In x rs' -> In x rs \/ names C x 0 k) /\ (is_root d k -> forall x, In x rs' -> In x rs).
Proof. exact p_C214_service. Qed.
Print Assumptions C214_service.

Example C214_example_own_trust : reachable W (db_of (after own_trust)) /\ small (db_of (after own_trust)) /\ call_typed W (G_set_root (toy_key A) 9) /\
  fst (graph_step W (db_of (after own_trust)) (G_set_root (toy_key A) 9, None)) = Ok GR_unit /\
  fst (graph_step W (db_of (after own_trust)) (G_weight (toy_key D) (at_ 10), None)) = Ok (GR_weight 2) /\
  fst (graph_step W (db_of (after own_trust)) (G_get_all_certs (toy_key D) (at_ 10), None)) =
    Ok (GR_certs [faq_cert; [toy_trust R R 1000 1; toy_trust R A 900 1; toy_trust A A 900 1; toy_trust A B 800 1; toy_trust B D 700 1]]) /\
  answer_after W (db_of (after own_trust)) [G_set_root (toy_key A) 9] (G_weight (toy_key D) (at_ 10)) = Ok (GR_weight 128) /\
  answer_after W (db_of (after own_trust)) [G_set_root (toy_key A) 9] (G_get_all_certs (toy_key D) (at_ 10)) =
    Ok (GR_certs [[toy_trust A A 900 1; toy_trust A B 800 1; toy_trust B D 700 1]; faq_cert; [toy_trust R R 1000 1; toy_trust R A 900 1; toy_trust A A 900 1; toy_trust A B 800 1; toy_trust B D 700 1]]) /\
  answer_after W (db_of (after own_trust)) [G_set_root (toy_key R) 9] (G_weight (toy_key D) (at_ 10)) = Ok (GR_weight 2).
Proof. exact e_C214_own_trust. Qed.

(** The owner of the service makes key 2 a root, which is trusted by key 1 and trusts key 4: what is told of key 4 stays, for key 2 has given no record to itself. Key 1 is a root already. *)
Example C214_example_served : service_reachable (toy true) grown_store /\ peer_key (toy true) (pid 2) (toy_key 2) /\ service_typed (S_set_root (pid 2) 9) /\ host_time (timed_call 1) 1 /\
  fst (service_step (toy true) grown_store (owner_call, S_set_root (pid 2) 9, None)) = Ok (mk_response true None P_none) /\
  fst (service_step (toy true) grown_store (timed_call 1, S_get_all_certs (pid 4) 96, None)) = Ok (mk_response true None (P_certs [[trust_rec 1 1 1000 1; trust_rec 1 2 900 1; trust_rec 2 4 800 5]])) /\
  fst (service_step (toy true) (snd (service_step (toy true) grown_store (owner_call, S_set_root (pid 2) 9, None))) (timed_call 1, S_get_all_certs (pid 4) 96, None)) =
    Ok (mk_response true None (P_certs [[trust_rec 1 1 1000 1; trust_rec 1 2 900 1; trust_rec 2 4 800 5]])) /\
  let d := service_history (toy true) grown_store [(owner_call, S_set_root (pid 2) 9, None); (timed_call 2, S_add_trust (trust_rec 2 2 700 90) (pid 2) 95, None)] in
  fst (service_step (toy true) d (timed_call 1, S_get_all_certs (pid 4) 96, None)) =
    Ok (mk_response true None (P_certs [[trust_rec 2 2 700 90; trust_rec 2 4 800 5]; [trust_rec 1 1 1000 1; trust_rec 1 2 900 1; trust_rec 2 4 800 5]; [trust_rec 1 1 1000 1; trust_rec 1 2 900 1; trust_rec 2 2 700 90; trust_rec 2 4 800 5]])).
Proof. exact e_C214_served. Qed.
