(** The library and the service as one abstract machine, and what visitors of the service cannot do. Every proof is a lemma of MachineThms.v, ServiceMachineThms.v or VisitorThms.v. *)
From Coq Require Import List NArith ZArith Bool.
From Verif Require Import Base Text Keys Trust Certificate Relation Storage Graph Service Spec ServiceSpec Toy ToyFacts GraphFacts Witness ServiceThms ServiceWitness InfluenceSpec MachineSpec MachineThms ServiceMachine ServiceMachineThms VisitorSpec VisitorThms.
Import ListNotations.
Open Scope N_scope.

(** ** C155 *)
(** Every history of calls, with the database failing in any of them: the answers are answers of the machine, and the store ends with
    what the machine ends with. *)
Theorem C155_library_is_machine : forall C d es, reachable C d -> typed_history C es -> few d es ->
  exists as_ m, m_run C (contents d) es as_ m /\ Forall2 shows (answers C d es) as_ /\ same_machine (contents (graph_history C d es)) m.
Proof. exact p_C155_library_is_machine. Qed.
Print Assumptions C155_library_is_machine.

(** From an empty store, the machine starts empty. *)
Theorem C155_from_the_start : forall C es, typed_history C es -> few empty_db es ->
  exists as_ m, m_run C empty_machine es as_ m /\ Forall2 shows (answers C empty_db es) as_ /\ same_machine (contents (graph_history C empty_db es)) m.
Proof. exact p_C155_from_the_start. Qed.
Print Assumptions C155_from_the_start.

(** The machine has no choice while nothing fails. *)
Theorem C155_machine_deterministic : forall C cs m n as_ bs m' n', same_machine m n -> m_run C m (no_failures cs) as_ m' -> m_run C n (no_failures cs) bs n' ->
  Forall2 same_reply as_ bs /\ same_machine m' n'.
Proof. exact p_C155_machine_deterministic. Qed.
Print Assumptions C155_machine_deterministic.

(** So whatever the machine answers is what the library answers. *)
Theorem C155_machine_is_library : forall C d cs as_ m, reachable C d -> Forall (call_typed C) cs -> few d (no_failures cs) ->
  m_run C (contents d) (no_failures cs) as_ m ->
  Forall2 shows (answers C d (no_failures cs)) as_ /\ same_machine (contents (graph_history C d (no_failures cs))) m.
Proof. exact p_C155_machine_is_library. Qed.
Print Assumptions C155_machine_is_library.

(** Adding A's trust fails in the database at first, then succeeds; A's revocation of itself counts for nothing. *)
Example C155_example_run : typed_history (toy false) tried /\ few empty_db tried /\
  exists m, m_run (toy false) empty_machine tried [A_done; A_weight 16; A_refused; A_weight 8; A_done; A_weight 8] m /\ holds m (RRev (toy_rev A A 7)).
Proof. exact e_C155_run. Qed.

(** ** C156 *)
(** Every history of service calls, by any callers and with the database failing in any of them. *)
Theorem C156_service_is_machine : forall C d es, crypto_laws C -> wasm32 C = true -> service_reachable C d -> service_events_typed es -> s_few d es ->
  exists m, s_run C (contents d) es (responses C d es) m /\ same_machine (contents (service_history C d es)) m.
Proof. exact p_C156_service_is_machine. Qed.
Print Assumptions C156_service_is_machine.

(** From an empty store, the machine starts empty. *)
Theorem C156_from_the_start : forall C es, crypto_laws C -> wasm32 C = true -> service_events_typed es -> s_few empty_db es ->
  exists m, s_run C empty_machine es (responses C empty_db es) m /\ same_machine (contents (service_history C empty_db es)) m.
Proof. exact p_C156_from_the_start. Qed.
Print Assumptions C156_from_the_start.

(** A stranger's weight query with a time of their own is kept out, the same with the host's time is answered, and an empty text panics. *)
Example C156_example_run : crypto_laws (toy true) /\ wasm32 (toy true) = true /\ service_events_typed visited /\ s_few empty_db visited /\
  skipn 3 (responses (toy true) empty_db visited) =
    [Ok (mk_response false (Some SVE_InvalidTimestampTetraplet) (P_weight 0 [])); Ok (mk_response true None (P_weight 16 (pid 2))); Panic].
Proof. exact e_C156_run. Qed.

(** ** C157 *)
(** Visitors who bring nothing signed by keys with a path of trusts from a root, but what the store has or has newer, change no response
    about any key's certificates and weight at [now]. *)
Theorem C157_visitors : forall C d es now pk cp q g, crypto_laws C -> service_reachable C d -> service_events_typed es ->
  visits C (fun x => ~ linked d now (rel_issued_by x)) d now es -> small d -> small (service_history C d es) ->
  service_typed q -> requests C cp q g -> admitted cp q -> about pk now g ->
  same_response (fst (service_step C d (cp, q, None))) (fst (service_step C (service_history C d es) (cp, q, None))).
Proof. exact p_C157_visitors. Qed.
Print Assumptions C157_visitors.

(** The stranger inserts their own certificate, brings a trust that is stored already, passes their own trust off as one of the root, and revokes
    key 2, which keeps the weight 16. *)
Example C157_example_intruders : service_events_typed intruders /\
  visits (toy true) (fun x => ~ linked base_store (from_secs 6) (rel_issued_by x)) base_store (from_secs 6) intruders /\
  stored_revocation (service_history (toy true) base_store intruders) (toy_rev 7 2 6) /\
  small base_store /\ small (service_history (toy true) base_store intruders) /\
  map (fun d => told_weight (service_step (toy true) d (timed_call 1, S_get_weight (pid 2) 6, None))) [base_store; service_history (toy true) base_store intruders] = [Some 16; Some 16].
Proof. exact e_C157_intruders. Qed.

(** ** C158 *)
(** Nobody changes the weight the service tells of a key with that key's signatures alone, replays and made-up records. *)
Theorem C158_own_weight : forall C d es pk cp p ts, crypto_laws C -> service_reachable C d -> service_events_typed es ->
  visits C (fun x => rel_issued_by x = pk) d (from_secs ts) es -> small d -> small (service_history C d es) ->
  ts < u64_bound -> peer_key C p pk ->
  fst (service_step C (service_history C d es) (cp, S_get_weight p ts, None)) = fst (service_step C d (cp, S_get_weight p ts, None)).
Proof. exact p_C158_own_weight. Qed.
Print Assumptions C158_own_weight.

(** Key 2 trusts itself and revokes the root; its weight is 16 before and after. *)
Example C158_example_two : service_events_typed by_two /\ visits (toy true) (fun x => rel_issued_by x = toy_key 2) base_store (from_secs 6) by_two /\
  stored_trust (service_history (toy true) base_store by_two) (toy_key 2) (toy_trust 2 2 9000 1) /\
  map (fun d => told_weight (service_step (toy true) d (timed_call 1, S_get_weight (pid 2) 6, None))) [base_store; service_history (toy true) base_store by_two] = [Some 16; Some 16].
Proof. exact e_C158_two. Qed.
