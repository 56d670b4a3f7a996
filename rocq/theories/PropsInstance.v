(** The properties of the running service over starts, crashes and bad calls. Every proof is a lemma of InstanceThms.v. *)
From Coq Require Import List NArith ZArith Bool.
From Coq Require String.
Import String.StringSyntax.
From Verif Require Import Base Text Keys Trust Certificate Storage Graph Service Instance Toy ServiceSpec ServiceWitness InstanceSpec InstanceThms.
Import ListNotations.
Open Scope N_scope.

(** ** C102 *)
(** After one call with a text that makes the certificate parser panic, every later use of the graph traps until the
    service is started again; the store stays as it was. *)
Theorem C102_disabled : forall C m cp s ts fu m' evs e o', crypto_laws C -> machine_reachable C false m -> running m ->
  cert_from_str C s = Panic -> m' = snd (machine_step C false m (E_call (cp, S_insert_cert_raw s ts, fu) true)) ->
  Forall is_call evs -> Forall machine_typed evs -> service_typed (snd (fst e)) -> graph_use (fst (fst e)) (snd (fst e)) ->
  fst (machine_step C false (machine_history C false m' evs) (E_call e o')) = Some Panic /\
  db_of (m_file (machine_history C false m' evs)) = db_of (m_file m).
Proof. exact p_C102_disabled. Qed.
Print Assumptions C102_disabled.

(** A started node, and a caller who is not the owner disables it. *)
Theorem C102_one_call_disables_refuted : exists C m cp m', crypto_laws C /\ machine_reachable C false m /\ running m /\ init_peer_id cp <> service_creator_peer_id cp /\
  snd (machine_step C false m (E_call (cp, S_insert_cert_raw [] 5, None) true)) = m' /\
  forall evs e, Forall is_call evs -> Forall machine_typed evs -> service_typed (snd (fst e)) -> graph_use (fst (fst e)) (snd (fst e)) ->
    fst (machine_step C false (machine_history C false m' evs) (E_call e true)) = Some Panic.
Proof. exact p_C102_one_call_disables_refuted. Qed.
Print Assumptions C102_one_call_disables_refuted.

(** ** C103 *)
(** When the database opens, a use of the graph traps exactly if the service has been given such a text since it
    was started, in this call or an earlier one; every other call is answered. *)
Theorem C103_answers_exactly : forall C evs e a, crypto_laws C -> Forall machine_typed (evs ++ [E_call e true]) -> Forall opens evs ->
  running (machine_history C false new_machine evs) ->
  fst (machine_step C false (machine_history C false new_machine evs) (E_call e true)) = a ->
  (a = Some Panic /\ graph_use (fst (fst e)) (snd (fst e)) /\ poisoned C false new_machine (evs ++ [E_call e true])) \/
  (exists resp, a = Some (Ok resp) /\ ~ (graph_use (fst (fst e)) (snd (fst e)) /\ poisoned C false new_machine (evs ++ [E_call e true]))).
Proof. exact p_C103_answers_exactly. Qed.
Print Assumptions C103_answers_exactly.

(** Whether or not the database can be opened: a use of the graph traps exactly if the database has not been opened since the start, or such a
    text came when it was open. *)
Theorem C103_open_or_not : forall C evs e o a, crypto_laws C -> Forall machine_typed (evs ++ [E_call e o]) -> running (machine_history C false new_machine evs) ->
  fst (machine_step C false (machine_history C false new_machine evs) (E_call e o)) = a ->
  let traps := graph_use (fst (fst e)) (snd (fst e)) /\
    (~ opened C false new_machine (evs ++ [E_call e o]) \/ poisoned_open C false new_machine (evs ++ [E_call e o])) in
  (a = Some Panic /\ traps) \/ (exists resp, a = Some (Ok resp) /\ ~ traps).
Proof. exact p_C103_open_or_not. Qed.
Print Assumptions C103_open_or_not.

(** A start without a failure makes any node, whatever happened before, run again. *)
Theorem C103_start_runs : forall C rn m, running (snd (machine_step C rn m (E_start None))).
Proof. exact p_C103_start_runs. Qed.
Print Assumptions C103_start_runs.

Theorem C103_renewed_answers : forall C m e m' a, crypto_laws C -> machine_reachable C true m -> running m -> service_typed (snd (fst e)) ->
  machine_step C true m (E_call e true) = (a, m') ->
  (exists resp, a = Some (Ok resp)) \/ (a = Some Panic /\ exists s ts, snd (fst e) = S_insert_cert_raw s ts /\ cert_from_str C s = Panic).
Proof. exact p_C103_renewed_answers. Qed.
Print Assumptions C103_renewed_answers.

(** The computing calls still answer. *)
Example C103_example_computing : exists resp, fst (machine_step (toy true) false (snd (machine_step (toy true) false started (E_call (owner_call, S_insert_cert_raw [] 5, None) true)))
    (E_call (owner_call, S_get_trust_bytes (pid 2) 9 5, None) true)) = Some (Ok resp) /\ success resp = true.
Proof. exact e_C103_computing. Qed.

(** The first use of the graph comes when the database cannot be opened, and traps; the same call is answered afterwards, and the next also if the
    database could not be opened any more. *)
Example C103_example_first_use : let c := E_call (owner_call, S_set_root (pid 1) 5, None) in let m := machine_history (toy true) false new_machine in
  fst (machine_step (toy true) false (m [E_start None]) (c false)) = Some Panic /\ ~ opened (toy true) false new_machine [E_start None; c false] /\
  (exists resp, fst (machine_step (toy true) false (m [E_start None; c false]) (c true)) = Some (Ok resp)) /\ opened (toy true) false new_machine [E_start None; c false; c true] /\
  (exists resp, fst (machine_step (toy true) false (m [E_start None; c false; c true]) (c false)) = Some (Ok resp)).
Proof. exact e_C103_first_use. Qed.

(** ** C104 *)
(** Over any life of the node the store is one that some history of service calls leaves: *)
Theorem C104_stores : forall C rn m, crypto_laws C -> machine_reachable C rn m -> service_reachable C (db_of (m_file m)).
Proof. exact p_C104_stores. Qed.
Print Assumptions C104_stores.

(** starts, stops and traps change no row, *)
Theorem C104_starts_keep : forall C rn m ev, (forall e o, ev <> E_call e o /\ ev <> E_kill e o) ->
  db_of (m_file (snd (machine_step C rn m ev))) = db_of (m_file m).
Proof. exact p_C104_starts_keep. Qed.
Print Assumptions C104_starts_keep.

Theorem C104_traps_keep : forall C rn m e o m', crypto_laws C -> machine_reachable C rn m -> service_typed (snd (fst e)) ->
  machine_step C rn m (E_call e o) = (Some Panic, m') -> db_of (m_file m') = db_of (m_file m).
Proof. exact p_C104_traps_keep. Qed.
Print Assumptions C104_traps_keep.

(** a service that runs has both tables, *)
Theorem C104_running_has_tables : forall C rn m, machine_reachable C rn m -> running m ->
  exists d, m_file m = with_db d.
Proof. exact p_C104_running_has_tables. Qed.
Print Assumptions C104_running_has_tables.

(** and its answers and effects are those of the service on the store. *)
Theorem C104_answers : forall C rn m e o resp m', crypto_laws C -> machine_reachable C rn m -> service_typed (snd (fst e)) ->
  machine_step C rn m (E_call e o) = (Some (Ok resp), m') -> service_step C (db_of (m_file m)) e = (Ok resp, db_of (m_file m')).
Proof. exact p_C104_answers. Qed.
Print Assumptions C104_answers.

(** A call cut short by a crash leaves what some call with a failing statement leaves. *)
Theorem C104_crash : forall C rn m e o, crypto_laws C -> machine_reachable C rn m -> service_typed (snd (fst e)) ->
  db_of (m_file (snd (machine_step C rn m (E_kill e o)))) = db_of (m_file m) \/
  db_of (m_file (snd (machine_step C rn m (E_kill e o)))) = snd (service_step C (db_of (m_file m)) e).
Proof. exact p_C104_crash. Qed.
Print Assumptions C104_crash.

(** A start that fails at the second table, a second start, a call, a crash and a start: the root set in between is there. *)
Example C104_example_life : let m := machine_history (toy true) false new_machine
    [E_start (Some 2%nat); E_start None; E_call (owner_call, S_set_root (pid 1) 5, None) true; E_kill (owner_call, S_set_root (pid 2) 4, Some 0%nat) true; E_start None] in
  running m /\ length (tbl_roots (db_of (m_file m))) = 1%nat.
Proof. exact e_C104_life. Qed.
