(** The library over any storage. Every proof is a lemma of AnyStoreThms.v. *)
From Coq Require Import List NArith ZArith Bool.
From Verif Require Import Base Text Keys Trust Certificate Relation Storage Graph Spec MachineSpec ScanSpec AnyStore AnyStoreSpec.
From Verif Require Import Toy Witness AnyStoreThms.
Import ListNotations.
Open Scope N_scope.

(** ** C187 *)
(** Over every storage that keeps the contract, a history of calls from an empty state answers as over an empty database of SQLite, failures of the storage
    being failures of a statement, and in the end the storage holds what the database holds. *)
Theorem C187_any_storage : forall C St Er (T : storage St Er) good contents factor size, keeps C St Er T good contents factor size ->
  forall s cs len, good s -> contents s = [] -> (forall k, factor s k = None) -> Forall (fun c => call_typed C c /\ plain_call c /\ lengths_as len c) cs ->
  exists fs, length fs = length cs /\
    Forall2 same_outcome (fst (any_run C St Er T size s cs)) (answers C empty_db (combine cs fs)) /\
    Forall2 (fun r f => f <> None -> storage_failed r) (fst (any_run C St Er T size s cs)) fs /\
    (forall x, In x (contents (snd (any_run C St Er T size s cs))) <-> stored (graph_history C empty_db (combine cs fs)) x) /\
    (forall k, factor (snd (any_run C St Er T size s cs)) k = kept_factor (graph_history C empty_db (combine cs fs)) k).
Proof. exact p_C187_any_storage. Qed.
Print Assumptions C187_any_storage.

(** Two storages whose methods never fail cannot be told apart: the same calls get the same answers, and both hold the same. *)
Theorem C187_interchangeable : forall C St St' (T : storage St Empty_set) (T' : storage St' Empty_set) good good' contents contents' factor factor' size size',
  keeps C St Empty_set T good contents factor size -> keeps C St' Empty_set T' good' contents' factor' size' ->
  forall s s' cs len, good s -> good' s' -> contents s = [] -> contents' s' = [] -> (forall k, factor s k = None) -> (forall k, factor' s' k = None) ->
  Forall (fun c => call_typed C c /\ plain_call c /\ lengths_as len c) cs ->
  let ran := any_run C St Empty_set T size s cs in let ran' := any_run C St' Empty_set T' size' s' cs in
  Forall2 (fun r r' => exists r0, same_outcome r r0 /\ same_outcome r' r0) (fst ran) (fst ran') /\
  (forall x, In x (contents (snd ran)) <-> In x (contents' (snd ran'))) /\ forall k, factor (snd ran) k = factor' (snd ran') k.
Proof. exact p_C187_interchangeable. Qed.
Print Assumptions C187_interchangeable.

(** The code of Graph.v is this code over the storage of SQLite. *)
Theorem C187_sqlite_is_one : forall C c w, any_do C world storage_error (sqlite C) sqlite_size c w =
  match graph_do C c w with (r, w') => (map_err (fun e => match e with GE_InternalStorage e => X_storage e | _ => X_other e end) r, w') end.
Proof. exact p_C187_sqlite_is_one. Qed.
Print Assumptions C187_sqlite_is_one.

(** The storage of SQLite keeps the contract, whichever statements fail. *)
Theorem C187_sqlite_keeps : forall C, keeps C world storage_error (sqlite C) (sqlite_good C) (sqlite_contents C) (fun w => kept_factor (w_db w)) sqlite_size.
Proof. exact p_C187_sqlite_keeps. Qed.
Print Assumptions C187_sqlite_keeps.

(** A storage that keeps relations in memory, the newest first, and the last length given to a root keeps the contract. *)
Theorem C187_memory_keeps : forall C, keeps C memory Empty_set in_memory m_good m_relations m_factor (fun m => length (m_relations m)).
Proof. exact p_C187_memory_keeps. Qed.
Print Assumptions C187_memory_keeps.

(** [diamond] over the storage in memory meets the hypotheses, and its two certificates come in the other order than from SQLite. *)
Example C187_example_memory : m_good (mk_memory [] []) /\ Forall (fun c => call_typed (toy false) c /\ plain_call c /\ lengths_as (fun _ => 5) c) diamond /\
  exists a b : certificate, a <> b /\
    nth_error (fst (any_run (toy false) memory Empty_set in_memory (fun m => length (m_relations m)) (mk_memory [] []) diamond)) 6 = Some (Ok (GR_certs [b; a])) /\
    nth_error (answers (toy false) empty_db (map (fun c => (c, None)) diamond)) 6 = Some (Ok (GR_certs [a; b])).
Proof. exact e_C187_memory. Qed.

(** Without the condition on lengths storages can be told apart: a root set with 5 and then with 2 weighs 32 over SQLite, which keeps the first, and 4 in memory, which keeps the last. *)
Example C187_example_two_lengths : let cs := [G_set_root (toy_key R) 5; G_set_root (toy_key R) 2; G_weight (toy_key R) (at_ 5)] in
  answers (toy false) empty_db (map (fun c => (c, None)) cs) = [Ok GR_unit; Ok GR_unit; Ok (GR_weight 32)] /\
  fst (any_run (toy false) memory Empty_set in_memory (fun m => length (m_relations m)) (mk_memory [] []) cs) = [Ok GR_unit; Ok GR_unit; Ok (GR_weight 4)].
Proof. exact e_C187_two_lengths. Qed.

(** Without the condition on times they can too: a revocation at 9.5 seconds comes back as one at 9 seconds from SQLite, and as it was from memory. *)
Example C187_example_half_second : let v := mk_rev (toy_key B) (mk_duration 9 500000000) (toy_key R) (rev_sig (toy_rev R B 9)) in
  answers (toy false) empty_db (map (fun c => (c, None)) [G_revoke v; G_get_revocations (toy_key B)]) = [Ok GR_unit; Ok (GR_revs [toy_rev R B 9])] /\
  fst (any_run (toy false) memory Empty_set in_memory (fun m => length (m_relations m)) (mk_memory [] []) [G_revoke v; G_get_revocations (toy_key B)]) = [Ok GR_unit; Ok (GR_revs [v])].
Proof. exact e_C187_half_second. Qed.

(** A failure of SQLite's storage over this code: the third statement of the first call fails. *)
Example C187_example_fails : sqlite_good (toy false) (mk_world empty_db (Some 2%nat)) /\
  fst (any_run (toy false) world storage_error (sqlite (toy false)) sqlite_size (mk_world empty_db (Some 2%nat)) [G_weight (toy_key R) (at_ 5)]) = [Err (X_storage SE_SQLite)].
Proof. exact e_C187_fails. Qed.
