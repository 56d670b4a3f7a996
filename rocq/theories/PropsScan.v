(** Rows in any order. Every proof is a lemma of ScanThms.v or ScanServiceThms.v. *)
From Coq Require Import List NArith ZArith Bool Permutation.
From Verif Require Import Base Text Keys Trust Certificate Relation Storage Graph Service Spec ServiceSpec MachineSpec ServiceMachine Scan ScanSpec Toy Witness ServiceWitness ScanThms ScanServiceThms.
Import ListNotations.
Open Scope N_scope.

(** ** C180 *)
(** Whatever order the database gives rows in, query by query, a history leaves the database that it leaves with the rows in the order of the table, and every call answers the same, with lists of certificates and of revocations up to their order; failures of statements included. *)
Theorem C180_any_order : forall C es d, reachable C d -> Forall (fun e : scanned => call_typed C (fst (fst e)) /\ honest (snd e)) es ->
  Forall2 same_answer (fst (scanned_run C d es)) (answers C d (map fst es)) /\ snd (scanned_run C d es) = graph_history C d (map fst es).
Proof. exact p_C180_any_order. Qed.
Print Assumptions C180_any_order.

(** In every order, too, certificates come shorter ones first and without repetition. *)
Theorem C180_shorter_first : forall C o d pk now fu cs d', reachable C d -> call_typed C (G_get_all_certs pk now) -> honest o ->
  graph_step_o C o d (G_get_all_certs pk now, fu) = (Ok (GR_certs cs), d') ->
  NoDup cs /\ forall i j a b, (i < j)%nat -> nth_error cs i = Some a -> nth_error cs j = Some b -> (length a <= length b)%nat.
Proof. exact p_C180_shorter_first. Qed.
Print Assumptions C180_shorter_first.

(** The certificates of [diamond] come in the other order when every query gives its rows backwards. *)
Example C180_example_backwards : exists a b : certificate, a <> b /\
  nth_error (fst (scanned_run (toy false) empty_db (map (fun c => (c, None, by_row)) diamond))) 6 = Some (Ok (GR_certs [a; b])) /\
  nth_error (fst (scanned_run (toy false) empty_db (map (fun c => (c, None, backwards)) diamond))) 6 = Some (Ok (GR_certs [b; a])).
Proof. exact e_C180_backwards. Qed.

(** It meets the hypotheses. *)
Example C180_example_hypotheses : reachable (toy false) empty_db /\ Forall (fun e : scanned => call_typed (toy false) (fst (fst e)) /\ honest (snd e)) (map (fun c => (c, None, backwards)) diamond).
Proof. exact e_C180_hypotheses. Qed.

(** The same of histories of service calls by any callers. *)
Theorem C180_service_any_order : forall C es d, crypto_laws C -> service_reachable C d -> Forall (fun e : scanned_service => service_typed (snd (fst (fst e))) /\ honest (snd e)) es ->
  Forall2 same_told (fst (served_run C d es)) (responses C d (map fst es)) /\ snd (served_run C d es) = service_history C d (map fst es).
Proof. exact p_C180_service_any_order. Qed.
Print Assumptions C180_service_any_order.

(** Two revocations of one key, read by a stranger: the records come in the other order. *)
Example C180_example_served_backwards : exists a b : dto_revocation, a <> b /\
  nth_error (fst (served_run (toy true) empty_db (map (fun e => (e, by_row)) two_revocations))) 2 = Some (Ok (mk_response true None (P_revocations [a; b]))) /\
  nth_error (fst (served_run (toy true) empty_db (map (fun e => (e, backwards)) two_revocations))) 2 = Some (Ok (mk_response true None (P_revocations [b; a]))).
Proof. exact e_C180_served_backwards. Qed.

(** It meets the hypotheses. *)
Example C180_example_served_hypotheses : crypto_laws (toy true) /\ service_reachable (toy true) empty_db /\
  Forall (fun e : scanned_service => service_typed (snd (fst (fst e))) /\ honest (snd e)) (map (fun e => (e, backwards)) two_revocations).
Proof. exact e_C180_served_hypotheses. Qed.
