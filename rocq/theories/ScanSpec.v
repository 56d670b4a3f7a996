(** Histories over a database that returns rows in any order. *)
From Coq Require Import List NArith ZArith Bool Permutation.
From Verif Require Import Base Text Keys Trust Certificate Relation Storage Graph Service Spec Scan Toy Witness ServiceWitness.
Import ListNotations.
Open Scope N_scope.

(** Every query gives the rows that match, each once, in some order. *)
Definition honest (o : scan) : Prop :=
  forall d k ty, Permutation (o d k ty) (filter (fun r => bytes_eqb (r_for r) k && (r_type r =? ty)%Z) (tbl_relations d)).
(** The order of the table, and its reverse. *)
Definition by_row (d : db) (k : text) (ty : Z) : list row := filter (fun r => bytes_eqb (r_for r) k && (r_type r =? ty)%Z) (tbl_relations d).
Definition backwards (d : db) (k : text) (ty : Z) : list row := rev (by_row d k ty).

(** A history in which every call has orders of its own. *)
Definition scanned := (graph_call * option nat * scan)%type.
Fixpoint scanned_run (C : crypto) (d : db) (es : list scanned) : list (result graph_error graph_reply) * db :=
  match es with
  | [] => ([], d)
  | (c, fu, o) :: es' =>
      let (r, d') := graph_step_o C o d (c, fu) in
      let (rs, d2) := scanned_run C d' es' in (r :: rs, d2)
  end.
(** The same of calls of the service. *)
Definition scanned_service := (service_event * scan)%type.
Fixpoint served_run (C : crypto) (d : db) (es : list scanned_service) : list (result Empty_set response) * db :=
  match es with
  | [] => ([], d)
  | (e, o) :: es' =>
      let (r, d') := service_step_o C o d e in
      let (rs, d2) := served_run C d' es' in (r :: rs, d2)
  end.
(** The same response, with its certificates or revocations in any order. *)
Definition same_told (r r' : result Empty_set response) : Prop :=
  match r, r' with
  | Ok (mk_response s e (P_certs cs)), Ok (mk_response s' e' (P_certs cs')) => s = s' /\ e = e' /\ Permutation cs cs'
  | Ok (mk_response s e (P_revocations vs)), Ok (mk_response s' e' (P_revocations vs')) => s = s' /\ e = e' /\ Permutation vs vs'
  | _, _ => r = r'
  end.
(** A root, two keys it trusts, and a key both trust, while the last call asks for the certificates of that key. *)
Definition diamond : list graph_call := base ++
  [G_add_trust (toy_trust R A 900 1) (toy_key R) (at_ 5); G_add_trust (toy_trust R D 900 1) (toy_key R) (at_ 5);
   G_add_trust (toy_trust A B 800 1) (toy_key A) (at_ 5); G_add_trust (toy_trust D B 800 1) (toy_key D) (at_ 5); G_get_all_certs (toy_key B) (at_ 6)].
(** Two keys revoke a third, while the last call asks for its revocations. *)
Definition two_revocations : list service_event :=
  [(timed_call 1, S_revoke (rev_rec 1 2 5) 6, None); (timed_call 1, S_revoke (rev_rec 3 2 5) 6, None); (script_call, S_export_revocations (pid 2), None)].
