(** How many statements of the database calls need. Every proof is a lemma of CountThms.v. *)
From Coq Require Import List NArith ZArith Bool.
From Verif Require Import Base Text Keys Trust Certificate Relation Storage Graph Service Spec ServiceSpec CountSpec.
From Verif Require Import Toy Witness ServiceWitness GraphFacts StateFacts CountThms.
Import ListNotations.
Open Scope N_scope.

(** ** C193 *)
(** The library: a revocation takes at most two statements, setting a root and asking for revocations one, whatever the tables hold. *)
Theorem C193_revoke : forall C d v, at_most C d (G_revoke v) 2.
Proof. exact p_C193_revoke. Qed.
Print Assumptions C193_revoke.

(** Setting a root. *)
Theorem C193_set_root : forall C d k n, at_most C d (G_set_root k n) 1.
Proof. exact p_C193_set_root. Qed.
Print Assumptions C193_set_root.

(** Asking for the revocations of a key. *)
Theorem C193_revocations : forall C d k, at_most C d (G_get_revocations k) 1.
Proof. exact p_C193_revocations. Qed.
Print Assumptions C193_revocations.

(** A trust that does not verify costs no statement. *)
Theorem C193_refused : forall C d t b now e, trust_verify C t b now = Err e -> at_most C d (G_add_trust t b now) 0.
Proof. exact p_C193_refused. Qed.
Print Assumptions C193_refused.

(** The service: as many, and none where it only computes. *)
Theorem C193_service : forall C d cp c, 
  match c with
  | S_revoke _ _ => service_at_most C d cp c 2
  | S_set_root _ _ | S_export_revocations _ => service_at_most C d cp c 1
  | _ => local_call c = true -> service_at_most C d cp c 0
  end.
Proof. exact p_C193_service. Qed.
Print Assumptions C193_service.

(** No fewer will do: there is a store on which the second statement of a revocation, and the first of the others, makes a difference. *)
Theorem C193_least : exists C d v k, reachable C d /\ ~ at_most C d (G_revoke v) 1 /\ ~ at_most C d (G_set_root k 5) 0 /\ ~ at_most C d (G_get_revocations k) 0.
Proof. exact p_C193_least. Qed.
Print Assumptions C193_least.

(** A store with three rows, and a revocation that replaces one of them. *)
Example C193_example_revoke : graph_step W (db_of (after short)) (G_revoke (toy_rev R A 80), Some 2%nat) = graph_step W (db_of (after short)) (G_revoke (toy_rev R A 80), None) /\
  fst (graph_step W (db_of (after short)) (G_revoke (toy_rev R A 80), Some 2%nat)) = Ok GR_unit /\
  trust_verify W (toy_trust R A 3 1) (toy_key R) (from_secs 5) = Err (TE_Expired (from_secs 3) (from_secs 5)).
Proof. exact e_C193_revoke. Qed.
