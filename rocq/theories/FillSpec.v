(** Who can make a store grow: the words of C190. *)
From Coq Require Import List NArith Bool.
From Verif Require Import Base Text Keys Trust Certificate Relation Storage Graph Service Spec ServiceSpec.
Import ListNotations.
Open Scope N_scope.

(** There is a path of stored trusts from a root to the key. Whether they expired, and revocations, play no part. *)
Inductive reached (d : db) : public_key -> Prop :=
| reached_root : forall k, is_root d k -> reached d k
| reached_by : forall b t, reached d b -> stored_trust d b t -> reached d (issued_for t).

(** Calls of people without the signatures of keys that the store [d] reaches: whatever has a good signature in the calls
    that the service admits is signed by other keys, and nobody sets a root. *)
Definition strangers (C : crypto) (d : db) (es : list service_event) : Prop :=
  forall cp c fu g, In (cp, c, fu) es -> requests C cp c g -> admitted cp c ->
    (forall k n, g <> G_set_root k n) /\ forall x, offers g x -> genuine C g x -> ~ reached d (rel_issued_by x).

(** Of how many rows the table of relations is. *)
Definition rows (d : db) : nat := length (tbl_relations d).

(** Records and the revocations they tell, brought one by one with the time [ts]. *)
Definition flood (cp : call_params) (ts : N) (rvs : list (dto_revocation * revocation)) : list service_event :=
  map (fun rv => (cp, S_revoke (fst rv) ts, None)) rvs.
