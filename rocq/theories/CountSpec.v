(** How many statements of the database calls need: the words of C193. *)
From Coq Require Import List NArith.
From Verif Require Import Base Text Keys Trust Certificate Relation Storage Graph Service Spec ServiceSpec.
Import ListNotations.

(** The call never runs more than [k] statements on this database: the failure of a later one makes no difference. *)
Definition at_most (C : crypto) (d : db) (c : graph_call) (k : nat) : Prop :=
  forall n, (k <= n)%nat -> graph_step C d (c, Some n) = graph_step C d (c, None).
Definition service_at_most (C : crypto) (d : db) (cp : call_params) (c : service_call) (k : nat) : Prop :=
  forall n, (k <= n)%nat -> service_step C d (cp, c, Some n) = service_step C d (cp, c, None).
