(** Scripts of guests: users of a node who do not own it and lack the signatures of others. *)
From Coq Require Import List NArith ZArith Bool Permutation.
From Verif Require Import Base Text Keys Trust Certificate Relation Storage Graph Service Spec ServiceSpec Aqua AquaSpec Sched SchedSpec InfluenceSpec VisitorSpec.
Import ListNotations.
Open Scope N_scope.

(** What happens on the network up to the time [now] of the node [n]: nobody who owns the node sets a root there, its clock does not go
    beyond [now], and every relation that a script brings to it, if its signature is good, satisfies [P] or is superseded there. *)
Definition guests (C : crypto) (P : relation -> Prop) (st : stores) (clocks : text -> N) (evs : schedule) (n : text) (now : duration) : Prop :=
  (forall net src q, In (E_start net src q) evs -> request_node q = Some n -> owns net n -> root_of (alone q 0 0) = None) /\
  (forall t, said clocks evs n t -> in_order (from_secs t) now) /\
  (forall y, brought C clocks evs n y -> P y \/ superseded (st n) now y).

(** A question about certificates, weights or labels at second [t], asked on the node [n]. *)
Definition questions_at (n : text) (t : N) (a : api_call) : Prop :=
  (exists p, a = A_get_weight n p t) \/ (exists p i, a = A_get_weight_from n p i t) \/ (exists p, a = A_get_all_certs n p t) \/
  (exists p i, a = A_get_all_certs_from n p i t) \/ a = A_get_host_certs n t \/ (exists i, a = A_get_host_certs_from n i t) \/ a = A_is_fluence_peer n t.

(** The same answer, certificates up to their order. *)
Definition same_told (x y : result Empty_set answer) : Prop :=
  match x, y with
  | Ok (N_response r), Ok (N_response r') => same_response (Ok r) (Ok r')
  | _, _ => x = y
  end.
