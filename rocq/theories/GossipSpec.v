(** Nodes that hear the same trusts. *)
From Coq Require Import List NArith ZArith Bool.
From Verif Require Import Base Text Keys Trust Certificate Relation Storage Graph Spec.
Import ListNotations.
Open Scope N_scope.

(** A trust and the key that gives it; offering it to a store. *)
Definition piece := (trust * public_key)%type.
Definition offer (now : duration) (p : piece) : graph_call := G_add_trust (fst p) (snd p) now.
(** Signed trusts in whole seconds that are still good at [now]. Of one key for another there is one for every time. *)
Definition news (C : crypto) (now : duration) (T : list piece) : Prop :=
  (forall t b, In (t, b) T -> trust_typed C t /\ pk_valid C b /\ signed_trust C b t /\ whole_trust t = t /\ secs now < secs (expires_at t) < i64_bound) /\
  (forall t t' b, In (t, b) T -> In (t', b) T -> issued_for t = issued_for t' -> issued_at t = issued_at t' -> t = t').
(** Offering any of them once more would change nothing. *)
Definition settled (C : crypto) (d : db) (now : duration) (T : list piece) : Prop :=
  forall p x, In p T -> (stored (snd (graph_step C d (offer now p, None))) x <-> stored d x).
(** A round offers each of them at least once, in any order, and nothing else. *)
Definition a_round (T r : list piece) : Prop := forall p, In p r <-> In p T.
