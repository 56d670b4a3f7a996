(** What the README promises, in terms of what the store contains. *)
From Coq Require Import List NArith ZArith Bool.
From Verif Require Import Base Text Keys Trust Certificate Relation Storage Graph Spec.
Import ListNotations.
Open Scope N_scope.

(** README.md 44-46: a path to a root has only trusts, from the root's own one down to [pk], each given by the key before
    it, and is no path if a key on it has revoked a later one. Keys may come again on it. *)
Definition trust_path (d : db) (pk : public_key) (c : certificate) : Prop :=
  key_at c (length c - 1) pk /\
  (forall t, at_pos c 0 t -> is_root d (issued_for t) /\ stored_trust d (issued_for t) t) /\
  (forall i g t, at_pos c i g -> at_pos c (S i) t -> stored_trust d (issued_for g) t) /\
  (forall i j, ~ revokes_at d c i j).

(** The store has only the root [a], with [m]. *)
Definition only_root (d : db) (a : public_key) (m : N) : Prop := forall k n, root_max_len d k n <-> k = a /\ n = m.
(** All roots have the same maximum length [m]. *)
Definition equal_roots (d : db) (m : N) : Prop := forall k n, root_max_len d k n -> n = m.

(** README.md 248-254: the calls that make a subnetwork of [a] and the keys of the trusts [ts]: [a] becomes a root, its own
    trust [t0] and its trusts for the members are put in, each at its own time. *)
Definition subnetwork_calls (a : public_key) (n : N) (t0 : trust) (i0 : duration) (ts : list (trust * duration)) : list graph_call :=
  G_set_root a n :: G_add_trust t0 a i0 :: map (fun x => G_add_trust (fst x) a (snd x)) ts.
(** [t] is a trust by [a], put in at [i]: well formed, signed, and unexpired at [i] and at [now], which are in order. *)
Definition member_trust (C : crypto) (a : public_key) (now : duration) (t : trust) (i : duration) : Prop :=
  trust_typed C t /\ duration_wf i /\ signed_trust C a t /\ secs i <= secs now /\ secs now < secs (expires_at t) < i64_bound.
