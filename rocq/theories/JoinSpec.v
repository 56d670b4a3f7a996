(** Stores with the roots of two others. Used in C215. *)
From Coq Require Import List NArith.
From Verif Require Import Base Keys Relation Storage Spec.

(** The stores hold the same trusts and revocations. *)
Definition same_relations (d d' : db) : Prop := forall x, stored d x <-> stored d' x.
(** The roots of [d] are those of [d1] and those of [d2], with their lengths. *)
Definition roots_joined (d1 d2 d : db) : Prop := forall k m, root_max_len d k m <-> root_max_len d1 k m \/ root_max_len d2 k m.
