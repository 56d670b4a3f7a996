(** What a new root adds. Used in C214. *)
From Coq Require Import List NArith.
From Verif Require Import Base Keys Trust Certificate Relation Storage Graph Spec InfluenceSpec.
Import ListNotations.

(** A chain of trusts in the store that count at the time, of at least two, from a trust of the key [k] for itself down to [pk]: every trust is given by the key of
    the one before it, no key occurs twice except that a key other than the first may be followed by its own trust for itself, and no key was revoked by
    one before it in the chain, but for the direct issuer of the last one. *)
Definition chain_below (d : db) (now : duration) (k pk : public_key) (c : certificate) : Prop :=
  (2 <= length c)%nat /\ key_at c 0 k /\ key_at c (length c - 1) pk /\
  (forall t, at_pos c 0 t -> live d now k t) /\
  (forall i g t, at_pos c i g -> at_pos c (S i) t -> live d now (issued_for g) t) /\
  (forall i j q, (i < j)%nat -> key_at c i q -> key_at c j q -> j = S i /\ (0 < i)%nat) /\
  (forall i j, revokes_at d c i j -> direct_issuer_pos c j).
