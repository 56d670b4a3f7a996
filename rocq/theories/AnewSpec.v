(** What a trust adds, and what a renewed trust changes. Used in C213. *)
From Coq Require Import List NArith.
From Verif Require Import Base Keys Trust Certificate Spec Service ServiceSpec ExtendSpec.
Import ListNotations.

(** The trust at position [i] of the certificate is one of the key [b] for the key [k]: the key before it is [b], or it is the first one and [b] is [k]. *)
Definition given_at (c : certificate) (i : nat) (b k : public_key) : Prop :=
  key_at c i k /\ ((i = 0%nat /\ b = k) \/ exists j, i = S j /\ key_at c j b).
(** [c'] is [c] with the trusts of [b] for the key of [t] exchanged for [t]. *)
Definition exchanged (b : public_key) (t : trust) (c c' : certificate) : Prop :=
  length c' = length c /\
  forall i u, at_pos c i u -> (given_at c i b (issued_for t) -> at_pos c' i t) /\ (~ given_at c i b (issued_for t) -> at_pos c' i u).

(** The same of the records of certificates. *)
Definition s_given_at (C : crypto) (x : dto_certificate) (i : nat) (b k : public_key) : Prop :=
  names C x i k /\ ((i = 0%nat /\ b = k) \/ exists j, i = S j /\ names C x j b).
Definition s_exchanged (C : crypto) (b : public_key) (t : trust) (x x' : dto_certificate) : Prop :=
  length x' = length x /\
  forall i u, nth_error x i = Some u ->
    (s_given_at C x i b (issued_for t) -> exists r, nth_error x' i = Some r /\ trust_record C r t) /\
    (~ s_given_at C x i b (issued_for t) -> nth_error x' i = Some u).
