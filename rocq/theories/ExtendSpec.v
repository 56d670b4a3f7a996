(** What a record of a certificate is for. Used in C209. *)
From Coq Require Import List.
From Verif Require Import Base Keys Service ServiceSpec.
(** The record number [j] of the certificate names a peer with the key [k]. *)
Definition names (C : crypto) (x : dto_certificate) (j : nat) (k : public_key) : Prop := exists r, nth_error x j = Some r /\ peer_key C (dt_issued_for r) k.
