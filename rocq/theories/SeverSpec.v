(** What a revocation takes away. Used in C212. *)
From Coq Require Import List NArith.
From Verif Require Import Base Keys Trust Certificate Relation Storage Graph Spec Service ServiceSpec ExtendSpec.
Import ListNotations.

(** The revoked key stands behind the revoker in the certificate, and it is not the direct issuer of the last key, or it is the next key;
    or the first key of the certificate has revoked itself. *)
Definition cuts (v : revocation) (c : certificate) : Prop :=
  (exists i j, (i < j)%nat /\ key_at c i (revoked_by v) /\ key_at c j (rev_pk v) /\ (j = S i \/ ~ direct_issuer_pos c j)) \/
  (revoked_by v = rev_pk v /\ key_at c 0 (rev_pk v)).
(** The same of the records of a certificate. *)
Definition s_cuts (C : crypto) (v : revocation) (x : dto_certificate) : Prop :=
  (exists i j, (i < j)%nat /\ names C x i (revoked_by v) /\ names C x j (rev_pk v) /\ (j = S i \/ (j + 2)%nat <> length x)) \/
  (revoked_by v = rev_pk v /\ names C x 0 (rev_pk v)).
