(** Specification of C188 and C189. *)
From Coq Require Import List NArith ZArith Bool.
From Verif Require Import Base Text Keys Trust Relation Spec.
Import ListNotations.
Open Scope N_scope.

(** Lengths fit 64 bits, as they do in memory. *)
Definition key_short (k : public_key) : Prop := len (pk_raw k) < u64_bound.
Definition sig_short (s : signature) : Prop := len (sig_raw s) < u64_bound.
Definition relation_short (x : relation) : Prop :=
  match x with
  | RAuth a => key_short (issued_for (auth_trust a)) /\ sig_short (trust_sig (auth_trust a)) /\ key_short (issued_by a)
  | RRev r => key_short (rev_pk r) /\ key_short (revoked_by r) /\ sig_short (rev_sig r)
  end.

(** The same code compiled for the other kind of target: wasm32 if this is a native build, native if this is wasm32. *)
Definition other_build (C : crypto) : crypto :=
  mk_crypto (negb (wasm32 C)) (sha256 C) (ed_point C) (ed_public C) (ed_sign C) (ed_verify C) (rsa_public C) (rsa_sign C)
    (rsa_verify C) (secp_point C) (secp_scalar C) (secp_public C) (secp_sign C) (secp_der C) (secp_verify C)
    (multihash_ok C) (inlined_key C) (rsa_peer_id C).

(** The kinds of the keys and signatures in a relation. *)
Definition kinds (x : relation) : list key_format :=
  match x with
  | RAuth a => [pk_fmt (issued_for (auth_trust a)); sig_fmt (trust_sig (auth_trust a)); pk_fmt (issued_by a)]
  | RRev r => [pk_fmt (rev_pk r); pk_fmt (revoked_by r); sig_fmt (rev_sig r)]
  end.

(** Twelve bytes that stand for a duration: seconds in eight and nanoseconds in four, little-endian, where nanoseconds
    beyond a second count as seconds. *)
Definition spells (w : bytes) (d : duration) : Prop :=
  exists s n, w = le_bytes 8 s ++ le_bytes 4 n /\ n < u32_bound /\
    secs d * 1000000000 + nanos d = s * 1000000000 + n /\ nanos d < 1000000000.
