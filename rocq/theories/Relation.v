(** Model of trust-graph/src/revoke.rs, trust_relation.rs and chain.rs. *)
From Coq Require Import List NArith ZArith Bool.
From Verif Require Import Base Text Keys Trust.
Import ListNotations.
Open Scope N_scope.

(** revoke.rs 39-48. *)
Record revocation := mk_rev {
  rev_pk : public_key;          (* field [pk]: who is revoked *)
  revoked_at : duration;
  revoked_by : public_key;
  rev_sig : signature
}.

(** revoke.rs 26-34. *)
Inductive revoke_error := IncorrectSignature (e : verification_error).

(** trust_relation.rs 26-31. *)
Record auth := mk_auth { auth_trust : trust; issued_by : public_key }.

(** trust_relation.rs 34-37. *)
Inductive relation := RAuth (a : auth) | RRev (r : revocation).

(** trust_relation.rs 41-46, 49-54, 56-61, 63-69, 71-76. *)
Definition rel_issued_at (r : relation) : duration :=
  match r with RAuth a => issued_at (auth_trust a) | RRev r => revoked_at r end.
Definition rel_issued_by (r : relation) : public_key :=
  match r with RAuth a => issued_by a | RRev r => revoked_by r end.
Definition rel_issued_for (r : relation) : public_key :=
  match r with RAuth a => issued_for (auth_trust a) | RRev r => rev_pk r end.
Definition rel_expires_at (r : relation) : duration :=
  match r with RAuth a => expires_at (auth_trust a) | RRev _ => from_secs 0 end.
Definition rel_signature (r : relation) : signature :=
  match r with RAuth a => trust_sig (auth_trust a) | RRev r => rev_sig r end.

Section WithCrypto.
Variable C : crypto.

(** The bytes hashed by [Revocation::signature_bytes], revoke.rs 74-78. *)
Definition revocation_metadata (pk : public_key) (at_ : duration) : bytes :=
  u8_of_N (len (pk_encode pk)) :: pk_encode pk ++ le_bytes 8 (secs at_).

(** [Revocation::signature_bytes], revoke.rs 73-81. *)
Definition revocation_signature_bytes (pk : public_key) (at_ : duration) : bytes :=
  sha256 C (revocation_metadata pk at_).

(** [Revocation::create], revoke.rs 66-71. *)
Definition revocation_create {E} (revoker : keypair) (pk : public_key) (at_ : duration) : result E revocation :=
  let? s := unwrap (kp_sign C revoker (revocation_signature_bytes pk at_)) in
  Ok (mk_rev pk at_ (kp_public C revoker) s).

(** [Revocation::verify], revoke.rs 84-91. *)
Definition revocation_verify (r : revocation) : result revoke_error unit :=
  map_err IncorrectSignature
    (pk_verify C (revoked_by r) (revocation_signature_bytes (rev_pk r) (revoked_at r)) (rev_sig r)).

End WithCrypto.

(** chain.rs 22-26. [NonEmpty<Auth>] is a head and a tail; the set of revokers is a list. *)
Record chain := mk_chain { ch_first : auth; ch_rest : list auth; ch_revoked_by : list public_key }.

Definition ch_auths (c : chain) : list auth := ch_first c :: ch_rest c.
(** [NonEmpty::last]. Called in trust_graph.rs 293 on the field of chain.rs 24. *)
Definition ch_last (c : chain) : auth := last (ch_rest c) (ch_first c).

(** [Chain::add_revocations], chain.rs 42-46. *)
Definition ch_add_revocations (c : chain) (rs : list revocation) : chain :=
  mk_chain (ch_first c) (ch_rest c) (map revoked_by rs ++ ch_revoked_by c).

(** [Chain::new] with a one-element [NonEmpty], chain.rs 28-36, trust_graph.rs 282. *)
Definition ch_new (a : auth) (rs : list revocation) : chain :=
  ch_add_revocations (mk_chain a [] []) rs.

(** [auths.push(a)]. trust_graph.rs 307, on the field of chain.rs 24. *)
Definition ch_push (c : chain) (a : auth) : chain :=
  mk_chain (ch_first c) (ch_rest c ++ [a]) (ch_revoked_by c).

(** [Chain::can_be_extended_by], chain.rs 37-40. HashSet membership is membership up to key
    equality (see the Hash/Eq consistency theorem). *)
Definition can_be_extended_by (c : chain) (pk : public_key) : bool :=
  negb (existsb (pk_eqb pk) (ch_revoked_by c)) &&
  negb (existsb (fun a => pk_eqb (issued_for (auth_trust a)) pk) (ch_auths c)).
