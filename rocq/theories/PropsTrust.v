(** Property theorems about trusts and revocations (C05-C12). *)
From Coq Require Import List NArith ZArith Bool.
From Verif Require Import Base Text Keys Trust Relation Spec Toy BaseFacts KeysFacts TrustFacts SpecFacts ToyFacts.
Import ListNotations.
Open Scope N_scope.

(** C05. Refuted for keys whose encoding is longer than 255 bytes (RSA). *)
Theorem C05_trust_decode_encode_refuted : exists C t, trust_fits C t /\ trust_decode C (trust_encode t) <> Ok t.
Proof. exact rsa_trust_not_decoded. Qed.
Print Assumptions C05_trust_decode_encode_refuted.

(** Exactly the trusts whose key and signature encodings fit one length byte round trip. *)
Theorem C05_trust_decode_encode_partial : forall C t, trust_decode C (trust_encode t) = Ok t <->
  trust_fits C t /\ len (pk_encode (issued_for t)) < 256 /\ len (sig_encode (trust_sig t)) < 256.
Proof. exact trust_roundtrip_iff. Qed.
Print Assumptions C05_trust_decode_encode_partial.

Example C05_example : trust_fits (toy true) (toy_trust 1 2 u64_max 7) /\
  len (pk_encode (issued_for (toy_trust 1 2 u64_max 7))) < 256 /\ len (sig_encode (trust_sig (toy_trust 1 2 u64_max 7))) < 256.
Proof. repeat split. Qed.

(** C06. Refuted: the byte strings on which decoding panics, exactly. A zero key length; a zero
    signature length; anything after the 16 bytes of times. *)
Theorem C06_trust_decode_total_refuted : forall C b, trust_decode C b = Panic <->
  (exists r, b = x00 :: r)
  \/ (exists lp pkb r pk, b = lp :: pkb ++ x00 :: r /\ len pkb = N_of_u8 lp /\ pk_decode C pkb = Ok pk)
  \/ (exists lp pkb ls sgb r pk sg, b = lp :: pkb ++ ls :: sgb ++ r /\ len pkb = N_of_u8 lp /\ len sgb = N_of_u8 ls
        /\ pk_decode C pkb = Ok pk /\ sig_decode C sgb = Ok sg /\ 16 < len r).
Proof. exact trust_decode_panic. Qed.
Print Assumptions C06_trust_decode_total_refuted.

Theorem C06_trust_decode_ends : forall C b, trust_decode C b <> OutOfFuel.
Proof. exact trust_decode_fuel. Qed.
Print Assumptions C06_trust_decode_ends.

Example C06_example : trust_decode (toy true) [x00] = Panic /\
  trust_decode (toy true) (trust_encode (toy_trust 1 2 9 7) ++ [x00]) = Panic /\
  trust_decode (toy true) (firstn 20 (trust_encode (toy_trust 1 2 9 7))) = Err (TE_DecodeErrorInvalidSize F_public_key).
Proof. vm_compute. auto. Qed.

(** C07. *)
Theorem C07_trust_decode_canonical : forall C b t, trust_decode C b = Ok t -> trust_encode t = b /\ trust_fits C t.
Proof. exact trust_decode_canonical. Qed.
Print Assumptions C07_trust_decode_canonical.

Example C07_example : trust_decode (toy true) (trust_encode (toy_trust 1 2 9 7)) = Ok (toy_trust 1 2 9 7).
Proof. vm_compute. reflexivity. Qed.

(** C08. *)
Theorem C08_trust_text_roundtrip : forall C t, trust_fits C t -> exists a b c d,
  lines (trust_to_string t) = [a; b; c; d] /\ trust_from_strings C a b c d = Ok t.
Proof. exact trust_text_lines. Qed.
Print Assumptions C08_trust_text_roundtrip.

Example C08_example : trust_fits (toy true) (toy_trust 1 2 u64_max 0) /\
  trust_fits (toy false) (mk_trust (mk_pk Rsa (repeat x05 270)) (from_secs 9) (mk_sig Rsa (repeat x06 256)) (from_secs 1)).
Proof. repeat split. Qed.

(** C09. *)
Theorem C09_trust_verify_exact : forall C t k now,
  trust_verify C t k now = Ok tt <-> ~ before (expires_at t) now /\ signed_trust C k t.
Proof. exact trust_verify_exact. Qed.
Print Assumptions C09_trust_verify_exact.

Theorem C09_trust_verify_expired : forall C t k now, before (expires_at t) now ->
  trust_verify C t k now = Err (TE_Expired (expires_at t) now).
Proof. exact trust_verify_expired. Qed.
Print Assumptions C09_trust_verify_expired.

(** A failing verification names a real defect. *)
Theorem C09_trust_verify_error : forall C t k now e, trust_verify C t k now = Err e <->
  trust_defect C k t now e /\
  (forall ve, e = TE_SignatureError ve -> pk_verify C k (trust_message C t) (trust_sig t) = Err ve).
Proof. exact trust_verify_defect. Qed.
Print Assumptions C09_trust_verify_error.

(** The boundary: valid at its expiry, not a nanosecond later. *)
Example C09_example : trust_verify (toy true) (toy_trust 1 2 9 7) (toy_key 1) (from_secs 9) = Ok tt /\
  before (expires_at (toy_trust 1 2 9 7)) (mk_duration 9 1) /\
  signed_trust (toy true) (toy_key 1) (toy_trust 1 2 9 7) /\ ~ signed_trust (toy true) (toy_key 3) (toy_trust 1 2 9 7).
Proof. split; [reflexivity|]. split; [right; split; reflexivity|]. split; [reflexivity|discriminate]. Qed.

(** C10. *)
Theorem C10_created_trust_verifies : forall C E kp pk ex iss t now, crypto_laws C -> kp_valid C kp ->
  @trust_create C E kp pk ex iss = Ok t ->
  issued_for t = pk /\ expires_at t = ex /\ issued_at t = iss /\
  (~ before ex now -> trust_verify C t (kp_public C kp) now = Ok tt) /\
  (before ex now -> trust_verify C t (kp_public C kp) now = Err (TE_Expired ex now)).
Proof. exact trust_created. Qed.
Print Assumptions C10_created_trust_verifies.

(** Creation never fails unless RSA signing does (the code unwraps). *)
Theorem C10_create_total : forall C E kp pk ex iss, crypto_laws C -> kp_fmt kp <> Rsa ->
  exists t, @trust_create C E kp pk ex iss = Ok t.
Proof. exact trust_create_total. Qed.
Print Assumptions C10_create_total.

Example C10_example : kp_valid (toy true) (toy_kp 1) /\ kp_valid (toy true) (mk_kp Secp256k1 (toy_secret 1)) /\
  @trust_create (toy true) unit (toy_kp 1) (toy_key 2) (from_secs 9) (from_secs 7) = Ok (toy_trust 1 2 9 7).
Proof. repeat split. Qed.

(** C11. The hashed bytes are the argument of the hash in [trust_message]. *)
Theorem C11_trust_message_is_hash : forall C t,
  trust_message C t = sha256 C (trust_metadata (issued_for t) (expires_at t) (issued_at t)).
Proof. exact trust_message_hash. Qed.
Print Assumptions C11_trust_message_is_hash.

Theorem C11_trust_message_injective : forall t1 t2,
  secs (expires_at t1) < u64_bound -> secs (issued_at t1) < u64_bound ->
  secs (expires_at t2) < u64_bound -> secs (issued_at t2) < u64_bound ->
  trust_metadata (issued_for t1) (expires_at t1) (issued_at t1) =
  trust_metadata (issued_for t2) (expires_at t2) (issued_at t2) ->
  issued_for t1 = issued_for t2 /\ secs (expires_at t1) = secs (expires_at t2) /\ secs (issued_at t1) = secs (issued_at t2).
Proof. exact trust_message_inj. Qed.
Print Assumptions C11_trust_message_injective.

(** Times above 2^63 and keys of different lengths are covered. *)
Example C11_example : secs (expires_at (toy_trust 1 2 u64_max 7)) < u64_bound /\
  trust_metadata (toy_key 2) (from_secs u64_max) (from_secs 7) <> trust_metadata (toy_key 2) (from_secs 7) (from_secs u64_max).
Proof. split; [reflexivity|]. vm_compute. discriminate. Qed.

(** C12. Refuted when the revoked key is RSA with an encoding of 256, 257, 258 (mod 256) bytes. *)
Theorem C12_domains_separate_refuted : exists C k e i k' a,
  pk_valid C k /\ pk_valid C k' /\ whole_secs e /\ whole_secs i /\ whole_secs a /\
  trust_metadata k e i = revocation_metadata k' a.
Proof. exact rsa_domains. Qed.
Print Assumptions C12_domains_separate_refuted.

(** Separate whenever the revoked key is not RSA, so always on wasm32. *)
Theorem C12_domains_separate_partial : forall C k e i k' a, pk_valid C k' -> pk_fmt k' <> Rsa ->
  trust_metadata k e i <> revocation_metadata k' a.
Proof. exact domains_separate. Qed.
Print Assumptions C12_domains_separate_partial.

Theorem C12_domains_separate_wasm32 : forall C k e i k' a, wasm32 C = true -> pk_valid C k' ->
  trust_metadata k e i <> revocation_metadata k' a.
Proof. exact domains_separate_wasm. Qed.
Print Assumptions C12_domains_separate_wasm32.

Theorem C12_revocation_message_injective : forall k1 a1 k2 a2, secs a1 < u64_bound -> secs a2 < u64_bound ->
  revocation_metadata k1 a1 = revocation_metadata k2 a2 -> k1 = k2 /\ secs a1 = secs a2.
Proof. exact revocation_metadata_inj. Qed.
Print Assumptions C12_revocation_message_injective.

Example C12_example : wasm32 (toy true) = true /\ pk_valid (toy true) (toy_key 1) /\
  pk_valid (toy true) (mk_pk Secp256k1 (x02 :: toy_secret 1)).
Proof. repeat split. Qed.

(** C61. Exact acceptance condition of [Revocation::verify], and revocations made verify. *)
Theorem C61_revocation_verify_exact : forall C v, revocation_verify C v = Ok tt <-> signed_revocation C v.
Proof. exact revocation_verify_exact. Qed.
Print Assumptions C61_revocation_verify_exact.

Theorem C61_created_revocation_verifies : forall C E kp pk at_ v, crypto_laws C -> kp_valid C kp ->
  @revocation_create C E kp pk at_ = Ok v ->
  rev_pk v = pk /\ revoked_at v = at_ /\ revoked_by v = kp_public C kp /\ revocation_verify C v = Ok tt.
Proof. exact revocation_created. Qed.
Print Assumptions C61_created_revocation_verifies.

Theorem C61_revocation_create_total : forall C E kp pk at_, crypto_laws C -> kp_fmt kp <> Rsa ->
  exists v, @revocation_create C E kp pk at_ = Ok v.
Proof. exact revocation_create_total. Qed.
Print Assumptions C61_revocation_create_total.

Example C61_example : @revocation_create (toy true) unit (toy_kp 1) (toy_key 2) (from_secs 7) = Ok (toy_rev 1 2 7) /\
  signed_revocation (toy true) (toy_rev 1 2 7).
Proof. split; reflexivity. Qed.
