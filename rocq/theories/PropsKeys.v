(** Property theorems about keys and signatures (C01-C04, C13, C56-C60). *)
From Coq Require Import String List NArith ZArith Bool.
From Verif Require Import Base Text Keys Spec Toy BaseFacts TextFacts KeysFacts ToyFacts.
Import ListNotations.
Open Scope N_scope.
Open Scope list_scope.

(** C01. Every key of the build decodes from its encoding; whatever decodes is the encoding of the
    key obtained, which is a key of the build. [C] ranges over both build targets. *)
Theorem C01_key_decode_encode : forall C k, pk_valid C k -> pk_decode C (pk_encode k) = Ok k.
Proof. exact pk_decode_encode. Qed.
Print Assumptions C01_key_decode_encode.

Theorem C01_key_canonical : forall C b k, pk_decode C b = Ok k -> pk_encode k = b /\ pk_valid C k.
Proof. exact pk_decode_ok. Qed.
Print Assumptions C01_key_canonical.

Example C01_example_ed : pk_valid (toy true) (toy_key 7). Proof. split; reflexivity. Qed.
Example C01_example_secp : pk_valid (toy true) (mk_pk Secp256k1 (x02 :: toy_secret 7)). Proof. split; reflexivity. Qed.
Example C01_example_rsa : pk_valid (toy false) (mk_pk Rsa (repeat x05 270)). Proof. split; reflexivity. Qed.
Example C01_example_decode : pk_decode (toy true) (x00 :: toy_secret 7) = Ok (toy_key 7). Proof. reflexivity. Qed.
(** RSA keys do not exist on wasm32. *)
Example C01_example_wasm : pk_decode (toy true) [x01; x05] = Err DE_InvalidTypeByte. Proof. reflexivity. Qed.

(** C02. *)
Theorem C02_signature_decode_encode : forall C s, sig_valid C s -> sig_decode C (sig_encode s) = Ok s.
Proof. exact sig_decode_encode. Qed.
Print Assumptions C02_signature_decode_encode.

Theorem C02_signature_canonical : forall C b s, sig_decode C b = Ok s -> sig_encode s = b /\ sig_valid C s.
Proof. exact sig_decode_ok. Qed.
Print Assumptions C02_signature_canonical.

Example C02_example : sig_valid (toy true) (mk_sig Secp256k1 []) /\ sig_valid (toy false) (mk_sig Rsa (repeat x01 512)).
Proof. split; reflexivity. Qed.
Example C02_example_decode : sig_decode (toy true) [x02; x30] = Ok (mk_sig Secp256k1 [x30]). Proof. reflexivity. Qed.

(** C03. *)
Theorem C03_key_text_roundtrip : forall C k, pk_valid C k -> pk_from_str C (pk_display k) = Ok k.
Proof. exact pk_from_str_display. Qed.
Print Assumptions C03_key_text_roundtrip.

Theorem C03_key_text_injective : forall a b, pk_display a = pk_display b -> a = b.
Proof. exact pk_display_inj. Qed.
Print Assumptions C03_key_text_injective.

Theorem C03_key_text_canonical : forall C s k, pk_from_str C s = Ok k -> pk_display k = s /\ pk_valid C k.
Proof. exact pk_from_str_ok. Qed.
Print Assumptions C03_key_text_canonical.

Example C03_example : pk_display (toy_key 7) <> pk_display (toy_key 8).
Proof. intros H. apply C03_key_text_injective in H. discriminate. Qed.

(** C04. *)
Theorem C04_hash_eq : forall a b, pk_hash_input a = pk_hash_input b <-> a = b.
Proof. exact pk_hash_iff. Qed.
Print Assumptions C04_hash_eq.

(** The kinds matter: the same raw bytes as two kinds are two keys with two hashes. *)
Example C04_example : pk_hash_input (mk_pk Rsa [x05]) <> pk_hash_input (mk_pk Secp256k1 [x05]).
Proof. discriminate. Qed.

(** C13. Refuted: a secp256k1 key accepts a signature its scheme rejects. *)
Theorem C13_forged_signature_accepted_refuted : exists C k msg s,
  crypto_laws C /\ pk_valid C k /\ pk_verify C k msg s = Ok tt /\ ~ scheme_accepts C k msg (sig_raw s).
Proof. exact secp_forged. Qed.
Print Assumptions C13_forged_signature_accepted_refuted.

(** Worse, for whatever external code obeying the laws: a secp256k1 signature made with any key
    over any message is accepted by every secp256k1 key for every message. *)
Theorem C13_any_secp_signature_accepted : forall C kp kp' m m' s, crypto_laws C -> kp_valid C kp ->
  kp_fmt kp = Secp256k1 -> kp_fmt kp' = Secp256k1 -> kp_sign C kp m = Ok s ->
  pk_verify C (kp_public C kp') m' s = Ok tt.
Proof. exact secp_any_signature. Qed.
Print Assumptions C13_any_secp_signature_accepted.

Example C13_example_secp : exists s, kp_sign (toy true) (mk_kp Secp256k1 (toy_secret 1)) [x61] = Ok s.
Proof. eexists. reflexivity. Qed.

(** The property holds for the two other kinds; for secp256k1 what is checked is only that the
    signature parses. Missing: the answer of the scheme for secp256k1 keys. *)
Theorem C13_verify_exact_partial : forall C k m s, pk_fmt k <> Secp256k1 ->
  (pk_verify C k m s = Ok tt <-> scheme_accepts C k m (sig_raw s)).
Proof. exact ed_rsa_verify_exact. Qed.
Print Assumptions C13_verify_exact_partial.

Theorem C13_secp_verify_exact : forall C k m s, pk_fmt k = Secp256k1 ->
  (pk_verify C k m s = Ok tt <-> len (sha256 C m) = 32 /\ secp_der C (sig_raw s) = true).
Proof. exact secp_verify_exact. Qed.
Print Assumptions C13_secp_verify_exact.

Theorem C13_genuine_accepted : forall C k m s, crypto_laws C -> scheme_accepts C k m (sig_raw s) ->
  pk_verify C k m s = Ok tt.
Proof. exact scheme_accepts_verify. Qed.
Print Assumptions C13_genuine_accepted.

Example C13_example_ed : scheme_accepts (toy true) (toy_key 1) [x61] (toy_secret 1 ++ [x61]) /\
  pk_verify (toy true) (toy_key 1) [x61] (mk_sig Ed25519 (toy_secret 1 ++ [x62])) = Err VE_Ed25519.
Proof. split; reflexivity. Qed.

(** C56. *)
Theorem C56_keypair_vec_roundtrip : forall C kp b, crypto_laws C -> kp_valid C kp ->
  kp_to_vec C kp = Ok b -> kp_from_vec C b (kp_fmt kp) = Ok kp.
Proof. exact kp_vec_roundtrip. Qed.
Print Assumptions C56_keypair_vec_roundtrip.

Theorem C56_keypair_vec_canonical : forall C b f kp, kp_from_vec C b f = Ok kp ->
  kp_valid C kp /\ kp_fmt kp = f /\ kp_to_vec C kp = Ok b.
Proof. exact kp_from_vec_valid. Qed.
Print Assumptions C56_keypair_vec_canonical.

Theorem C56_keypair_secret_roundtrip : forall C kp b, kp_valid C kp -> kp_secret_bytes kp = Some b ->
  kp_from_secret_key C b (kp_fmt kp) = Ok kp.
Proof. exact kp_secret_roundtrip. Qed.
Print Assumptions C56_keypair_secret_roundtrip.

(** Writing an RSA key pair panics ([todo!]). *)
Theorem C56_keypair_to_vec_panic_refuted : forall C kp, kp_to_vec C kp = Panic <-> kp_fmt kp = Rsa.
Proof. exact kp_to_vec_panic. Qed.
Print Assumptions C56_keypair_to_vec_panic_refuted.

Example C56_example : exists b, kp_valid (toy true) (toy_kp 3) /\ kp_to_vec (toy true) (toy_kp 3) = Ok b /\ len b = 64.
Proof. eexists. repeat split. Qed.

(** C57. Key and signature parsers: they panic on the empty input and on nothing else. *)
Theorem C57_key_decode_total_refuted : forall C b, pk_decode C b = Panic <-> b = [].
Proof. exact pk_decode_panic. Qed.
Print Assumptions C57_key_decode_total_refuted.

Theorem C57_key_text_total_refuted : forall C s, pk_from_str C s = Panic <-> s = [].
Proof. exact pk_from_str_panic. Qed.
Print Assumptions C57_key_text_total_refuted.

Theorem C57_signature_decode_total_refuted : forall C b, sig_decode C b = Panic <-> b = [].
Proof. exact sig_decode_panic. Qed.
Print Assumptions C57_signature_decode_total_refuted.

(** C58. Every verification ends with an answer. *)
Theorem C58_verify_total : forall C k m s, pk_verify C k m s = Ok tt \/ exists e, pk_verify C k m s = Err e.
Proof. exact verify_total. Qed.
Print Assumptions C58_verify_total.

(** C59. Key kinds survive their byte and text forms, and only the names of the kinds of the build parse. *)
Theorem C59_kind_text_roundtrip : forall C f, fmt_supported C f = true -> fmt_of_text C (fmt_text f) = Ok f.
Proof. exact fmt_text_roundtrip. Qed.
Print Assumptions C59_kind_text_roundtrip.

Theorem C59_kind_text_canonical : forall C s f, fmt_of_text C s = Ok f -> s = fmt_text f /\ fmt_supported C f = true.
Proof. exact fmt_of_text_ok. Qed.
Print Assumptions C59_kind_text_canonical.

Theorem C59_kind_byte_roundtrip : forall C f, fmt_supported C f = true -> fmt_of_byte C (fmt_byte f) = Ok f.
Proof. exact fmt_of_byte_fmt. Qed.
Print Assumptions C59_kind_byte_roundtrip.

Theorem C59_kind_byte_canonical : forall C b f, fmt_of_byte C b = Ok f -> fmt_byte f = b /\ fmt_supported C f = true.
Proof. exact fmt_of_byte_ok. Qed.
Print Assumptions C59_kind_byte_canonical.

Example C59_example : fmt_supported (toy true) Secp256k1 = true /\ fmt_of_text (toy true) (fmt_text Rsa) = Err (InvalidKeyFormat (fmt_text Rsa)).
Proof. split; reflexivity. Qed.

(** C60. base58, the text form of every key, signature and peer id: parsing inverts printing and only
    printed forms parse. *)
Theorem C60_base58_roundtrip : forall b, b58_decode (b58_encode b) = Ok b.
Proof. exact b58_roundtrip. Qed.
Print Assumptions C60_base58_roundtrip.

Theorem C60_base58_canonical : forall s b, b58_decode s = Ok b -> b58_encode b = s.
Proof. exact b58_canonical. Qed.
Print Assumptions C60_base58_canonical.

Example C60_example : b58_encode [x00; x00; x01; x00] = str "115R" /\ b58_decode (str "115R") = Ok [x00; x00; x01; x00].
Proof. split; reflexivity. Qed.
