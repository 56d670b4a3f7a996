(** The properties of serde forms, conversions, and of making and loading keys. Every proof is a lemma of ConvertThms.v or ConvertEx.v. *)
From Coq Require Import List NArith ZArith Bool Permutation.
From Coq Require String.
Import String.StringSyntax.
From Verif Require Import Base Text Keys Trust Relation Spec Convert ConvertSpec ConvertFacts Toy ConvertThms ConvertEx.
Import ListNotations.
Open Scope N_scope.

(** ** C121 *)
(** A relation written in a format that gives bytes back as bytes or as a list is read back unchanged. *)
Theorem C121_relation : forall C f x, f = As_bytes \/ f = As_list -> relation_typed C x ->
  de_relation C (through f (ser_relation x)) = Ok x.
Proof. exact p_C121_relation. Qed.
Print Assumptions C121_relation.

(** So are keys, signatures, trusts and revocations on their own. *)
Theorem C121_parts : forall C f, f = As_bytes \/ f = As_list ->
  (forall k, pk_valid C k -> de_key C (through f (ser_key k)) = Ok k) /\
  (forall s, sig_valid C s -> de_sig C (through f (ser_sig s)) = Ok s) /\
  (forall t, trust_typed C t -> de_trust C (through f (ser_trust t)) = Ok t) /\
  (forall r, revocation_typed C r -> de_revocation C (through f (ser_revocation r)) = Ok r).
Proof. exact p_C121_parts. Qed.
Print Assumptions C121_parts.

(** Whatever is read holds only parsed keys, kinds the build has, and durations in range. *)
Theorem C121_read_typed : forall C v,
  (forall k, de_key C v = Ok k -> pk_valid C k) /\
  (forall s, de_sig C v = Ok s -> sig_valid C s) /\
  (forall t, de_trust C v = Ok t -> trust_typed C t) /\
  (forall r, de_revocation C v = Ok r -> revocation_typed C r) /\
  (forall x, de_relation C v = Ok x -> relation_typed C x).
Proof. exact p_C121_read_typed. Qed.
Print Assumptions C121_read_typed.

(** Reading never panics, whatever the value. *)
Theorem C121_no_panic : forall C v,
  de_key C v <> Panic /\ de_sig C v <> Panic /\ de_trust C v <> Panic /\ de_revocation C v <> Panic /\ de_relation C v <> Panic.
Proof. exact p_C121_no_panic. Qed.
Print Assumptions C121_no_panic.

(** The order of the fields does not matter. *)
Theorem C121_order : forall C fs fs', Permutation fs fs' ->
  de_trust C (V_struct fs) = de_trust C (V_struct fs') /\ de_revocation C (V_struct fs) = de_revocation C (V_struct fs').
Proof. exact p_C121_order. Qed.
Print Assumptions C121_order.

(** A build without RSA reads no RSA key and no RSA signature. *)
Theorem C121_wasm : forall C f k s, wasm32 C = true -> pk_fmt k = Rsa -> sig_fmt s = Rsa ->
  (exists e, de_key C (through f (ser_key k)) = Err e) /\ (exists e, de_sig C (through f (ser_sig s)) = Err e).
Proof. exact p_C121_wasm. Qed.
Print Assumptions C121_wasm.

(** A trust and a revocation in the JSON-like format, with a key of each kind. *)
Example C121_example_relation : relation_typed (toy false) ex_relation /\
  de_relation (toy false) (through As_list (ser_relation ex_relation)) = Ok ex_relation /\
  de_relation (toy false) (through As_list (ser_relation (RRev (toy_rev 1 2 30)))) = Ok (RRev (toy_rev 1 2 30)) /\
  de_key (toy true) (through As_list (ser_key (mk_pk Rsa [x05]))) = Err SDE_type.
Proof. exact e_C121_relation. Qed.

(** A key as JSON holds it. *)
Example C121_example_json : through As_list (ser_key (mk_pk Ed25519 [x07; x08])) = V_variant (str "Ed25519") (V_list [V_num 7; V_num 8]).
Proof. exact e_C121_json. Qed.

(** ** C122 *)
(** What is written for a key cannot be read back in every format: JSON and bincode fail. *)
Theorem C122_refuted : exists C k, crypto_laws C /\ pk_valid C k /\
  (exists e, de_hashable C (through As_list (ser_hashable k)) = Err e) /\
  (exists e, de_hashable C (through As_text (ser_hashable k)) = Err e).
Proof. exact p_C122_refuted. Qed.
Print Assumptions C122_refuted.

(** It can exactly in the formats that give bytes back as bytes. *)
Theorem C122_exact : forall C f k, pk_valid C k -> (de_hashable C (through f (ser_hashable k)) = Ok k <-> f = As_bytes).
Proof. exact p_C122_exact. Qed.
Print Assumptions C122_exact.

(** It is never read as another key, in any format. *)
Theorem C122_no_other : forall C f k k', pk_valid C k -> de_hashable C (through f (ser_hashable k)) = Ok k' -> k' = k.
Proof. exact p_C122_no_other. Qed.
Print Assumptions C122_no_other.

Example C122_example_formats : pk_valid (toy false) (toy_key 3) /\
  de_hashable (toy false) (through As_bytes (ser_hashable (toy_key 3))) = Ok (toy_key 3) /\
  de_hashable (toy false) (through As_list (ser_hashable (toy_key 3))) = Err SDE_type /\
  de_hashable (toy false) (through As_text (ser_hashable (toy_key 3))) = Err SDE_custom.
Proof. exact e_C122_formats. Qed.

(** ** C123 *)
(** A key is read from its bytes and from the text it is displayed as, and from nothing else. *)
Theorem C123_exact : forall C v k, de_hashable C v = Ok k <->
  pk_valid C k /\ (v = V_bytes (pk_encode k) \/ v = V_text (pk_display k)).
Proof. exact p_C123_exact. Qed.
Print Assumptions C123_exact.

(** It panics exactly on an empty text and on no bytes. *)
Theorem C123_panic : forall C v, de_hashable C v = Panic <-> v = V_text [] \/ v = V_bytes [].
Proof. exact p_C123_panic. Qed.
Print Assumptions C123_panic.

Example C123_example_text : de_hashable (toy false) (V_text (pk_display (toy_key 3))) = Ok (toy_key 3) /\
  de_hashable (toy false) (V_text (str "0")) = Err SDE_custom /\ de_hashable (toy false) (V_text []) = Panic.
Proof. exact e_C123_text. Qed.

(** ** C124 *)
(** An RSA key is handed to libp2p as a standard SubjectPublicKeyInfo, and encoding it never panics. *)
Theorem C124_x509 : forall pkcs1, len pkcs1 < u64_bound -> exists out, encode_x509 pkcs1 = Ok out /\ spki_of pkcs1 out.
Proof. exact p_C124_x509. Qed.
Print Assumptions C124_x509.

(** Every key of this crate becomes a libp2p key of the same kind with the same bytes, and comes back unchanged. *)
Theorem C124_key : forall C Lib k, libs_laws C Lib -> pk_valid C k -> len (pk_raw k) < u64_bound ->
  exists l, to_lib_key Lib k = Ok l /\ lib_key_valid C Lib l /\ lk_kind l = same_kind (pk_fmt k) /\ lk_raw l = pk_raw k /\
    of_lib_key C l = Ok k.
Proof. exact p_C124_key. Qed.
Print Assumptions C124_key.

(** Every libp2p key becomes a key of this crate, and comes back unchanged. *)
Theorem C124_key_back : forall C Lib l, libs_laws C Lib -> lib_key_valid C Lib l -> len (lk_raw l) < u64_bound ->
  exists k, of_lib_key C l = Ok k /\ pk_valid C k /\ to_lib_key Lib k = Ok l.
Proof. exact p_C124_key_back. Qed.
Print Assumptions C124_key_back.

(** Every pair becomes a libp2p pair with the same secret, whose public key is the converted public key, and comes back
    unchanged. *)
Theorem C124_pair : forall C Lib kp, crypto_laws C -> libs_laws C Lib -> kp_valid C kp -> len (pk_raw (kp_public C kp)) < u64_bound ->
  exists p, to_lib_pair Lib kp = Ok p /\ lib_pair_valid C Lib p /\ lp_kind p = same_kind (kp_fmt kp) /\ lp_secret p = kp_secret kp /\
    of_lib_pair C p = Ok kp /\ to_lib_key Lib (kp_public C kp) = Ok (lib_public C p).
Proof. exact p_C124_pair. Qed.
Print Assumptions C124_pair.

(** Every libp2p pair becomes a pair of this crate, and comes back unchanged. *)
Theorem C124_pair_back : forall C Lib p, crypto_laws C -> libs_laws C Lib -> lib_pair_valid C Lib p ->
  exists kp, of_lib_pair C p = Ok kp /\ kp_valid C kp /\ to_lib_pair Lib kp = Ok p.
Proof. exact p_C124_pair_back. Qed.
Print Assumptions C124_pair_back.

Example C124_example_laws : forall C, libs_laws C (toy_libs C).
Proof. exact e_C124_laws. Qed.

(** An RSA key of 200 bytes: the lengths need the long form. *)
Example C124_example_rsa : let pk := repeat xaa 200 in
  encode_x509 pk = Ok ([x30; x81; xdb; x30; x0d; x06; x09; x2a; x86; x48; x86; xf7; x0d; x01; x01; x01; x05; x00; x03; x81; xc9; x00] ++ pk) /\
  to_lib_key (toy_libs (toy false)) (mk_pk Rsa pk) = Ok (mk_lib_key L_Rsa pk) /\
  of_lib_key (toy false) (mk_lib_key L_Rsa pk) = Ok (mk_pk Rsa pk).
Proof. exact e_C124_rsa. Qed.

(** ** C125 *)
(** Asking for an RSA pair panics, whatever the random source. *)
Theorem C125_refuted : exists C f, crypto_laws C /\ fmt_supported C f = true /\
  forall fuel entropy, kp_generate C fuel f entropy = Panic.
Proof. exact p_C125_refuted. Qed.
Print Assumptions C125_refuted.

(** The other kinds never panic. *)
Theorem C125_no_panic : forall C fuel f entropy, f <> Rsa -> kp_generate C fuel f entropy <> Panic.
Proof. exact p_C125_no_panic. Qed.
Print Assumptions C125_no_panic.

(** ** C126 *)
(** A generated pair is of the kind asked for, signs every message so that its public key accepts the signature, and
    survives its bytes. *)
Theorem C126_works : forall C fuel f entropy kp, crypto_laws C -> (forall i, len (entropy i) = 32) ->
  kp_generate C fuel f entropy = Ok kp ->
  kp_fmt kp = f /\ kp_valid C kp /\ pk_valid C (kp_public C kp) /\
  (forall msg, exists s, kp_sign C kp msg = Ok s /\ pk_verify C (kp_public C kp) msg s = Ok tt) /\
  (exists b, kp_to_vec C kp = Ok b /\ kp_from_vec C b f = Ok kp).
Proof. exact p_C126_works. Qed.
Print Assumptions C126_works.

(** The secret is the first block of the random source that is a secret of that kind. *)
Theorem C126_first : forall C fuel entropy kp,
  (kp_generate C fuel Ed25519 entropy = Ok kp <-> kp = mk_kp Ed25519 (entropy 0%nat)) /\
  (kp_generate C fuel Secp256k1 entropy = Ok kp <->
   exists n, (n < fuel)%nat /\ (forall m, (m < n)%nat -> secp_scalar C (entropy m) = false) /\
     secp_scalar C (entropy n) = true /\ kp = mk_kp Secp256k1 (entropy n)).
Proof. exact p_C126_first. Qed.
Print Assumptions C126_first.

(** The first block is refused; the second one is the secret. *)
Example C126_example_second : crypto_laws toy_nonzero /\ (forall i, len (ex_entropy i) = 32) /\
  kp_generate toy_nonzero 5 Secp256k1 ex_entropy = Ok (mk_kp Secp256k1 (toy_secret 1)) /\
  kp_generate toy_nonzero 1 Secp256k1 ex_entropy = OutOfFuel.
Proof. exact e_C126_second. Qed.

(** ** C127 *)
(** A load that succeeds overwrites the caller's buffer with zeroes. *)
Theorem C127_erased : forall C Lib der kp,
  (fst (rsa_from_pkcs8 Lib der) = Ok kp -> erased der (snd (rsa_from_pkcs8 Lib der))) /\
  (fst (secp256k1_from_der C Lib der) = Ok kp -> erased der (snd (secp256k1_from_der C Lib der))).
Proof. exact p_C127_erased. Qed.
Print Assumptions C127_erased.

Example C127_example_loads : secp256k1_from_der toy_nonzero (toy_libs toy_nonzero) ex_der = (Ok (mk_kp Secp256k1 (toy_secret 1)), repeat x00 48).
Proof. exact e_C127_loads. Qed.

(** ** C128 *)
(** A failed load of an RSA key leaves the buffer alone. *)
Theorem C128_rsa : forall Lib der e, fst (rsa_from_pkcs8 Lib der) = Err e -> snd (rsa_from_pkcs8 Lib der) = der.
Proof. exact p_C128_rsa. Qed.
Print Assumptions C128_rsa.

(** A failed load of a secp256k1 key has erased the buffer whenever it was a DER sequence, and left it alone otherwise. *)
Theorem C128_exact : forall C Lib der e, fst (secp256k1_from_der C Lib der) = Err e ->
  (der_sequence Lib der = None /\ snd (secp256k1_from_der C Lib der) = der) \/
  ((exists objs, der_sequence Lib der = Some objs) /\ erased der (snd (secp256k1_from_der C Lib der))).
Proof. exact p_C128_exact. Qed.
Print Assumptions C128_exact.

(** A secp256k1 key that is refused has been erased from the caller's buffer all the same. *)
Theorem C128_refuted : exists C Lib der e, crypto_laws C /\ libs_laws C Lib /\
  fst (secp256k1_from_der C Lib der) = Err e /\ snd (secp256k1_from_der C Lib der) <> der.
Proof. exact p_C128_refuted. Qed.
Print Assumptions C128_refuted.

(** ** C129 *)
(** The secp256k1 key of a standard ECPrivateKey is loaded. *)
Theorem C129_loads : forall C Lib secret der, libs_laws C Lib -> ec_private_key_of secret der ->
  len secret = 32 -> secp_scalar C secret = true ->
  fst (secp256k1_from_der C Lib der) = Ok (mk_kp Secp256k1 secret).
Proof. exact p_C129_loads. Qed.
Print Assumptions C129_loads.

(** One whose secret is not a secp256k1 secret is refused. *)
Theorem C129_refuses : forall C Lib secret der, libs_laws C Lib -> ec_private_key_of secret der ->
  len secret <> 32 \/ secp_scalar C secret = false ->
  fst (secp256k1_from_der C Lib der) = Err DE_Secp256k1.
Proof. exact p_C129_refuses. Qed.
Print Assumptions C129_refuses.

(** Whatever is loaded is a working pair, whose secret is the second object of the sequence, an OCTET STRING. *)
Theorem C129_only : forall C Lib der kp, fst (secp256k1_from_der C Lib der) = Ok kp ->
  kp_valid C kp /\ kp_fmt kp = Secp256k1 /\
  exists objs, der_sequence Lib der = Some objs /\ nth_error objs 1 = Some (x04, kp_secret kp).
Proof. exact p_C129_only. Qed.
Print Assumptions C129_only.

(** Loading never panics. *)
Theorem C129_no_panic : forall C Lib der,
  fst (secp256k1_from_der C Lib der) <> Panic /\ fst (rsa_from_pkcs8 Lib der) <> Panic.
Proof. exact p_C129_no_panic. Qed.
Print Assumptions C129_no_panic.

Example C129_example_key : ec_private_key_of (toy_secret 1) ex_der /\ len (toy_secret 1) = 32 /\ secp_scalar toy_nonzero (toy_secret 1) = true.
Proof. exact e_C129_key. Qed.

(** ** C130 *)
(** A sequence that is no ECPrivateKey is loaded as one: its version is not looked at. *)
Theorem C130_refuted : exists C Lib der kp, crypto_laws C /\ libs_laws C Lib /\
  fst (secp256k1_from_der C Lib der) = Ok kp /\ forall secret, ~ ec_private_key_of secret der.
Proof. exact p_C130_refuted. Qed.
Print Assumptions C130_refuted.

(** The first object and those after the second are not looked at: any sequence with a secret in the second place is loaded. *)
Theorem C130_any : forall C Lib first secret more der, libs_laws C Lib ->
  Forall (fun o => In (fst o) [x02; x03; x04; x05; x06; x30; xa0; xa1]) (first :: more) -> sequence_of (first :: (x04, secret) :: more) der ->
  len secret = 32 -> secp_scalar C secret = true ->
  fst (secp256k1_from_der C Lib der) = Ok (mk_kp Secp256k1 secret).
Proof. exact p_C130_any. Qed.
Print Assumptions C130_any.

(** ** C131 *)
(** A peer id is written as its base58 text and read back from that text, and from nothing else. *)
Theorem C131_exact : forall C v p, peer_id_deserialize C v = Ok p <-> multihash_ok C p = true /\ v = V_text (b58_encode p).
Proof. exact p_C131_exact. Qed.
Print Assumptions C131_exact.

(** In every format, for the peer id of every key that is not RSA, the peer id read is the one written and gives the key
    back. *)
Theorem C131_key : forall C f k, crypto_laws C -> pk_valid C k -> pk_fmt k <> Rsa ->
  peer_id_deserialize C (through f (peer_id_serialize (pk_to_peer_id C k))) = Ok (pk_to_peer_id C k) /\
  pk_of_peer_id C (pk_to_peer_id C k) = Ok k.
Proof. exact p_C131_key. Qed.
Print Assumptions C131_key.

(** Reading a peer id never panics. *)
Theorem C131_no_panic : forall C v, peer_id_deserialize C v <> Panic.
Proof. exact p_C131_no_panic. Qed.
Print Assumptions C131_no_panic.

Example C131_example_key : let p := pk_to_peer_id (toy false) (toy_key 3) in
  peer_id_deserialize (toy false) (through As_list (peer_id_serialize p)) = Ok p /\
  peer_id_deserialize (toy false) (V_text (str "0")) = Err SDE_custom.
Proof. exact e_C131_key. Qed.
