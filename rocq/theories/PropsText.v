(** The properties of the text forms and of the byte layouts. Every proof is a lemma of TextThms.v or TextEx.v. *)
From Coq Require Import List NArith ZArith Bool.
From Coq Require String.
Import String.StringSyntax.
From Verif Require Import Base Text Keys Trust Certificate Relation Spec Toy TextSpec TextThms TextEx.
Import ListNotations.
Open Scope N_scope.

(** ** C56 *)
(** A secret is accepted exactly if it is the secret of the key pair made of it. *)
Theorem C56_keypair_secret_canonical : forall C b f kp, kp_from_secret_key C b f = Ok kp <->
  kp_valid C kp /\ kp_fmt kp = f /\ kp_secret_bytes kp = Some b.
Proof. exact p_C56_keypair_secret_canonical. Qed.
Print Assumptions C56_keypair_secret_canonical.

Example C56_example_secrets : kp_from_secret_key (toy true) (toy_secret 3) Ed25519 = Ok (toy_kp 3) /\
  kp_from_secret_key (toy true) (x00 :: toy_secret 3) Ed25519 = Err DE_InvalidLength.
Proof. exact e_C56_secrets. Qed.

(** ** C99 *)
(** A number is parsed exactly if it is decimal digits, perhaps after a plus sign, of a value below 2^64. *)
Theorem C99_number_exact : forall s n, parse_u64 s = Ok n <-> number_text s n.
Proof. exact p_C99_number_exact. Qed.
Print Assumptions C99_number_exact.

(** The lines of a text. *)
Theorem C99_lines_exact : forall s ls, lines s = ls <-> line_texts s ls.
Proof. exact p_C99_lines_exact. Qed.
Print Assumptions C99_lines_exact.

(** The base58 text of some bytes. *)
Theorem C99_base58_encode_exact : forall b s, b58_encode b = s <-> base58_text s b.
Proof. exact p_C99_base58_encode_exact. Qed.
Print Assumptions C99_base58_encode_exact.

(** The texts base58 decodes. *)
Theorem C99_base58_decode_exact : forall s b, b58_decode s = Ok b <-> base58_text s b.
Proof. exact p_C99_base58_decode_exact. Qed.
Print Assumptions C99_base58_decode_exact.

(** Four lines are parsed to a trust exactly if they are its key and signature in base58 and its times in decimal. *)
Theorem C99_trust_text_exact : forall C t a b c d, trust_from_strings C a b c d = Ok t <-> trust_lines C t a b c d.
Proof. exact p_C99_trust_text_exact. Qed.
Print Assumptions C99_trust_text_exact.

(** A text is parsed to a certificate exactly if after two lines, whatever they say, come the lines of its trusts. *)
Theorem C99_certificate_text_exact : forall C s c, cert_from_str C s = Ok c <-> exists f v ls, line_texts s (f :: v :: ls) /\ trusts_lines C c ls.
Proof. exact p_C99_certificate_text_exact. Qed.
Print Assumptions C99_certificate_text_exact.

Theorem C99_text_error_position : forall C s e, cert_from_str C s = Err e ->
  (e = CE_IncorrectCertificateFormat s /\ forall ls, line_texts s ls -> (2 <= length ls)%nat /\ Nat.modulo (length ls - 2) 4 <> 0%nat) \/
  exists ls i a b c d te ts, line_texts s ls /\ e = CE_DecodeTrustError i te /\ trust_from_strings C a b c d = Err te /\
    trusts_lines C ts (firstn (i - 2) (skipn 2 ls)) /\ (2 <= i)%nat /\ at_pos ls i a /\ at_pos ls (i + 1) b /\ at_pos ls (i + 2) c /\ at_pos ls (i + 3) d.
Proof. exact p_C99_text_error_position. Qed.
Print Assumptions C99_text_error_position.

(** The texts that make the certificate parser panic, in the words of this file. *)
Theorem C99_certificate_text_panics_exactly : forall C s, cert_from_str C s = Panic <-> exists ls, line_texts s ls /\
  ((length ls < 2)%nat \/
   exists f v ts pre a b c d post, ls = f :: v :: pre ++ a :: b :: c :: d :: post /\ Nat.modulo (length ls - 2) 4 = 0%nat /\
     trusts_lines C ts pre /\ (a = [] \/ (b = [] /\ exists k kb, pk_valid C k /\ key_bytes k kb /\ base58_text a kb))).
Proof. exact p_C99_certificate_text_panics_exactly. Qed.
Print Assumptions C99_certificate_text_panics_exactly.

(** What is written as text has the lines of its trusts after two lines. *)
Theorem C99_certificate_written : forall C c, (forall t, In t c -> trust_fits C t) ->
  exists f v ls, line_texts (cert_to_string c) (f :: v :: ls) /\ trusts_lines C c ls.
Proof. exact p_C99_certificate_written. Qed.
Print Assumptions C99_certificate_written.

(** The largest number is read, the next one is not; signs and leading zeros. *)
Example C99_example_numbers : parse_u64 (str "18446744073709551615") = Ok (2 ^ 64 - 1) /\ parse_u64 (str "18446744073709551616") = Err PIE_PosOverflow /\
  parse_u64 (str "+007") = Ok 7 /\ parse_u64 (str "-7") = Err PIE_InvalidDigit /\ parse_u64 (str "7 ") = Err PIE_InvalidDigit /\ number_text (str "42") 42.
Proof. exact e_C99_numbers. Qed.

(** A carriage return before a newline is dropped, another one is kept; the last newline ends no further line. *)
Example C99_example_lines : line_texts (str "a" ++ [x0d; x0a; x0a] ++ str "b" ++ [x0d]) [str "a"; []; str "b" ++ [x0d]] /\ line_texts (str "a" ++ [x0a]) [str "a"].
Proof. exact e_C99_lines. Qed.

(** Base58: leading zeros, and a character that is no digit. *)
Example C99_example_base58 : base58_text (str "112g") [x00; x00; x61] /\ b58_decode (str "0") = Err B58_InvalidCharacter.
Proof. exact e_C99_base58. Qed.

Example C99_example_certificate : exists ls, trusts_lines (toy true) [toy_trust 1 1 100 1; toy_trust 1 2 90 2] ls /\ length ls = 8%nat.
Proof. exact e_C99_certificate. Qed.

(** A damaged expiry in the second trust is reported at line 6. *)
Example C99_example_error_position : forall a b c d a' b' d', trust_strings (toy_trust 1 1 100 1) = (a, b, c, d) -> (exists c', trust_strings (toy_trust 1 2 90 2) = (a', b', c', d')) ->
  cert_from_str (toy true) (flat_map (fun l => l ++ [x0a]) [[]; []; a; b; c; d; a'; b'; str "9o"; d']) =
  Err (CE_DecodeTrustError 6 (TE_ParseError F_expires_at PIE_InvalidDigit)).
Proof. exact e_C99_error_position. Qed.

(** ** C100 *)
(** Two texts that differ in their first two lines only are read alike, *)
Theorem C100_text_header_ignored : forall C f v f' v' rest c, ~ In x0a f -> ~ In x0a v -> ~ In x0a f' -> ~ In x0a v' ->
  cert_from_str C (f ++ x0a :: v ++ x0a :: rest) = Ok c -> cert_from_str C (f' ++ x0a :: v' ++ x0a :: rest) = Ok c.
Proof. exact p_C100_text_header_ignored. Qed.
Print Assumptions C100_text_header_ignored.

Theorem C100_bytes_header_ignored : forall C h h' b, length h = 6%nat -> length h' = 6%nat ->
  cert_decode C (h ++ b) = cert_decode C (h' ++ b).
Proof. exact p_C100_bytes_header_ignored. Qed.
Print Assumptions C100_bytes_header_ignored.

(** So a certificate that announces another version is accepted. *)
Theorem C100_other_versions_rejected_refuted : exists C c, valid_certificate C c [toy_key 1] (from_secs 5) /\
  (exists v rest, cert_to_string c = v ++ rest /\ v = str "11" ++ [x0a] ++ str "1111" ++ [x0a] /\
     cert_from_str C (str "11" ++ [x0a] ++ str "7777" ++ [x0a] ++ rest) = Ok c) /\
  (exists rest, cert_encode c = [x00; x00; x00; x00; x00; x00] ++ rest /\ cert_decode C ([x00; x00; x00; x00; x00; x07] ++ rest) = Ok c).
Proof. exact p_C100_other_versions_rejected_refuted. Qed.
Print Assumptions C100_other_versions_rejected_refuted.

Example C100_example_same_file : cert_from_str (toy true) ([x0a; x0a] ++ skipn 8 (cert_to_string [toy_trust 1 1 100 1])) = Ok [toy_trust 1 1 100 1] /\
  cert_from_str (toy true) (cert_to_string [toy_trust 1 1 100 1]) = Ok [toy_trust 1 1 100 1].
Proof. exact e_C100_same_file. Qed.

(** ** C101 *)
(** The bytes of keys, *)
Theorem C101_key_layout : forall C k b, (pk_encode k = b <-> key_bytes k b) /\ (pk_decode C b = Ok k <-> pk_valid C k /\ key_bytes k b).
Proof. exact p_C101_key_layout. Qed.
Print Assumptions C101_key_layout.

(** the peer ids of keys that fit into them, *)
Theorem C101_peer_id_layout : forall C k b, pk_valid C k -> pk_fmt k <> Rsa -> pk_to_peer_id C k = b <-> peer_id_bytes k b.
Proof. exact p_C101_peer_id_layout. Qed.
Print Assumptions C101_peer_id_layout.

(** signatures, *)
Theorem C101_signature_layout : forall C s b, (sig_encode s = b <-> signature_bytes s b) /\ (sig_decode C b = Ok s <-> sig_valid C s /\ signature_bytes s b).
Proof. exact p_C101_signature_layout. Qed.
Print Assumptions C101_signature_layout.

(** trusts: written so whenever the key and the signature fit their length bytes, and read exactly if so written, *)
Theorem C101_trust_layout : forall C t, trust_fits C t -> len (pk_encode (issued_for t)) < 256 -> len (sig_encode (trust_sig t)) < 256 ->
  trust_bytes t (trust_encode t).
Proof. exact p_C101_trust_layout. Qed.
Print Assumptions C101_trust_layout.

Theorem C101_trust_read_exact : forall C t b, trust_decode C b = Ok t <-> trust_fits C t /\ trust_bytes t b.
Proof. exact p_C101_trust_read_exact. Qed.
Print Assumptions C101_trust_read_exact.

(** certificates: six zero bytes, the number of trusts and the trusts are written; they are read whatever the first six bytes are
    and whatever comes after the last trust. *)
Theorem C101_certificate_layout : forall C c, (forall t, In t c -> trust_fits C t /\ len (trust_encode t) < 256) -> (length c <= 255)%nat ->
  certificate_bytes (repeat x00 6) c (cert_encode c).
Proof. exact p_C101_certificate_layout. Qed.
Print Assumptions C101_certificate_layout.

Theorem C101_certificate_read_exact : forall C b c, cert_decode C b = Ok c <->
  (2 <= length c)%nat /\ (forall t, In t c -> trust_fits C t) /\ exists h post p, length h = 6%nat /\ certificate_bytes h c p /\ b = p ++ post.
Proof. exact p_C101_certificate_read_exact. Qed.
Print Assumptions C101_certificate_read_exact.

(** and what is signed. *)
Theorem C101_trust_payload : forall C k ex iss, whole_secs ex -> whole_secs iss ->
  exists b, trust_signature_bytes C k ex iss = sha256 C b /\ trust_payload k (secs ex) (secs iss) b.
Proof. exact p_C101_trust_payload. Qed.
Print Assumptions C101_trust_payload.

Theorem C101_revocation_payload : forall C k at_, whole_secs at_ -> len (pk_encode k) < 256 ->
  exists b, revocation_signature_bytes C k at_ = sha256 C b /\ revocation_payload k (secs at_) b.
Proof. exact p_C101_revocation_payload. Qed.
Print Assumptions C101_revocation_payload.

(** The largest and an ordinary time in eight bytes. *)
Example C101_example_times : eight_bytes (2 ^ 64 - 1) (repeat xff 8) /\ eight_bytes 258 [x02; x01; x00; x00; x00; x00; x00; x00].
Proof. exact e_C101_times. Qed.

Example C101_example_layout : trust_bytes (toy_trust 1 2 90 2) (trust_encode (toy_trust 1 2 90 2)) /\
  certificate_bytes (repeat x00 6) [toy_trust 1 1 100 1; toy_trust 1 2 90 2] (cert_encode [toy_trust 1 1 100 1; toy_trust 1 2 90 2]).
Proof. exact e_C101_layout. Qed.
