(** Model of the texts of errors: the [#[error("...")]] attributes (thiserror) and the [error] fields of results.rs. *)
From Coq Require Import List NArith ZArith Bool.
From Coq Require Import Strings.Byte.
From Coq Require String.
Import String.StringSyntax.
From Verif Require Import Base Text Keys Trust Certificate Relation Storage Graph Service.
Import ListNotations.
Open Scope N_scope.

(** The arguments of the formats that this model does not compute: texts of errors of other crates, and texts of values
    which the model's error types do not carry. Each is given by an arbitrary function, so theorems hold for all of them. The formats of error.rs, trust.rs 60-92, certificate.rs 45-68, trust_graph.rs 55-83, storage_impl.rs 119-155, keypair/src/error.rs. *)
Inductive hole :=
| H_slice                      (* std TryFromSliceError, error.rs (keypair) 34 *)
| H_dalek                      (* ed25519_dalek error, error.rs (keypair) 36, 80 *)
| H_ring                       (* ring::error::Unspecified, error.rs (keypair) 84 *)
| H_secp                       (* libsecp256k1::Error, error.rs (keypair) 87 *)
| H_b58 (e : b58_error)        (* bs58::decode::Error *)
| H_not_inlined                (* the peer id, error.rs (keypair) 54 *)
| H_signature                  (* base58 of the signature, error.rs (keypair) 80-87 *)
| H_public_key                 (* base58 of the public key, error.rs (keypair) 80-87 *)
| H_issued_for                 (* the line of the certificate, trust.rs 75 *)
| H_field                      (* the line of the certificate, trust.rs 78, 81 *)
| H_parse_int (e : parse_int_error)  (* std ParseIntError *)
| H_sqlite                     (* marine_sqlite_connector::Error *)
| H_pk_from_str                (* storage_impl.rs 128 *)
| H_peer_id                    (* what went wrong with a peer id: error.rs 24, dto.rs 25 *)
| H_tetraplets.                (* Debug of the tetraplets, misc.rs 38, 41, 45 *)
Definition foreign := hole -> text.

(** The fraction digits of [Debug for Duration]: [fmt_decimal] in std time.rs. [k] digits at most, none after the last non-zero. Used by the format of trust.rs 63. *)
Fixpoint fraction_digits (k : nat) (n : N) : text :=
  match k with
  | O => []
  | S k' => if n =? 0 then [] else dec_char (n / 10 ^ N.of_nat k') :: fraction_digits k' (n mod 10 ^ N.of_nat k')
  end.
Definition fmt_decimal (whole fraction : N) (k : nat) (unit : text) : text :=
  u64_to_string whole ++ (if fraction =? 0 then [] else x2e :: fraction_digits k fraction) ++ unit.
(** [Debug for Duration], std time.rs: seconds if there are any, else milli-, micro- or nanoseconds. Used by the format of trust.rs 63. *)
Definition duration_debug (d : duration) : text :=
  if 0 <? secs d then fmt_decimal (secs d) (nanos d) 9 (str "s")
  else if 1000000 <=? nanos d then fmt_decimal (nanos d / 1000000) (nanos d mod 1000000) 6 (str "ms")
  else if 1000 <=? nanos d then fmt_decimal (nanos d / 1000) (nanos d mod 1000) 3 [xc2; xb5; x73]
  else fmt_decimal (nanos d) 0 0 (str "ns").

Section WithForeign.
Variable F : foreign.

(** keypair/src/error.rs 31-56. *)
Definition decoding_text (e : decoding_error) : text :=
  match e with
  | DE_InvalidLength => str "Failed to decode, invalid length: " ++ F H_slice
  | DE_Ed25519 => str "Failed to decode with ed25519: " ++ F H_dalek
  | DE_Rsa => str "Failed to decode with RSA"
  | DE_Secp256k1 => str "Failed to decode with secp256k1"
  | DE_KeypairDecodingIsNotSupported => str "RSA keypair decoding is not supported yet"
  | DE_InvalidTypeByte => str "Invalid type prefix"
  | DE_Base58 e => str "Cannot decode public key from base58 :" ++ F (H_b58 e)
  | DE_PublicKeyNotInlined => str "public key is not inlined in peer id: " ++ F H_not_inlined
  end.
(** keypair/src/error.rs 77-89. *)
Definition verification_text (e : verification_error) : text :=
  str "Failed to verify signature " ++ F H_signature ++ str " with " ++ F H_public_key ++
  match e with
  | VE_Ed25519 => str " ed25519 public key: " ++ F H_dalek
  | VE_Rsa => str " RSA public key: " ++ F H_ring
  | VE_Secp256k1 => str " secp256k1 public key: " ++ F H_secp
  end.
(** keypair/src/error.rs 25-29. *)
Definition key_format_text (e : key_format_error) : text :=
  match e with InvalidKeyFormat s => s ++ str " Key format is not supported" end.

(** The names given in trust.rs 185-208, 241-253. *)
Definition field_text (f : trust_field) : text :=
  match f with
  | F_public_key_len => str "public_key_len"
  | F_public_key => str "public_key"
  | F_signature_size => str "signature_size"
  | F_signature => str "signature"
  | F_expiration => str "expiration"
  | F_issued => str "issued"
  | F_issued_for => str "issued_for"
  | F_expires_at => str "expires_at"
  | F_issued_at => str "issued_at"
  end.
(** trust.rs 61-93. *)
Definition trust_error_text (e : trust_error) : text :=
  match e with
  | TE_Expired expires now =>
      str "Trust is expired at: '" ++ duration_debug expires ++ str "', current time: '" ++ duration_debug now ++ str "'"
  | TE_SignatureError e => verification_text e
  | TE_DecodePublicKeyError e =>
      str "Cannot decode the public key: " ++ F H_issued_for ++ str " in the trust: " ++ decoding_text e
  | TE_ParseError f e =>
      str "Cannot parse `" ++ field_text f ++ str "` field in the trust '" ++ F H_field ++ str "': " ++ F (H_parse_int e)
  | TE_Base58DecodeError f e =>
      str "Cannot decode `" ++ field_text f ++ str "` from base58 format in the trust '" ++ F H_field ++ str "': " ++ F (H_b58 e)
  | TE_PublicKeyError e => decoding_text e
  | TE_DecodeErrorInvalidSize f => str "Cannot decode `" ++ field_text f ++ str "` field in the trust: invalid size"
  end.
(** certificate.rs 43-70. *)
Definition certificate_error_text (e : certificate_error) : text :=
  match e with
  | CE_IncorrectCertificateFormat s => str "Incorrect format of the certificate: " ++ s
  | CE_DecodeError e => str "Error while decoding a trust in a certificate: " ++ trust_error_text e
  | CE_ExpirationError expires issued =>
      str "Certificate is expired. Issued at " ++ duration_debug issued ++ str " and expired at " ++ duration_debug expires
  | CE_NoTrustedRoot => str "Certificate does not contain a trusted root."
  | CE_MalformedRoot e => str "Root trust did not pass verification: " ++ trust_error_text e
  | CE_KeyInCertificateError => str "There is no `issued_by` public key in a certificate"
  | CE_CertificateLengthError => str "The certificate must have at least 1 trust"
  | CE_DecodeTrustError i e =>
      str "Cannot convert trust number " ++ u64_to_string (N.of_nat i) ++ str " from string: " ++ trust_error_text e
  | CE_VerificationError i e =>
      str "Trust " ++ u64_to_string (N.of_nat i) ++ str " in chain did not pass verification: " ++ trust_error_text e
  end.
(** revoke.rs 26-34. *)
Definition revoke_error_text (e : revoke_error) : text :=
  match e with IncorrectSignature e => str "Signature is incorrect: " ++ verification_text e end.
(** storage_impl.rs 119-155. *)
Definition storage_error_text (e : storage_error) : text :=
  match e with
  | SE_SQLite => F H_sqlite
  | SE_PublicKeyFromStr _ => F H_pk_from_str
  | SE_WeightFactorConversionDB => str "Cannot convert weight factor as integer from DB"
  | SE_Decode e => str "Cannot decode signature from DB: " ++ decoding_text e
  end.
(** trust_graph.rs 55-83. *)
Definition graph_error_text (e : graph_error) : text :=
  match e with
  | GE_InternalStorage e => str "Internal storage error: " ++ storage_error_text e
  | GE_NoRoot => str "There is no root for this certificate."
  | GE_EmptyChain => str "Chain is empty"
  | GE_CertificateCheck e => str "Certificate check error: " ++ certificate_error_text e
  | GE_RevokeCheck e => str "Error on revoking a trust: " ++ revoke_error_text e
  | GE_TrustVerification e => str "Trust verification error: " ++ trust_error_text e
  end.
(** dto.rs 11-33. *)
Definition dto_error_text (e : dto_error) : text :=
  match e with
  | DTO_Base58 e => str "Cannot convert base58 string to bytes: " ++ F (H_b58 e)
  | DTO_PeerIdDecodeError => str "Cannot decode peer id from string: " ++ F H_peer_id
  | DTO_InvalidKeyFormat e => key_format_text e
  end.
(** service/src/error.rs 22-64; [word] is the argument of [InvalidTimestamp]. The peer id error is wrapped, misc.rs 72-75. *)
Definition service_error_text (word : text) (e : service_error) : text :=
  match e with
  | SVE_PublicKeyExtractionError => str "public key extraction from peer id failed: " ++ str "peer id parse error: " ++ F H_peer_id
  | SVE_PublicKeyDecodeError e => decoding_text e
  | SVE_TGError e => graph_error_text e
  | SVE_CertError e => certificate_error_text e
  | SVE_DtoError e => dto_error_text e
  | SVE_TrustError e => trust_error_text e
  | SVE_InvalidTimestampTetraplet => str "you should use host peer.timestamp_sec to pass timestamp: " ++ F H_tetraplets
  | SVE_InvalidTimestamp => word ++ str " can't be issued later than the current timestamp"
  | SVE_NotOwner => str "Root could add only by trust graph service owner"
  end.

(** The argument of [InvalidTimestamp]: service_api.rs 216 and 264. No other call makes this error. *)
Definition call_word (c : service_call) : text :=
  match c with S_add_trust _ _ _ => str "trust" | S_revoke _ _ => str "revoke" | _ => [] end.
(** The field [error] of the answer: results.rs, [""] on success and [format!("{e}")] otherwise. results.rs 16, 20 and alike to 282. *)
Definition answer_text (c : service_call) (r : response) : text :=
  match error r with None => [] | Some e => service_error_text (call_word c) e end.

End WithForeign.
