(** Model of the rest of the keypair crate (key generation, loading of keys, conversions from and to libp2p, peer id
    serializer) and of the serde forms of the types of both crates. *)
From Coq Require Import List NArith ZArith Bool.
From Coq Require String.
Import String.StringSyntax.
From Verif Require Import Base Text Keys Trust Relation.
Import ListNotations.
Open Scope N_scope.

(** What this code calls in other crates, beyond [crypto]. Called in key_pair.rs 120-312, public_key.rs 127-207, ed25519.rs 40-170, rsa.rs 40-230, secp256k1.rs 40-220. *)
Record libs := mk_libs {
  der_sequence : bytes -> option (list (byte * bytes)); (* asn1_der: the (tag, value) pairs in a DER sequence *)
  pkcs8_rsa : bytes -> option bytes;                    (* ring RsaKeyPair::from_pkcs8, as the secret of the model *)
  lib_ed_point : bytes -> bool;                         (* libp2p_identity ed25519::PublicKey::try_from_bytes *)
  lib_secp_point : bytes -> bool;                       (* libp2p_identity secp256k1::PublicKey::try_from_bytes *)
  lib_secp_scalar : bytes -> bool;                      (* libp2p_identity secp256k1::SecretKey::try_from_bytes *)
  lib_x509 : bytes -> option bytes                      (* libp2p_identity rsa::PublicKey::try_decode_x509; the PKCS#1 bytes *)
}.

(** [zeroize]. ed25519.rs 53, 169; rsa.rs 47. *)
Definition zeroize (b : bytes) : bytes := map (fun _ => x00) b.

(** [DerLength] of asn1_der: the number of bytes, and the bytes. *)
Definition der_length_size (n : N) : N := if n <? 128 then 1 else 2 + N.log2 n / 8.
Definition der_length (n : N) : bytes :=
  if n <? 128 then [u8_of_N n]
  else let ds := to_digits 256 n in u8_of_N (128 + N.of_nat (length ds)) :: map u8_of_N ds.
(** [DerObject::serialize] and [DerObject::compute_serialized_len]. Called from rsa.rs 150-225. *)
Definition der_object (tag : byte) (v : bytes) : bytes := tag :: der_length (len v) ++ v.
Definition der_size (n : N) : N := 1 + der_length_size n + n.

(** [OID_RSA_ENCRYPTION_DER], keypair/src/rsa.rs 144-150. *)
Definition oid_rsa_encryption : bytes := [x2a; x86; x48; x86; xf7; x0d; x01; x01; x01].
(** [Asn1SubjectPublicKeyInfo], rsa.rs 154-237: what is written, and the size of the buffer. *)
Definition spki_bytes (pk : bytes) : bytes :=
  der_object x30 (der_object x30 (der_object x06 oid_rsa_encryption ++ der_object x05 []) ++ der_object x03 (x00 :: pk)).
Definition spki_size (pk : bytes) : N :=
  der_size (der_size (der_size (len oid_rsa_encryption) + der_size 0) + der_size (len pk + 1)).
(** [rsa::PublicKey::encode_x509], rsa.rs 101-113: [expect] panics if the buffer is too short; what is not
    written stays zero. *)
Definition encode_x509 (pk : bytes) : result Empty_set bytes :=
  if len (spki_bytes pk) <=? spki_size pk
  then Ok (spki_bytes pk ++ repeat x00 (N.to_nat (spki_size pk - len (spki_bytes pk)))) else Panic.

(** libp2p_identity [KeyType], [PublicKey] and [Keypair], with the features peerid, rsa, ed25519 and secp256k1
    (keypair/Cargo.toml): a kind and raw bytes, for an RSA key the PKCS#1 bytes, for a pair the secret. *)
Inductive lib_kind := L_Ed25519 | L_Rsa | L_Secp256k1 | L_Ecdsa.
Record lib_key := mk_lib_key { lk_kind : lib_kind; lk_raw : bytes }.
Record lib_pair := mk_lib_pair { lp_kind : lib_kind; lp_secret : bytes }.

(** serde's data model, as far as these types use it. For the derived forms of public_key.rs 29, signature.rs 25, trust.rs 36, revoke.rs 38, trust_relation.rs 25, 33. *)
Inductive value :=
| V_num (n : N) | V_text (s : text) | V_bytes (b : bytes) | V_list (l : list value)
| V_struct (fields : list (text * value)) | V_variant (name : text) (v : value).

(** How a data format gives back what [serialize_bytes] wrote: as bytes (such as MessagePack), as a list of numbers (such as
    JSON), or as text (such as bincode, when it is asked for text and the bytes are UTF-8). *)
Inductive format := As_bytes | As_list | As_text.
Definition numbers (b : bytes) : value := V_list (map (fun x => V_num (N_of_u8 x)) b).
Definition stored_bytes (f : format) (b : bytes) : value :=
  match f with As_bytes => V_bytes b | As_list => numbers b | As_text => V_text b end.
(** A value written in a format and read again. For the derived forms of public_key.rs 29, signature.rs 25, trust.rs 36, revoke.rs 38, trust_relation.rs 25, 33. *)
Fixpoint through (f : format) (v : value) : value :=
  match v with
  | V_num n => V_num n
  | V_text s => V_text s
  | V_bytes b => stored_bytes f b
  | V_list l => V_list (map (through f) l)
  | V_struct fs => V_struct (map (fun x => (fst x, through f (snd x))) fs)
  | V_variant n v' => V_variant n (through f v')
  end.

Inductive serde_error := SDE_type | SDE_missing | SDE_duplicate | SDE_custom.

(** Derived [Deserialize] of a number below [bound]. For the derived forms of public_key.rs 29, signature.rs 25, trust.rs 36, revoke.rs 38, trust_relation.rs 25, 33. *)
Definition de_num (bound : N) (v : value) : result serde_error N :=
  match v with V_num n => if n <? bound then Ok n else Err SDE_type | _ => Err SDE_type end.
Definition de_byte (v : value) : result serde_error byte := let? n := de_num 256 v in Ok (u8_of_N n).
(** [Vec<u8>]: a sequence. *)
Definition de_vec (v : value) : result serde_error bytes :=
  match v with V_list l => collect de_byte l | _ => Err SDE_type end.
(** [serde_bytes::ByteBuf] and [ed25519_dalek::VerifyingKey]: bytes or a sequence. Simplified: [ByteBuf] also takes text. *)
Definition de_buf (v : value) : result serde_error bytes :=
  match v with V_bytes b => Ok b | _ => de_vec v end.
(** A field of a derived struct. Unknown fields are ignored. Simplified: a struct given as a sequence is not accepted here. For the derived forms of public_key.rs 29, signature.rs 25, trust.rs 36, revoke.rs 38, trust_relation.rs 25, 33. *)
Definition de_field (name : text) (v : value) : result serde_error value :=
  match v with
  | V_struct fs =>
      match filter (fun x => bytes_eqb (fst x) name) fs with
      | [] => Err SDE_missing
      | [x] => Ok (snd x)
      | _ => Err SDE_duplicate
      end
  | _ => Err SDE_type
  end.

(** serde's impl for [Duration]. For trust.rs 43, 49 and revoke.rs 38-48. *)
Definition ser_duration (d : duration) : value := V_struct [(str "secs", V_num (secs d)); (str "nanos", V_num (nanos d))].
Definition de_duration (v : value) : result serde_error duration :=
  let? s := let? x := de_field (str "secs") v in de_num u64_bound x in
  let? n := let? x := de_field (str "nanos") v in de_num u32_bound x in
  if s + n / 1000000000 <? u64_bound then Ok (mk_duration (s + n / 1000000000) (n mod 1000000000)) else Err SDE_custom.

Definition variant_name (f : key_format) : text :=
  match f with Ed25519 => str "Ed25519" | Rsa => str "Rsa" | Secp256k1 => str "Secp256k1" end.

Section WithCrypto.
Variable C : crypto.
Variable Lib : libs.

(** [KeyPair::generate], key_pair.rs 121-140. [entropy]: the blocks of 32 bytes the random source gives. ed25519.rs 37-39,
    154-157. [todo!] for RSA. secp256k1.rs 42-44, 90-103: blocks are drawn until one is a scalar; [fuel] bounds the draws. *)
Fixpoint draw_scalar (fuel : nat) (entropy : nat -> bytes) (i : nat) : result Empty_set keypair :=
  match fuel with
  | O => OutOfFuel
  | S fuel' => if secp_scalar C (entropy i) then Ok (mk_kp Secp256k1 (entropy i)) else draw_scalar fuel' entropy (S i)
  end.
Definition kp_generate (fuel : nat) (f : key_format) (entropy : nat -> bytes) : result Empty_set keypair :=
  match f with
  | Ed25519 => Ok (mk_kp Ed25519 (entropy O))
  | Secp256k1 => draw_scalar fuel entropy O
  | Rsa => Panic
  end.

(** [KeyPair::rsa_from_pkcs8], key_pair.rs 146-149; rsa.rs 44-48. The answer and the caller's buffer afterwards. *)
Definition rsa_from_pkcs8 (der : bytes) : result decoding_error keypair * bytes :=
  match pkcs8_rsa Lib der with
  | None => (Err DE_Rsa, der)
  | Some s => (Ok (mk_kp Rsa s), zeroize der)
  end.

(** [KeyPair::secp256k1_from_der], key_pair.rs 155-158; secp256k1.rs 121-133. [Vec<u8>] is an OCTET STRING (tag 4). *)
Definition secp256k1_from_der (der : bytes) : result decoding_error keypair * bytes :=
  match der_sequence Lib der with
  | None => (Err DE_Secp256k1, der)
  | Some objs =>
      (match nth_error objs 1 with
       | None => Err DE_Secp256k1
       | Some (tag, v) => if Byte.eqb tag x04 then secp_from_bytes C v else Err DE_Secp256k1
       end, zeroize der)
  end.

(** [From<PublicKey> for libp2p_identity::PublicKey], public_key.rs 155-182. Errors are [expect]ed: panics. *)
Definition to_lib_key (k : public_key) : result Empty_set lib_key :=
  match pk_fmt k with
  | Ed25519 => if (len (pk_raw k) =? 32) && lib_ed_point Lib (pk_raw k) then Ok (mk_lib_key L_Ed25519 (pk_raw k)) else Panic
  | Rsa => let? x := encode_x509 (pk_raw k) in
           match lib_x509 Lib x with Some raw => Ok (mk_lib_key L_Rsa raw) | None => Panic end
  | Secp256k1 => if (len (pk_raw k) =? 33) && lib_secp_point Lib (pk_raw k) then Ok (mk_lib_key L_Secp256k1 (pk_raw k)) else Panic
  end.

(** [From<libp2p_identity::PublicKey> for PublicKey], public_key.rs 127-153. Other kinds, and RSA on wasm32, are
    [unreachable!]. *)
Definition of_lib_key (k : lib_key) : result Empty_set public_key :=
  match lk_kind k with
  | L_Ed25519 => unwrap (decode_raw_key C Ed25519 (lk_raw k))
  | L_Rsa => if wasm32 C then Panic else unwrap (decode_raw_key C Rsa (lk_raw k))
  | L_Secp256k1 => unwrap (decode_raw_key C Secp256k1 (lk_raw k))
  | L_Ecdsa => Panic
  end.

(** [From<KeyPair> for libp2p_identity::Keypair], key_pair.rs 281-311. *)
Definition to_lib_pair (kp : keypair) : result Empty_set lib_pair :=
  match kp_fmt kp with
  | Ed25519 => if len (kp_secret kp) =? 32 then Ok (mk_lib_pair L_Ed25519 (kp_secret kp)) else Panic
  | Rsa => Ok (mk_lib_pair L_Rsa (kp_secret kp))
  | Secp256k1 => if (len (kp_secret kp) =? 32) && lib_secp_scalar Lib (kp_secret kp) then Ok (mk_lib_pair L_Secp256k1 (kp_secret kp)) else Panic
  end.

(** [From<libp2p_identity::Keypair> for KeyPair], key_pair.rs 251-279. libp2p's [to_bytes] of an ed25519 pair is the secret
    and the public key. *)
Definition of_lib_pair (p : lib_pair) : result Empty_set keypair :=
  match lp_kind p with
  | L_Ed25519 => unwrap (kp_from_vec C (lp_secret p ++ ed_public C (lp_secret p)) Ed25519)
  | L_Rsa => if wasm32 C then Panic else Ok (mk_kp Rsa (lp_secret p))
  | L_Secp256k1 => unwrap (secp_from_bytes C (lp_secret p))
  | L_Ecdsa => Panic
  end.

(** [peerid_serializer], keypair/src/lib.rs 43-64. *)
Definition peer_id_serialize (p : bytes) : value := V_text (peer_id_to_base58 p).
Definition peer_id_deserialize (v : value) : result serde_error bytes :=
  match v with
  | V_text s => match peer_id_from_str C s with Some p => Ok p | None => Err SDE_custom end
  | _ => Err SDE_type
  end.

(** Derived serde of [PublicKey] (public_key.rs 28-38), of ed25519 keys (ed25519.rs 106-108, dalek's impl), RSA keys (rsa.rs
    68-70) and secp256k1 keys (secp256k1.rs 207-226). *)
Definition ser_key (k : public_key) : value :=
  V_variant (variant_name (pk_fmt k)) (match pk_fmt k with Rsa => numbers (pk_raw k) | _ => V_bytes (pk_raw k) end).
Definition de_variant (n : text) : result serde_error key_format :=
  if bytes_eqb n (str "Ed25519") then Ok Ed25519
  else if bytes_eqb n (str "Secp256k1") then Ok Secp256k1
  else if negb (wasm32 C) && bytes_eqb n (str "Rsa") then Ok Rsa
  else Err SDE_type.
Definition de_key (v : value) : result serde_error public_key :=
  match v with
  | V_variant n v' =>
      let? f := de_variant n in
      let? raw := match f with Rsa => de_vec v' | _ => de_buf v' end in
      map_err (fun _ => SDE_custom) (decode_raw_key C f raw)
  | _ => Err SDE_type
  end.
(** Derived serde of [Signature], signature.rs 25-31. *)
Definition ser_sig (s : signature) : value := V_variant (variant_name (sig_fmt s)) (numbers (sig_raw s)).
Definition de_sig (v : value) : result serde_error signature :=
  match v with
  | V_variant n v' => let? f := de_variant n in let? raw := de_vec v' in Ok (mk_sig f raw)
  | _ => Err SDE_type
  end.
(** Derived serde of [Trust] (trust.rs 36-49), [Revocation] (revoke.rs 38-48), [Auth] and [TrustRelation]
    (trust_relation.rs 25-37). *)
Definition ser_trust (t : trust) : value :=
  V_struct [(str "issued_for", ser_key (issued_for t)); (str "expires_at", ser_duration (expires_at t));
            (str "signature", ser_sig (trust_sig t)); (str "issued_at", ser_duration (issued_at t))].
Definition de_trust (v : value) : result serde_error trust :=
  let? k := let? x := de_field (str "issued_for") v in de_key x in
  let? e := let? x := de_field (str "expires_at") v in de_duration x in
  let? s := let? x := de_field (str "signature") v in de_sig x in
  let? i := let? x := de_field (str "issued_at") v in de_duration x in
  Ok (mk_trust k e s i).
Definition ser_revocation (r : revocation) : value :=
  V_struct [(str "pk", ser_key (rev_pk r)); (str "revoked_at", ser_duration (revoked_at r));
            (str "revoked_by", ser_key (revoked_by r)); (str "signature", ser_sig (rev_sig r))].
Definition de_revocation (v : value) : result serde_error revocation :=
  let? k := let? x := de_field (str "pk") v in de_key x in
  let? a := let? x := de_field (str "revoked_at") v in de_duration x in
  let? b := let? x := de_field (str "revoked_by") v in de_key x in
  let? s := let? x := de_field (str "signature") v in de_sig x in
  Ok (mk_rev k a b s).
Definition ser_relation (x : relation) : value :=
  match x with
  | RAuth a => V_variant (str "Auth") (V_struct [(str "trust", ser_trust (auth_trust a)); (str "issued_by", ser_key (issued_by a))])
  | RRev r => V_variant (str "Revocation") (ser_revocation r)
  end.
Definition de_relation (v : value) : result serde_error relation :=
  match v with
  | V_variant n v' =>
      if bytes_eqb n (str "Auth") then
        let? t := let? x := de_field (str "trust") v' in de_trust x in
        let? b := let? x := de_field (str "issued_by") v' in de_key x in
        Ok (RAuth (mk_auth t b))
      else if bytes_eqb n (str "Revocation") then let? r := de_revocation v' in Ok (RRev r)
      else Err SDE_type
  | _ => Err SDE_type
  end.

(** serde of [PublicKeyHashable], public_key_hashable.rs 92-139: written with [serialize_bytes]; [visit_str] and
    [visit_bytes] are the only visitors. *)
Definition ser_hashable (k : public_key) : value := V_bytes (pk_encode k).
Definition de_hashable (v : value) : result serde_error public_key :=
  match v with
  | V_bytes b => map_err (fun _ => SDE_custom) (pk_decode C b)
  | V_text s => let? b := map_err (fun _ => SDE_custom) (b58_decode s) in map_err (fun _ => SDE_custom) (pk_decode C b)
  | _ => Err SDE_type
  end.

End WithCrypto.
