(** Model of the [fluence_keypair] crate (/repo/keypair/src). *)
From Coq Require Import List NArith ZArith Bool.
From Coq Require String.
Import String.StringSyntax.
From Verif Require Import Base Text.
Import ListNotations.
Open Scope N_scope.

(** keypair/src/key_pair.rs 50-56. On wasm32 the [Rsa] variant does not exist;
    here it always exists and [fmt_supported] tells whether the build has it. *)
Inductive key_format := Ed25519 | Rsa | Secp256k1.

Definition key_format_eqb (a b : key_format) : bool :=
  match a, b with
  | Ed25519, Ed25519 | Rsa, Rsa | Secp256k1, Secp256k1 => true
  | _, _ => false
  end.

(** keypair/src/public_key.rs 28-38 and the three inner types. A key is its kind
    and the raw bytes its kind's [encode]/[to_pkcs1] returns. The Rust types hold
    parsed curve points; [pk_valid] below says which raw bytes are such keys. *)
Record public_key := mk_pk { pk_fmt : key_format; pk_raw : bytes }.

Definition pk_eqb (a b : public_key) : bool :=
  key_format_eqb (pk_fmt a) (pk_fmt b) && bytes_eqb (pk_raw a) (pk_raw b).

(** keypair/src/signature.rs 25-31. *)
Record signature := mk_sig { sig_fmt : key_format; sig_raw : bytes }.

(** External code: hash function, the three signature schemes, peer ids. The model and
    its theorems are parametric in this record. Called in trust.rs 155, revoke.rs 80, keypair/src/{ed25519,secp256k1,rsa}.rs, public_key.rs 46-54, 111-113, 184-207. *)
Record crypto := mk_crypto {
  wasm32 : bool;                               (* cfg(target_arch = "wasm32") *)
  sha256 : bytes -> bytes;                     (* sha2::Sha256::digest *)
  ed_point : bytes -> bool;                    (* ed25519_dalek VerifyingKey::from_bytes succeeds on these 32 bytes *)
  ed_public : bytes -> bytes;                  (* secret -> public *)
  ed_sign : bytes -> bytes -> bytes;           (* secret -> message -> signature *)
  ed_verify : bytes -> bytes -> bytes -> bool; (* public -> message -> signature -> ok, including Signature::try_from *)
  rsa_public : bytes -> bytes;
  rsa_sign : bytes -> bytes -> option bytes;   (* ring may fail *)
  rsa_verify : bytes -> bytes -> bytes -> bool;
  secp_point : bytes -> bool;                  (* libsecp256k1 parse_slice(Compressed) succeeds on these 33 bytes *)
  secp_scalar : bytes -> bool;                 (* libsecp256k1 SecretKey::parse succeeds on these 32 bytes *)
  secp_public : bytes -> bytes;
  secp_sign : bytes -> bytes -> bytes;         (* secret -> 32-byte hash -> DER signature *)
  secp_der : bytes -> bool;                    (* libsecp256k1::Signature::parse_der succeeds *)
  secp_verify : bytes -> bytes -> bytes -> bool; (* libsecp256k1::verify: public -> hash -> parsed signature *)
  multihash_ok : bytes -> bool;                (* libp2p PeerId::from_bytes succeeds *)
  inlined_key : bytes -> option public_key;    (* identity multihash whose digest is a protobuf public key *)
  rsa_peer_id : bytes -> bytes                 (* peer id of an RSA key: sha2-256 multihash of its protobuf *)
}.

Section WithCrypto.
Variable C : crypto.

Definition fmt_supported (f : key_format) : bool :=
  match f with Rsa => negb (wasm32 C) | _ => true end.

(** Raw bytes that are a key of this kind. ed25519: keypair/src/ed25519.rs 131-136;
    rsa: keypair/src/rsa.rs 93-95 (anything); secp256k1: keypair/src/secp256k1.rs 200-204. *)
Definition raw_key_ok (f : key_format) (raw : bytes) : bool :=
  match f with
  | Ed25519 => (len raw =? 32) && ed_point C raw
  | Rsa => true
  | Secp256k1 => (len raw =? 33) && secp_point C raw
  end.

(** The values of the Rust type [PublicKey] in this build. public_key.rs 30-38. *)
Definition pk_valid (k : public_key) : Prop :=
  fmt_supported (pk_fmt k) = true /\ raw_key_ok (pk_fmt k) (pk_raw k) = true.

(** The values of the Rust type [Signature] in this build. signature.rs 26-31. *)
Definition sig_valid (s : signature) : Prop := fmt_supported (sig_fmt s) = true.

(** keypair/src/error.rs 31-56; payloads dropped. *)
Inductive decoding_error :=
| DE_InvalidLength | DE_Ed25519 | DE_Rsa | DE_Secp256k1 | DE_KeypairDecodingIsNotSupported
| DE_InvalidTypeByte | DE_Base58 (e : b58_error) | DE_PublicKeyNotInlined.
(** keypair/src/error.rs 78-89; payloads dropped. *)
Inductive verification_error := VE_Ed25519 | VE_Rsa | VE_Secp256k1.
(** keypair/src/error.rs 59-75. *)
Inductive signing_error := SE_Rsa | SE_Secp256k1.
(** keypair/src/error.rs 25-29. *)
Inductive key_format_error := InvalidKeyFormat (s : text).

(** [From<KeyFormat> for u8], keypair/src/key_pair.rs 87-96. *)
Definition fmt_byte (f : key_format) : byte :=
  match f with Ed25519 => x00 | Rsa => x01 | Secp256k1 => x02 end.

(** [TryFrom<u8> for KeyFormat], keypair/src/key_pair.rs 73-85. *)
Definition fmt_of_byte (b : byte) : result decoding_error key_format :=
  match b with
  | x00 => Ok Ed25519
  | x01 => if wasm32 C then Err DE_InvalidTypeByte else Ok Rsa
  | x02 => Ok Secp256k1
  | _ => Err DE_InvalidTypeByte
  end.

(** [From<KeyFormat> for String], keypair/src/key_pair.rs 98-107. *)
Definition fmt_text (f : key_format) : text :=
  match f with
  | Ed25519 => str "ed25519"
  | Rsa => str "rsa"
  | Secp256k1 => str "secp256k1"
  end.

(** [FromStr for KeyFormat], keypair/src/key_pair.rs 58-71. *)
Definition fmt_of_text (s : text) : result key_format_error key_format :=
  if bytes_eqb s (str "ed25519") then Ok Ed25519
  else if bytes_eqb s (str "secp256k1") then Ok Secp256k1
  else if negb (wasm32 C) && bytes_eqb s (str "rsa") then Ok Rsa
  else Err (InvalidKeyFormat s).

(** [PublicKey::encode], keypair/src/public_key.rs 56-68. *)
Definition pk_encode (k : public_key) : bytes := fmt_byte (pk_fmt k) :: pk_raw k.

(** [ed25519::PublicKey::decode] (ed25519.rs 131-136), [rsa::PublicKey::from_pkcs1]
    (rsa.rs 93-95), [secp256k1::PublicKey::decode] (secp256k1.rs 200-204). *)
Definition decode_raw_key (f : key_format) (raw : bytes) : result decoding_error public_key :=
  match f with
  | Ed25519 =>
      if len raw =? 32 then
        if ed_point C raw then Ok (mk_pk Ed25519 raw) else Err DE_Ed25519
      else Err DE_InvalidLength
  | Rsa => Ok (mk_pk Rsa raw)
  | Secp256k1 =>
      if (len raw =? 33) && secp_point C raw then Ok (mk_pk Secp256k1 raw) else Err DE_Secp256k1
  end.

(** [PublicKey::decode], keypair/src/public_key.rs 70-81. [bytes[0]] panics on an empty slice. *)
Definition pk_decode (b : bytes) : result decoding_error public_key :=
  match b with
  | [] => Panic
  | t :: raw => let? f := fmt_of_byte t in decode_raw_key f raw
  end.

(** [PublicKey::from_base58], keypair/src/public_key.rs 93-98. *)
Definition pk_from_base58 (s : text) : result decoding_error public_key :=
  let? b := map_err DE_Base58 (b58_decode s) in pk_decode b.

(** [Display for PublicKeyHashable], trust-graph/src/public_key_hashable.rs 77-81. *)
Definition pk_display (k : public_key) : text := b58_encode (pk_encode k).

(** [FromStr for PublicKeyHashable], trust-graph/src/public_key_hashable.rs 83-90. *)
Definition pk_from_str (s : text) : result decoding_error public_key := pk_from_base58 s.

(** [Hash for PublicKeyHashable], trust-graph/src/public_key_hashable.rs 33-37: the bytes
    written to the hasher. *)
Definition pk_hash_input (k : public_key) : bytes := pk_encode k.

(** [Signature::encode], keypair/src/signature.rs 50-63. *)
Definition sig_encode (s : signature) : bytes := fmt_byte (sig_fmt s) :: sig_raw s.

(** [Signature::decode], keypair/src/signature.rs 66-75. [bytes[0]] panics on an empty vector. *)
Definition sig_decode (b : bytes) : result decoding_error signature :=
  match b with
  | [] => Panic
  | t :: raw => let? f := fmt_of_byte t in Ok (mk_sig f raw)
  end.

(** [Signature::from_bytes], keypair/src/signature.rs 106-113. *)
Definition sig_from_bytes (f : key_format) (b : bytes) : signature := mk_sig f b.

(** [secp256k1::PublicKey::verify_hashed], keypair/src/secp256k1.rs 171-185: the message
    must be 32 bytes and the signature parse as DER; the boolean computed by
    [libsecp256k1::verify] is discarded by [.map(|_| ())]. *)
Definition secp_verify_hashed (raw msg sig : bytes) : result verification_error unit :=
  if len msg =? 32 then
    if secp_der C sig then
      let _verified := secp_verify C raw msg sig in Ok tt
    else Err VE_Secp256k1
  else Err VE_Secp256k1.

(** [PublicKey::verify], keypair/src/public_key.rs 46-54, with ed25519.rs 112-122, rsa.rs 73-82,
    secp256k1.rs 166-168. Only the raw bytes of the signature are used, not its kind.
    [KeyPair::verify] (key_pair.rs 206-212) is the same function. *)
Definition pk_verify (k : public_key) (msg : bytes) (s : signature) : result verification_error unit :=
  match pk_fmt k with
  | Ed25519 => if ed_verify C (pk_raw k) msg (sig_raw s) then Ok tt else Err VE_Ed25519
  | Rsa => if rsa_verify C (pk_raw k) msg (sig_raw s) then Ok tt else Err VE_Rsa
  | Secp256k1 => secp_verify_hashed (pk_raw k) (sha256 C msg) (sig_raw s)
  end.

(** Key pairs, keypair/src/key_pair.rs 109-118, represented by kind and secret bytes. *)
Record keypair := mk_kp { kp_fmt : key_format; kp_secret : bytes }.

(** The values of the Rust type [KeyPair] in this build. key_pair.rs 110-118. *)
Definition kp_valid (kp : keypair) : Prop :=
  fmt_supported (kp_fmt kp) = true /\
  match kp_fmt kp with
  | Ed25519 => len (kp_secret kp) = 32
  | Rsa => True
  | Secp256k1 => len (kp_secret kp) = 32 /\ secp_scalar C (kp_secret kp) = true
  end.

(** [KeyPair::public], keypair/src/key_pair.rs 185-193. *)
Definition kp_public (kp : keypair) : public_key :=
  mk_pk (kp_fmt kp)
    (match kp_fmt kp with
     | Ed25519 => ed_public C (kp_secret kp)
     | Rsa => rsa_public C (kp_secret kp)
     | Secp256k1 => secp_public C (kp_secret kp)
     end).

(** [KeyPair::sign], keypair/src/key_pair.rs 160-170, with ed25519.rs 60-62, rsa.rs 55-64,
    secp256k1.rs 139-141 and 150-157. *)
Definition kp_sign (kp : keypair) (msg : bytes) : result signing_error signature :=
  match kp_fmt kp with
  | Ed25519 => Ok (mk_sig Ed25519 (ed_sign C (kp_secret kp) msg))
  | Rsa => match rsa_sign C (kp_secret kp) msg with
           | Some s => Ok (mk_sig Rsa s)
           | None => Err SE_Rsa
           end
  | Secp256k1 =>
      let h := sha256 C msg in
      if len h =? 32 then Ok (mk_sig Secp256k1 (secp_sign C (kp_secret kp) h)) else Err SE_Secp256k1
  end.

(** [r.unwrap()]. trust.rs 119, 204, 210; revoke.rs 68. *)
Definition unwrap {E F A} (r : result E A) : result F A :=
  match r with
  | Ok a => Ok a
  | Err _ => Panic
  | Panic => Panic
  | OutOfFuel => OutOfFuel
  end.

(** [KeyPair::to_vec], keypair/src/key_pair.rs 214-222; ed25519.rs 42-44. [todo!] for RSA. *)
Definition kp_to_vec (kp : keypair) : result decoding_error bytes :=
  match kp_fmt kp with
  | Ed25519 => Ok (kp_secret kp ++ ed_public C (kp_secret kp))
  | Rsa => Panic
  | Secp256k1 => Ok (kp_secret kp)
  end.

(** [secp256k1::SecretKey::from_bytes], secp256k1.rs 109-115. *)
Definition secp_from_bytes (b : bytes) : result decoding_error keypair :=
  if (len b =? 32) && secp_scalar C b then Ok (mk_kp Secp256k1 b) else Err DE_Secp256k1.

(** [KeyPair::from_vec], keypair/src/key_pair.rs 224-233; ed25519.rs 48-57: 64 bytes whose
    second half is the public key of the first half. *)
Definition kp_from_vec (b : bytes) (f : key_format) : result decoding_error keypair :=
  match f with
  | Ed25519 =>
      if len b =? 64 then
        if ed_point C (skipn 32 b) && bytes_eqb (ed_public C (firstn 32 b)) (skipn 32 b)
        then Ok (mk_kp Ed25519 (firstn 32 b)) else Err DE_Ed25519
      else Err DE_InvalidLength
  | Secp256k1 => secp_from_bytes b
  | Rsa => Err DE_KeypairDecodingIsNotSupported
  end.

(** [KeyPair::from_secret_key], keypair/src/key_pair.rs 235-244; ed25519.rs 166-171. *)
Definition kp_from_secret_key (b : bytes) (f : key_format) : result decoding_error keypair :=
  match f with
  | Ed25519 => if len b =? 32 then Ok (mk_kp Ed25519 b) else Err DE_InvalidLength
  | Secp256k1 => secp_from_bytes b
  | Rsa => Err DE_KeypairDecodingIsNotSupported
  end.

(** [KeyPair::secret], keypair/src/key_pair.rs 195-203. [None]: the error for RSA. *)
Definition kp_secret_bytes (kp : keypair) : option bytes :=
  match kp_fmt kp with
  | Rsa => None
  | _ => Some (kp_secret kp)
  end.

(** [PublicKey::to_peer_id], keypair/src/public_key.rs 111-113. libp2p: the multihash with the
    identity code (0x00) of the protobuf (field 1 = key type, field 2 = raw key) when
    that is at most 42 bytes, else a sha2-256 multihash. Bytes of the multihash. *)
Definition pk_to_peer_id (k : public_key) : bytes :=
  match pk_fmt k with
  | Ed25519 => x00 :: x24 :: x08 :: x01 :: x12 :: x20 :: pk_raw k
  | Secp256k1 => x00 :: x25 :: x08 :: x02 :: x12 :: x21 :: pk_raw k
  | Rsa => rsa_peer_id C (pk_raw k)
  end.

(** [PeerId::to_base58]. *)
Definition peer_id_to_base58 (p : bytes) : text := b58_encode p.

(** [PeerId::from_str] (libp2p-identity): base58, then multihash checks. [None] = parse error. *)
Definition peer_id_from_str (s : text) : option bytes :=
  match b58_decode s with
  | Ok b => if multihash_ok C b then Some b else None
  | _ => None
  end.

(** [TryFrom<PeerId> for PublicKey], keypair/src/public_key.rs 184-204. *)
Definition pk_of_peer_id (p : bytes) : result decoding_error public_key :=
  match inlined_key C p with
  | Some k => Ok k
  | None => Err DE_PublicKeyNotInlined
  end.

End WithCrypto.


(** Laws of the external code used as explicit hypotheses of some theorems. The code is that called in keypair/src/{ed25519,secp256k1,rsa}.rs; none of it is in /repo. *)
Record crypto_laws (C : crypto) : Prop := mk_laws {
  law_sha_len : forall m, len (sha256 C m) = 32;
  law_ed_public : forall sk, len sk = 32 -> len (ed_public C sk) = 32 /\ ed_point C (ed_public C sk) = true;
  law_ed_sign : forall sk m, len sk = 32 -> ed_verify C (ed_public C sk) m (ed_sign C sk m) = true;
  law_secp_public : forall sk, len sk = 32 -> secp_scalar C sk = true ->
      len (secp_public C sk) = 33 /\ secp_point C (secp_public C sk) = true;
  law_secp_sign : forall sk h, len sk = 32 -> secp_scalar C sk = true -> len h = 32 ->
      secp_der C (secp_sign C sk h) = true /\
      secp_verify C (secp_public C sk) h (secp_sign C sk h) = true;
  law_rsa_sign : forall sk m s, rsa_sign C sk m = Some s -> rsa_verify C (rsa_public C sk) m s = true;
  law_peer_id : forall k, pk_valid C k -> pk_fmt k <> Rsa ->
      multihash_ok C (pk_to_peer_id C k) = true /\ inlined_key C (pk_to_peer_id C k) = Some k;
  law_inlined : forall p k, inlined_key C p = Some k -> pk_valid C k
}.
