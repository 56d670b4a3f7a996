(** Model of the peer ids of libp2p that the keypair crate and the service use: [PublicKey::to_peer_id] and
    [TryFrom<PeerId>] (keypair/src/public_key.rs 111-113 and 184-204), [PeerId::from_str] (service/src/misc.rs 48-51,
    dto.rs 80-83 and 133-141). The code below them is in libp2p-identity 0.2.1, multihash 0.19, unsigned-varint 0.7 and quick-protobuf
    0.8 (/repo/Cargo.lock), whose sources are not in /repo: in the rest of the model it is the oracles [multihash_ok],
    [inlined_key] and [rsa_peer_id]; here it is written out and put in their place. *)
From Coq Require Import List NArith ZArith Bool.
From Verif Require Import Base Text Keys Convert.
Import ListNotations.
Open Scope N_scope.

(** A number in groups of seven bits, the least significant first; all bytes but the last have the top bit. [left]: how many
    bytes at most. [strict]: a last byte of zero after another one is refused (unsigned-varint does, quick-protobuf does not).
    Bits beyond the integer type are dropped by the callers. Reached from public_key.rs 184-207 and misc.rs 48-51. *)
Fixpoint read_varint (strict : bool) (left : nat) (b : bytes) : option (N * bytes) :=
  match left, b with
  | S left', x :: b' =>
      if N_of_u8 x <? 128 then Some (N_of_u8 x, b')
      else if strict && match b' with x00 :: _ => true | _ => false end then None
      else match read_varint strict left' b' with
           | Some (n, rest) => Some (N_of_u8 x - 128 + 128 * n, rest)
           | None => None
           end
  | _, _ => None
  end.
Fixpoint write_varint (left : nat) (n : N) : bytes :=
  match left with
  | O => []
  | S left' => if n <? 128 then [u8_of_N n] else u8_of_N (128 + n mod 128) :: write_varint left' (n / 128)
  end.

(** [Multihash::<64>::from_bytes]: code, size, digest, and nothing after it. *)
Definition read_multihash (b : bytes) : option (N * bytes) :=
  match read_varint true 10 b with
  | Some (code, b) =>
      match read_varint true 10 b with
      | Some (size, digest) =>
          if (size mod u64_bound <=? 64) && (len digest =? size mod u64_bound) then Some (code mod u64_bound, digest) else None
      | None => None
      end
  | None => None
  end.

(** [PeerId::from_bytes]: SHA-256, or the identity of at most 42 bytes. *)
Definition read_peer_id (b : bytes) : option (N * bytes) :=
  match read_multihash b with
  | Some (code, digest) =>
      if (code =? 18) || ((code =? 0) && (len digest <=? 42)) then Some (code, digest) else None
  | None => None
  end.

(** [BytesReader::read_unknown] of quick-protobuf: the value of a field that is not known is skipped by its wire type. Reached from public_key.rs 184-207 and misc.rs 48-51. *)
Definition skip_field (tag : N) (b : bytes) : option bytes :=
  let fixed n := if n <=? len b then Some (skipn (N.to_nat n) b) else None in
  match tag mod 8 with
  | 0 => match read_varint false 10 b with Some (_, b') => Some b' | None => None end
  | 1 => fixed 8
  | 2 => match read_varint false 10 b with
         | Some (n, b') => if n mod u64_bound <=? len b' then Some (skipn (N.to_nat (n mod u64_bound)) b') else None
         | None => None
         end
  | 5 => fixed 4
  | _ => None
  end.

(** The generated [from_reader] of the protobuf message PublicKey: field 1 is the kind, field 2 the key; a later field replaces
    an earlier one of its number; a missing kind is 0 and a missing key is empty. [fuel]: one unit for each field. *)
Fixpoint read_message (fuel : nat) (kind : N) (data : bytes) (b : bytes) : option (N * bytes) :=
  match b with
  | [] => Some (kind, data)
  | _ =>
      match fuel with
      | O => None
      | S fuel' =>
          match read_varint false 10 b with
          | Some (tag, b) =>
              if tag mod u32_bound =? 8 then
                match read_varint false 10 b with
                | Some (n, b') => read_message fuel' (n mod u32_bound) data b'
                | None => None
                end
              else if tag mod u32_bound =? 18 then
                match read_varint false 10 b with
                | Some (n, b') =>
                    let size := n mod u32_bound in
                    if size <=? len b' then read_message fuel' kind (firstn (N.to_nat size) b') (skipn (N.to_nat size) b') else None
                | None => None
                end
              else
                match skip_field (tag mod u32_bound) b with
                | Some b' => read_message fuel' kind data b'
                | None => None
                end
          | None => None
          end
      end
  end.

(** [KeyType] of the message: numbers that are not one read as RSA, the default. Reached from public_key.rs 184-207 and misc.rs 48-51. *)
Definition kind_of_number (n : N) : lib_kind :=
  match n with 1 => L_Ed25519 | 2 => L_Secp256k1 | 3 => L_Ecdsa | _ => L_Rsa end.
Definition number_of_kind (k : lib_kind) : byte :=
  match k with L_Rsa => x00 | L_Ed25519 => x01 | L_Secp256k1 => x02 | L_Ecdsa => x03 end.

Section WithLibs.
Context (C : crypto) (Lib : libs).

(** libp2p_identity [PublicKey::try_decode_protobuf], with the features of keypair/Cargo.toml; RSA keys are X.509, and
    there are none on wasm32. *)
Definition try_decode_protobuf (b : bytes) : option lib_key :=
  match read_message (length b) 0 [] b with
  | None => None
  | Some (n, data) =>
      match kind_of_number n with
      | L_Ed25519 => if (len data =? 32) && lib_ed_point Lib data then Some (mk_lib_key L_Ed25519 data) else None
      | L_Rsa => if wasm32 C then None
                 else match lib_x509 Lib data with Some raw => Some (mk_lib_key L_Rsa raw) | None => None end
      | L_Secp256k1 => if (len data =? 33) && lib_secp_point Lib data then Some (mk_lib_key L_Secp256k1 data) else None
      | L_Ecdsa => None
      end
  end.

(** [as_public_key], public_key.rs 195-204. *)
Definition as_public_key (p : N * bytes) : option lib_key :=
  if fst p =? 0 then try_decode_protobuf (snd p) else None.

(** [TryFrom<PeerId> for PublicKey], public_key.rs 184-192. *)
Definition key_of_peer_id (p : N * bytes) : result decoding_error public_key :=
  match as_public_key p with
  | None => Err DE_PublicKeyNotInlined
  | Some k => match of_lib_key C k with Ok k => Ok k | _ => Panic end
  end.

(** libp2p_identity [PublicKey::encode_protobuf]: both fields, in their order. [encode_x509] of libp2p's RSA key is [spki_bytes]. *)
Definition encode_protobuf (k : lib_key) : bytes :=
  let data := match lk_kind k with L_Rsa => spki_bytes (lk_raw k) | _ => lk_raw k end in
  x08 :: number_of_kind (lk_kind k) :: x12 :: write_varint 10 (len data) ++ data.

(** [PeerId::from_public_key]. Called in public_key.rs 111-113. *)
Definition peer_id_of_lib_key (k : lib_key) : N * bytes :=
  let b := encode_protobuf k in
  if len b <=? 42 then (0, b) else (18, sha256 C b).

(** [PeerId::to_bytes]. Reached from public_key.rs 184-207. *)
Definition multihash_bytes (p : N * bytes) : bytes :=
  write_varint 10 (fst p) ++ write_varint 10 (len (snd p)) ++ snd p.

(** [PublicKey::to_peer_id], public_key.rs 111-113. *)
Definition to_peer_id (k : public_key) : result Empty_set (N * bytes) :=
  map_ok peer_id_of_lib_key (to_lib_key Lib k).

(** The same code in the place of the oracles of [crypto]. For public_key.rs 111-113, 184-207. *)
Definition with_peer_ids : crypto := {|
  wasm32 := wasm32 C; sha256 := sha256 C;
  ed_point := ed_point C; ed_public := ed_public C; ed_sign := ed_sign C; ed_verify := ed_verify C;
  rsa_public := rsa_public C; rsa_sign := rsa_sign C; rsa_verify := rsa_verify C;
  secp_point := secp_point C; secp_scalar := secp_scalar C; secp_public := secp_public C; secp_sign := secp_sign C;
  secp_der := secp_der C; secp_verify := secp_verify C;
  multihash_ok := fun b => match read_peer_id b with Some _ => true | None => false end;
  inlined_key := fun b =>
    match read_peer_id b with
    | Some p => match key_of_peer_id p with Ok k => Some k | _ => None end
    | None => None
    end;
  rsa_peer_id := fun raw => multihash_bytes (peer_id_of_lib_key (mk_lib_key L_Rsa raw))
|}.
End WithLibs.
