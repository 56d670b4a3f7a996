(** Model of trust-graph/src/trust.rs. *)
From Coq Require Import List NArith ZArith Bool.
From Verif Require Import Base Text Keys.
Import ListNotations.
Open Scope N_scope.

(** trust.rs 38-50. *)
Record trust := mk_trust {
  issued_for : public_key;
  expires_at : duration;
  trust_sig : signature;       (* field [signature] *)
  issued_at : duration
}.

(** trust.rs 60-93; message strings dropped, field names kept as an enumeration. *)
Inductive trust_field :=
| F_public_key_len | F_public_key | F_signature_size | F_signature | F_expiration | F_issued
| F_issued_for | F_expires_at | F_issued_at.
Inductive trust_error :=
| TE_Expired (expires now : duration)
| TE_SignatureError (e : verification_error)
| TE_DecodePublicKeyError (e : decoding_error)
| TE_ParseError (f : trust_field) (e : parse_int_error)
| TE_Base58DecodeError (f : trust_field) (e : b58_error)
| TE_PublicKeyError (e : decoding_error)
| TE_DecodeErrorInvalidSize (f : trust_field).

Section WithCrypto.
Variable C : crypto.

(** The bytes hashed by [Trust::signature_bytes], trust.rs 146-153. *)
Definition trust_metadata (pk : public_key) (expires issued : duration) : bytes :=
  pk_encode pk ++ le_bytes 8 (secs expires) ++ le_bytes 8 (secs issued).

(** [Trust::signature_bytes], trust.rs 145-156. *)
Definition trust_signature_bytes (pk : public_key) (expires issued : duration) : bytes :=
  sha256 C (trust_metadata pk expires issued).

(** [Trust::create], trust.rs 111-127 ([sign(..).unwrap()]). The error type is arbitrary: it
    never returns [Err]. *)
Definition trust_create {E} (kp : keypair) (pk : public_key) (expires issued : duration) : result E trust :=
  let? s := unwrap (kp_sign C kp (trust_signature_bytes pk expires issued)) in
  Ok (mk_trust pk expires s issued).

(** [Trust::verify], trust.rs 130-143. *)
Definition trust_verify (t : trust) (by_pk : public_key) (cur_time : duration) : result trust_error unit :=
  if duration_ltb (expires_at t) cur_time then Err (TE_Expired (expires_at t) cur_time)
  else map_err TE_SignatureError
         (pk_verify C by_pk (trust_signature_bytes (issued_for t) (expires_at t) (issued_at t)) (trust_sig t)).

(** [Trust::encode], trust.rs 160-172. *)
Definition trust_encode (t : trust) : bytes :=
  let pk := pk_encode (issued_for t) in
  let sg := sig_encode (trust_sig t) in
  u8_of_N (len pk) :: pk ++ u8_of_N (len sg) :: sg ++
  le_bytes 8 (secs (expires_at t)) ++ le_bytes 8 (secs (issued_at t)).

(** [Trust::check_arr_len], trust.rs 174-180. *)
Definition check_arr_len (arr : bytes) (f : trust_field) (check_len : N) : result trust_error unit :=
  if len arr <? check_len then Err (TE_DecodeErrorInvalidSize f) else Ok tt.

(** [&arr[from..to]]: panics unless [from <= to <= arr.len()]. trust.rs 190, 198, 203, 209; certificate.rs 266, 269, 286. *)
Definition slice {E} (arr : bytes) (from to : N) : result E bytes :=
  if (from <=? to) && (to <=? len arr)
  then Ok (firstn (N.to_nat (to - from)) (skipn (N.to_nat from) arr)) else Panic.
(** [arr[i]]. trust.rs 186, 194; certificate.rs 272, 282. *)
Definition index {E} (arr : bytes) (i : N) : result E byte :=
  match nth_error arr (N.to_nat i) with Some b => Ok b | None => Panic end.
(** [u64::from_le_bytes(b.try_into().unwrap())]: panics unless 8 bytes. *)
Definition u64_from_le {E} (b : bytes) : result E N :=
  if len b =? 8 then Ok (le_value b) else Panic.

(** [Trust::decode], trust.rs 184-219, statement by statement. *)
Definition trust_decode (arr : bytes) : result trust_error trust :=
  let? _ := check_arr_len arr F_public_key_len 1 in
  let? pk_len_byte := index arr 0 in
  let pk_len := N_of_u8 pk_len_byte in
  let offset := 1 in
  let? _ := check_arr_len arr F_public_key (offset + pk_len) in
  let? pk_slice := slice arr offset (offset + pk_len) in
  let? pk := map_err TE_PublicKeyError (pk_decode C pk_slice) in
  let offset := offset + pk_len in
  let? _ := check_arr_len arr F_signature_size (offset + 1) in
  let? sig_len_byte := index arr offset in
  let sig_len := N_of_u8 sig_len_byte in
  let offset := offset + 1 in
  let? _ := check_arr_len arr F_signature (offset + sig_len) in
  let? sig_slice := slice arr offset (offset + sig_len) in
  let? sg := map_err TE_PublicKeyError (sig_decode C sig_slice) in
  let offset := offset + sig_len in
  let? _ := check_arr_len arr F_expiration (offset + 8) in
  let? exp_slice := slice arr offset (offset + 8) in
  let? expires := u64_from_le exp_slice in
  let offset := offset + 8 in
  let? _ := check_arr_len arr F_issued (offset + 8) in
  let? iss_slice := slice arr offset (len arr) in
  let? issued := u64_from_le iss_slice in
  Ok (mk_trust pk (from_secs expires) sg (from_secs issued)).

(** [Trust::bs58_str_to_vec], trust.rs 221-225. *)
Definition bs58_str_to_vec (s : text) (f : trust_field) : result trust_error bytes :=
  map_err (TE_Base58DecodeError f) (b58_decode s).

(** [Trust::str_to_duration], trust.rs 227-232. *)
Definition str_to_duration (s : text) (f : trust_field) : result trust_error duration :=
  let? n := map_err (TE_ParseError f) (parse_u64 s) in Ok (from_secs n).

(** [Trust::convert_from_strings], trust.rs 234-256. *)
Definition trust_from_strings (issued_for signature expires issued : text) : result trust_error trust :=
  let? pkb := bs58_str_to_vec issued_for F_issued_for in
  let? pk := map_err TE_DecodePublicKeyError (pk_decode C pkb) in
  let? sgb := bs58_str_to_vec signature F_signature in
  let? sg := map_err TE_PublicKeyError (sig_decode C sgb) in
  let? ex := str_to_duration expires F_expires_at in
  let? iss := str_to_duration issued F_issued_at in
  Ok (mk_trust pk ex sg iss).

End WithCrypto.

(** The four pieces of [Trust::to_string], trust.rs 261-264. *)
Definition trust_strings (t : trust) : text * text * text * text :=
  (b58_encode (pk_encode (issued_for t)), b58_encode (sig_encode (trust_sig t)),
   u64_to_string (secs (expires_at t)), u64_to_string (secs (issued_at t))).

(** [ToString for Trust], trust.rs 259-268. *)
Definition trust_to_string (t : trust) : text :=
  match trust_strings t with
  | (a, b, c, d) => a ++ x0a :: b ++ x0a :: c ++ x0a :: d
  end.
