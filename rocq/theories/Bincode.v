(** Model of the derived serde forms of both crates in bincode 1.3 (service/Cargo.toml 28), a format that writes fields by
    position and variants by index: [bincode::serialize] and [bincode::deserialize], whose defaults are integers of fixed
    width, least significant byte first, lengths of 64 bits and indices of 32 bits, bytes and sequences of [u8] alike, and
    bytes that follow the value ignored. *)
From Coq Require Import List NArith ZArith Bool.
From Verif Require Import Base Text Keys Trust Relation.
Import ListNotations.
Open Scope N_scope.

(** bincode's [ErrorKind]: the input ends early, an unknown variant, or a type refuses. Simplified: payloads and the other
    kinds are dropped. For the derived forms of public_key.rs 29, signature.rs 25, trust.rs 36, revoke.rs 38, trust_relation.rs 25, 33. *)
Inductive bin_error := BE_end | BE_variant | BE_custom.

(** A reader takes what it needs from the front of the input. For the derived forms of public_key.rs 29, signature.rs 25, trust.rs 36, revoke.rs 38, trust_relation.rs 25, 33. *)
Definition reader (A : Type) : Type := bytes -> result bin_error (A * bytes).
Definition r_ret {A} (x : A) : reader A := fun b => Ok (x, b).
Definition r_fail {A} (e : bin_error) : reader A := fun _ => Err e.
Definition r_bind {A B} (r : reader A) (f : A -> reader B) : reader B := fun b => let? p := r b in f (fst p) (snd p).
Notation "'let%' x := r 'in' k" := (r_bind r (fun x => k)) (at level 200, x pattern, r at level 100, k at level 200).
Definition r_take (n : N) : reader bytes :=
  fun b => if n <=? len b then Ok (firstn (N.to_nat n) b, skipn (N.to_nat n) b) else Err BE_end.
Definition r_int (k : N) : reader N := let% b := r_take k in r_ret (le_value b).

(** [u64], [u32]. *)
Definition b_u64 (n : N) : bytes := le_bytes 8 n.
Definition b_u32 (n : N) : bytes := le_bytes 4 n.
(** [Vec<u8>], [serde_bytes::Bytes] and dalek's [VerifyingKey]. Simplified: a length that does not fit [usize] (wasm32) is
    the same error as one beyond the input. *)
Definition b_vec (v : bytes) : bytes := b_u64 (len v) ++ v.
Definition r_vec : reader bytes := let% n := r_int 8 in r_take n.

(** serde's impl for [Duration]. For trust.rs 43, 49 and revoke.rs 38-48. *)
Definition b_duration (d : duration) : bytes := b_u64 (secs d) ++ b_u32 (nanos d).
Definition r_duration : reader duration :=
  let% s := r_int 8 in let% n := r_int 4 in
  if s + n / 1000000000 <? u64_bound then r_ret (mk_duration (s + n / 1000000000) (n mod 1000000000)) else r_fail BE_custom.

Section WithCrypto.
Variable C : crypto.

(** The variants of [PublicKey] (keypair/src/public_key.rs 29-38) and of [Signature] (signature.rs 25-31), counted in the
    order in which they are declared; [Rsa] is not compiled for wasm32. *)
Definition variants : list key_format := if wasm32 C then [Ed25519; Secp256k1] else [Ed25519; Rsa; Secp256k1].
Definition variant_index (f : key_format) : N :=
  match f with Ed25519 => 0 | Rsa => 1 | Secp256k1 => if wasm32 C then 1 else 2 end.
Definition b_variant (f : key_format) : bytes := b_u32 (variant_index f).
Definition r_variant : reader key_format :=
  let% i := r_int 4 in
  if i <? 3 then match nth_error variants (N.to_nat i) with Some f => r_ret f | None => r_fail BE_variant end
  else r_fail BE_variant.

(** Derived serde of [PublicKey] (public_key.rs 28-38), of ed25519 keys (ed25519.rs 106-108), RSA keys (rsa.rs 68-70) and
    secp256k1 keys (secp256k1.rs 207-226). *)
Definition b_key (k : public_key) : bytes := b_variant (pk_fmt k) ++ b_vec (pk_raw k).
Definition r_key : reader public_key :=
  let% f := r_variant in let% raw := r_vec in
  match decode_raw_key C f raw with Ok k => r_ret k | Panic => fun _ => Panic | _ => r_fail BE_custom end.
(** Derived serde of [Signature], signature.rs 25-31. *)
Definition b_sig (s : signature) : bytes := b_variant (sig_fmt s) ++ b_vec (sig_raw s).
Definition r_sig : reader signature := let% f := r_variant in let% raw := r_vec in r_ret (mk_sig f raw).
(** Derived serde of [Trust] (trust.rs 36-49), [Revocation] (revoke.rs 38-48), [Auth] and [TrustRelation]
    (trust_relation.rs 25-37). *)
Definition b_trust (t : trust) : bytes :=
  b_key (issued_for t) ++ b_duration (expires_at t) ++ b_sig (trust_sig t) ++ b_duration (issued_at t).
Definition r_trust : reader trust :=
  let% k := r_key in let% e := r_duration in let% s := r_sig in let% i := r_duration in r_ret (mk_trust k e s i).
Definition b_revocation (r : revocation) : bytes :=
  b_key (rev_pk r) ++ b_duration (revoked_at r) ++ b_key (revoked_by r) ++ b_sig (rev_sig r).
Definition r_revocation : reader revocation :=
  let% k := r_key in let% a := r_duration in let% b := r_key in let% s := r_sig in r_ret (mk_rev k a b s).
Definition b_relation (x : relation) : bytes :=
  match x with
  | RAuth a => b_u32 0 ++ b_trust (auth_trust a) ++ b_key (issued_by a)
  | RRev r => b_u32 1 ++ b_revocation r
  end.
Definition r_relation : reader relation :=
  let% i := r_int 4 in
  if i =? 0 then let% t := r_trust in let% b := r_key in r_ret (RAuth (mk_auth t b))
  else if i =? 1 then let% r := r_revocation in r_ret (RRev r)
  else r_fail BE_variant.
End WithCrypto.

(** [bincode::deserialize]: what follows the value is ignored. service/Cargo.toml 28. *)
Definition bin_read {A} (r : reader A) (b : bytes) : result bin_error A := let? p := r b in Ok (fst p).
