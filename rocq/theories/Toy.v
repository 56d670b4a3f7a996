(** A toy instance of the external code that satisfies every law assumed of it. It shows that the
    hypotheses of the theorems can be met and provides the witnesses of the refutations. *)
From Coq Require Import List NArith ZArith Bool.
From Verif Require Import Base Text Keys Trust Relation.
Import ListNotations.
Open Scope N_scope.

(** A 32-byte digest: the last 32 bytes. *)
Definition toy_sha (m : bytes) : bytes := firstn 32 (rev m ++ repeat x00 32).

Definition toy_inlined (p : bytes) : option public_key :=
  match p with
  | x00 :: x24 :: x08 :: x01 :: x12 :: x20 :: raw => if len raw =? 32 then Some (mk_pk Ed25519 raw) else None
  | x00 :: x25 :: x08 :: x02 :: x12 :: x21 :: raw => if len raw =? 33 then Some (mk_pk Secp256k1 raw) else None
  | _ => None
  end.

Definition toy (wasm : bool) : crypto := {|
  wasm32 := wasm;
  sha256 := toy_sha;
  ed_point := fun _ => true;
  ed_public := fun sk => sk;
  ed_sign := fun sk m => sk ++ m;
  ed_verify := fun pk m s => bytes_eqb s (pk ++ m);
  rsa_public := fun sk => sk;
  rsa_sign := fun sk m => Some (sk ++ m);
  rsa_verify := fun pk m s => bytes_eqb s (pk ++ m);
  secp_point := fun _ => true;
  secp_scalar := fun _ => true;
  secp_public := fun sk => x02 :: sk;
  secp_sign := fun sk h => x30 :: sk ++ h;
  secp_der := fun s => match s with x30 :: _ => true | _ => false end;
  secp_verify := fun pk h s => bytes_eqb s (x30 :: tl pk ++ h);
  multihash_ok := fun p => match p with x00 :: _ | x12 :: _ => true | _ => false end;
  inlined_key := toy_inlined;
  rsa_peer_id := fun raw => x12 :: x20 :: toy_sha raw
|}.

(** Small secrets. *)
Definition toy_secret (n : N) : bytes := repeat x00 31 ++ [u8_of_N n].
Definition toy_kp (n : N) : keypair := mk_kp Ed25519 (toy_secret n).
Definition toy_key (n : N) : public_key := mk_pk Ed25519 (toy_secret n).

(** The trust key [by] gives key [for_], as [Trust::create] makes it, and a revocation. *)
Definition toy_trust (by_n for_n ex iss : N) : trust :=
  mk_trust (toy_key for_n) (from_secs ex)
    (mk_sig Ed25519 (toy_secret by_n ++ toy_sha (trust_metadata (toy_key for_n) (from_secs ex) (from_secs iss))))
    (from_secs iss).
Definition toy_rev (by_n for_n at_ : N) : revocation :=
  mk_rev (toy_key for_n) (from_secs at_) (toy_key by_n)
    (mk_sig Ed25519 (toy_secret by_n ++ toy_sha (revocation_metadata (toy_key for_n) (from_secs at_)))).
