(** Relations, keys and signatures in bincode. Every proof is a lemma of BincodeThms.v. *)
From Coq Require Import List NArith ZArith Bool.
From Verif Require Import Base Text Keys Trust Relation Spec Convert Bincode BincodeSpec.
From Verif Require Import Toy BincodeThms.
Import ListNotations.
Open Scope N_scope.

(** ** C188 *)
(** A relation encoded by a build is decoded by that build as the same relation, whatever bytes follow it; so are keys and
    signatures. *)
Theorem C188_roundtrip : forall C, 
  (forall x rest, relation_typed C x -> relation_short x -> bin_read (r_relation C) (b_relation C x ++ rest) = Ok x) /\
  (forall k rest, pk_valid C k -> key_short k -> bin_read (r_key C) (b_key C k ++ rest) = Ok k) /\
  (forall s rest, sig_valid C s -> sig_short s -> bin_read (r_sig C) (b_sig C s ++ rest) = Ok s).
Proof. exact p_C188_roundtrip. Qed.
Print Assumptions C188_roundtrip.

(** Of an encoding that was cut short nothing is read. *)
Theorem C188_cut : forall C x w lost, relation_typed C x -> relation_short x -> b_relation C x = w ++ lost -> lost <> [] ->
  exists e, bin_read (r_relation C) w = Err e.
Proof. exact p_C188_cut. Qed.
Print Assumptions C188_cut.

(** No two relations have the same encoding, and none has one that begins with another's. *)
Theorem C188_told_apart : forall C x y more, relation_typed C x -> relation_short x -> relation_typed C y -> relation_short y ->
  b_relation C x = b_relation C y ++ more -> x = y.
Proof. exact p_C188_told_apart. Qed.
Print Assumptions C188_told_apart.

(** A key and a signature have one encoding each: whatever is read as one begins with it. *)
Theorem C188_one_encoding : forall C b,
  (forall k, bin_read (r_key C) b = Ok k -> exists rest, b = b_key C k ++ rest) /\
  (forall s, bin_read (r_sig C) b = Ok s -> exists rest, b = b_sig C s ++ rest).
Proof. exact p_C188_one_encoding. Qed.
Print Assumptions C188_one_encoding.

(** Whatever is read holds only parsed keys, kinds the build has, and durations in range; reading never panics. *)
Theorem C188_any_bytes : forall C b,
  (forall x, bin_read (r_relation C) b = Ok x -> relation_typed C x) /\
  (forall k, bin_read (r_key C) b = Ok k -> pk_valid C k) /\
  (forall s, bin_read (r_sig C) b = Ok s -> sig_valid C s) /\
  bin_read (r_relation C) b <> Panic /\ bin_read (r_key C) b <> Panic /\ bin_read (r_sig C) b <> Panic.
Proof. exact p_C188_any_bytes. Qed.
Print Assumptions C188_any_bytes.

(** Bytes that are decoded as a relation hold it: they begin with 0 for a trust or 1 for a revocation, and then come the fields in
    order, each in its only encoding, but for the durations. *)
Theorem C188_only : forall C b x, bin_read (r_relation C) b = Ok x ->
  match x with
  | RAuth a => exists e i rest, spells e (expires_at (auth_trust a)) /\ spells i (issued_at (auth_trust a)) /\
      b = le_bytes 4 0 ++ b_key C (issued_for (auth_trust a)) ++ e ++ b_sig C (trust_sig (auth_trust a)) ++ i ++ b_key C (issued_by a) ++ rest
  | RRev r => exists w rest, spells w (revoked_at r) /\
      b = le_bytes 4 1 ++ b_key C (rev_pk r) ++ w ++ b_key C (revoked_by r) ++ b_sig C (rev_sig r) ++ rest
  end.
Proof. exact p_C188_only. Qed.
Print Assumptions C188_only.

(** A secp256k1 key natively: index 2, length 33. *)
Example C188_example_bytes : let k := mk_pk Secp256k1 (x02 :: toy_secret 7) in
  pk_valid (toy false) k /\ key_short k /\
  b_key (toy false) k = [x02; x00; x00; x00; x21; x00; x00; x00; x00; x00; x00; x00] ++ x02 :: toy_secret 7.
Proof. exact e_C188_bytes. Qed.

(** A trust and a revocation meet the hypotheses. *)
Example C188_example_relations : let x := RAuth (mk_auth (toy_trust 1 2 1000 5) (toy_key 1)) in let y := RRev (toy_rev 1 2 9) in
  relation_typed (toy false) x /\ relation_short x /\ relation_typed (toy false) y /\ relation_short y /\
  len (b_relation (toy false) x) = 192 /\ len (b_relation (toy false) y) = 180.
Proof. exact e_C188_relations. Qed.

(** Nanoseconds beyond a second are carried: 1 s and 2,000,000,000 ns is read as 3 s. *)
Example C188_example_carry : bin_read r_duration (b_u64 1 ++ b_u32 2000000000) = Ok (from_secs 3).
Proof. exact e_C188_carry. Qed.

(** ** C189 *)
(** What the wasm32 build writes for a secp256k1 key, the native build reads as an RSA key, and what the native build writes
    for an RSA signature, the wasm32 build reads as a secp256k1 signature, without an error. *)
Theorem C189_refuted : exists C k s, crypto_laws C /\ wasm32 C = true /\ pk_valid C k /\ sig_valid (other_build C) s /\
  (exists k', bin_read (r_key (other_build C)) (b_key C k) = Ok k' /\ k' <> k) /\
  (exists s', bin_read (r_sig C) (b_sig (other_build C) s) = Ok s' /\ s' <> s).
Proof. exact p_C189_refuted. Qed.
Print Assumptions C189_refuted.

(** Exactly what the other build reads for a key. *)
Theorem C189_keys : forall C k, pk_valid C k -> key_short k ->
  bin_read (r_key (other_build C)) (b_key C k) =
    match pk_fmt k with
    | Ed25519 => Ok k
    | Rsa => if raw_key_ok C Secp256k1 (pk_raw k) then Ok (mk_pk Secp256k1 (pk_raw k)) else Err BE_custom
    | Secp256k1 => if wasm32 C then Ok (mk_pk Rsa (pk_raw k)) else Err BE_variant
    end.
Proof. exact p_C189_keys. Qed.
Print Assumptions C189_keys.

(** And for a signature. *)
Theorem C189_signatures : forall C s, sig_valid C s -> sig_short s ->
  bin_read (r_sig (other_build C)) (b_sig C s) =
    match sig_fmt s with
    | Ed25519 => Ok s
    | Rsa => Ok (mk_sig Secp256k1 (sig_raw s))
    | Secp256k1 => if wasm32 C then Ok (mk_sig Rsa (sig_raw s)) else Err BE_variant
    end.
Proof. exact p_C189_signatures. Qed.
Print Assumptions C189_signatures.

(** A relation is read as the same one by the other build exactly when all its keys and signatures are ed25519. *)
Theorem C189_exact : forall C x, relation_typed C x -> relation_short x ->
  (bin_read (r_relation (other_build C)) (b_relation C x) = Ok x <-> Forall (fun f => f = Ed25519) (kinds x)).
Proof. exact p_C189_exact. Qed.
Print Assumptions C189_exact.

(** In formats that name the variants the builds agree: a key or signature is read by the other build as the same one, or,
    if it is RSA and the reader has no RSA, refused. *)
Theorem C189_by_name : forall C f, f = As_bytes \/ f = As_list ->
  (forall k, pk_valid C k -> pk_fmt k <> Rsa -> de_key (other_build C) (through f (ser_key k)) = Ok k) /\
  (forall s, sig_valid C s -> sig_fmt s <> Rsa -> de_sig (other_build C) (through f (ser_sig s)) = Ok s) /\
  (forall k, pk_valid C k -> pk_fmt k = Rsa -> exists e, de_key (other_build C) (through f (ser_key k)) = Err e) /\
  (forall s, sig_valid C s -> sig_fmt s = Rsa -> exists e, de_sig (other_build C) (through f (ser_sig s)) = Err e).
Proof. exact p_C189_by_name. Qed.
Print Assumptions C189_by_name.

(** and a relation is decoded as itself if it has nothing RSA in it, and refused otherwise. *)
Theorem C189_relations_by_name : forall C f x, f = As_bytes \/ f = As_list -> relation_typed C x ->
  (~ In Rsa (kinds x) -> de_relation (other_build C) (through f (ser_relation x)) = Ok x) /\
  (In Rsa (kinds x) -> exists e, de_relation (other_build C) (through f (ser_relation x)) = Err e).
Proof. exact p_C189_relations_by_name. Qed.
Print Assumptions C189_relations_by_name.

(** The revocation above is read alike by both builds; one signed with secp256k1 is refused by the wasm32 build. *)
Example C189_example_relations : let y := toy_rev 1 2 9 in let z := mk_rev (rev_pk y) (revoked_at y) (revoked_by y) (mk_sig Secp256k1 [x30]) in
  kinds (RRev y) = [Ed25519; Ed25519; Ed25519] /\ bin_read (r_relation (toy true)) (b_relation (toy false) (RRev y)) = Ok (RRev y) /\
  bin_read (r_relation (toy true)) (b_relation (toy false) (RRev z)) = Err BE_variant /\ other_build (toy false) = toy true.
Proof. exact e_C189_relations. Qed.
