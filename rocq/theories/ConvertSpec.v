(** Specification of the standard forms the rest of the keypair crate reads and writes, and the laws of the libraries. *)
From Coq Require Import List NArith ZArith Bool.
From Verif Require Import Base Text Keys Trust Relation Convert.
Import ListNotations.
Open Scope N_scope.

(** ** DER (X.690) *)
(** The number whose base-256 digits, most significant first, are these bytes. *)
Fixpoint be_value (b : bytes) : N :=
  match b with [] => 0 | x :: b' => N_of_u8 x * 256 ^ N.of_nat (length b') + be_value b' end.

(** A length in its only DER form: one byte below 128, else a count of bytes and the number in as few bytes as possible. *)
Inductive der_length_of (n : N) : bytes -> Prop :=
| short_length : forall x, N_of_u8 x = n -> n < 128 -> der_length_of n [x]
| long_length : forall c d ds, 128 <= n -> N_of_u8 c = 128 + N.of_nat (length (d :: ds)) -> N_of_u8 c < 255 ->
    d <> x00 -> be_value (d :: ds) = n -> der_length_of n (c :: d :: ds).

(** An object with this tag and this content. *)
Definition der_of (tag : byte) (content out : bytes) : Prop :=
  exists l, der_length_of (len content) l /\ out = tag :: l ++ content.

(** Objects one after the other. *)
Inductive ders_of : list (byte * bytes) -> bytes -> Prop :=
| no_object : ders_of [] []
| one_more : forall t c o objs out, der_of t c o -> ders_of objs out -> ders_of ((t, c) :: objs) (o ++ out).

(** A SEQUENCE of objects. *)
Definition sequence_of (objs : list (byte * bytes)) (out : bytes) : Prop :=
  exists content, ders_of objs content /\ der_of x30 content out.

(** RFC 5280 SubjectPublicKeyInfo of an RSA key: SEQUENCE { SEQUENCE { OID 1.2.840.113549.1.1.1, NULL }, BIT STRING with
    no unused bits }. *)
Definition spki_of (pkcs1 out : bytes) : Prop :=
  exists alg, ders_of [(x06, [x2a; x86; x48; x86; xf7; x0d; x01; x01; x01]); (x05, [])] alg /\
    sequence_of [(x30, alg); (x03, x00 :: pkcs1)] out.

(** RFC 5915 ECPrivateKey: SEQUENCE { INTEGER 1, OCTET STRING secret, [0] and [1] optional }. *)
Definition ec_private_key_of (secret : bytes) (out : bytes) : Prop :=
  exists more, Forall (fun o => fst o = xa0 \/ fst o = xa1) more /\
    sequence_of ((x02, [x01]) :: (x04, secret) :: more) out.

(** ** libp2p *)
(** The values of libp2p's types, with the features the crate asks for (keypair/Cargo.toml: no ecdsa; libp2p has no RSA
    on wasm32). *)
Definition lib_key_valid (C : crypto) (Lib : libs) (k : lib_key) : Prop :=
  match lk_kind k with
  | L_Ed25519 => len (lk_raw k) = 32 /\ lib_ed_point Lib (lk_raw k) = true
  | L_Rsa => wasm32 C = false
  | L_Secp256k1 => len (lk_raw k) = 33 /\ lib_secp_point Lib (lk_raw k) = true
  | L_Ecdsa => False
  end.
Definition lib_pair_valid (C : crypto) (Lib : libs) (p : lib_pair) : Prop :=
  match lp_kind p with
  | L_Ed25519 => len (lp_secret p) = 32
  | L_Rsa => wasm32 C = false
  | L_Secp256k1 => len (lp_secret p) = 32 /\ lib_secp_scalar Lib (lp_secret p) = true
  | L_Ecdsa => False
  end.
(** The kind of a key in libp2p and here. *)
Definition same_kind (f : key_format) : lib_kind :=
  match f with Ed25519 => L_Ed25519 | Rsa => L_Rsa | Secp256k1 => L_Secp256k1 end.
(** The public key libp2p derives from a secret: the same schemes. *)
Definition lib_public (C : crypto) (p : lib_pair) : lib_key :=
  mk_lib_key (lp_kind p)
    (match lp_kind p with
     | L_Ed25519 => ed_public C (lp_secret p)
     | L_Rsa => rsa_public C (lp_secret p)
     | _ => secp_public C (lp_secret p)
     end).

(** Laws of the libraries, hypotheses of some theorems: libp2p and this crate parse curve points and scalars with the
    same code; DER readers read DER. *)
Record libs_laws (C : crypto) (Lib : libs) : Prop := mk_libs_laws {
  law_lib_ed : forall b, lib_ed_point Lib b = ed_point C b;
  law_lib_point : forall b, lib_secp_point Lib b = secp_point C b;
  law_lib_scalar : forall b, lib_secp_scalar Lib b = secp_scalar C b;
  law_lib_x509 : forall pkcs1 out, spki_of pkcs1 out -> lib_x509 Lib out = Some pkcs1;
  law_der_sequence : forall objs out, Forall (fun o => In (fst o) [x02; x03; x04; x05; x06; x30; xa0; xa1]) objs ->
      sequence_of objs out -> der_sequence Lib out = Some objs
}.

(** ** Serde *)
(** All zero. *)
Definition erased (before after : bytes) : Prop := length after = length before /\ Forall (fun x => x = x00) after.
