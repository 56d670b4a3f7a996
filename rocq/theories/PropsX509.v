(** Reading RSA keys from X.509. Every proof is a lemma of X509Thms.v. *)
From Coq Require Import List NArith ZArith Bool.
From Verif Require Import Base Text Keys Convert ConvertSpec X509 Toy ConvertFacts X509Thms.
Import ListNotations.
Open Scope N_scope.

(** ** C177 *)
(** What is written for an RSA key is read back as that key. *)
Theorem C177_round_trip : forall C Lib strict pkcs1, libs_laws C Lib -> len pkcs1 < u64_bound ->
  exists out, encode_x509 pkcs1 = Ok out /\ decode_x509 Lib strict out = Ok pkcs1.
Proof. exact p_C177_round_trip. Qed.
Print Assumptions C177_round_trip.

(** Every standard SubjectPublicKeyInfo of an RSA key is read as its key, whoever has written it. *)
Theorem C177_standard : forall C Lib strict pkcs1 out, libs_laws C Lib -> spki_of pkcs1 out ->
  decode_x509 Lib strict out = Ok pkcs1.
Proof. exact p_C177_standard. Qed.
Print Assumptions C177_standard.

(** What is read as a key is a sequence of a sequence of the OID of RSA encryption and NULL, and a bit string that holds the
    key after its first byte. Everything else is refused with the error about RSA keys, and nothing panics. *)
Theorem C177_only : forall Lib strict der,
  (exists pk alg b more more', decode_x509 Lib strict der = Ok pk /\
     der_sequence Lib der = Some ((x30, alg) :: (x03, b) :: more) /\
     der_sequence Lib (der_object x30 alg) = Some ((x06, [x2a; x86; x48; x86; xf7; x0d; x01; x01; x01]) :: (x05, []) :: more') /\
     pk = skipn 1 b /\ (strict = true -> more = [] /\ more' = [])) \/
  decode_x509 Lib strict der = Err DE_Rsa.
Proof. exact p_C177_only. Qed.
Print Assumptions C177_only.

(** A key of another algorithm is refused, however it is laid out. *)
Theorem C177_other_algorithm : forall C Lib strict oid params key alg out, libs_laws C Lib ->
  ders_of [(x06, oid); params] alg -> In (fst params) [x02; x03; x04; x05; x06; x30; xa0; xa1] -> len alg < u64_bound ->
  sequence_of [(x30, alg); (x03, key)] out -> oid <> [x2a; x86; x48; x86; xf7; x0d; x01; x01; x01] ->
  decode_x509 Lib strict out = Err DE_Rsa.
Proof. exact p_C177_other_algorithm. Qed.
Print Assumptions C177_other_algorithm.

(** The number of unused bits is not looked at: a form in which it is not zero, which is none of an RSA key, is read as
    the key all the same. So one key has many readable forms. *)
Theorem C177_unused_bits : forall C Lib strict unused pkcs1 alg out, libs_laws C Lib ->
  ders_of [(x06, [x2a; x86; x48; x86; xf7; x0d; x01; x01; x01]); (x05, [])] alg -> sequence_of [(x30, alg); (x03, unused :: pkcs1)] out ->
  decode_x509 Lib strict out = Ok pkcs1.
Proof. exact p_C177_unused_bits. Qed.
Print Assumptions C177_unused_bits.

(** A key of 200 bytes; the same with five unused bits; the OID of elliptic curve keys. *)
Example C177_example_forms : let pk := repeat xaa 200 in let rd := decode_x509 (toy_libs (toy false)) true in
  libs_laws (toy false) (toy_libs (toy false)) /\
  rd ([x30; x81; xdb; x30; x0d; x06; x09; x2a; x86; x48; x86; xf7; x0d; x01; x01; x01; x05; x00; x03; x81; xc9; x00] ++ pk) = Ok pk /\
  rd ([x30; x81; xdb; x30; x0d; x06; x09; x2a; x86; x48; x86; xf7; x0d; x01; x01; x01; x05; x00; x03; x81; xc9; x05] ++ pk) = Ok pk /\
  rd ([x30; x81; xd9; x30; x0b; x06; x07; x2a; x86; x48; xce; x3d; x02; x01; x05; x00; x03; x81; xc9; x00] ++ pk) = Err DE_Rsa /\
  rd [x30; x11; x30; x0d; x06; x09; x2a; x86; x48; x86; xf7; x0d; x01; x01; x01; x05; x00; x03; x00] = Ok [].
Proof. exact e_C177_forms. Qed.
