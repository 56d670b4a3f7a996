(** Reading RSA keys from X.509. *)
From Coq Require Import List NArith ZArith Bool Lia.
From Verif Require Import Base BaseFacts Text Keys Convert ConvertSpec X509 Toy ConvertFacts ConvertThms.
Import ListNotations.
Open Scope N_scope.

(** The SEQUENCE with this content is what is written for it. *)
Lemma sequence_content : forall objs content, ders_of objs content -> len content < u64_bound -> sequence_of objs (der_object x30 content).
Proof.
  intros objs content H S. exists content. split; [exact H|]. apply der_object_spec.
  assert (Big : u64_bound + 100 < 2 ^ 1000) by (vm_compute; reflexivity). lia.
Qed.

(** A standard form of an RSA key, with any byte for the number of unused bits. *)
Lemma reads : forall C Lib strict pk u alg out, libs_laws C Lib ->
  ders_of [(x06, oid_rsa_encryption); (x05, [])] alg -> sequence_of [(x30, alg); (x03, u :: pk)] out ->
  decode_x509 Lib strict out = Ok pk.
Proof.
  intros C Lib strict pk u alg out L Ha Ho. unfold decode_x509, two_fields.
  rewrite (law_der_sequence _ _ L _ _) with (2 := Ho) by (repeat constructor; cbn; tauto).
  unfold read_algorithm. cbn [fst snd Byte.eqb]. unfold two_fields.
  assert (S : len alg < u64_bound).
  { inversion Ha as [|t c o objs out' D1 R1]; subst. inversion R1 as [|t c o' objs out'' D2 R2]; subst. inversion R2; subst.
    destruct D1 as [l1 [E1 ->]]. destruct D2 as [l2 [E2 ->]].
    inversion E1; subst; [|cbn in *; lia]. inversion E2; subst; [|cbn in *; lia]. cbn. unfold u64_bound. lia. }
  rewrite (law_der_sequence _ _ L _ _) with (2 := sequence_content _ _ Ha S) by (repeat constructor; cbn; tauto).
  reflexivity.
Qed.

(** ** C177 *)
(** What is written for an RSA key is read back as that key. *)
Lemma p_C177_round_trip : forall C Lib strict pkcs1, libs_laws C Lib -> len pkcs1 < u64_bound ->
  exists out, encode_x509 pkcs1 = Ok out /\ decode_x509 Lib strict out = Ok pkcs1.
Proof.
  intros C Lib strict pk L S. destruct (p_C124_x509 pk S) as [out [E [alg [Ha Ho]]]]. exists out. split; [exact E|].
  exact (reads C Lib strict pk x00 alg out L Ha Ho).
Qed.

(** Every standard SubjectPublicKeyInfo of an RSA key is read as its key, whoever has written it. *)
Lemma p_C177_standard : forall C Lib strict pkcs1 out, libs_laws C Lib -> spki_of pkcs1 out ->
  decode_x509 Lib strict out = Ok pkcs1.
Proof. intros C Lib strict pk out L [alg [Ha Ho]]. exact (reads C Lib strict pk x00 alg out L Ha Ho). Qed.

(** What is read as a key is a sequence of a sequence of the OID of RSA encryption and NULL, and a bit string that holds the
    key after its first byte. Everything else is refused with the error about RSA keys, and nothing panics. *)
Lemma p_C177_only : forall Lib strict der,
  (exists pk alg b more more', decode_x509 Lib strict der = Ok pk /\
     der_sequence Lib der = Some ((x30, alg) :: (x03, b) :: more) /\
     der_sequence Lib (der_object x30 alg) = Some ((x06, [x2a; x86; x48; x86; xf7; x0d; x01; x01; x01]) :: (x05, []) :: more') /\
     pk = skipn 1 b /\ (strict = true -> more = [] /\ more' = [])) \/
  decode_x509 Lib strict der = Err DE_Rsa.
Proof.
  intros Lib strict der. unfold decode_x509. destruct (two_fields Lib strict (read_algorithm Lib strict) read_bit_string der) as [[a pk]|] eqn:E; [left|right; reflexivity].
  unfold two_fields in E at 1. destruct (der_sequence Lib der) as [[|[t alg] [|[t' b] more]]|]; try discriminate.
  destruct (read_algorithm Lib strict (t, alg)) as [u|] eqn:Ea; [|discriminate].
  destruct (read_bit_string (t', b)) as [pk'|] eqn:Eb; [|discriminate].
  unfold read_algorithm in Ea. cbn [fst snd] in Ea. destruct (Byte.eqb t x30) eqn:Et; [|discriminate]. apply Byte.byte_dec_bl in Et. subst t.
  unfold two_fields in Ea. destruct (der_sequence Lib (der_object x30 alg)) as [[|[o ov] [|[n nv] more']]|] eqn:Es; try discriminate.
  destruct (read_oid (o, ov)) as [u1|] eqn:Eo; [|discriminate]. destruct (read_null (n, nv)) as [u2|] eqn:En; [|discriminate].
  unfold read_oid in Eo. cbn [fst snd] in Eo. destruct (Byte.eqb o x06) eqn:Ek; [|discriminate]. apply Byte.byte_dec_bl in Ek. subst o.
  destruct (bytes_eqb ov oid_rsa_encryption) eqn:Ev; [|discriminate]. apply bytes_eqb_eq in Ev. subst ov.
  unfold read_null in En. cbn [fst snd] in En. destruct (Byte.eqb n x05) eqn:Ep; [|discriminate]. apply Byte.byte_dec_bl in Ep. subst n.
  destruct nv; [|discriminate].
  unfold read_bit_string in Eb. cbn [fst snd] in Eb. destruct (Byte.eqb t' x03) eqn:Eq; [|discriminate]. apply Byte.byte_dec_bl in Eq. subst t'.
  cbn [negb] in Eb. injection Eb as Eb. exists pk, alg, b, more, more'. split; [reflexivity|]. split; [reflexivity|]. split; [exact Es|].
  split.
  - destruct more; [|destruct strict; [discriminate|]]; inversion E; subst; reflexivity.
  - intros ->. destruct more; [|discriminate]. destruct more'; [|discriminate]. auto.
Qed.

(** A key of another algorithm is refused, however it is laid out. *)
Lemma p_C177_other_algorithm : forall C Lib strict oid params key alg out, libs_laws C Lib ->
  ders_of [(x06, oid); params] alg -> In (fst params) [x02; x03; x04; x05; x06; x30; xa0; xa1] -> len alg < u64_bound ->
  sequence_of [(x30, alg); (x03, key)] out -> oid <> [x2a; x86; x48; x86; xf7; x0d; x01; x01; x01] ->
  decode_x509 Lib strict out = Err DE_Rsa.
Proof.
  intros C Lib strict oid params key alg out L Ha Hp S Ho N.
  destruct (p_C177_only Lib strict out) as [[pk [alg' [b [more [more' [_ [E1 [E2 _]]]]]]]]|E]; [exfalso|exact E].
  assert (R1 : der_sequence Lib out = Some [(x30, alg); (x03, key)]).
  { apply (law_der_sequence _ _ L); [|exact Ho]. constructor; [cbn; tauto|constructor; [cbn; tauto|constructor]]. }
  assert (R2 : der_sequence Lib (der_object x30 alg) = Some [(x06, oid); params]).
  { apply (law_der_sequence _ _ L); [|exact (sequence_content _ _ Ha S)]. constructor; [cbn; tauto|constructor; [exact Hp|constructor]]. }
  rewrite R1 in E1.
  injection E1 as <- _ _.
  rewrite R2 in E2.
  injection E2 as -> _ _. exact (N eq_refl).
Qed.

(** The number of unused bits is not looked at: a form in which it is not zero, which is none of an RSA key, is read as
    the key all the same. So one key has many readable forms. *)
Lemma p_C177_unused_bits : forall C Lib strict unused pkcs1 alg out, libs_laws C Lib ->
  ders_of [(x06, [x2a; x86; x48; x86; xf7; x0d; x01; x01; x01]); (x05, [])] alg -> sequence_of [(x30, alg); (x03, unused :: pkcs1)] out ->
  decode_x509 Lib strict out = Ok pkcs1.
Proof. intros C Lib strict u pk alg out L Ha Ho. exact (reads C Lib strict pk u alg out L Ha Ho). Qed.

(** A key of 200 bytes; the same with five unused bits; the OID of elliptic curve keys. *)
Example e_C177_forms : let pk := repeat xaa 200 in let rd := decode_x509 (toy_libs (toy false)) true in
  libs_laws (toy false) (toy_libs (toy false)) /\
  rd ([x30; x81; xdb; x30; x0d; x06; x09; x2a; x86; x48; x86; xf7; x0d; x01; x01; x01; x05; x00; x03; x81; xc9; x00] ++ pk) = Ok pk /\
  rd ([x30; x81; xdb; x30; x0d; x06; x09; x2a; x86; x48; x86; xf7; x0d; x01; x01; x01; x05; x00; x03; x81; xc9; x05] ++ pk) = Ok pk /\
  rd ([x30; x81; xd9; x30; x0b; x06; x07; x2a; x86; x48; xce; x3d; x02; x01; x05; x00; x03; x81; xc9; x00] ++ pk) = Err DE_Rsa /\
  rd [x30; x11; x30; x0d; x06; x09; x2a; x86; x48; x86; xf7; x0d; x01; x01; x01; x05; x00; x03; x00] = Ok [].
Proof. split; [apply toy_libs_laws|]. repeat split; vm_compute; reflexivity. Qed.
