(** Concrete cases of the properties of ConvertThms.v, and the refutations that need them. *)
From Coq Require Import List NArith ZArith Bool Lia.
From Coq Require String.
Import String.StringSyntax.
From Verif Require Import Base Text Keys Trust Relation Spec Convert ConvertSpec BaseFacts TextFacts KeysFacts ConvertFacts Toy ToyFacts ConvertThms.
Import ListNotations.
Open Scope N_scope.

(** The toy schemes, with zero not a secp256k1 secret. *)
Definition toy_nonzero : crypto := {|
  wasm32 := false; sha256 := sha256 (toy false); ed_point := ed_point (toy false); ed_public := ed_public (toy false);
  ed_sign := ed_sign (toy false); ed_verify := ed_verify (toy false); rsa_public := rsa_public (toy false);
  rsa_sign := rsa_sign (toy false); rsa_verify := rsa_verify (toy false); secp_point := secp_point (toy false);
  secp_scalar := fun b => negb (bytes_eqb b (repeat x00 32));
  secp_public := secp_public (toy false); secp_sign := secp_sign (toy false); secp_der := secp_der (toy false);
  secp_verify := secp_verify (toy false); multihash_ok := multihash_ok (toy false); inlined_key := inlined_key (toy false);
  rsa_peer_id := rsa_peer_id (toy false) |}.
Lemma toy_nonzero_laws : crypto_laws toy_nonzero.
Proof.
  pose proof (toy_laws false) as L. split.
  - exact (law_sha_len _ L).
  - exact (law_ed_public _ L).
  - exact (law_ed_sign _ L).
  - intros sk H _. exact (law_secp_public _ L sk H eq_refl).
  - intros sk h H _ Hh. exact (law_secp_sign _ L sk h H eq_refl Hh).
  - exact (law_rsa_sign _ L).
  - intros k V N. exact (law_peer_id _ L k V N).
  - intros p k H. exact (law_inlined _ L p k H).
Qed.

(** ** C121 *)
(** A trust and a revocation in the JSON-like format, with a key of each kind. *)
Definition ex_trust : trust :=
  mk_trust (mk_pk Secp256k1 (repeat x02 33)) (mk_duration 1000 250000000) (mk_sig Rsa [x01; xff]) (mk_duration 10 0).
Definition ex_relation : relation := RAuth (mk_auth ex_trust (mk_pk Rsa [x05])).
Example e_C121_relation : relation_typed (toy false) ex_relation /\
  de_relation (toy false) (through As_list (ser_relation ex_relation)) = Ok ex_relation /\
  de_relation (toy false) (through As_list (ser_relation (RRev (toy_rev 1 2 30)))) = Ok (RRev (toy_rev 1 2 30)) /\
  de_key (toy true) (through As_list (ser_key (mk_pk Rsa [x05]))) = Err SDE_type.
Proof.
  split; [|split; [|split]]; try (vm_compute; reflexivity). repeat split; vm_compute; reflexivity.
Qed.
(** A key as JSON holds it. *)
Example e_C121_json : through As_list (ser_key (mk_pk Ed25519 [x07; x08])) = V_variant (str "Ed25519") (V_list [V_num 7; V_num 8]).
Proof. reflexivity. Qed.

(** ** C122 *)
Example e_C122_formats : pk_valid (toy false) (toy_key 3) /\
  de_hashable (toy false) (through As_bytes (ser_hashable (toy_key 3))) = Ok (toy_key 3) /\
  de_hashable (toy false) (through As_list (ser_hashable (toy_key 3))) = Err SDE_type /\
  de_hashable (toy false) (through As_text (ser_hashable (toy_key 3))) = Err SDE_custom.
Proof. split; [apply toy_key_valid|]. repeat split; vm_compute; reflexivity. Qed.

(** ** C123 *)
Example e_C123_text : de_hashable (toy false) (V_text (pk_display (toy_key 3))) = Ok (toy_key 3) /\
  de_hashable (toy false) (V_text (str "0")) = Err SDE_custom /\ de_hashable (toy false) (V_text []) = Panic.
Proof. repeat split; vm_compute; reflexivity. Qed.

(** ** C124 *)
Example e_C124_laws : forall C, libs_laws C (toy_libs C).
Proof. exact toy_libs_laws. Qed.
(** An RSA key of 200 bytes: the lengths need the long form. *)
Example e_C124_rsa : let pk := repeat xaa 200 in
  encode_x509 pk = Ok ([x30; x81; xdb; x30; x0d; x06; x09; x2a; x86; x48; x86; xf7; x0d; x01; x01; x01; x05; x00; x03; x81; xc9; x00] ++ pk) /\
  to_lib_key (toy_libs (toy false)) (mk_pk Rsa pk) = Ok (mk_lib_key L_Rsa pk) /\
  of_lib_key (toy false) (mk_lib_key L_Rsa pk) = Ok (mk_pk Rsa pk).
Proof. repeat split; vm_compute; reflexivity. Qed.
Example e_C124_pairs :
  to_lib_pair (toy_libs (toy false)) (toy_kp 4) = Ok (mk_lib_pair L_Ed25519 (toy_secret 4)) /\
  of_lib_pair (toy false) (mk_lib_pair L_Ed25519 (toy_secret 4)) = Ok (toy_kp 4) /\
  to_lib_key (toy_libs (toy false)) (toy_key 4) = Ok (lib_public (toy false) (mk_lib_pair L_Ed25519 (toy_secret 4))).
Proof. repeat split; vm_compute; reflexivity. Qed.

(** ** C126 *)
(** The first block is refused; the second one is the secret. *)
Definition ex_entropy (i : nat) : bytes := match i with O => repeat x00 32 | _ => toy_secret (N.of_nat i) end.
Example e_C126_second : crypto_laws toy_nonzero /\ (forall i, len (ex_entropy i) = 32) /\
  kp_generate toy_nonzero 5 Secp256k1 ex_entropy = Ok (mk_kp Secp256k1 (toy_secret 1)) /\
  kp_generate toy_nonzero 1 Secp256k1 ex_entropy = OutOfFuel.
Proof.
  split; [exact toy_nonzero_laws|]. split; [intros [|i]; [reflexivity|reflexivity]|]. split; vm_compute; reflexivity.
Qed.

(** ** C127, C128, C129, C130 *)
(** An ECPrivateKey with the secret 1 and the parameters of the curve. *)
Definition ex_der : bytes :=
  [x30; x2e; x02; x01; x01; x04; x20] ++ toy_secret 1 ++ [xa0; x07; x06; x05; x2b; x81; x04; x00; x0a].
Lemma ex_der_ok : ec_private_key_of (toy_secret 1) ex_der.
Proof.
  exists [(xa0, [x06; x05; x2b; x81; x04; x00; x0a])]. split; [constructor; [left; reflexivity|constructor]|].
  exists (der_object x02 [x01] ++ der_object x04 (toy_secret 1) ++ der_object xa0 [x06; x05; x2b; x81; x04; x00; x0a] ++ []). split.
  - repeat (apply one_more; [apply der_object_spec; vm_compute; reflexivity|]). constructor.
  - assert (E : ex_der = der_object x30 (der_object x02 [x01] ++ der_object x04 (toy_secret 1) ++ der_object xa0 [x06; x05; x2b; x81; x04; x00; x0a] ++ []))
      by (vm_compute; reflexivity). rewrite E. apply der_object_spec. vm_compute. reflexivity.
Qed.
Example e_C127_loads : secp256k1_from_der toy_nonzero (toy_libs toy_nonzero) ex_der = (Ok (mk_kp Secp256k1 (toy_secret 1)), repeat x00 48).
Proof. vm_compute. reflexivity. Qed.
Example e_C129_key : ec_private_key_of (toy_secret 1) ex_der /\ len (toy_secret 1) = 32 /\ secp_scalar toy_nonzero (toy_secret 1) = true.
Proof. split; [exact ex_der_ok|]. split; reflexivity. Qed.

(** A secp256k1 key that is refused has been erased from the caller's buffer all the same. *)
Lemma p_C128_refuted : exists C Lib der e, crypto_laws C /\ libs_laws C Lib /\
  fst (secp256k1_from_der C Lib der) = Err e /\ snd (secp256k1_from_der C Lib der) <> der.
Proof.
  exists toy_nonzero, (toy_libs toy_nonzero), [x30; x03; x02; x01; x01], DE_Secp256k1.
  split; [exact toy_nonzero_laws|]. split; [apply toy_libs_laws|]. split; [vm_compute; reflexivity|]. vm_compute. discriminate.
Qed.

(** A sequence that is no ECPrivateKey is loaded as one: its version is not looked at. *)
Lemma p_C130_refuted : exists C Lib der kp, crypto_laws C /\ libs_laws C Lib /\
  fst (secp256k1_from_der C Lib der) = Ok kp /\ forall secret, ~ ec_private_key_of secret der.
Proof.
  exists toy_nonzero, (toy_libs toy_nonzero), ([x30; x25; x02; x01; x07; x04; x20] ++ toy_secret 1), (mk_kp Secp256k1 (toy_secret 1)).
  split; [exact toy_nonzero_laws|]. split; [apply toy_libs_laws|]. split; [vm_compute; reflexivity|].
  intros s [more [_ H]]. apply toy_sequence_reads in H. vm_compute in H. discriminate.
Qed.

(** The first object and those after the second are not looked at: any sequence with a secret in the second place is loaded. *)
Lemma p_C130_any : forall C Lib first secret more der, libs_laws C Lib ->
  Forall (fun o => In (fst o) [x02; x03; x04; x05; x06; x30; xa0; xa1]) (first :: more) -> sequence_of (first :: (x04, secret) :: more) der ->
  len secret = 32 -> secp_scalar C secret = true ->
  fst (secp256k1_from_der C Lib der) = Ok (mk_kp Secp256k1 secret).
Proof.
  intros C Lib first s more der L F H Hl Hs. unfold secp256k1_from_der. inversion F; subst.
  rewrite (law_der_sequence _ _ L _ _) with (2 := H).
  - cbn. unfold secp_from_bytes. rewrite Hl, Hs. reflexivity.
  - constructor; [assumption|]. constructor; [cbn; tauto|assumption].
Qed.

(** ** C131 *)
Example e_C131_key : let p := pk_to_peer_id (toy false) (toy_key 3) in
  peer_id_deserialize (toy false) (through As_list (peer_id_serialize p)) = Ok p /\
  peer_id_deserialize (toy false) (V_text (str "0")) = Err SDE_custom.
Proof. split; vm_compute; reflexivity. Qed.
