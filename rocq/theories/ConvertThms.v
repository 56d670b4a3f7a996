(** Properties of the serde forms, of the conversions from and to libp2p, and of making and loading keys. *)
From Coq Require Import List NArith ZArith Bool Lia Permutation.
From Coq Require String.
Import String.StringSyntax.
From Verif Require Import Base Text Keys Trust Relation Spec Convert ConvertSpec BaseFacts TextFacts KeysFacts ConvertFacts Toy ToyFacts.
Import ListNotations.
Open Scope N_scope.

(** ** C121 *)
(** A relation written in a format that gives bytes back as bytes or as a list is read back unchanged. *)
Lemma p_C121_relation : forall C f x, f = As_bytes \/ f = As_list -> relation_typed C x ->
  de_relation C (through f (ser_relation x)) = Ok x.
Proof. intros C f x Hf. apply de_ser_relation. destruct Hf; subst; discriminate. Qed.

(** So are keys, signatures, trusts and revocations on their own. *)
Lemma p_C121_parts : forall C f, f = As_bytes \/ f = As_list ->
  (forall k, pk_valid C k -> de_key C (through f (ser_key k)) = Ok k) /\
  (forall s, sig_valid C s -> de_sig C (through f (ser_sig s)) = Ok s) /\
  (forall t, trust_typed C t -> de_trust C (through f (ser_trust t)) = Ok t) /\
  (forall r, revocation_typed C r -> de_revocation C (through f (ser_revocation r)) = Ok r).
Proof.
  intros C f Hf. assert (N : f <> As_text) by (destruct Hf; subst; discriminate).
  split; [|split; [|split]]; intros x H; [apply de_ser_key|apply de_ser_sig|apply de_ser_trust|apply de_ser_revocation]; assumption.
Qed.

(** Whatever is read holds only parsed keys, kinds the build has, and durations in range. *)
Lemma p_C121_read_typed : forall C v,
  (forall k, de_key C v = Ok k -> pk_valid C k) /\
  (forall s, de_sig C v = Ok s -> sig_valid C s) /\
  (forall t, de_trust C v = Ok t -> trust_typed C t) /\
  (forall r, de_revocation C v = Ok r -> revocation_typed C r) /\
  (forall x, de_relation C v = Ok x -> relation_typed C x).
Proof.
  intros C v. split; [|split; [|split; [|split]]]; intros x H.
  - eapply de_key_valid; exact H.
  - eapply de_sig_valid; exact H.
  - eapply de_trust_typed; exact H.
  - eapply de_revocation_typed; exact H.
  - eapply de_relation_typed; exact H.
Qed.

(** Reading never panics, whatever the value. *)
Lemma p_C121_no_panic : forall C v,
  de_key C v <> Panic /\ de_sig C v <> Panic /\ de_trust C v <> Panic /\ de_revocation C v <> Panic /\ de_relation C v <> Panic.
Proof.
  intros C v. split; [apply settled_key|]. split; [apply settled_sig|]. split; [apply settled_trust|].
  split; [apply settled_revocation|apply settled_relation].
Qed.

(** The order of the fields does not matter. *)
Lemma p_C121_order : forall C fs fs', Permutation fs fs' ->
  de_trust C (V_struct fs) = de_trust C (V_struct fs') /\ de_revocation C (V_struct fs) = de_revocation C (V_struct fs').
Proof.
  intros C fs fs' H. split.
  - unfold de_trust. rewrite !(de_field_order _ _ _ H). reflexivity.
  - unfold de_revocation. rewrite !(de_field_order _ _ _ H). reflexivity.
Qed.

(** A build without RSA reads no RSA key and no RSA signature. *)
Lemma p_C121_wasm : forall C f k s, wasm32 C = true -> pk_fmt k = Rsa -> sig_fmt s = Rsa ->
  (exists e, de_key C (through f (ser_key k)) = Err e) /\ (exists e, de_sig C (through f (ser_sig s)) = Err e).
Proof.
  intros C f [fk rk] [fs rs] W K G. cbn in K, G. subst. unfold ser_key, ser_sig. cbn [through de_key de_sig pk_fmt pk_raw sig_fmt sig_raw].
  assert (E : de_variant C (variant_name Rsa) = Err SDE_type) by (unfold de_variant; cbn; rewrite W; reflexivity).
  rewrite E. split; eexists; reflexivity.
Qed.

(** ** C122 *)
Lemma b58_bad_first : forall (x : byte) raw, In x [x00; x01; x02] -> exists e, b58_decode (x :: raw) = Err e.
Proof.
  intros x raw H. destruct (b58_decode (x :: raw)) eqn:E.
  - apply b58_canonical in E. exfalso. assert (I : In x (b58_encode a)) by (rewrite E; left; reflexivity).
    apply b58_encode_chars in I. apply I. destruct H as [<-|[<-|[<-|[]]]]; reflexivity.
  - eexists; reflexivity.
  - exfalso. apply (proj1 (b58_decode_no_panic (x :: raw))). exact E.
  - exfalso. apply (proj2 (b58_decode_no_panic (x :: raw))). exact E.
Qed.

Lemma hashable_list : forall C k, de_hashable C (through As_list (ser_hashable k)) = Err SDE_type.
Proof. reflexivity. Qed.
Lemma hashable_text : forall C k, de_hashable C (through As_text (ser_hashable k)) = Err SDE_custom.
Proof.
  intros C [f raw]. change (de_hashable C (V_text (fmt_byte f :: raw)) = Err SDE_custom). cbn [de_hashable].
  destruct (b58_bad_first (fmt_byte f) raw) as [e E]; [destruct f; cbn; auto|]. rewrite E. reflexivity.
Qed.
Lemma hashable_bytes : forall C k, pk_valid C k -> de_hashable C (through As_bytes (ser_hashable k)) = Ok k.
Proof. intros C k H. cbn [ser_hashable through stored_bytes de_hashable]. rewrite (pk_decode_encode C k H). reflexivity. Qed.

(** What is written for a key cannot be read back in every format: JSON and bincode fail. *)
Lemma p_C122_refuted : exists C k, crypto_laws C /\ pk_valid C k /\
  (exists e, de_hashable C (through As_list (ser_hashable k)) = Err e) /\
  (exists e, de_hashable C (through As_text (ser_hashable k)) = Err e).
Proof.
  exists (toy false), (toy_key 1). split; [apply toy_laws|]. split; [apply toy_key_valid|].
  split; eexists; [apply hashable_list|apply hashable_text].
Qed.

(** It can exactly in the formats that give bytes back as bytes. *)
Lemma p_C122_exact : forall C f k, pk_valid C k -> (de_hashable C (through f (ser_hashable k)) = Ok k <-> f = As_bytes).
Proof.
  intros C f k H. split.
  - destruct f; [reflexivity|rewrite hashable_list; discriminate|rewrite hashable_text; discriminate].
  - intros ->. apply hashable_bytes. exact H.
Qed.

(** It is never read as another key, in any format. *)
Lemma p_C122_no_other : forall C f k k', pk_valid C k -> de_hashable C (through f (ser_hashable k)) = Ok k' -> k' = k.
Proof.
  intros C f k k' H E. destruct f.
  - rewrite hashable_bytes in E by assumption. inversion E. reflexivity.
  - rewrite hashable_list in E. discriminate.
  - rewrite hashable_text in E. discriminate.
Qed.

(** ** C123 *)
(** A key is read from its bytes and from the text it is displayed as, and from nothing else. *)
Lemma p_C123_exact : forall C v k, de_hashable C v = Ok k <->
  pk_valid C k /\ (v = V_bytes (pk_encode k) \/ v = V_text (pk_display k)).
Proof.
  intros C v k. split.
  - destruct v; cbn [de_hashable]; try discriminate; intros H.
    + apply bind_ok_inv in H. destruct H as [b [E H]]. apply map_err_ok in E, H. apply pk_decode_ok in H. destruct H as [H V].
      split; [exact V|right]. apply b58_canonical in E. unfold pk_display. rewrite H, E. reflexivity.
    + apply map_err_ok in H. apply pk_decode_ok in H. destruct H as [H V]. split; [exact V|left]. rewrite H. reflexivity.
  - intros [V [-> | ->]]; cbn [de_hashable].
    + rewrite (pk_decode_encode C k V). reflexivity.
    + unfold pk_display. rewrite b58_roundtrip. cbn [map_err bind]. rewrite (pk_decode_encode C k V). reflexivity.
Qed.

(** It panics exactly on an empty text and on no bytes. *)
Lemma p_C123_panic : forall C v, de_hashable C v = Panic <-> v = V_text [] \/ v = V_bytes [].
Proof.
  intros C v. split.
  - destruct v; cbn [de_hashable]; try discriminate; intros H.
    + left. destruct (b58_decode s) eqn:E; cbn [map_err bind] in H; try discriminate.
      * apply map_err_panic in H. apply pk_decode_panic in H. subst. apply b58_canonical in E. rewrite <- E. reflexivity.
      * exfalso. apply (proj1 (b58_decode_no_panic s)). exact E.
    + right. apply map_err_panic in H. apply pk_decode_panic in H. subst. reflexivity.
  - intros [-> | ->]; reflexivity.
Qed.

(** ** C124 *)
Lemma x509_ok : forall pk, encode_x509 pk = Ok (spki_bytes pk).
Proof.
  intros pk. unfold encode_x509. rewrite spki_size_ok, N.leb_refl, N.sub_diag. cbn [N.to_nat repeat]. rewrite app_nil_r. reflexivity.
Qed.

(** An RSA key is handed to libp2p as a standard SubjectPublicKeyInfo, and encoding it never panics. *)
Lemma p_C124_x509 : forall pkcs1, len pkcs1 < u64_bound -> exists out, encode_x509 pkcs1 = Ok out /\ spki_of pkcs1 out.
Proof.
  intros pk H. exists (spki_bytes pk). split; [apply x509_ok|].
  assert (Big : u64_bound + 100 < 2 ^ 1000) by (vm_compute; reflexivity).
  exists (der_object x06 oid_rsa_encryption ++ der_object x05 [] ++ []). split.
  - apply one_more; [apply der_object_spec; cbn; lia|]. apply one_more; [apply der_object_spec; cbn; lia|]. constructor.
  - rewrite app_nil_r.
    set (alg := der_object x06 oid_rsa_encryption ++ der_object x05 []).
    assert (La : len alg = 13) by reflexivity.
    exists (der_object x30 alg ++ der_object x03 (x00 :: pk) ++ []). split.
    + apply one_more; [apply der_object_spec; rewrite La; lia|].
      apply one_more; [apply der_object_spec; rewrite len_cons; lia|]. constructor.
    + rewrite app_nil_r. change (spki_bytes pk) with (der_object x30 (der_object x30 alg ++ der_object x03 (x00 :: pk))). apply der_object_spec. rewrite len_app, !der_object_size, La, len_cons.
      assert (S : der_length_size (1 + len pk) <= 20).
      { unfold der_length_size. destruct (1 + len pk <? 128); [lia|].
        assert (N.log2 (1 + len pk) < 65) by (apply log2_lt; [lia|]; unfold u64_bound in H; change (2 ^ 65) with 36893488147419103232; lia).
        assert (N.log2 (1 + len pk) / 8 < 9) by (apply N.div_lt_upper_bound; lia). lia. }
      unfold der_size at 1 2. change (der_length_size 13) with 1. lia.
Qed.

(** Every key of this crate becomes a libp2p key of the same kind with the same bytes, and comes back unchanged. *)
Lemma p_C124_key : forall C Lib k, libs_laws C Lib -> pk_valid C k -> len (pk_raw k) < u64_bound ->
  exists l, to_lib_key Lib k = Ok l /\ lib_key_valid C Lib l /\ lk_kind l = same_kind (pk_fmt k) /\ lk_raw l = pk_raw k /\
    of_lib_key C l = Ok k.
Proof.
  intros C Lib [f raw] L V S. pose proof V as [Vs Vr]. cbn [pk_fmt pk_raw] in *.
  assert (D : decode_raw_key C f raw = Ok (mk_pk f raw)) by (apply decode_raw_key_ok; auto).
  destruct f; cbn [to_lib_key pk_fmt pk_raw same_kind].
  - cbn in Vr. rewrite (law_lib_ed _ _ L), Vr. exists (mk_lib_key L_Ed25519 raw). apply andb_true_iff in Vr. destruct Vr as [V1 V2].
    unfold lib_key_valid, of_lib_key. cbn [lk_kind lk_raw]. rewrite D, (law_lib_ed _ _ L). apply N.eqb_eq in V1. repeat split; assumption.
  - destruct (p_C124_x509 raw S) as [out [E H]]. rewrite E. cbn [bind]. rewrite (law_lib_x509 _ _ L _ _ H).
    exists (mk_lib_key L_Rsa raw). unfold lib_key_valid, of_lib_key. cbn [lk_kind lk_raw]. cbn in Vs. apply negb_true_iff in Vs. rewrite Vs, D.
    repeat split.
  - cbn in Vr. rewrite (law_lib_point _ _ L), Vr. exists (mk_lib_key L_Secp256k1 raw). apply andb_true_iff in Vr. destruct Vr as [V1 V2].
    unfold lib_key_valid, of_lib_key. cbn [lk_kind lk_raw]. rewrite D, (law_lib_point _ _ L). apply N.eqb_eq in V1. repeat split; assumption.
Qed.

(** Every libp2p key becomes a key of this crate, and comes back unchanged. *)
Lemma p_C124_key_back : forall C Lib l, libs_laws C Lib -> lib_key_valid C Lib l -> len (lk_raw l) < u64_bound ->
  exists k, of_lib_key C l = Ok k /\ pk_valid C k /\ to_lib_key Lib k = Ok l.
Proof.
  intros C Lib [kd raw] L V S.
  assert (G : forall f, same_kind f = kd -> pk_valid C (mk_pk f raw) ->
    exists k, of_lib_key C (mk_lib_key kd raw) = Ok k /\ pk_valid C k /\ to_lib_key Lib k = Ok (mk_lib_key kd raw)).
  { intros f Hf Hv. destruct (p_C124_key C Lib (mk_pk f raw) L Hv S) as [[kd' raw'] [T [_ [K [R B]]]]].
    cbn in K, R. subst. exists (mk_pk f raw). repeat split; try assumption; apply Hv. }
  unfold lib_key_valid in V. destruct kd; cbn [lk_kind lk_raw] in V.
  - destruct V as [V1 V2]. apply (G Ed25519); [reflexivity|]. rewrite (law_lib_ed _ _ L) in V2. split; [reflexivity|].
    cbn. rewrite V1, V2. reflexivity.
  - apply (G Rsa); [reflexivity|]. split; [|reflexivity]. cbn. rewrite V. reflexivity.
  - destruct V as [V1 V2]. apply (G Secp256k1); [reflexivity|]. rewrite (law_lib_point _ _ L) in V2. split; [reflexivity|].
    cbn. rewrite V1, V2. reflexivity.
  - contradiction.
Qed.

(** Every pair becomes a libp2p pair with the same secret, whose public key is the converted public key, and comes back
    unchanged. *)
Lemma p_C124_pair : forall C Lib kp, crypto_laws C -> libs_laws C Lib -> kp_valid C kp -> len (pk_raw (kp_public C kp)) < u64_bound ->
  exists p, to_lib_pair Lib kp = Ok p /\ lib_pair_valid C Lib p /\ lp_kind p = same_kind (kp_fmt kp) /\ lp_secret p = kp_secret kp /\
    of_lib_pair C p = Ok kp /\ to_lib_key Lib (kp_public C kp) = Ok (lib_public C p).
Proof.
  intros C Lib [f s] LC L V S. pose proof (kp_public_valid C _ LC V) as PV.
  destruct (p_C124_key C Lib _ L PV S) as [[lk lr] [T [_ [K [R _]]]]]. cbn [lk_kind lk_raw] in K, R. rewrite T. clear S PV T.
  destruct V as [Vs Vr]. cbn [kp_fmt kp_secret] in *.
  destruct f; cbn [to_lib_pair kp_fmt kp_secret same_kind].
  - assert (E : len s =? 32 = true) by (apply N.eqb_eq; exact Vr). rewrite E. exists (mk_lib_pair L_Ed25519 s).
    unfold lib_pair_valid, of_lib_pair, lib_public. cbn [lp_kind lp_secret].
    pose proof (kp_vec_roundtrip C (mk_kp Ed25519 s) (s ++ ed_public C s) LC (conj eq_refl Vr) eq_refl) as RT. cbn [kp_fmt] in RT.
    repeat split; try assumption.
    + rewrite RT. reflexivity.
    + cbn in K, R. subst. reflexivity.
  - exists (mk_lib_pair L_Rsa s). unfold lib_pair_valid, of_lib_pair, lib_public. cbn [lp_kind lp_secret].
    cbn in Vs. apply negb_true_iff in Vs. rewrite Vs. cbn in K, R. subst. repeat split.
  - destruct Vr as [V1 V2]. rewrite (law_lib_scalar _ _ L), V2. assert (E : len s =? 32 = true) by (apply N.eqb_eq; exact V1). rewrite E. cbn [andb].
    exists (mk_lib_pair L_Secp256k1 s). unfold lib_pair_valid, of_lib_pair, lib_public, secp_from_bytes. cbn [lp_kind lp_secret].
    rewrite E, V2, (law_lib_scalar _ _ L). cbn in K, R. subst. cbn [andb]. repeat split; assumption.
Qed.

(** Every libp2p pair becomes a pair of this crate, and comes back unchanged. *)
Lemma p_C124_pair_back : forall C Lib p, crypto_laws C -> libs_laws C Lib -> lib_pair_valid C Lib p ->
  exists kp, of_lib_pair C p = Ok kp /\ kp_valid C kp /\ to_lib_pair Lib kp = Ok p.
Proof.
  intros C Lib [kd s] LC L V. unfold lib_pair_valid in V. destruct kd; cbn [lp_kind lp_secret] in V; [| | |contradiction].
  - exists (mk_kp Ed25519 s).
    pose proof (kp_vec_roundtrip C (mk_kp Ed25519 s) (s ++ ed_public C s) LC (conj eq_refl V) eq_refl) as RT.
    unfold of_lib_pair. cbn [lp_kind lp_secret kp_fmt] in *. rewrite RT. cbn [unwrap to_lib_pair kp_fmt kp_secret].
    assert (E : len s =? 32 = true) by (apply N.eqb_eq; exact V). rewrite E. repeat split; assumption.
  - exists (mk_kp Rsa s). unfold of_lib_pair. cbn [lp_kind lp_secret]. rewrite V. repeat split. cbn. rewrite V. reflexivity.
  - exists (mk_kp Secp256k1 s). destruct V as [V1 V2]. pose proof V2 as V3. rewrite (law_lib_scalar _ _ L) in V3.
    assert (E : len s =? 32 = true) by (apply N.eqb_eq; exact V1).
    unfold of_lib_pair, secp_from_bytes. cbn [lp_kind lp_secret to_lib_pair kp_fmt kp_secret]. rewrite E, V3, V2. repeat split; assumption.
Qed.

(** ** C125, C126 *)
Lemma draw_spec : forall C entropy fuel i,
  (exists n, (i <= n < i + fuel)%nat /\ (forall m, (i <= m < n)%nat -> secp_scalar C (entropy m) = false) /\
     secp_scalar C (entropy n) = true /\ draw_scalar C fuel entropy i = Ok (mk_kp Secp256k1 (entropy n))) \/
  ((forall m, (i <= m < i + fuel)%nat -> secp_scalar C (entropy m) = false) /\ draw_scalar C fuel entropy i = OutOfFuel).
Proof.
  intros C entropy fuel. induction fuel as [|fuel IH]; intros i.
  - right. split; [intros; lia|reflexivity].
  - cbn [draw_scalar]. destruct (secp_scalar C (entropy i)) eqn:E.
    + left. exists i. repeat split; try lia; try assumption; try (intros; lia).
    + destruct (IH (S i)) as [[n [Hn [Hb [Hg Hr]]]]|[Hb Hr]].
      * left. exists n. repeat split; try lia; try assumption. intros m Hm. destruct (Nat.eq_dec m i) as [-> | ]; [exact E|apply Hb; lia].
      * right. split; [|exact Hr]. intros m Hm. destruct (Nat.eq_dec m i) as [-> | ]; [exact E|apply Hb; lia].
Qed.

(** Asking for an RSA pair panics, whatever the random source. *)
Lemma p_C125_refuted : exists C f, crypto_laws C /\ fmt_supported C f = true /\
  forall fuel entropy, kp_generate C fuel f entropy = Panic.
Proof. exists (toy false), Rsa. split; [apply toy_laws|]. split; reflexivity. Qed.

(** The other kinds never panic. *)
Lemma p_C125_no_panic : forall C fuel f entropy, f <> Rsa -> kp_generate C fuel f entropy <> Panic.
Proof.
  intros C fuel [] entropy H; cbn [kp_generate]; [discriminate|congruence|].
  destruct (draw_spec C entropy fuel 0) as [[n [_ [_ [_ ->]]]]|[_ ->]]; discriminate.
Qed.

(** A generated pair is of the kind asked for, signs every message so that its public key accepts the signature, and
    survives its bytes. *)
Lemma p_C126_works : forall C fuel f entropy kp, crypto_laws C -> (forall i, len (entropy i) = 32) ->
  kp_generate C fuel f entropy = Ok kp ->
  kp_fmt kp = f /\ kp_valid C kp /\ pk_valid C (kp_public C kp) /\
  (forall msg, exists s, kp_sign C kp msg = Ok s /\ pk_verify C (kp_public C kp) msg s = Ok tt) /\
  (exists b, kp_to_vec C kp = Ok b /\ kp_from_vec C b f = Ok kp).
Proof.
  intros C fuel f entropy kp L Len G.
  assert (V : kp_fmt kp = f /\ kp_valid C kp /\ f <> Rsa).
  { destruct f; cbn [kp_generate] in G; [|discriminate|].
    - inversion G. repeat split; try discriminate. apply Len.
    - destruct (draw_spec C entropy fuel 0) as [[n [_ [_ [Hg E]]]]|[_ E]]; rewrite E in G; [|discriminate]. inversion G.
      repeat split; try discriminate; [apply Len|exact Hg]. }
  destruct V as [Hf [V NR]]. split; [exact Hf|]. split; [exact V|]. split; [apply kp_public_valid; assumption|]. split.
  - intros msg. destruct (kp_sign_total C kp msg L) as [s Hs]; [congruence|]. exists s. split; [exact Hs|].
    eapply kp_sign_verify; eassumption.
  - destruct kp as [f' s]. cbn in Hf. subst f'. destruct f; [| congruence |]; cbn [kp_to_vec kp_fmt kp_secret].
    + eexists. split; [reflexivity|]. apply (kp_vec_roundtrip C (mk_kp Ed25519 s) _ L V eq_refl).
    + eexists. split; [reflexivity|]. apply (kp_vec_roundtrip C (mk_kp Secp256k1 s) _ L V eq_refl).
Qed.

(** The secret is the first block of the random source that is a secret of that kind. *)
Lemma p_C126_first : forall C fuel entropy kp,
  (kp_generate C fuel Ed25519 entropy = Ok kp <-> kp = mk_kp Ed25519 (entropy 0%nat)) /\
  (kp_generate C fuel Secp256k1 entropy = Ok kp <->
   exists n, (n < fuel)%nat /\ (forall m, (m < n)%nat -> secp_scalar C (entropy m) = false) /\
     secp_scalar C (entropy n) = true /\ kp = mk_kp Secp256k1 (entropy n)).
Proof.
  intros C fuel entropy kp. split; [cbn; split; [intros H; inversion H; reflexivity|intros ->; reflexivity]|].
  cbn [kp_generate]. split.
  - intros G. destruct (draw_spec C entropy fuel 0) as [[n [Hn [Hb [Hg E]]]]|[_ E]]; rewrite E in G; [|discriminate]. inversion G.
    exists n. repeat split; [lia| |exact Hg]. intros m Hm. apply Hb. lia.
  - intros [n [Hn [Hb [Hg ->]]]]. destruct (draw_spec C entropy fuel 0) as [[n' [Hn' [Hb' [Hg' E]]]]|[Hb' E]].
    + rewrite E. destruct (Nat.lt_trichotomy n n') as [H|[->|H]]; [|reflexivity|].
      * rewrite Hb' in Hg by lia. discriminate.
      * rewrite Hb in Hg' by lia. discriminate.
    + rewrite Hb' in Hg by lia. discriminate.
Qed.

(** ** C127, C128 *)
Lemma zeroize_erased : forall b, erased b (zeroize b).
Proof.
  intros b. split; [apply map_length|]. unfold zeroize. apply Forall_forall. intros x H. apply in_map_iff in H. destruct H as [y [<- _]]. reflexivity.
Qed.

(** A load that succeeds overwrites the caller's buffer with zeroes. *)
Lemma p_C127_erased : forall C Lib der kp,
  (fst (rsa_from_pkcs8 Lib der) = Ok kp -> erased der (snd (rsa_from_pkcs8 Lib der))) /\
  (fst (secp256k1_from_der C Lib der) = Ok kp -> erased der (snd (secp256k1_from_der C Lib der))).
Proof.
  intros C Lib der kp. unfold rsa_from_pkcs8, secp256k1_from_der. split.
  - destruct (pkcs8_rsa Lib der); cbn; [intros _; apply zeroize_erased|discriminate].
  - destruct (der_sequence Lib der); cbn; [intros _; apply zeroize_erased|discriminate].
Qed.

(** A failed load of an RSA key leaves the buffer alone. *)
Lemma p_C128_rsa : forall Lib der e, fst (rsa_from_pkcs8 Lib der) = Err e -> snd (rsa_from_pkcs8 Lib der) = der.
Proof. intros Lib der e. unfold rsa_from_pkcs8. destruct (pkcs8_rsa Lib der); cbn; [discriminate|reflexivity]. Qed.

(** A failed load of a secp256k1 key has erased the buffer whenever it was a DER sequence, and left it alone otherwise. *)
Lemma p_C128_exact : forall C Lib der e, fst (secp256k1_from_der C Lib der) = Err e ->
  (der_sequence Lib der = None /\ snd (secp256k1_from_der C Lib der) = der) \/
  ((exists objs, der_sequence Lib der = Some objs) /\ erased der (snd (secp256k1_from_der C Lib der))).
Proof.
  intros C Lib der e. unfold secp256k1_from_der. destruct (der_sequence Lib der) as [objs|]; cbn; intros H.
  - right. split; [eauto|apply zeroize_erased].
  - left. split; reflexivity.
Qed.

(** ** C129, C130 *)
(** The secp256k1 key of a standard ECPrivateKey is loaded. *)
Lemma p_C129_loads : forall C Lib secret der, libs_laws C Lib -> ec_private_key_of secret der ->
  len secret = 32 -> secp_scalar C secret = true ->
  fst (secp256k1_from_der C Lib der) = Ok (mk_kp Secp256k1 secret).
Proof.
  intros C Lib s der L [more [Hm H]] Hl Hs. unfold secp256k1_from_der.
  rewrite (law_der_sequence _ _ L _ _) with (2 := H).
  - cbn. unfold secp_from_bytes. rewrite Hl, Hs. reflexivity.
  - constructor; [cbn; tauto|]. constructor; [cbn; tauto|]. eapply Forall_impl; [|exact Hm]. cbn. intros a [-> | ->]; tauto.
Qed.

(** One whose secret is not a secp256k1 secret is refused. *)
Lemma p_C129_refuses : forall C Lib secret der, libs_laws C Lib -> ec_private_key_of secret der ->
  len secret <> 32 \/ secp_scalar C secret = false ->
  fst (secp256k1_from_der C Lib der) = Err DE_Secp256k1.
Proof.
  intros C Lib s der L [more [Hm H]] Hb. unfold secp256k1_from_der.
  rewrite (law_der_sequence _ _ L _ _) with (2 := H).
  - cbn. unfold secp_from_bytes. destruct Hb as [Hb|Hb]; [apply N.eqb_neq in Hb; rewrite Hb; reflexivity|].
    rewrite Hb, andb_false_r. reflexivity.
  - constructor; [cbn; tauto|]. constructor; [cbn; tauto|]. eapply Forall_impl; [|exact Hm]. cbn. intros a [-> | ->]; tauto.
Qed.

(** Whatever is loaded is a working pair, whose secret is the second object of the sequence, an OCTET STRING. *)
Lemma p_C129_only : forall C Lib der kp, fst (secp256k1_from_der C Lib der) = Ok kp ->
  kp_valid C kp /\ kp_fmt kp = Secp256k1 /\
  exists objs, der_sequence Lib der = Some objs /\ nth_error objs 1 = Some (x04, kp_secret kp).
Proof.
  intros C Lib der kp. unfold secp256k1_from_der. destruct (der_sequence Lib der) as [objs|]; cbn [fst]; [|discriminate].
  destruct (nth_error objs 1) as [[t v]|] eqn:O; [|discriminate]. destruct (Byte.eqb t x04) eqn:E; [|discriminate].
  apply byte_eqb_eq in E. subst. unfold secp_from_bytes. destruct ((len v =? 32) && secp_scalar C v) eqn:V; [|discriminate].
  intros H. inversion H; subst. apply andb_true_iff in V. destruct V as [V1 V2]. apply N.eqb_eq in V1.
  split; [split; [reflexivity|split; assumption]|]. split; [reflexivity|]. cbn [kp_secret]. exists objs. split; [reflexivity|exact O].
Qed.

(** Loading never panics. *)
Lemma p_C129_no_panic : forall C Lib der,
  fst (secp256k1_from_der C Lib der) <> Panic /\ fst (rsa_from_pkcs8 Lib der) <> Panic.
Proof.
  intros C Lib der. unfold secp256k1_from_der, rsa_from_pkcs8. split.
  - destruct (der_sequence Lib der) as [objs|]; cbn [fst]; [|discriminate].
    destruct (nth_error objs 1) as [[t v]|]; [|discriminate]. destruct (Byte.eqb t x04); [|discriminate].
    unfold secp_from_bytes. destruct (_ && _); discriminate.
  - destruct (pkcs8_rsa Lib der); discriminate.
Qed.

(** ** C131 *)
(** A peer id is written as its base58 text and read back from that text, and from nothing else. *)
Lemma p_C131_exact : forall C v p, peer_id_deserialize C v = Ok p <-> multihash_ok C p = true /\ v = V_text (b58_encode p).
Proof.
  intros C v p. split.
  - destruct v; cbn; try discriminate. unfold peer_id_from_str. destruct (b58_decode s) eqn:E; try discriminate.
    destruct (multihash_ok C a) eqn:M; [|discriminate]. intros H. inversion H; subst. split; [exact M|].
    apply b58_canonical in E. rewrite E. reflexivity.
  - intros [M ->]. cbn. unfold peer_id_from_str. rewrite b58_roundtrip, M. reflexivity.
Qed.

(** In every format, for the peer id of every key that is not RSA, the peer id read is the one written and gives the key
    back. *)
Lemma p_C131_key : forall C f k, crypto_laws C -> pk_valid C k -> pk_fmt k <> Rsa ->
  peer_id_deserialize C (through f (peer_id_serialize (pk_to_peer_id C k))) = Ok (pk_to_peer_id C k) /\
  pk_of_peer_id C (pk_to_peer_id C k) = Ok k.
Proof.
  intros C f k L V N. destruct (law_peer_id _ L k V N) as [M I]. split.
  - apply p_C131_exact. split; [exact M|reflexivity].
  - unfold pk_of_peer_id. rewrite I. reflexivity.
Qed.

(** Reading a peer id never panics. *)
Lemma p_C131_no_panic : forall C v, peer_id_deserialize C v <> Panic.
Proof. intros C []; cbn; try discriminate. destruct (peer_id_from_str C s); discriminate. Qed.
