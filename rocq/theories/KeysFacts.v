(** Facts about Keys.v. *)
From Coq Require Import List NArith ZArith Bool Lia ZifyBool ZifyNat ZifyN.
From Coq Require Strings.Byte String.
Import String.StringSyntax.
From Verif Require Import Base BaseFacts Text TextFacts Keys Spec.
Import ListNotations.
Open Scope N_scope.

Lemma key_format_eqb_eq : forall a b, key_format_eqb a b = true <-> a = b.
Proof. destruct a, b; simpl; split; congruence. Qed.

Lemma pk_eqb_eq : forall a b, pk_eqb a b = true <-> a = b.
Proof.
  intros [fa ra] [fb rb]. unfold pk_eqb; simpl. rewrite andb_true_iff, key_format_eqb_eq, bytes_eqb_eq.
  split; [intros [-> ->]; reflexivity|intros H; injection H; auto].
Qed.

Lemma pk_eqb_refl : forall a, pk_eqb a a = true.
Proof. intros. apply pk_eqb_eq. reflexivity. Qed.

Lemma pk_eqb_neq : forall a b, pk_eqb a b = false <-> a <> b.
Proof.
  intros a b. destruct (pk_eqb a b) eqn:E.
  - apply pk_eqb_eq in E. split; [discriminate|contradiction].
  - split; [|reflexivity]. intros _ H. apply pk_eqb_eq in H. congruence.
Qed.

Lemma pk_eqb_sym : forall a b, pk_eqb a b = pk_eqb b a.
Proof.
  intros. destruct (pk_eqb b a) eqn:E.
  - apply pk_eqb_eq in E. subst. apply pk_eqb_refl.
  - apply pk_eqb_neq in E. apply pk_eqb_neq. congruence.
Qed.

Lemma pk_eq_dec : forall a b : public_key, {a = b} + {a <> b}.
Proof.
  intros a b. destruct (pk_eqb a b) eqn:E.
  - left. apply pk_eqb_eq. exact E.
  - right. apply pk_eqb_neq. exact E.
Qed.

Lemma existsb_pk : forall k l, existsb (pk_eqb k) l = true <-> In k l.
Proof.
  intros. rewrite existsb_exists. split.
  - intros (x & H1 & H2). apply pk_eqb_eq in H2. congruence.
  - intros H. exists k. split; [assumption|apply pk_eqb_refl].
Qed.

Lemma existsb_pk_false : forall k l, existsb (pk_eqb k) l = false <-> ~ In k l.
Proof.
  intros. rewrite <- existsb_pk. destruct (existsb (pk_eqb k) l); split; congruence.
Qed.

Lemma fmt_of_byte_fmt : forall C f, fmt_supported C f = true -> fmt_of_byte C (fmt_byte f) = Ok f.
Proof. intros C [] H; simpl in *; try reflexivity. destruct (wasm32 C); [discriminate|reflexivity]. Qed.

Lemma fmt_of_byte_ok : forall C b f, fmt_of_byte C b = Ok f -> fmt_byte f = b /\ fmt_supported C f = true.
Proof.
  intros C b f H. destruct b; simpl in H; try discriminate.
  - injection H as <-. auto.
  - destruct (wasm32 C) eqn:E; [discriminate|]. injection H as <-. simpl. rewrite E. auto.
  - injection H as <-. auto.
Qed.

Lemma fmt_of_byte_total : forall C b, (exists f, fmt_of_byte C b = Ok f) \/ fmt_of_byte C b = Err DE_InvalidTypeByte.
Proof.
  intros C b. destruct b; try (right; reflexivity); try (left; eexists; reflexivity).
  simpl. destruct (wasm32 C); [right; reflexivity|left; eexists; reflexivity].
Qed.

Lemma fmt_text_roundtrip : forall C f, fmt_supported C f = true -> fmt_of_text C (fmt_text f) = Ok f.
Proof. intros C [] H; simpl in H; unfold fmt_of_text; cbn; try reflexivity. rewrite H. reflexivity. Qed.

Lemma fmt_of_text_ok : forall C s f, fmt_of_text C s = Ok f -> s = fmt_text f /\ fmt_supported C f = true.
Proof.
  intros C s f. unfold fmt_of_text.
  destruct (bytes_eqb s (str "ed25519")) eqn:E1; [intros H; injection H as <-; apply bytes_eqb_eq in E1; subst; auto|].
  destruct (bytes_eqb s (str "secp256k1")) eqn:E2; [intros H; injection H as <-; apply bytes_eqb_eq in E2; subst; auto|].
  destruct (wasm32 C) eqn:W; simpl; [discriminate|].
  destruct (bytes_eqb s (str "rsa")) eqn:E3; [|discriminate].
  intros H; injection H as <-; apply bytes_eqb_eq in E3; subst. simpl. rewrite W. auto.
Qed.

Lemma fmt_byte_inj : forall a b, fmt_byte a = fmt_byte b -> a = b.
Proof. destruct a, b; simpl; congruence. Qed.

Lemma pk_encode_inj : forall a b, pk_encode a = pk_encode b -> a = b.
Proof.
  intros [fa ra] [fb rb] H. unfold pk_encode in H; simpl in H. injection H as H1 ->.
  apply fmt_byte_inj in H1. subst. reflexivity.
Qed.

Lemma sig_encode_inj : forall a b, sig_encode a = sig_encode b -> a = b.
Proof.
  intros [fa ra] [fb rb] H. unfold sig_encode in H; simpl in H. injection H as H1 ->.
  apply fmt_byte_inj in H1. subst. reflexivity.
Qed.

Lemma decode_raw_key_ok : forall C f raw k, decode_raw_key C f raw = Ok k <->
  (k = mk_pk f raw /\ raw_key_ok C f raw = true).
Proof.
  intros C f raw k. destruct f; simpl.
  - destruct (len raw =? 32); simpl; [|split; [discriminate|intros [_ H]; discriminate]].
    destruct (ed_point C raw); split; try discriminate; try (intros [_ H]; discriminate).
    + intros H; injection H as <-; auto.
    + intros [-> _]; reflexivity.
  - split; [intros H; injection H as <-; auto|intros [-> _]; reflexivity].
  - destruct ((len raw =? 33) && secp_point C raw); split; try discriminate; try (intros [_ H]; discriminate).
    + intros H; injection H as <-; auto.
    + intros [-> _]; reflexivity.
Qed.

Lemma pk_decode_encode : forall C k, pk_valid C k -> pk_decode C (pk_encode k) = Ok k.
Proof.
  intros C [f raw] [H1 H2]. unfold pk_decode, pk_encode; simpl in *.
  rewrite fmt_of_byte_fmt by assumption. simpl. apply decode_raw_key_ok. auto.
Qed.

Lemma pk_decode_ok : forall C b k, pk_decode C b = Ok k -> pk_encode k = b /\ pk_valid C k.
Proof.
  intros C b k H. destruct b as [|t raw]; [discriminate|]. simpl in H. apply bind_ok in H.
  destruct H as (f & Hf & H). apply fmt_of_byte_ok in Hf. apply decode_raw_key_ok in H.
  destruct Hf as [<- Hs]. destruct H as [-> Hr]. split; [reflexivity|split; assumption].
Qed.

Lemma pk_decode_panic : forall C b, pk_decode C b = Panic <-> b = [].
Proof.
  intros C b. destruct b as [|t raw]; simpl; [tauto|]. split; [|discriminate]. intros H. exfalso.
  destruct (fmt_of_byte_total C t) as [[f Hf]|Hf]; rewrite Hf in H; simpl in H; [|discriminate].
  destruct f; simpl in H; try discriminate.
  - destruct (len raw =? 32); [|discriminate]. destruct (ed_point C raw); discriminate.
  - destruct ((len raw =? 33) && secp_point C raw); discriminate.
Qed.

Lemma pk_decode_fuel : forall C b, pk_decode C b <> OutOfFuel.
Proof.
  intros C b H. destruct b as [|t raw]; simpl in H; [discriminate|].
  destruct (fmt_of_byte_total C t) as [[f Hf]|Hf]; rewrite Hf in H; simpl in H; [|discriminate].
  destruct f; simpl in H; try discriminate.
  - destruct (len raw =? 32); [|discriminate]. destruct (ed_point C raw); discriminate.
  - destruct ((len raw =? 33) && secp_point C raw); discriminate.
Qed.

Lemma sig_decode_encode : forall C s, sig_valid C s -> sig_decode C (sig_encode s) = Ok s.
Proof.
  intros C [f raw] H. unfold sig_decode, sig_encode; simpl in *.
  rewrite fmt_of_byte_fmt by assumption. reflexivity.
Qed.

Lemma sig_decode_ok : forall C b s, sig_decode C b = Ok s -> sig_encode s = b /\ sig_valid C s.
Proof.
  intros C b s H. destruct b as [|t raw]; [discriminate|]. simpl in H. apply bind_ok in H.
  destruct H as (f & Hf & H). apply fmt_of_byte_ok in Hf. injection H as <-.
  destruct Hf as [<- Hs]. split; [reflexivity|assumption].
Qed.

Lemma sig_decode_panic : forall C b, sig_decode C b = Panic <-> b = [].
Proof.
  intros C b. destruct b as [|t raw]; simpl; [tauto|]. split; [|discriminate]. intros H. exfalso.
  destruct (fmt_of_byte_total C t) as [[f Hf]|Hf]; rewrite Hf in H; discriminate.
Qed.

Lemma sig_decode_fuel : forall C b, sig_decode C b <> OutOfFuel.
Proof.
  intros C b H. destruct b as [|t raw]; simpl in H; [discriminate|].
  destruct (fmt_of_byte_total C t) as [[f Hf]|Hf]; rewrite Hf in H; discriminate.
Qed.

Lemma pk_from_str_display : forall C k, pk_valid C k -> pk_from_str C (pk_display k) = Ok k.
Proof.
  intros. unfold pk_from_str, pk_from_base58, pk_display. rewrite b58_roundtrip. simpl.
  apply pk_decode_encode. assumption.
Qed.

Lemma pk_from_str_ok : forall C s k, pk_from_str C s = Ok k -> pk_display k = s /\ pk_valid C k.
Proof.
  intros C s k H. unfold pk_from_str, pk_from_base58 in H. apply bind_ok in H. destruct H as (b & Hb & H).
  apply map_err_ok in Hb. apply pk_decode_ok in H. destruct H as [<- H]. split; [|assumption].
  unfold pk_display. apply b58_canonical. assumption.
Qed.

Lemma pk_from_str_panic : forall C s, pk_from_str C s = Panic <-> s = [].
Proof.
  intros C s. unfold pk_from_str, pk_from_base58. split.
  - intros H. destruct (b58_decode s) as [b|e| |] eqn:E; simpl in H; try discriminate.
    + apply pk_decode_panic in H. subst. apply b58_canonical in E. rewrite <- E. reflexivity.
    + destruct (b58_decode_no_panic s). contradiction.
  - intros ->. reflexivity.
Qed.

Lemma pk_display_inj : forall a b, pk_display a = pk_display b -> a = b.
Proof. intros a b H. apply pk_encode_inj. apply b58_encode_inj. exact H. Qed.

Lemma pk_display_eqb : forall a b, bytes_eqb (pk_display a) (pk_display b) = pk_eqb a b.
Proof.
  intros a b. destruct (pk_eqb a b) eqn:E.
  - apply pk_eqb_eq in E. subst. apply bytes_eqb_refl.
  - apply pk_eqb_neq in E. apply bytes_eqb_neq. intros H. apply E. apply pk_display_inj. assumption.
Qed.

(** Lengths. *)
Lemma pk_encode_len : forall C k, pk_valid C k ->
  match pk_fmt k with
  | Ed25519 => len (pk_encode k) = 33
  | Rsa => True
  | Secp256k1 => len (pk_encode k) = 34
  end.
Proof.
  intros C [f raw] [_ H]. unfold pk_encode. simpl in *. destruct f; simpl in H; auto;
  apply andb_true_iff in H; destruct H as [H _]; apply N.eqb_eq in H; rewrite len_cons; lia.
Qed.

(** Signing. *)
Lemma kp_public_valid : forall C kp, crypto_laws C -> kp_valid C kp -> pk_valid C (kp_public C kp).
Proof.
  intros C [f sk] L [H1 H2]. unfold kp_public, pk_valid. simpl in *. split; [assumption|].
  destruct f; simpl; auto.
  - destruct (law_ed_public C L sk H2) as [A B]. rewrite A, B. reflexivity.
  - destruct H2 as [H2 H3]. destruct (law_secp_public C L sk H2 H3) as [A B]. rewrite A, B. reflexivity.
Qed.

Lemma kp_sign_verify : forall C kp m s, crypto_laws C -> kp_valid C kp ->
  kp_sign C kp m = Ok s -> pk_verify C (kp_public C kp) m s = Ok tt /\ sig_fmt s = kp_fmt kp.
Proof.
  intros C [f sk] m s L [H1 H2] H. unfold kp_sign in H. unfold pk_verify, kp_public. simpl in *.
  destruct f.
  - injection H as <-. simpl. rewrite (law_ed_sign C L) by assumption. auto.
  - destruct (rsa_sign C sk m) as [r|] eqn:E; [|discriminate]. injection H as <-. simpl.
    rewrite (law_rsa_sign C L _ _ _ E). auto.
  - rewrite (law_sha_len C L) in H. simpl in H. injection H as <-. simpl. unfold secp_verify_hashed.
    rewrite (law_sha_len C L). destruct H2 as [H2 H3].
    destruct (law_secp_sign C L sk (sha256 C m) H2 H3 (law_sha_len C L m)) as [A B]. rewrite A. auto.
Qed.

Lemma kp_sign_total : forall C kp m, crypto_laws C -> kp_fmt kp <> Rsa -> exists s, kp_sign C kp m = Ok s.
Proof.
  intros C [f sk] m L H. unfold kp_sign. simpl in *. destruct f; [eexists; reflexivity|contradiction|].
  rewrite (law_sha_len C L). simpl. eexists; reflexivity.
Qed.

Lemma kp_sign_sig_valid : forall C kp m s, kp_valid C kp -> kp_sign C kp m = Ok s -> sig_valid C s.
Proof.
  intros C [f sk] m s [H1 _] H. unfold kp_sign in H. unfold sig_valid. simpl in *. destruct f.
  - injection H as <-. reflexivity.
  - destruct (rsa_sign C sk m); [|discriminate]. injection H as <-. assumption.
  - destruct (len (sha256 C m) =? 32); [|discriminate]. injection H as <-. reflexivity.
Qed.

(** Peer ids. *)
Lemma peer_id_roundtrip : forall C k, crypto_laws C -> pk_valid C k -> pk_fmt k <> Rsa ->
  peer_id_from_str C (peer_id_to_base58 (pk_to_peer_id C k)) = Some (pk_to_peer_id C k)
  /\ pk_of_peer_id C (pk_to_peer_id C k) = Ok k.
Proof.
  intros C k L V R. destruct (law_peer_id C L k V R) as [A B].
  unfold peer_id_from_str, peer_id_to_base58, pk_of_peer_id. rewrite b58_roundtrip, A, B. auto.
Qed.

Lemma pk_of_peer_id_valid : forall C p k, crypto_laws C -> pk_of_peer_id C p = Ok k -> pk_valid C k.
Proof.
  intros C p k L H. unfold pk_of_peer_id in H. destruct (inlined_key C p) eqn:E; [|discriminate].
  injection H as <-. apply (law_inlined C L _ _ E).
Qed.

(** Key pairs. *)
Lemma kp_vec_roundtrip : forall C kp b, crypto_laws C -> kp_valid C kp ->
  kp_to_vec C kp = Ok b -> kp_from_vec C b (kp_fmt kp) = Ok kp.
Proof.
  intros C [f sk] b L [H1 H2] H. unfold kp_to_vec in H. unfold kp_from_vec. cbn [kp_fmt kp_secret] in *.
  destruct f; [|discriminate|].
  - injection H as <-. destruct (law_ed_public C L sk H2) as [A B].
    assert (Hl : length sk = 32%nat) by (unfold len in H2; lia).
    rewrite len_app, A, H2. replace (32 + 32 =? 64) with true by reflexivity.
    rewrite firstn_app, skipn_app. rewrite Hl, Nat.sub_diag.
    rewrite firstn_all2, skipn_all2 by lia. rewrite firstn_O, app_nil_r.
    change (skipn 0 (ed_public C sk)) with (ed_public C sk). cbn [app]. rewrite B, bytes_eqb_refl. reflexivity.
  - injection H as <-. unfold secp_from_bytes. destruct H2 as [H2 H3]. rewrite H2, H3. reflexivity.
Qed.

Lemma kp_from_vec_valid : forall C b f kp, kp_from_vec C b f = Ok kp -> kp_valid C kp /\ kp_fmt kp = f /\ kp_to_vec C kp = Ok b.
Proof.
  intros C b f kp H. unfold kp_from_vec in H. destruct f; [|discriminate|].
  - destruct (len b =? 64) eqn:E; [|discriminate].
    destruct (ed_point C (skipn 32 b) && bytes_eqb (ed_public C (firstn 32 b)) (skipn 32 b)) eqn:E2; [|discriminate].
    apply Ok_inj in H. subst kp. apply andb_true_iff in E2. destruct E2 as [_ E2]. apply bytes_eqb_eq in E2.
    split; [split; [reflexivity|]|split; [reflexivity|]]; cbn [kp_fmt kp_secret].
    + unfold len in *. rewrite firstn_length. lia.
    + unfold kp_to_vec. cbn [kp_fmt kp_secret]. rewrite E2. rewrite firstn_skipn. reflexivity.
  - unfold secp_from_bytes in H. destruct ((len b =? 32) && secp_scalar C b) eqn:E; [|discriminate].
    injection H as <-. apply andb_true_iff in E. destruct E as [E1 E2]. apply N.eqb_eq in E1.
    repeat split; assumption.
Qed.

Lemma kp_secret_roundtrip : forall C kp b, kp_valid C kp -> kp_secret_bytes kp = Some b ->
  kp_from_secret_key C b (kp_fmt kp) = Ok kp.
Proof.
  intros C [f sk] b [H1 H2] H. unfold kp_secret_bytes in H. unfold kp_from_secret_key. simpl in *.
  destruct f; [|discriminate|]; injection H as <-.
  - rewrite H2. reflexivity.
  - destruct H2 as [H2 H3]. unfold secp_from_bytes. rewrite H2, H3. reflexivity.
Qed.

(** Verification against the signature schemes. *)
Lemma secp_verify_exact : forall C k m s, pk_fmt k = Secp256k1 ->
  pk_verify C k m s = Ok tt <-> len (sha256 C m) = 32 /\ secp_der C (sig_raw s) = true.
Proof.
  intros C [f raw] m s H. cbn in H. subst f. unfold pk_verify, secp_verify_hashed. cbn.
  destruct (len (sha256 C m) =? 32) eqn:E1; [|split; [discriminate|intros [X _]; lia]].
  destruct (secp_der C (sig_raw s)); [split; [intros _; split; [lia|reflexivity]|reflexivity]|].
  split; [discriminate|intros [_ X]; discriminate].
Qed.

Lemma ed_rsa_verify_exact : forall C k m s, pk_fmt k <> Secp256k1 ->
  pk_verify C k m s = Ok tt <-> scheme_accepts C k m (sig_raw s).
Proof.
  intros C [f raw] m s H. unfold pk_verify, scheme_accepts. cbn in *. destruct f.
  - destruct (ed_verify C raw m (sig_raw s)); split; congruence.
  - destruct (rsa_verify C raw m (sig_raw s)); split; congruence.
  - contradiction.
Qed.

Lemma scheme_accepts_verify : forall C k m s, crypto_laws C -> scheme_accepts C k m (sig_raw s) -> pk_verify C k m s = Ok tt.
Proof.
  intros C k m s L H. destruct (pk_fmt k) eqn:E.
  - apply ed_rsa_verify_exact; [congruence|assumption].
  - apply ed_rsa_verify_exact; [congruence|assumption].
  - apply secp_verify_exact; [assumption|]. unfold scheme_accepts in H. rewrite E in H.
    split; [apply (law_sha_len C L)|apply H].
Qed.

Lemma secp_any_signature : forall C kp kp' m m' s, crypto_laws C -> kp_valid C kp -> kp_fmt kp = Secp256k1 ->
  kp_fmt kp' = Secp256k1 -> kp_sign C kp m = Ok s -> pk_verify C (kp_public C kp') m' s = Ok tt.
Proof.
  intros C [f sk] [f' sk'] m m' s L [_ V] H1 H2 H. cbn in *. subst f f'. unfold kp_sign in H. cbn in H.
  destruct (len (sha256 C m) =? 32) eqn:E; [|discriminate]. injection H as <-.
  apply secp_verify_exact; [reflexivity|]. split; [apply (law_sha_len C L)|]. cbn.
  apply (law_secp_sign C L sk (sha256 C m)); try apply V. lia.
Qed.

Lemma verify_total : forall C k m s, pk_verify C k m s = Ok tt \/ exists e, pk_verify C k m s = Err e.
Proof.
  intros C [f raw] m s. unfold pk_verify; cbn. destruct f.
  - destruct (ed_verify C raw m (sig_raw s)); [left; reflexivity|right; eexists; reflexivity].
  - destruct (rsa_verify C raw m (sig_raw s)); [left; reflexivity|right; eexists; reflexivity].
  - unfold secp_verify_hashed. destruct (len (sha256 C m) =? 32); [|right; eexists; reflexivity].
    destruct (secp_der C (sig_raw s)); [left; reflexivity|right; eexists; reflexivity].
Qed.

Lemma pk_hash_iff : forall a b, pk_hash_input a = pk_hash_input b <-> a = b.
Proof. intros a b. split; [apply pk_encode_inj|congruence]. Qed.

Lemma kp_to_vec_panic : forall C kp, kp_to_vec C kp = Panic <-> kp_fmt kp = Rsa.
Proof. intros C [f sk]. unfold kp_to_vec. cbn. destruct f; split; congruence. Qed.
