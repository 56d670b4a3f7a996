(** Facts about DER, about the toy libraries and about serde. *)
From Coq Require Import List NArith ZArith Bool Lia Permutation.
From Coq Require String.
Import String.StringSyntax.
From Verif Require Import Base Text Keys Trust Relation Spec Convert ConvertSpec Toy BaseFacts TextFacts KeysFacts ToyFacts.
Import ListNotations.
Open Scope N_scope.

(** ** DER *)
Lemma be_value_digits : forall b, be_value b = of_digits 256 (map N_of_u8 b).
Proof.
  induction b as [|x b IH]; [reflexivity|]. cbn [be_value map]. rewrite of_digits_cons, map_length, IH. reflexivity.
Qed.

Lemma be_value_of : forall ds, Forall (fun d => d < 256) ds -> be_value (map u8_of_N ds) = of_digits 256 ds.
Proof.
  intros ds H. rewrite be_value_digits, map_map. f_equal. induction H; [reflexivity|]. cbn. rewrite N_of_u8_of_N_small by assumption.
  f_equal. exact IHForall.
Qed.

Lemma digits_length : forall n, 0 < n -> N.of_nat (length (to_digits 256 n)) = 1 + N.log2 n / 8.
Proof.
  intros n Hn. pose proof (to_digits_value 256 n ltac:(lia)) as V. pose proof (to_digits_lead 256 n ltac:(lia)) as L.
  pose proof (to_digits_bound 256 n ltac:(lia)) as B.
  assert (NE : to_digits 256 n <> []) by (intros E; rewrite E in V; cbn in V; lia).
  pose proof (of_digits_lower 256 _ ltac:(lia) L NE) as Lo. pose proof (of_digits_bound 256 _ ltac:(lia) B) as Hi.
  rewrite V in Lo, Hi. destruct (to_digits 256 n) as [|d ds]; [congruence|]. clear NE V L B.
  set (k := length ds) in *.
  assert (Lo' : 2 ^ (8 * N.of_nat k) <= n).
  { rewrite N.pow_mul_r. change (2 ^ 8) with 256. cbn [length] in Lo. fold k in Lo.
    replace (N.of_nat (S k) - 1) with (N.of_nat k) in Lo by lia. first [exact Lo | replace (N.of_nat (S k - 1)) with (N.of_nat k) in Lo by lia; exact Lo]. }
  assert (Hi' : n < 2 ^ (8 * N.of_nat (S k))).
  { rewrite N.pow_mul_r. change (2 ^ 8) with 256. exact Hi. }
  assert (8 * N.of_nat k <= N.log2 n) by (apply N.log2_le_pow2; lia).
  assert (N.log2 n < 8 * N.of_nat (S k)) by (apply N.log2_lt_pow2; lia).
  cbn [length]. fold k. assert (N.log2 n / 8 = N.of_nat k); [|lia].
  symmetry. apply N.div_unique with (r := N.log2 n - 8 * N.of_nat k); lia.
Qed.

Lemma der_length_size_ok : forall n, len (der_length n) = der_length_size n.
Proof.
  intros n. unfold der_length, der_length_size. destruct (n <? 128) eqn:E; [reflexivity|].
  apply N.ltb_ge in E. cbn zeta. rewrite len_cons. unfold len. rewrite map_length, digits_length by lia. lia.
Qed.

Lemma der_object_size : forall t v, len (der_object t v) = der_size (len v).
Proof. intros. unfold der_object, der_size. rewrite len_cons, len_app, der_length_size_ok. lia. Qed.

Lemma spki_size_ok : forall pk, len (spki_bytes pk) = spki_size pk.
Proof.
  intros. unfold spki_bytes, spki_size. rewrite der_object_size, len_app, !der_object_size, len_app, !der_object_size, len_cons.
  change (len []) with 0. f_equal. f_equal. f_equal. lia.
Qed.

(** Contents that fit in memory. *)
Definition fits_memory (n : N) : Prop := n < 2 ^ 64.

Lemma log2_lt : forall n k, 0 < k -> n < 2 ^ k -> N.log2 n < k.
Proof. intros n k K H. destruct (N.eq_dec n 0) as [->|Z]; [cbn; lia|]. apply N.log2_lt_pow2; lia. Qed.

Lemma der_length_spec : forall n, n < 2 ^ 1000 -> der_length_of n (der_length n).
Proof.
  intros n Hn. unfold der_length. destruct (n <? 128) eqn:E.
  - apply N.ltb_lt in E. apply short_length; [apply N_of_u8_of_N_small; lia|assumption].
  - apply N.ltb_ge in E. cbn zeta.
    pose proof (to_digits_value 256 n ltac:(lia)) as V. pose proof (to_digits_lead 256 n ltac:(lia)) as L.
    pose proof (to_digits_bound 256 n ltac:(lia)) as B. pose proof (digits_length n ltac:(lia)) as K.
    assert (Hl : N.log2 n < 1000) by (apply log2_lt; [lia|assumption]).
    assert (Hd : N.log2 n / 8 < 126) by (apply N.div_lt_upper_bound; lia).
    destruct (to_digits 256 n) as [|d ds]; [cbn in V; lia|].
    assert (HN : N_of_u8 (u8_of_N (128 + N.of_nat (length (d :: ds)))) = 128 + N.of_nat (length (d :: ds)))
      by (apply N_of_u8_of_N_small; lia).
    apply (long_length n (u8_of_N (128 + N.of_nat (length (d :: ds)))) (u8_of_N d) (map u8_of_N ds)).
    + assumption.
    + cbn [length]. rewrite map_length. exact HN.
    + rewrite HN. lia.
    + intros Z. inversion B; subst. assert (d = 0); [|subst; cbn in L; congruence].
      rewrite <- (N_of_u8_of_N_small d) by assumption. rewrite Z. reflexivity.
    + change (u8_of_N d :: map u8_of_N ds) with (map u8_of_N (d :: ds)). rewrite be_value_of by assumption. exact V.
Qed.

Lemma der_object_spec : forall t v, len v < 2 ^ 1000 -> der_of t v (der_object t v).
Proof. intros. exists (der_length (len v)). split; [apply der_length_spec; assumption|reflexivity]. Qed.

(** ** A reader of DER. *)
Definition toy_object (b : bytes) : option (byte * bytes * bytes) :=
  match b with
  | t :: l :: rest =>
      if N_of_u8 l <? 128
      then let n := N.to_nat (N_of_u8 l) in
           if (length rest <? n)%nat then None else Some (t, firstn n rest, skipn n rest)
      else let k := N.to_nat (N_of_u8 l - 128) in
           let n := be_value (firstn k rest) in let rest' := skipn k rest in
           if len rest' <? n then None else Some (t, firstn (N.to_nat n) rest', skipn (N.to_nat n) rest')
  | _ => None
  end.
Fixpoint toy_objects (fuel : nat) (b : bytes) : option (list (byte * bytes)) :=
  match b, fuel with
  | [], _ => Some []
  | _, O => None
  | _, S fuel' =>
      match toy_object b with
      | Some (t, c, rest) => match toy_objects fuel' rest with Some l => Some ((t, c) :: l) | None => None end
      | None => None
      end
  end.
Definition toy_sequence (b : bytes) : option (list (byte * bytes)) :=
  match toy_object b with Some (x30, c, []) => toy_objects (length c) c | _ => None end.
Definition toy_x509 (b : bytes) : option bytes :=
  match toy_sequence b with Some [(_, _); (x03, x00 :: pk)] => Some pk | _ => None end.
Definition toy_libs (C : crypto) : libs :=
  mk_libs toy_sequence (fun b => match b with x30 :: s => Some s | _ => None end) (ed_point C) (secp_point C) (secp_scalar C) toy_x509.

Lemma toy_object_reads : forall t c o rest, der_of t c o -> toy_object (o ++ rest) = Some (t, c, rest).
Proof.
  intros t c o rest [l [Hl ->]].
  assert (F : firstn (length c) (c ++ rest) = c) by (rewrite firstn_app, Nat.sub_diag, firstn_O, app_nil_r; apply firstn_all).
  assert (K : skipn (length c) (c ++ rest) = rest) by (rewrite skipn_app, Nat.sub_diag, skipn_all; reflexivity).
  destruct Hl as [x Hx Hlt|k d ds Hge Hk Hk2 Hd Hv]; cbn [app].
  - cbn [toy_object]. rewrite Hx. assert (E : len c <? 128 = true) by (apply N.ltb_lt; lia). rewrite E. cbn zeta.
    unfold len. rewrite Nnat.Nat2N.id.
    assert (E2 : (length (c ++ rest) <? length c)%nat = false) by (apply Nat.ltb_ge; rewrite app_length; lia). rewrite E2.
    rewrite F, K. reflexivity.
  - change (d :: (ds ++ c) ++ rest) with ((d :: ds ++ c) ++ rest). change (d :: ds ++ c) with ((d :: ds) ++ c).
    cbn [toy_object]. rewrite Hk. set (dd := d :: ds) in *.
    assert (E : 128 + N.of_nat (length dd) <? 128 = false) by (apply N.ltb_ge; lia). rewrite E.
    replace (128 + N.of_nat (length dd) - 128) with (N.of_nat (length dd)) by lia. rewrite Nnat.Nat2N.id. cbn zeta.
    rewrite <- app_assoc.
    assert (F2 : firstn (length dd) (dd ++ c ++ rest) = dd) by (rewrite firstn_app, Nat.sub_diag, firstn_O, app_nil_r; apply firstn_all).
    assert (K2 : skipn (length dd) (dd ++ c ++ rest) = c ++ rest) by (rewrite skipn_app, Nat.sub_diag, skipn_all; reflexivity).
    rewrite F2, K2, Hv.
    assert (E2 : len (c ++ rest) <? len c = false) by (apply N.ltb_ge; rewrite len_app; lia). rewrite E2.
    rewrite len_to_nat, F, K. reflexivity.
Qed.

Lemma der_of_cons : forall t c o, der_of t c o -> exists x y o', o = x :: y :: o'.
Proof. intros t c o [l [Hl ->]]. inversion Hl; subst; cbn; eauto. Qed.

Lemma toy_objects_reads : forall objs out, ders_of objs out -> forall fuel, (length out <= fuel)%nat -> toy_objects fuel out = Some objs.
Proof.
  induction 1 as [|t c o objs out Ho _ IH]; intros fuel Hf; [destruct fuel; reflexivity|].
  pose proof (toy_object_reads t c o out Ho) as R.
  destruct (der_of_cons _ _ _ Ho) as [x [y [o' Eo]]]. rewrite Eo in Hf, R |- *. cbn [app length] in Hf |- *.
  rewrite app_length in Hf.
  destruct fuel as [|fuel]; [lia|]. cbn [toy_objects]. cbn [app] in R. rewrite R. rewrite IH by lia. reflexivity.
Qed.

Lemma toy_sequence_reads : forall objs out, sequence_of objs out -> toy_sequence out = Some objs.
Proof.
  intros objs out [c [Hc Ho]]. unfold toy_sequence. pose proof (toy_object_reads _ _ _ [] Ho) as R. rewrite app_nil_r in R.
  rewrite R. apply toy_objects_reads; [assumption|lia].
Qed.

Lemma toy_libs_laws : forall C, libs_laws C (toy_libs C).
Proof.
  intros C. split; try reflexivity.
  - intros pk out [alg [_ H]]. cbn. unfold toy_x509. rewrite (toy_sequence_reads _ _ H). reflexivity.
  - intros objs out _ H. cbn. apply toy_sequence_reads. exact H.
Qed.

(** ** Serde *)
Lemma de_byte_num : forall x, de_byte (V_num (N_of_u8 x)) = Ok x.
Proof.
  intros x. unfold de_byte, de_num. pose proof (N_of_u8_bound x). assert (E : N_of_u8 x <? 256 = true) by (apply N.ltb_lt; lia).
  rewrite E. cbn [bind]. rewrite u8_of_N_of_u8. reflexivity.
Qed.

Lemma through_numbers : forall f b, through f (numbers b) = numbers b.
Proof. intros. unfold numbers. cbn [through]. rewrite map_map. reflexivity. Qed.

Lemma de_vec_numbers : forall b, de_vec (numbers b) = Ok b.
Proof.
  intros b. unfold numbers, de_vec. induction b as [|x b IH]; [reflexivity|]. cbn [map collect]. rewrite de_byte_num. cbn [bind].
  rewrite IH. reflexivity.
Qed.

Lemma de_buf_stored : forall f b, f <> As_text -> de_buf (stored_bytes f b) = Ok b.
Proof. intros [] b H; [reflexivity|apply de_vec_numbers|congruence]. Qed.

Lemma de_variant_name : forall C f, fmt_supported C f = true -> de_variant C (variant_name f) = Ok f.
Proof. intros C [] H; cbn in *; try reflexivity. unfold de_variant. cbn. rewrite H. reflexivity. Qed.

Lemma de_variant_ok : forall C n f, de_variant C n = Ok f -> fmt_supported C f = true.
Proof.
  intros C n f. unfold de_variant. destruct (bytes_eqb n (str "Ed25519")); [intros H; inversion H; reflexivity|].
  destruct (bytes_eqb n (str "Secp256k1")); [intros H; inversion H; reflexivity|].
  destruct (negb (wasm32 C)) eqn:E; cbn [andb]; [|discriminate].
  destruct (bytes_eqb n (str "Rsa")); [intros H; inversion H; exact E|discriminate].
Qed.

Lemma de_ser_key : forall C f k, f <> As_text -> pk_valid C k -> de_key C (through f (ser_key k)) = Ok k.
Proof.
  intros C f [fm raw] Hf Hv. pose proof Hv as [Hs Hr]. cbn [pk_fmt pk_raw] in *. unfold ser_key. cbn [through de_key pk_fmt pk_raw].
  rewrite de_variant_name by assumption. cbn [bind].
  assert (D : decode_raw_key C fm raw = Ok (mk_pk fm raw)) by (apply decode_raw_key_ok; auto).
  destruct fm; cbn [through]; rewrite ?through_numbers, ?de_vec_numbers, ?de_buf_stored by assumption; cbn [bind]; rewrite D; reflexivity.
Qed.

Lemma de_ser_sig : forall C f s, sig_valid C s -> de_sig C (through f (ser_sig s)) = Ok s.
Proof.
  intros C f [fm raw] H. unfold ser_sig, sig_valid in *. cbn [sig_fmt sig_raw through de_sig] in *.
  rewrite de_variant_name by assumption. cbn [bind]. rewrite through_numbers, de_vec_numbers. reflexivity.
Qed.

Lemma de_ser_duration : forall f d, duration_wf d -> de_duration (through f (ser_duration d)) = Ok d.
Proof.
  intros f [s n] [Hs Hn]. cbn [secs nanos] in *. unfold de_duration, ser_duration. cbn [through map fst snd secs nanos].
  assert (E1 : de_field (str "secs") (V_struct [(str "secs", V_num s); (str "nanos", V_num n)]) = Ok (V_num s)) by reflexivity.
  assert (E2 : de_field (str "nanos") (V_struct [(str "secs", V_num s); (str "nanos", V_num n)]) = Ok (V_num n)) by reflexivity.
  rewrite E1, E2. cbn [bind de_num].
  assert (A : s <? u64_bound = true) by (apply N.ltb_lt; assumption). rewrite A. cbn [bind].
  assert (B : n <? u32_bound = true) by (apply N.ltb_lt; unfold u32_bound; lia). rewrite B. cbn [bind].
  rewrite N.div_small by assumption. rewrite N.mod_small by assumption. rewrite N.add_0_r, A. reflexivity.
Qed.

Lemma de_ser_trust : forall C f t, f <> As_text -> trust_typed C t -> de_trust C (through f (ser_trust t)) = Ok t.
Proof.
  intros C f [k e s i] Hf [Hk [Hs [He Hi]]]. cbn [issued_for trust_sig expires_at issued_at] in *.
  unfold ser_trust. cbn [issued_for trust_sig expires_at issued_at through map fst snd]. unfold de_trust.
  set (vk := through f (ser_key k)). set (ve := through f (ser_duration e)). set (vs := through f (ser_sig s)). set (vi := through f (ser_duration i)).
  set (v := V_struct _).
  assert (E1 : de_field (str "issued_for") v = Ok vk) by reflexivity.
  assert (E2 : de_field (str "expires_at") v = Ok ve) by reflexivity.
  assert (E3 : de_field (str "signature") v = Ok vs) by reflexivity.
  assert (E4 : de_field (str "issued_at") v = Ok vi) by reflexivity.
  rewrite E1, E2, E3, E4. cbn [bind]. unfold vk, ve, vs, vi.
  rewrite de_ser_key by assumption. cbn [bind]. rewrite !de_ser_duration by assumption. cbn [bind]. rewrite de_ser_sig by assumption. reflexivity.
Qed.

Lemma de_ser_revocation : forall C f r, f <> As_text -> revocation_typed C r -> de_revocation C (through f (ser_revocation r)) = Ok r.
Proof.
  intros C f [k a b s] Hf [Hk [Hb [Hs Ha]]]. cbn [rev_pk revoked_at revoked_by rev_sig] in *.
  unfold ser_revocation. cbn [rev_pk revoked_at revoked_by rev_sig through map fst snd]. unfold de_revocation.
  set (vk := through f (ser_key k)). set (va := through f (ser_duration a)). set (vb := through f (ser_key b)). set (vs := through f (ser_sig s)).
  set (v := V_struct _).
  assert (E1 : de_field (str "pk") v = Ok vk) by reflexivity.
  assert (E2 : de_field (str "revoked_at") v = Ok va) by reflexivity.
  assert (E3 : de_field (str "revoked_by") v = Ok vb) by reflexivity.
  assert (E4 : de_field (str "signature") v = Ok vs) by reflexivity.
  rewrite E1, E2, E3, E4. cbn [bind]. unfold vk, va, vb, vs.
  rewrite !de_ser_key by assumption. cbn [bind]. rewrite !de_ser_duration by assumption. cbn [bind].
  rewrite de_ser_sig by assumption. reflexivity.
Qed.

Lemma de_ser_relation : forall C f x, f <> As_text -> relation_typed C x -> de_relation C (through f (ser_relation x)) = Ok x.
Proof.
  intros C f [[t b]|r] Hf H; cbn [relation_typed auth_trust issued_by] in H; unfold ser_relation; cbn [through auth_trust issued_by map fst snd].
  - destruct H as [Ht Hb]. unfold de_relation. change (bytes_eqb (str "Auth") (str "Auth")) with true. cbn [andb].
    set (vt := through f (ser_trust t)). set (vb := through f (ser_key b)). set (v := V_struct _).
    assert (E1 : de_field (str "trust") v = Ok vt) by reflexivity.
    assert (E2 : de_field (str "issued_by") v = Ok vb) by reflexivity.
    rewrite E1, E2. cbn [bind]. unfold vt, vb. rewrite de_ser_trust by assumption. cbn [bind]. rewrite de_ser_key by assumption. reflexivity.
  - unfold de_relation. change (bytes_eqb (str "Revocation") (str "Auth")) with false.
    change (bytes_eqb (str "Revocation") (str "Revocation")) with true. cbn iota. rewrite de_ser_revocation by assumption. reflexivity.
Qed.

(** What is read is a value of the type. *)
Lemma bind_ok_inv : forall E A B (r : result E A) (f : A -> result E B) b, bind r f = Ok b -> exists a, r = Ok a /\ f a = Ok b.
Proof. intros E A B [] f b H; cbn in H; try discriminate. eauto. Qed.

Ltac binds H := repeat (let a := fresh "a" in let E := fresh "E" in apply bind_ok_inv in H; destruct H as [a [E H]]).

Lemma de_key_valid : forall C v k, de_key C v = Ok k -> pk_valid C k.
Proof.
  intros C [] k H; cbn [de_key] in H; try discriminate. apply bind_ok_inv in H. destruct H as [f [Ef H]].
  apply bind_ok_inv in H. destruct H as [raw [_ H]]. apply map_err_ok in H. apply decode_raw_key_ok in H. destruct H as [-> H].
  split; [eapply de_variant_ok; exact Ef|exact H].
Qed.
Lemma de_sig_valid : forall C v s, de_sig C v = Ok s -> sig_valid C s.
Proof.
  intros C [] k H; cbn [de_sig] in H; try discriminate. apply bind_ok_inv in H. destruct H as [f [Ef H]].
  apply bind_ok_inv in H. destruct H as [raw [_ H]]. inversion H. eapply de_variant_ok; exact Ef.
Qed.
Lemma de_duration_wf : forall v d, de_duration v = Ok d -> duration_wf d.
Proof.
  intros v d H. unfold de_duration in H. apply bind_ok_inv in H. destruct H as [s [_ H]]. apply bind_ok_inv in H. destruct H as [n [_ H]].
  destruct (s + n / 1000000000 <? u64_bound) eqn:E; [|discriminate]. inversion H. apply N.ltb_lt in E. split; [exact E|].
  cbn [nanos]. apply N.mod_lt. lia.
Qed.
Lemma de_trust_typed : forall C v t, de_trust C v = Ok t -> trust_typed C t.
Proof.
  intros C v t H. unfold de_trust in H.
  apply bind_ok_inv in H. destruct H as [k [E1 H]]. apply bind_ok_inv in H. destruct H as [e [E2 H]].
  apply bind_ok_inv in H. destruct H as [s [E3 H]]. apply bind_ok_inv in H. destruct H as [i [E4 H]].
  inversion H. apply bind_ok_inv in E1, E2, E3, E4. destruct E1 as [? [_ E1]], E2 as [? [_ E2]], E3 as [? [_ E3]], E4 as [? [_ E4]].
  repeat split; cbn [issued_for trust_sig expires_at issued_at]; try (apply (de_duration_wf _ _ E2)); try (apply (de_duration_wf _ _ E4));
    try (apply (de_key_valid _ _ _ E1)). apply (de_sig_valid _ _ _ E3).
Qed.
Lemma de_revocation_typed : forall C v r, de_revocation C v = Ok r -> revocation_typed C r.
Proof.
  intros C v t H. unfold de_revocation in H.
  apply bind_ok_inv in H. destruct H as [k [E1 H]]. apply bind_ok_inv in H. destruct H as [a [E2 H]].
  apply bind_ok_inv in H. destruct H as [b [E3 H]]. apply bind_ok_inv in H. destruct H as [s [E4 H]].
  inversion H. apply bind_ok_inv in E1, E2, E3, E4. destruct E1 as [? [_ E1]], E2 as [? [_ E2]], E3 as [? [_ E3]], E4 as [? [_ E4]].
  repeat split; cbn [rev_pk revoked_by rev_sig revoked_at]; try (apply (de_key_valid _ _ _ E1)); try (apply (de_key_valid _ _ _ E3));
    try (apply (de_duration_wf _ _ E2)). apply (de_sig_valid _ _ _ E4).
Qed.
Lemma de_relation_typed : forall C v x, de_relation C v = Ok x -> relation_typed C x.
Proof.
  intros C [] x H; cbn [de_relation] in H; try discriminate.
  destruct (bytes_eqb name (str "Auth")).
  - apply bind_ok_inv in H. destruct H as [t [E1 H]]. apply bind_ok_inv in H. destruct H as [b [E2 H]]. inversion H.
    apply bind_ok_inv in E1, E2. destruct E1 as [? [_ E1]], E2 as [? [_ E2]].
    split; cbn [auth_trust issued_by]; [eapply de_trust_typed; exact E1|eapply de_key_valid; exact E2].
  - destruct (bytes_eqb name (str "Revocation")); [|discriminate]. apply bind_ok_inv in H. destruct H as [r [E H]]. inversion H.
    eapply de_revocation_typed; exact E.
Qed.

(** Reading fails with an error only. *)
Definition settled {E A} (r : result E A) : Prop := r <> Panic /\ r <> OutOfFuel.
Lemma settled_bind : forall E A B (r : result E A) (f : A -> result E B), settled r -> (forall a, settled (f a)) -> settled (bind r f).
Proof. intros E A B [] f [H1 H2] Hf; cbn; try congruence; [apply Hf|split; discriminate]. Qed.
Lemma settled_ok : forall E A (a : A), settled (@Ok E A a).
Proof. split; discriminate. Qed.
Lemma settled_err : forall E A (e : E), settled (@Err E A e).
Proof. split; discriminate. Qed.
Lemma settled_map_err : forall E F A (f : E -> F) (r : result E A), settled r -> settled (map_err f r).
Proof. intros E F A f [] [H1 H2]; cbn; split; congruence. Qed.
Lemma settled_collect : forall E A B (f : A -> result E B) l, (forall a, settled (f a)) -> settled (collect f l).
Proof.
  intros E A B f l H. induction l as [|x l IH]; [apply settled_ok|]. cbn. apply settled_bind; [apply H|]. intros y.
  apply settled_bind; [exact IH|]. intros. apply settled_ok.
Qed.
Lemma settled_decode_raw : forall C f raw, settled (decode_raw_key C f raw).
Proof.
  intros C [] raw; cbn.
  - destruct (len raw =? 32); [|apply settled_err]. destruct (ed_point C raw); [apply settled_ok|apply settled_err].
  - apply settled_ok.
  - destruct ((len raw =? 33) && secp_point C raw); [apply settled_ok|apply settled_err].
Qed.
Lemma settled_num : forall b v, settled (de_num b v).
Proof. intros b []; cbn; try apply settled_err. destruct (n <? b); [apply settled_ok|apply settled_err]. Qed.
Lemma settled_vec : forall v, settled (de_vec v).
Proof.
  intros []; cbn; try apply settled_err. apply settled_collect. intros a. unfold de_byte. apply settled_bind; [apply settled_num|].
  intros. apply settled_ok.
Qed.
Lemma settled_buf : forall v, settled (de_buf v).
Proof. intros v. destruct v; cbn; try apply settled_err; try apply settled_ok. apply (settled_vec (V_list l)). Qed.
Lemma settled_field : forall n v, settled (de_field n v).
Proof.
  intros n []; cbn [de_field]; try apply settled_err.
  destruct (filter (fun x => bytes_eqb (fst x) n) fields) as [|x [|]]; try apply settled_err. apply settled_ok.
Qed.
Lemma settled_variant : forall C n, settled (de_variant C n).
Proof.
  intros. unfold de_variant. destruct (bytes_eqb n (str "Ed25519")); [apply settled_ok|].
  destruct (bytes_eqb n (str "Secp256k1")); [apply settled_ok|]. destruct (_ && _); [apply settled_ok|apply settled_err].
Qed.
Lemma settled_duration : forall v, settled (de_duration v).
Proof.
  intros. unfold de_duration. repeat (apply settled_bind; [first [apply settled_num|apply settled_bind; [apply settled_field|intros; apply settled_num]]|intros]).
  destruct (_ <? _); [apply settled_ok|apply settled_err].
Qed.
Lemma settled_key : forall C v, settled (de_key C v).
Proof.
  intros C []; cbn; try apply settled_err. apply settled_bind; [apply settled_variant|]. intros f.
  apply settled_bind; [destruct f; first [apply settled_vec|apply settled_buf]|]. intros. apply settled_map_err. apply settled_decode_raw.
Qed.
Lemma settled_sig : forall C v, settled (de_sig C v).
Proof.
  intros C []; cbn; try apply settled_err. apply settled_bind; [apply settled_variant|]. intros f.
  apply settled_bind; [apply settled_vec|]. intros. apply settled_ok.
Qed.
Ltac settle := repeat first [ apply settled_field | apply settled_key | apply settled_sig | apply settled_duration
  | apply settled_ok | apply settled_err | apply settled_bind; [|intros] ].
Lemma settled_trust : forall C v, settled (de_trust C v).
Proof. intros. unfold de_trust. settle. Qed.
Lemma settled_revocation : forall C v, settled (de_revocation C v).
Proof. intros. unfold de_revocation. settle. Qed.
Lemma settled_relation : forall C v, settled (de_relation C v).
Proof.
  intros C []; cbn [de_relation]; try apply settled_err. destruct (bytes_eqb name (str "Auth")).
  - repeat first [ apply settled_field | apply settled_trust | apply settled_key | apply settled_ok | apply settled_bind; [|intros] ].
  - destruct (bytes_eqb name (str "Revocation")); [|apply settled_err].
    apply settled_bind; [apply settled_revocation|intros; apply settled_ok].
Qed.

(** The order of the fields. *)
Lemma filter_permutation : forall A (p : A -> bool) l l', Permutation l l' -> Permutation (filter p l) (filter p l').
Proof.
  induction 1; cbn; try (destruct (p x)); try (destruct (p y)); auto; try constructor; auto.
  eapply Permutation_trans; eassumption.
Qed.
Lemma de_field_order : forall n fs fs', Permutation fs fs' -> de_field n (V_struct fs) = de_field n (V_struct fs').
Proof.
  intros n fs fs' H. cbn [de_field]. pose proof (filter_permutation _ (fun x => bytes_eqb (fst x) n) _ _ H) as P.
  destruct (filter (fun x => bytes_eqb (fst x) n) fs) as [|x [|y l]].
  - apply Permutation_nil in P. rewrite P. reflexivity.
  - apply Permutation_length_1_inv in P. rewrite P. reflexivity.
  - apply Permutation_length in P. destruct (filter (fun x => bytes_eqb (fst x) n) fs') as [|x' [|y' l']]; cbn in P; try lia. reflexivity.
Qed.
