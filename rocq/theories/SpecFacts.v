(** Trusts and certificates in the terms of Spec.v. *)
From Coq Require Import List NArith ZArith Bool Lia ZifyBool ZifyNat ZifyN.
From Coq Require Strings.Byte String.
Import String.StringSyntax.
From Verif Require Import Base BaseFacts Text TextFacts Keys KeysFacts Trust TrustFacts Certificate CertFacts Relation Spec.
Import ListNotations.
Open Scope N_scope.

Lemma before_ltb : forall a b, duration_ltb a b = true <-> before a b.
Proof. intros. unfold duration_ltb, before. lia. Qed.
Lemma not_before_ltb : forall a b, duration_ltb a b = false <-> ~ before a b.
Proof. intros. unfold duration_ltb, before. lia. Qed.
Lemma before_dec : forall a b, before a b \/ ~ before a b.
Proof. intros. unfold before. lia. Qed.

Section WithCrypto.
Variable C : crypto.

(** * Trusts *)
Lemma trust_verify_exact : forall t k now,
  trust_verify C t k now = Ok tt <-> ~ before (expires_at t) now /\ signed_trust C k t.
Proof. intros. rewrite trust_verify_ok, not_before_ltb. reflexivity. Qed.

Lemma trust_verify_expired : forall t k now, before (expires_at t) now ->
  trust_verify C t k now = Err (TE_Expired (expires_at t) now).
Proof. intros t k now H. apply before_ltb in H. unfold trust_verify. rewrite H. reflexivity. Qed.

Lemma trust_verify_defect : forall t k now e, trust_verify C t k now = Err e <-> trust_defect C k t now e /\
  (forall ve, e = TE_SignatureError ve -> pk_verify C k (trust_message C t) (trust_sig t) = Err ve).
Proof.
  intros t k now e. unfold trust_defect, signed_trust.
  change (trust_message C t) with (trust_signature_bytes C (issued_for t) (expires_at t) (issued_at t)).
  unfold trust_verify. destruct (duration_ltb (expires_at t) now) eqn:E.
  - apply before_ltb in E. split.
    + intros H. injection H as <-. split; [left; auto|discriminate].
    + intros [[[_ ->]|[H _]] _]; [reflexivity|contradiction].
  - apply not_before_ltb in E. rewrite map_err_err. split.
    + intros (ve & H & ->). split; [|intros ve' Q; injection Q as <-; exact H].
      right. split; [exact E|]. split; [rewrite H; discriminate|]. exists ve. reflexivity.
    + intros [[[H _]|(_ & N & ve & ->)] G]; [contradiction|]. exists ve. split; [apply G; reflexivity|reflexivity].
Qed.

Lemma trust_created : forall E kp pk ex iss t now, crypto_laws C -> kp_valid C kp ->
  @trust_create C E kp pk ex iss = Ok t ->
  issued_for t = pk /\ expires_at t = ex /\ issued_at t = iss /\
  (~ before ex now -> trust_verify C t (kp_public C kp) now = Ok tt) /\
  (before ex now -> trust_verify C t (kp_public C kp) now = Err (TE_Expired ex now)).
Proof.
  intros E kp pk ex iss t now L V H. destruct (trust_create_ok C E kp pk ex iss t L V H) as (A & B & D & _ & _ & Sg).
  subst pk ex iss. do 3 (split; [reflexivity|]). split; intros Q.
  - apply trust_verify_exact. split; [exact Q|exact Sg].
  - apply trust_verify_expired. exact Q.
Qed.

Lemma trust_decode_short : forall b t, trust_decode C b = Ok t ->
  len (pk_encode (issued_for t)) < 256 /\ len (sig_encode (trust_sig t)) < 256.
Proof.
  intros b t H. rewrite trust_decode_eq in H. unfold trust_decode' in H.
  destruct b as [|lp r1]; [discriminate|].
  destruct (len r1 <? N_of_u8 lp) eqn:E1; [discriminate|].
  apply bind_ok in H. destruct H as (pk & Hpk & H). apply map_err_ok, pk_decode_ok in Hpk. destruct Hpk as [Hpk _].
  destruct (skipn (N.to_nat (N_of_u8 lp)) r1) as [|ls r3]; [discriminate|].
  destruct (len r3 <? N_of_u8 ls) eqn:E2; [discriminate|].
  apply bind_ok in H. destruct H as (sg & Hsg & H). apply map_err_ok, sig_decode_ok in Hsg. destruct Hsg as [Hsg _].
  assert (issued_for t = pk /\ trust_sig t = sg) as [-> ->].
  { repeat match type of H with context [if ?x then _ else _] => destruct x; try discriminate end.
    all: apply Ok_inj in H; subst t; split; reflexivity. }
  rewrite Hpk, Hsg. rewrite !firstn_len by lia.
  pose proof (N_of_u8_bound lp). pose proof (N_of_u8_bound ls). lia.
Qed.

Lemma trust_roundtrip_iff : forall t, trust_decode C (trust_encode t) = Ok t <->
  trust_fits C t /\ len (pk_encode (issued_for t)) < 256 /\ len (sig_encode (trust_sig t)) < 256.
Proof.
  intros t. split.
  - intros H. split; [apply (trust_decode_canonical C _ _ H)|apply (trust_decode_short _ _ H)].
  - intros (F & A & B). apply trust_decode_encode; assumption.
Qed.

Lemma lines_last : forall s, no_newline s -> s <> [] -> lines s = [s].
Proof.
  intros s H Hs. unfold lines.
  assert (G : forall s cur, no_newline s -> rev cur ++ s <> [] -> lines_aux cur s = [rev cur ++ s]).
  { clear. induction s as [|c s IH]; intros cur [H1 H2] N.
    - simpl. rewrite app_nil_r in *. destruct cur; [exfalso; apply N; reflexivity|reflexivity].
    - simpl. destruct (Byte.eqb c x0a) eqn:E.
      + apply byte_eqb_eq in E. subst. exfalso. apply H1. left. reflexivity.
      + rewrite IH.
        * simpl. rewrite <- app_assoc. reflexivity.
        * split; intros G; [apply H1|apply H2]; right; exact G.
        * simpl. destruct (rev cur); discriminate. }
  apply (G s []); assumption.
Qed.

Lemma u64_to_string_not_nil : forall n, u64_to_string n <> [].
Proof.
  intros n. unfold u64_to_string. destruct (n =? 0) eqn:Z; [discriminate|].
  intros H. apply map_eq_nil in H.
  pose proof (to_digits_value 10 n ltac:(lia)) as V. rewrite H in V. change (0 = n) in V. lia.
Qed.

Lemma trust_text_lines : forall t, trust_fits C t -> exists a b c d,
  lines (trust_to_string t) = [a; b; c; d] /\ trust_from_strings C a b c d = Ok t.
Proof.
  intros t F. destruct (trust_strings t) as [[[a b] c] d] eqn:E. exists a, b, c, d.
  split; [|eapply trust_strings_roundtrip; eassumption].
  unfold trust_to_string. rewrite E. unfold trust_strings in E. injection E as <- <- <- <-.
  rewrite !lines_line by (apply b58_no_newline || apply u64_no_newline).
  rewrite lines_last; [reflexivity|apply u64_no_newline|apply u64_to_string_not_nil].
Qed.

(** * Signed messages *)
Lemma trust_message_inj : forall t1 t2,
  secs (expires_at t1) < u64_bound -> secs (issued_at t1) < u64_bound ->
  secs (expires_at t2) < u64_bound -> secs (issued_at t2) < u64_bound ->
  trust_metadata (issued_for t1) (expires_at t1) (issued_at t1) =
  trust_metadata (issued_for t2) (expires_at t2) (issued_at t2) ->
  issued_for t1 = issued_for t2 /\ secs (expires_at t1) = secs (expires_at t2) /\ secs (issued_at t1) = secs (issued_at t2).
Proof.
  intros [k1 e1 s1 i1] [k2 e2 s2 i2] W1 W2 W3 W4 H. cbn [issued_for expires_at issued_at] in *.
  change (trust_metadata k1 (from_secs (secs e1)) (from_secs (secs i1)) =
          trust_metadata k2 (from_secs (secs e2)) (from_secs (secs i2))) in H.
  apply trust_metadata_inj in H; try (apply from_secs_whole; assumption).
  destruct H as (A & B & D). injection B as B. injection D as D. auto.
Qed.

Lemma revocation_metadata_inj : forall k1 a1 k2 a2, secs a1 < u64_bound -> secs a2 < u64_bound ->
  revocation_metadata k1 a1 = revocation_metadata k2 a2 -> k1 = k2 /\ secs a1 = secs a2.
Proof.
  intros k1 a1 k2 a2 W1 W2 H. unfold revocation_metadata in H.
  assert (L : length (pk_encode k1) = length (pk_encode k2)).
  { apply (f_equal (@length byte)) in H. cbn [length] in H. rewrite !app_length, !le_bytes_length in H. lia. }
  assert (H' : pk_encode k1 ++ le_bytes 8 (secs a1) = pk_encode k2 ++ le_bytes 8 (secs a2)) by congruence.
  apply app_inj_len in H'; [|exact L]. destruct H' as [A B]. apply pk_encode_inj in A.
  apply le8_inj in B; auto.
Qed.

(** First byte of the messages. *)
Lemma domains_separate : forall k e i k' a, pk_valid C k' -> pk_fmt k' <> Rsa ->
  trust_metadata k e i <> revocation_metadata k' a.
Proof.
  intros k e i k' a V N H. unfold trust_metadata, revocation_metadata in H.
  assert (fmt_byte (pk_fmt k) = u8_of_N (len (pk_encode k'))) as E by (unfold pk_encode at 1 in H; cbn [app] in H; congruence).
  pose proof (pk_encode_len C k' V) as L. destruct k' as [f raw]; destruct f; cbn [pk_fmt] in *; try congruence;
    rewrite L in E; destruct (pk_fmt k); discriminate.
Qed.

Lemma domains_separate_wasm : forall k e i k' a, wasm32 C = true -> pk_valid C k' ->
  trust_metadata k e i <> revocation_metadata k' a.
Proof.
  intros k e i k' a W V. apply domains_separate; [exact V|]. intros F. destruct V as [V _]. rewrite F in V.
  unfold fmt_supported in V. rewrite W in V. discriminate.
Qed.

Lemma trust_message_hash : forall t,
  trust_message C t = sha256 C (trust_metadata (issued_for t) (expires_at t) (issued_at t)).
Proof. reflexivity. Qed.

(** * Revocations *)
Lemma revocation_verify_exact : forall v, revocation_verify C v = Ok tt <-> signed_revocation C v.
Proof. intros v. unfold revocation_verify. rewrite map_err_ok. reflexivity. Qed.

Lemma revocation_created : forall E kp pk at_ v, crypto_laws C -> kp_valid C kp ->
  @revocation_create C E kp pk at_ = Ok v ->
  rev_pk v = pk /\ revoked_at v = at_ /\ revoked_by v = kp_public C kp /\ revocation_verify C v = Ok tt.
Proof.
  intros E kp pk at_ v L V H. unfold revocation_create in H. apply bind_ok in H. destruct H as (s & Hs & H).
  apply Ok_inj in H. subst v. do 3 (split; [reflexivity|]). apply revocation_verify_exact.
  unfold signed_revocation. cbn [revoked_by rev_sig].
  destruct (kp_sign C kp (revocation_signature_bytes C pk at_)) as [s'| | |] eqn:K; try discriminate.
  apply Ok_inj in Hs. subst s'. exact (proj1 (kp_sign_verify C kp _ s L V K)).
Qed.

Lemma revocation_create_total : forall E kp pk at_, crypto_laws C -> kp_fmt kp <> Rsa ->
  exists v, @revocation_create C E kp pk at_ = Ok v.
Proof.
  intros E kp pk at_ L F. unfold revocation_create.
  destruct (kp_sign_total C kp (revocation_signature_bytes C pk at_) L F) as [s ->]. eexists. reflexivity.
Qed.

(** * Certificates *)
Lemma cert_verify_exact : forall c roots now,
  cert_verify C c roots now = Ok tt <-> valid_certificate C c roots now.
Proof.
  intros c roots now. rewrite cert_verify_ok. unfold valid_certificate, at_pos. split.
  - intros (t0 & rest & -> & V0 & I & L). apply trust_verify_exact in V0. destruct V0 as [E0 S0].
    split; [discriminate|]. split; [|split].
    + intros t H. injection H as <-. auto.
    + intros i g t Hg Ht. destruct (L i) as (g' & t' & A & B & D); [apply nth_error_Some; congruence|].
      assert (g' = g) by congruence. assert (t' = t) by congruence. subst.
      apply trust_verify_exact in D. apply D.
    + intros [|i] t Ht; [injection Ht as <-; exact E0|].
      destruct (L i) as (g' & t' & A & B & D); [apply nth_error_Some; congruence|].
      assert (t' = t) by congruence. subst. apply trust_verify_exact in D. apply D.
  - intros (N & H0 & HL & HE). destruct c as [|t0 rest]; [congruence|]. exists t0, rest.
    split; [reflexivity|]. destruct (H0 t0 eq_refl) as [I Sg]. split; [|split; [exact I|]].
    + apply trust_verify_exact. split; [apply (HE 0%nat); reflexivity|exact Sg].
    + intros j Hj. destruct (nth_error (t0 :: rest) j) as [g|] eqn:Eg; [|apply nth_error_None in Eg; lia].
      destruct (nth_error (t0 :: rest) (S j)) as [t|] eqn:Et; [|apply nth_error_None in Et; lia].
      exists g, t. split; [exact Eg|]. split; [exact Et|]. apply trust_verify_exact.
      split; [eapply HE; eassumption|eapply HL; eassumption].
Qed.

Lemma good_link_ok : forall c now i, link_ok C c now i <-> good_link C c now i.
Proof.
  intros. unfold link_ok, good_link, at_pos. split; intros (g & t & A & B & D); exists g, t; rewrite ?trust_verify_exact in *; tauto.
Qed.

Lemma cert_verify_culprit : forall c roots now e, cert_verify C c roots now = Err e ->
  match e with
  | CE_CertificateLengthError => c = []
  | CE_MalformedRoot te => exists t, at_pos c 0 t /\ trust_defect C (issued_for t) t now te
  | CE_NoTrustedRoot => exists t, at_pos c 0 t /\ signed_trust C (issued_for t) t /\ ~ before (expires_at t) now /\
                                  ~ In (issued_for t) roots
  | CE_VerificationError i te => exists j g t t0, i = S j /\ at_pos c j g /\ at_pos c i t /\
      trust_defect C (issued_for g) t now te /\
      (forall l, (i <= l)%nat -> (S l < length c)%nat -> good_link C c now l) /\
      at_pos c 0 t0 /\ In (issued_for t0) roots /\ signed_trust C (issued_for t0) t0 /\ ~ before (expires_at t0) now
  | _ => False
  end.
Proof.
  intros c roots now e H. unfold cert_verify in H. destruct c as [|t0 rest].
  { injection H as <-. reflexivity. }
  destruct (trust_verify C t0 (issued_for t0) now) as [[]|te| |] eqn:V; cbn [map_err bind] in H; try discriminate.
  - apply trust_verify_exact in V. destruct V as [V1 V2].
    destruct (existsb (pk_eqb (issued_for t0)) roots) eqn:I.
    + apply existsb_pk in I. apply cert_verify_from_err in H; [|cbn [length]; lia].
      destruct H as (j & te & g & t & Hj & -> & Hg & Ht & D & G).
      exists j, g, t, t0. split; [reflexivity|]. split; [exact Hg|]. split; [exact Ht|].
      apply trust_verify_defect in D. split; [apply D|]. split.
      * intros l L1 L2. apply good_link_ok. apply G. lia.
      * split; [reflexivity|]. auto.
    + apply existsb_pk_false in I. injection H as <-. exists t0. split; [reflexivity|]. auto.
  - injection H as <-. exists t0. split; [reflexivity|]. apply trust_verify_defect in V. apply V.
Qed.

Lemma cert_valid_monotone : forall c roots now, valid_certificate C c roots now ->
  forall n roots' now', (0 < n)%nat -> ~ before now now' -> (forall k, In k roots -> In k roots') ->
  valid_certificate C (firstn n c) roots' now'.
Proof.
  intros c roots now V n roots' now' Hn Hb Hr. apply cert_verify_exact in V. apply cert_verify_exact.
  apply cert_prefix_verify; [exact Hn|]. apply (cert_verify_more_roots C c roots); [exact Hr|].
  apply (cert_verify_earlier C c roots now); [apply not_before_ltb; exact Hb|exact V].
Qed.

(** Issuing. *)
Lemma issue_root_valid : forall kp pk ex iss c now, crypto_laws C -> kp_valid C kp ->
  cert_issue_root C kp pk ex iss = Ok c ->
  ~ before ex now -> ~ before (from_secs u64_max) now -> cert_verify C c [kp_public C kp] now = Ok tt.
Proof.
  intros kp pk ex iss c now L V H Hex Hmax. unfold cert_issue_root in H.
  apply bind_ok in H. destruct H as (r & Hr & H). apply bind_ok in H. destruct H as (t & Ht & H). apply Ok_inj in H. subst c.
  destruct (trust_created _ _ _ _ _ _ now L V Hr) as (R1 & R2 & R3 & R4 & _).
  destruct (trust_created _ _ _ _ _ _ now L V Ht) as (T1 & T2 & T3 & T4 & _).
  apply cert_verify_ok. exists r, [t]. split; [reflexivity|]. rewrite R1. split; [apply R4; exact Hmax|].
  split; [left; reflexivity|]. intros j Hj. cbn [length] in Hj. assert (j = 0%nat) by lia. subst j.
  exists r, t. split; [reflexivity|]. split; [reflexivity|]. rewrite R1. apply T4. exact Hex.
Qed.

Lemma issue_root_total : forall kp pk ex iss, crypto_laws C -> kp_fmt kp <> Rsa ->
  exists c, cert_issue_root C kp pk ex iss = Ok c.
Proof.
  intros kp pk ex iss L F. unfold cert_issue_root.
  destruct (trust_create_total C certificate_error kp (kp_public C kp) (from_secs u64_max) iss L F) as [r ->].
  destruct (trust_create_total C certificate_error kp pk ex iss L F) as [t ->]. eexists. reflexivity.
Qed.

Lemma issue_root_shape : forall kp pk ex iss c, crypto_laws C -> kp_valid C kp ->
  cert_issue_root C kp pk ex iss = Ok c -> exists r t, c = [r; t] /\
  issued_for r = kp_public C kp /\ expires_at r = from_secs u64_max /\ issued_at r = iss /\
  issued_for t = pk /\ expires_at t = ex /\ issued_at t = iss.
Proof.
  intros kp pk ex iss c L V H. unfold cert_issue_root in H.
  apply bind_ok in H. destruct H as (r & Hr & H). apply bind_ok in H. destruct H as (t & Ht & H). apply Ok_inj in H.
  exists r, t. destruct (trust_created _ _ _ _ _ _ iss L V Hr) as (R1 & R2 & R3 & _).
  destruct (trust_created _ _ _ _ _ _ iss L V Ht) as (T1 & T2 & T3 & _). subst c. repeat split; assumption.
Qed.

Lemma prefix_for_last_pos : forall pk c now p, cert_prefix_for C pk c now = Ok p ->
  exists n, last_pos c pk n /\ p = firstn (S n) c.
Proof.
  intros pk c now p H. apply cert_prefix_for_ok in H. destruct H as (t0 & n & t & _ & _ & Hn & Hk & Hl & ->).
  exists n. split; [|reflexivity]. split; [exists t; auto|]. intros j Hj (u & Hu & Hk'). exact (Hl j u Hj Hu Hk').
Qed.

Lemma extend_valid : forall pk c now p t roots now', cert_prefix_for C pk c now = Ok p ->
  cert_verify C c roots now' = Ok tt -> trust_verify C t pk now' = Ok tt ->
  cert_verify C (p ++ [t]) roots now' = Ok tt.
Proof.
  intros pk c now p t roots now' H V T. apply cert_prefix_for_ok in H.
  destruct H as (t0 & n & l & _ & _ & Hn & Hk & _ & ->).
  assert (n < length c)%nat by (apply nth_error_Some; congruence).
  apply (cert_verify_snoc C _ _ _ _ l).
  - apply cert_prefix_verify; [lia|exact V].
  - rewrite firstn_length. replace (Nat.min (S n) (length c) - 1)%nat with n by lia.
    rewrite nth_error_firstn by lia. exact Hn.
  - rewrite Hk. exact T.
Qed.

Lemma issue_valid : forall kp pk c ex iss cur c' roots now, crypto_laws C -> kp_valid C kp ->
  cert_issue C kp pk c ex iss cur = Ok c' -> cert_verify C c roots now = Ok tt -> ~ before ex now ->
  cert_verify C c' roots now = Ok tt.
Proof.
  intros kp pk c ex iss cur c' roots now L V H Vc Hex. unfold cert_issue in H.
  destruct (duration_ltb ex iss); [discriminate|].
  apply bind_ok in H. destruct H as (p & Hp & H). apply bind_ok in H. destruct H as (t & Ht & H). apply Ok_inj in H. subst c'.
  eapply extend_valid; [eassumption|exact Vc|]. apply (trust_created _ _ _ _ _ _ now L V Ht). exact Hex.
Qed.

Lemma issue_shape : forall kp pk c ex iss cur c', crypto_laws C -> kp_valid C kp ->
  cert_issue C kp pk c ex iss cur = Ok c' ->
  exists n t, last_pos c (kp_public C kp) n /\ c' = firstn (S n) c ++ [t] /\
    issued_for t = pk /\ expires_at t = ex /\ issued_at t = iss /\ signed_trust C (kp_public C kp) t.
Proof.
  intros kp pk c ex iss cur c' L V H. unfold cert_issue in H.
  destruct (duration_ltb ex iss); [discriminate|].
  apply bind_ok in H. destruct H as (p & Hp & H). apply bind_ok in H. destruct H as (t & Ht & H). apply Ok_inj in H. subst c'.
  apply prefix_for_last_pos in Hp. destruct Hp as (n & Hn & ->). exists n, t.
  destruct (trust_create_ok C _ _ _ _ _ _ L V Ht) as (A & B & D & _ & _ & Sg).
  subst. split; [exact Hn|]. do 4 (split; [reflexivity|]). exact Sg.
Qed.

Lemma issue_with_trust_shape : forall pk t c cur c', cert_issue_with_trust C pk t c cur = Ok c' ->
  exists n, last_pos c pk n /\ c' = firstn (S n) c ++ [t].
Proof.
  intros pk t c cur c' H. unfold cert_issue_with_trust in H.
  destruct (duration_ltb (expires_at t) (issued_at t)); [discriminate|].
  apply bind_ok in H. destruct H as (p & Hp & H). apply Ok_inj in H. subst c'.
  apply prefix_for_last_pos in Hp. destruct Hp as (n & Hn & ->). exists n. auto.
Qed.

Lemma prefix_for_absent : forall pk c roots now, valid_certificate C c roots now -> (forall i, ~ key_at c i pk) ->
  cert_prefix_for C pk c now = Err CE_KeyInCertificateError.
Proof.
  intros pk c roots now V A. destruct c as [|t0 rest]; [destruct V as [V _]; congruence|].
  unfold cert_prefix_for.
  assert (cert_verify C (t0 :: rest) [issued_for t0] now = Ok tt) as ->.
  { apply cert_verify_exact. destruct V as (N & V0 & VL & VE). split; [exact N|]. split; [|split; assumption].
    intros t H. injection H as <-. split; [left; reflexivity|]. apply (V0 t0). reflexivity. }
  cbn [bind]. pose proof (last_index_of_spec pk (t0 :: rest) 0 None) as Sp.
  destruct (last_index_of pk (t0 :: rest) 0 None) as [j|]; [|reflexivity]. exfalso.
  destruct Sp as [[Sp _]|(n & t & _ & Hn & Hk & _)]; [discriminate|]. apply (A n). exists t. auto.
Qed.

Lemma prefix_for_present : forall pk c roots now n, valid_certificate C c roots now -> last_pos c pk n ->
  cert_prefix_for C pk c now = Ok (firstn (S n) c).
Proof.
  intros pk c roots now n V [(t & Ht & Hk) HL]. destruct c as [|t0 rest]; [destruct V as [V _]; congruence|].
  unfold cert_prefix_for.
  assert (cert_verify C (t0 :: rest) [issued_for t0] now = Ok tt) as ->.
  { apply cert_verify_exact. destruct V as (N & V0 & VL & VE). split; [exact N|]. split; [|split; assumption].
    intros u H. injection H as <-. split; [left; reflexivity|]. apply (V0 t0). reflexivity. }
  cbn [bind]. pose proof (last_index_of_spec pk (t0 :: rest) 0 None) as Sp.
  destruct (last_index_of pk (t0 :: rest) 0 None) as [j|].
  - destruct Sp as [[Sp _]|(m & u & Hm & Hu & Hk' & HL')]; [discriminate|]. simpl in Hm. subst j.
    assert (m = n) as ->; [|rewrite Nat.add_1_r; reflexivity].
    destruct (Nat.lt_trichotomy m n) as [Q|[Q|Q]]; [|exact Q|].
    + exfalso. apply (HL' n t Q Ht Hk).
    + exfalso. apply (HL m Q). exists u. auto.
  - destruct Sp as [_ Sp]. exfalso. apply (Sp t); [|exact Hk]. eapply nth_error_In. exact Ht.
Qed.

Lemma issue_absent : forall kp pk c ex iss cur roots, valid_certificate C c roots cur -> ~ before ex iss ->
  (forall i, ~ key_at c i (kp_public C kp)) -> cert_issue C kp pk c ex iss cur = Err CE_KeyInCertificateError.
Proof.
  intros kp pk c ex iss cur roots V B A. unfold cert_issue. apply not_before_ltb in B. rewrite B.
  rewrite (prefix_for_absent _ _ roots) by assumption. reflexivity.
Qed.

Lemma issue_with_trust_absent : forall pk t c cur roots, valid_certificate C c roots cur ->
  ~ before (expires_at t) (issued_at t) -> (forall i, ~ key_at c i pk) ->
  cert_issue_with_trust C pk t c cur = Err CE_KeyInCertificateError.
Proof.
  intros pk t c cur roots V B A. unfold cert_issue_with_trust. apply not_before_ltb in B. rewrite B.
  rewrite (prefix_for_absent _ _ roots) by assumption. reflexivity.
Qed.

Lemma issue_present : forall kp pk c ex iss cur roots n, crypto_laws C -> kp_fmt kp <> Rsa ->
  valid_certificate C c roots cur -> ~ before ex iss -> last_pos c (kp_public C kp) n ->
  exists c', cert_issue C kp pk c ex iss cur = Ok c'.
Proof.
  intros kp pk c ex iss cur roots n L F V B P. unfold cert_issue. apply not_before_ltb in B. rewrite B.
  rewrite (prefix_for_present _ _ roots _ n) by assumption. cbn [bind].
  destruct (trust_create_total C certificate_error kp pk ex iss L F) as [t ->]. eexists. reflexivity.
Qed.

Lemma new_from_root_trust_valid : forall r t now c, cert_new_from_root_trust C r t now = Ok c ->
  c = [r; t] /\ cert_verify C c [issued_for r] now = Ok tt.
Proof.
  intros r t now c H. unfold cert_new_from_root_trust in H.
  apply bind_ok in H. destruct H as ([] & Hr & H). apply bind_ok in H. destruct H as ([] & Ht & H).
  apply Ok_inj in H. subst c. split; [reflexivity|]. apply map_err_ok in Hr. apply map_err_ok in Ht.
  apply cert_verify_ok. exists r, [t]. split; [reflexivity|]. split; [exact Hr|]. split; [left; reflexivity|].
  intros j Hj. cbn [length] in Hj. assert (j = 0%nat) by lia. subst j. exists r, t. auto.
Qed.

Lemma issue_with_trust_valid_iff : forall pk t c cur c' roots now, cert_issue_with_trust C pk t c cur = Ok c' ->
  cert_verify C c roots now = Ok tt ->
  (cert_verify C c' roots now = Ok tt <-> trust_verify C t pk now = Ok tt).
Proof.
  intros pk t c cur c' roots now H V. unfold cert_issue_with_trust in H.
  destruct (duration_ltb (expires_at t) (issued_at t)); [discriminate|].
  apply bind_ok in H. destruct H as (p & Hp & H). apply Ok_inj in H. subst c'. split.
  - intros V'. apply cert_prefix_for_ok in Hp. destruct Hp as (t0 & n & l & _ & _ & Hn & Hk & _ & ->).
    assert (n < length c)%nat by (apply nth_error_Some; congruence).
    apply cert_verify_ok in V'. destruct V' as (u0 & rest & _ & _ & _ & L).
    destruct (L n) as (g & t' & Hg & Ht & D).
    { rewrite app_length, firstn_length. cbn [length]. lia. }
    rewrite nth_error_app1 in Hg by (rewrite firstn_length; lia). rewrite nth_error_firstn in Hg by lia.
    rewrite nth_error_app2 in Ht by (rewrite firstn_length; lia). rewrite firstn_length in Ht.
    replace (S n - Nat.min (S n) (length c))%nat with 0%nat in Ht by lia. injection Ht as <-.
    assert (g = l) by congruence. subst g. rewrite <- Hk. exact D.
  - intros T. eapply extend_valid; eassumption.
Qed.

(** Codecs. *)
Lemma cert_roundtrip_iff : forall c, cert_decode C (cert_encode c) = Ok c <->
  (forall t, In t c -> trust_fits C t /\ len (trust_encode t) < 256) /\ (2 <= length c <= 255)%nat.
Proof.
  intros c. split.
  - intros H. destruct (cert_decode_ok C _ _ H) as (L & _ & _). split; [|exact L].
    unfold cert_decode in H. apply bind_ok in H. destruct H as (? & H7 & H).
    apply bind_ok in H. destruct H as (nb & Hnb & H).
    destruct (N_of_u8 nb <? 2) eqn:E; [discriminate|].
    apply cert_decode_trusts_ok in H; [apply H|].
    unfold cert_check_arr_len in H7. destruct (len (cert_encode c) <? 7) eqn:E7; [discriminate|]. lia.
  - intros [F L]. apply cert_decode_encode; [exact F|lia|lia].
Qed.

Lemma cert_decode_panic : forall b, cert_decode C b = Panic <->
  exists hdr n ts l sl post, b = hdr ++ n :: flat_map enc1 ts ++ l :: sl ++ post /\ len hdr = 6 /\ 2 <= N_of_u8 n /\
    N.of_nat (length ts) < N_of_u8 n /\ (forall t, In t ts -> trust_fits C t /\ len (trust_encode t) < 256) /\
    len sl = N_of_u8 l /\ trust_decode C sl = Panic.
Proof.
  intros b. unfold cert_decode, cert_check_arr_len. destruct (len b <? 7) eqn:E7.
  { split; [discriminate|]. intros (hdr & n & ts & l & sl & post & -> & H6 & _). exfalso.
    rewrite len_app, len_cons in E7. lia. }
  cbn [bind]. destruct (index_skipn b 6 ltac:(lia)) as (nb & r & Hsk & ->). cbn [bind].
  assert (Hb : b = firstn 6 b ++ nb :: r).
  { rewrite <- (firstn_skipn 6 b) at 1. f_equal. exact Hsk. }
  assert (Hr : skipn (N.to_nat 7) b = r) by (apply (skipn_step b 6 nb r); exact Hsk).
  assert (H6 : len (firstn 6 b) = 6) by (apply (firstn_len 6); lia).
  destruct (N_of_u8 nb <? 2) eqn:E2.
  { split; [discriminate|]. intros (hdr & n & ts & l & sl & post & Hb' & H6' & Hn & _). exfalso.
    rewrite Hb in Hb'. apply app_inj_len in Hb'; [|unfold len in *; lia]. destruct Hb' as [_ Q]. injection Q as -> _. lia. }
  rewrite cert_decode_trusts_panic by lia. split.
  - intros (k & ts & pre & l & sl & post & Hk & Hd & Hs & -> & Hl & Hp).
    apply cert_decode_trusts_ok in Hd; [|lia]. destruct Hd as (Hlen & HF & _).
    exists (firstn 6 b), nb, ts, l, sl, post. split; [|split; [exact H6|]].
    + rewrite Hb at 1. f_equal. f_equal. rewrite Hr in Hs. exact Hs.
    + split; [lia|]. split; [lia|]. auto.
  - intros (hdr & n & ts & l & sl & post & Hb' & H6' & Hn & Hts & HF & Hl & Hp).
    rewrite Hb in Hb'. apply app_inj_len in Hb'; [|unfold len in *; lia]. destruct Hb' as [_ Q]. injection Q as <- Hrr.
    exists (length ts), ts, (l :: sl ++ post), l, sl, post. split; [lia|]. split.
    + pose proof (cert_decode_trusts_encode C ts (firstn 6 b ++ [nb]) (l :: sl ++ post) HF) as G.
      replace ((firstn 6 b ++ [nb]) ++ flat_map enc1 ts ++ l :: sl ++ post) with b in G.
      * replace (len (firstn 6 b ++ [nb])) with 7 in G; [exact G|]. rewrite len_app, len_cons, len_nil. lia.
      * rewrite Hb at 1. rewrite Hrr, <- app_assoc. reflexivity.
    + rewrite Hr. auto.
Qed.

Lemma certs_serde_roundtrip : forall cs, (forall c t, In c cs -> In t c -> trust_fits C t) ->
  certs_deserialize C (certs_serialize cs) = Ok cs.
Proof.
  intros cs H. unfold certs_deserialize, certs_serialize. rewrite collect_map.
  rewrite (collect_all_ok _ _ _ _ (fun c => c)).
  - rewrite map_id. reflexivity.
  - intros c Hc. apply cert_text_roundtrip. intros t Ht. eapply H; eassumption.
Qed.

End WithCrypto.
