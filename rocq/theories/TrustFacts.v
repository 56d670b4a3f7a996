(** Facts about Trust.v. *)
From Coq Require Import List NArith ZArith Bool Lia ZifyBool ZifyNat ZifyN.
From Coq Require Strings.Byte String.
Import String.StringSyntax.
From Verif Require Import Base BaseFacts Text TextFacts Keys KeysFacts Trust Spec.
Import ListNotations.
Open Scope N_scope.

Lemma slice_app : forall E a b from to, len a = from -> from <= to ->
  @slice E (a ++ b) from to = if to - from <=? len b then Ok (firstn (N.to_nat (to - from)) b) else Panic.
Proof.
  intros E a b from to H Hle. unfold slice. rewrite len_app.
  replace ((from <=? to) && (to <=? len a + len b)) with (to - from <=? len b) by lia.
  destruct (to - from <=? len b); [|reflexivity].
  rewrite skipn_app. unfold len in H.
  rewrite skipn_all2 by lia. replace (N.to_nat from - length a)%nat with 0%nat by lia. reflexivity.
Qed.

Lemma index_app : forall E a b i, len a = i ->
  @index E (a ++ b) i = match b with x :: _ => Ok x | [] => Panic end.
Proof.
  intros E a b i H. unfold index. unfold len in H. rewrite nth_error_app2 by lia.
  replace (N.to_nat i - length a)%nat with 0%nat by lia. destruct b; reflexivity.
Qed.

Lemma firstn_len : forall n (l : bytes), n <= len l -> len (firstn (N.to_nat n) l) = n.
Proof. intros. unfold len in *. rewrite firstn_length. lia. Qed.

Lemma skipn_len : forall n (l : bytes), len (skipn (N.to_nat n) l) = len l - n.
Proof. intros. unfold len in *. rewrite skipn_length. lia. Qed.

Section WithCrypto.
Variable C : crypto.

(** The decoder read left to right. *)
Definition trust_decode' (arr : bytes) : result trust_error trust :=
  match arr with
  | [] => Err (TE_DecodeErrorInvalidSize F_public_key_len)
  | lp :: r1 =>
      if len r1 <? N_of_u8 lp then Err (TE_DecodeErrorInvalidSize F_public_key) else
      let? pk := map_err TE_PublicKeyError (pk_decode C (firstn (N.to_nat (N_of_u8 lp)) r1)) in
      match skipn (N.to_nat (N_of_u8 lp)) r1 with
      | [] => Err (TE_DecodeErrorInvalidSize F_signature_size)
      | ls :: r3 =>
          if len r3 <? N_of_u8 ls then Err (TE_DecodeErrorInvalidSize F_signature) else
          let? sg := map_err TE_PublicKeyError (sig_decode C (firstn (N.to_nat (N_of_u8 ls)) r3)) in
          let r4 := skipn (N.to_nat (N_of_u8 ls)) r3 in
          if len r4 <? 8 then Err (TE_DecodeErrorInvalidSize F_expiration) else
          if len r4 <? 16 then Err (TE_DecodeErrorInvalidSize F_issued) else
          if len r4 =? 16 then
            Ok (mk_trust pk (from_secs (le_value (firstn 8 r4))) sg (from_secs (le_value (skipn 8 r4))))
          else Panic
      end
  end.

Lemma trust_decode_eq : forall arr, trust_decode C arr = trust_decode' arr.
Proof.
  intros arr. unfold trust_decode, trust_decode'.
  destruct arr as [|lp r1]; [reflexivity|].
  unfold check_arr_len at 1. rewrite len_cons.
  replace (1 + len r1 <? 1) with false by lia. cbn [bind].
  change (@index trust_error (lp :: r1) 0) with (@Ok trust_error byte lp). cbn [bind].
  set (p := N_of_u8 lp).
  unfold check_arr_len at 1. rewrite len_cons.
  replace (1 + len r1 <? 1 + p) with (len r1 <? p) by lia.
  destruct (len r1 <? p) eqn:E1; [reflexivity|]. cbn [bind].
  change (lp :: r1) with ([lp] ++ r1).
  rewrite (slice_app _ [lp] r1 1 (1 + p)) by (try reflexivity; lia).
  replace (1 + p - 1) with p by lia. replace (p <=? len r1) with true by lia. cbn [bind].
  set (pkb := firstn (N.to_nat p) r1).
  destruct (pk_decode C pkb) as [pk|e| |]; cbn [bind map_err]; try reflexivity.
  assert (Hp : len pkb = p) by (apply firstn_len; lia).
  assert (Hsplit : [lp] ++ r1 = (lp :: pkb) ++ skipn (N.to_nat p) r1).
  { simpl. f_equal. symmetry. apply firstn_skipn. }
  set (r2 := skipn (N.to_nat p) r1) in *. rewrite Hsplit.
  assert (Hl : len (lp :: pkb) = 1 + p) by (rewrite len_cons; lia).
  unfold check_arr_len at 1. rewrite len_app, Hl.
  destruct r2 as [|ls r3].
  { rewrite len_nil. replace (1 + p + 0 <? 1 + p + 1) with true by lia. reflexivity. }
  rewrite len_cons. replace (1 + p + (1 + len r3) <? 1 + p + 1) with false by lia. cbn [bind].
  rewrite (index_app _ (lp :: pkb)) by assumption. cbn [bind].
  set (q := N_of_u8 ls).
  change ((lp :: pkb) ++ ls :: r3) with ((lp :: pkb) ++ [ls] ++ r3). rewrite app_assoc.
  assert (Hl2 : len ((lp :: pkb) ++ [ls]) = 1 + p + 1) by (rewrite len_app, Hl; reflexivity).
  unfold check_arr_len at 1. rewrite len_app, Hl2.
  replace (1 + p + 1 + len r3 <? 1 + p + 1 + q) with (len r3 <? q) by lia.
  destruct (len r3 <? q) eqn:E2; [reflexivity|]. cbn [bind].
  rewrite slice_app by (assumption || lia). replace (1 + p + 1 + q - (1 + p + 1)) with q by lia.
  replace (q <=? len r3) with true by lia. cbn [bind].
  set (sgb := firstn (N.to_nat q) r3).
  destruct (sig_decode C sgb) as [sg|e| |]; cbn [bind map_err]; try reflexivity.
  assert (Hq : len sgb = q) by (apply firstn_len; lia).
  assert (Hsplit2 : ((lp :: pkb) ++ [ls]) ++ r3 = (((lp :: pkb) ++ [ls]) ++ sgb) ++ skipn (N.to_nat q) r3).
  { rewrite <- (app_assoc _ sgb). f_equal. symmetry. apply firstn_skipn. }
  set (r4 := skipn (N.to_nat q) r3) in *. rewrite Hsplit2.
  assert (Hl3 : len (((lp :: pkb) ++ [ls]) ++ sgb) = 1 + p + 1 + q) by (rewrite len_app; lia).
  set (pre := ((lp :: pkb) ++ [ls]) ++ sgb) in *. clearbody pre.
  unfold check_arr_len at 1. rewrite len_app, Hl3.
  replace (1 + p + 1 + q + len r4 <? 1 + p + 1 + q + 8) with (len r4 <? 8) by lia.
  destruct (len r4 <? 8) eqn:E3; [reflexivity|]. cbn [bind].
  rewrite slice_app by (assumption || lia).
  replace (1 + p + 1 + q + 8 - (1 + p + 1 + q)) with 8 by lia.
  replace (8 <=? len r4) with true by lia. cbn [bind].
  change (N.to_nat 8) with 8%nat.
  assert (H8 : len (firstn 8 r4) = 8) by (apply (firstn_len 8); lia).
  unfold u64_from_le at 1. rewrite H8. change (8 =? 8) with true. cbn [bind].
  unfold check_arr_len at 1. rewrite len_app, Hl3.
  replace (1 + p + 1 + q + len r4 <? 1 + p + 1 + q + 8 + 8) with (len r4 <? 16) by lia.
  destruct (len r4 <? 16) eqn:E4; [reflexivity|]. cbn [bind].
  assert (Hsplit3 : pre ++ r4 = (pre ++ firstn 8 r4) ++ skipn 8 r4).
  { rewrite <- app_assoc. f_equal. symmetry. apply firstn_skipn. }
  rewrite Hsplit3.
  assert (HL : 1 + len r1 = 1 + p + 1 + q + len r4).
  { pose proof (skipn_len q r3) as Hr4. fold r4 in Hr4.
    apply (f_equal len) in Hsplit. rewrite !len_app, !len_cons, len_nil in Hsplit. lia. }
  rewrite HL. rewrite slice_app; [|rewrite len_app; lia|lia].
  replace (1 + p + 1 + q + len r4 - (1 + p + 1 + q + 8)) with (len r4 - 8) by lia.
  assert (H9 : len (skipn 8 r4) = len r4 - 8) by (apply (skipn_len 8)).
  rewrite H9, N.leb_refl. cbn [bind].
  rewrite firstn_all2 by (unfold len in *; lia).
  unfold u64_from_le. rewrite H9.
  replace (len r4 - 8 =? 8) with (len r4 =? 16) by lia.
  destruct (len r4 =? 16); reflexivity.
Qed.


Lemma firstn_app_exact : forall (a b : bytes) n, N.to_nat n = length a -> firstn (N.to_nat n) (a ++ b) = a.
Proof. intros a b n ->. rewrite firstn_app, Nat.sub_diag, firstn_O, firstn_all, app_nil_r. reflexivity. Qed.
Lemma skipn_app_exact : forall (a b : bytes) n, N.to_nat n = length a -> skipn (N.to_nat n) (a ++ b) = b.
Proof. intros a b n ->. rewrite skipn_app, Nat.sub_diag, skipn_all. reflexivity. Qed.

Lemma trust_decode_encode : forall t, trust_fits C t ->
  len (pk_encode (issued_for t)) < 256 -> len (sig_encode (trust_sig t)) < 256 ->
  trust_decode C (trust_encode t) = Ok t.
Proof.
  intros t (V1 & V2 & V3 & V4) L1 L2. rewrite trust_decode_eq. unfold trust_encode, trust_decode'.
  rewrite !N_of_u8_of_N_small by assumption.
  rewrite !len_app.
  replace (len (pk_encode (issued_for t)) + len (u8_of_N (len (sig_encode (trust_sig t))) ::
     sig_encode (trust_sig t) ++ le_bytes 8 (secs (expires_at t)) ++ le_bytes 8 (secs (issued_at t)))
       <? len (pk_encode (issued_for t))) with false by lia.
  rewrite firstn_app_exact, skipn_app_exact by apply len_to_nat.
  rewrite pk_decode_encode by assumption. cbn [bind map_err].
  rewrite N_of_u8_of_N_small by assumption. rewrite !len_app.
  match goal with |- context [?a + ?b <? ?a] => replace (a + b <? a) with false by lia end.
  rewrite firstn_app_exact, skipn_app_exact by apply len_to_nat.
  rewrite sig_decode_encode by assumption. cbn [bind map_err]. cbv zeta.
  rewrite len_app, !le_bytes_len8.
  change (8 + 8 <? 8) with false. change (8 + 8 <? 16) with false. change (8 + 8 =? 16) with true. cbv iota.
  rewrite (firstn_app_exact (le_bytes 8 _) _ 8) by (rewrite le_bytes_length; reflexivity).
  rewrite (skipn_app_exact (le_bytes 8 _) _ 8) by (rewrite le_bytes_length; reflexivity).
  rewrite !le8_roundtrip by (apply V3 || apply V4).
  rewrite !whole_secs_from by assumption. destruct t; reflexivity.
Qed.

Lemma len_firstn_u8 : forall b (l : bytes), (len l <? N_of_u8 b) = false -> 
  u8_of_N (len (firstn (N.to_nat (N_of_u8 b)) l)) = b.
Proof. intros b l H. rewrite firstn_len by lia. apply u8_of_N_of_u8. Qed.

Lemma trust_decode_canonical : forall b t, trust_decode C b = Ok t ->
  trust_encode t = b /\ trust_fits C t.
Proof.
  intros b t H. rewrite trust_decode_eq in H. unfold trust_decode' in H.
  destruct b as [|lp r1]; [discriminate|].
  destruct (len r1 <? N_of_u8 lp) eqn:E1; [discriminate|].
  apply bind_ok in H. destruct H as (pk & Hpk & H). apply map_err_ok, pk_decode_ok in Hpk. destruct Hpk as [Hpk Vpk].
  destruct (skipn (N.to_nat (N_of_u8 lp)) r1) as [|ls r3] eqn:E2; [discriminate|].
  destruct (len r3 <? N_of_u8 ls) eqn:E3; [discriminate|].
  apply bind_ok in H. destruct H as (sg & Hsg & H). apply map_err_ok, sig_decode_ok in Hsg. destruct Hsg as [Hsg Vsg].
  cbv zeta in H. set (r4 := skipn (N.to_nat (N_of_u8 ls)) r3) in *.
  destruct (len r4 <? 8); [discriminate|]. destruct (len r4 <? 16); [discriminate|].
  destruct (len r4 =? 16) eqn:E4; [|discriminate]. apply Ok_inj in H. subst t. 
  assert (L1 : length (firstn 8 r4) = 8%nat) by (unfold len in E4; rewrite firstn_length; lia).
  assert (L2 : length (skipn 8 r4) = 8%nat) by (unfold len in E4; rewrite skipn_length; lia).
  pose proof (le_bytes_value (firstn 8 r4)) as B1. rewrite L1 in B1.
  pose proof (le_bytes_value (skipn 8 r4)) as B2. rewrite L2 in B2.
  pose proof (le_value_bound (firstn 8 r4)) as D1. rewrite L1, pow_256_8 in D1.
  pose proof (le_value_bound (skipn 8 r4)) as D2. rewrite L2, pow_256_8 in D2.
  split.
  - unfold trust_encode. cbn [issued_for expires_at trust_sig issued_at secs from_secs].
    rewrite Hpk, Hsg, !len_firstn_u8 by assumption. rewrite B1, B2.
    rewrite firstn_skipn. unfold r4. rewrite firstn_skipn. rewrite <- E2, firstn_skipn. reflexivity.
  - unfold trust_fits. cbn [issued_for expires_at trust_sig issued_at].
    repeat split; try assumption; cbn [secs from_secs]; try assumption; try reflexivity; try (apply Vpk).
Qed.

Lemma trust_decode_panic : forall b, trust_decode C b = Panic <->
  (exists r, b = x00 :: r)
  \/ (exists lp pkb r pk, b = lp :: pkb ++ x00 :: r /\ len pkb = N_of_u8 lp /\ pk_decode C pkb = Ok pk)
  \/ (exists lp pkb ls sgb r pk sg, b = lp :: pkb ++ ls :: sgb ++ r /\ len pkb = N_of_u8 lp /\ len sgb = N_of_u8 ls
        /\ pk_decode C pkb = Ok pk /\ sig_decode C sgb = Ok sg /\ 16 < len r).
Proof.
  intros b. rewrite trust_decode_eq. split.
  - intros H. unfold trust_decode' in H. destruct b as [|lp r1]; [discriminate|].
    destruct (len r1 <? N_of_u8 lp) eqn:E1; [discriminate|].
    destruct (pk_decode C (firstn (N.to_nat (N_of_u8 lp)) r1)) as [pk|e| |] eqn:Hpk; cbn [bind map_err] in H; try discriminate.
    + right.
      assert (L1 : len (firstn (N.to_nat (N_of_u8 lp)) r1) = N_of_u8 lp) by (apply firstn_len; lia).
      pose proof (firstn_skipn (N.to_nat (N_of_u8 lp)) r1) as S1.
      destruct (skipn (N.to_nat (N_of_u8 lp)) r1) as [|ls r3] eqn:E2; [discriminate|].
      destruct (len r3 <? N_of_u8 ls) eqn:E3; [discriminate|].
      destruct (sig_decode C (firstn (N.to_nat (N_of_u8 ls)) r3)) as [sg|e| |] eqn:Hsg; cbn [bind map_err] in H; try discriminate.
      * right. cbv zeta in H.
        pose proof (firstn_skipn (N.to_nat (N_of_u8 ls)) r3) as S2.
        exists lp, (firstn (N.to_nat (N_of_u8 lp)) r1), ls, (firstn (N.to_nat (N_of_u8 ls)) r3), (skipn (N.to_nat (N_of_u8 ls)) r3), pk, sg.
        repeat split; try assumption.
        -- rewrite S2, S1. reflexivity.
        -- apply firstn_len. lia.
        -- destruct (len (skipn (N.to_nat (N_of_u8 ls)) r3) <? 8) eqn:G1; [discriminate|].
           destruct (len (skipn (N.to_nat (N_of_u8 ls)) r3) <? 16) eqn:G2; [discriminate|].
           destruct (len (skipn (N.to_nat (N_of_u8 ls)) r3) =? 16) eqn:G3; [discriminate|]. lia.
      * left. apply sig_decode_panic in Hsg.
        assert (N_of_u8 ls = 0). { rewrite <- (firstn_len (N_of_u8 ls) r3) by lia. rewrite Hsg. reflexivity. }
        assert (ls = x00) by (apply N_of_u8_inj; rewrite H0; reflexivity). subst ls.
        exists lp, (firstn (N.to_nat (N_of_u8 lp)) r1), r3, pk. rewrite S1. auto.
    + left. apply pk_decode_panic in Hpk.
      assert (N_of_u8 lp = 0). { rewrite <- (firstn_len (N_of_u8 lp) r1) by lia. rewrite Hpk. reflexivity. }
      assert (lp = x00) by (apply N_of_u8_inj; rewrite H0; reflexivity). subst lp. eexists; reflexivity.
  - intros [(r & ->)|[(lp & pkb & r & pk & -> & L & Hpk)|(lp & pkb & ls & sgb & r & pk & sg & -> & L & L2 & Hpk & Hsg & Hr)]];
      unfold trust_decode'.
    + change (N_of_u8 x00) with 0. replace (len r <? 0) with false by lia. reflexivity.
    + rewrite len_app. replace (len pkb + len (x00 :: r) <? N_of_u8 lp) with false by lia.
      rewrite firstn_app_exact, skipn_app_exact by (unfold len in L; lia). rewrite Hpk. cbn [bind map_err].
      change (N_of_u8 x00) with 0. replace (len r <? 0) with false by lia. reflexivity.
    + rewrite len_app. replace (len pkb + len (ls :: sgb ++ r) <? N_of_u8 lp) with false by lia.
      rewrite firstn_app_exact, skipn_app_exact by (unfold len in L; lia). rewrite Hpk. cbn [bind map_err].
      rewrite len_app. replace (len sgb + len r <? N_of_u8 ls) with false by lia.
      rewrite firstn_app_exact, skipn_app_exact by (unfold len in L2; lia). rewrite Hsg. cbn [bind map_err]. cbv zeta.
      replace (len r <? 8) with false by lia. replace (len r <? 16) with false by lia.
      replace (len r =? 16) with false by lia. reflexivity.
Qed.

Lemma trust_decode_fuel : forall b, trust_decode C b <> OutOfFuel.
Proof.
  intros b. rewrite trust_decode_eq. unfold trust_decode'. destruct b as [|lp r1]; [discriminate|].
  destruct (len r1 <? N_of_u8 lp); [discriminate|].
  destruct (pk_decode C (firstn (N.to_nat (N_of_u8 lp)) r1)) as [pk|e| |] eqn:Hpk; cbn [bind map_err]; try discriminate.
  2:{ apply pk_decode_fuel in Hpk. contradiction. }
  destruct (skipn (N.to_nat (N_of_u8 lp)) r1) as [|ls r3]; [discriminate|].
  destruct (len r3 <? N_of_u8 ls); [discriminate|].
  destruct (sig_decode C (firstn (N.to_nat (N_of_u8 ls)) r3)) as [sg|e| |] eqn:Hsg; cbn [bind map_err]; try discriminate.
  2:{ apply sig_decode_fuel in Hsg. contradiction. }
  cbv zeta. destruct (len (skipn (N.to_nat (N_of_u8 ls)) r3) <? 8); [discriminate|].
  destruct (len (skipn (N.to_nat (N_of_u8 ls)) r3) <? 16); [discriminate|].
  destruct (len (skipn (N.to_nat (N_of_u8 ls)) r3) =? 16); discriminate.
Qed.

(** Text form. *)
Lemma trust_strings_roundtrip : forall t a b c d, trust_fits C t -> trust_strings t = (a, b, c, d) ->
  trust_from_strings C a b c d = Ok t.
Proof.
  intros t a b c d (V1 & V2 & V3 & V4) H. unfold trust_strings in H. injection H as <- <- <- <-.
  unfold trust_from_strings, bs58_str_to_vec, str_to_duration.
  rewrite !b58_roundtrip. cbn [bind map_err]. rewrite pk_decode_encode by assumption. cbn [bind map_err].
  rewrite sig_decode_encode by assumption. cbn [bind map_err].
  rewrite !u64_text_roundtrip by (apply V3 || apply V4). cbn [bind map_err].
  rewrite !whole_secs_from by assumption. destruct t; reflexivity.
Qed.

Lemma trust_from_strings_fits : forall a b c d t, trust_from_strings C a b c d = Ok t -> trust_fits C t.
Proof.
  intros a b c d t H. unfold trust_from_strings in H.
  apply bind_ok in H. destruct H as (pkb & _ & H).
  apply bind_ok in H. destruct H as (pk & Hpk & H). apply map_err_ok, pk_decode_ok in Hpk.
  apply bind_ok in H. destruct H as (sgb & _ & H).
  apply bind_ok in H. destruct H as (sg & Hsg & H). apply map_err_ok, sig_decode_ok in Hsg.
  assert (D : forall s f x, str_to_duration s f = Ok x -> whole_secs x).
  { clear. intros s f x H. unfold str_to_duration in H. apply bind_ok in H. destruct H as (n & Hn & H).
    apply map_err_ok in Hn. injection H as <-. apply from_secs_whole.
    assert (P : forall s acc n, acc < u64_bound -> parse_digits acc s = Ok n -> n < u64_bound).
    { clear. induction s as [|c s IH]; intros acc n Ha H; simpl in H.
      - injection H as <-. assumption.
      - destruct (dec_digit c); [|discriminate]. destruct (acc * 10 + n0 <? u64_bound) eqn:E; [|discriminate].
        apply IH in H; [assumption|]. apply N.ltb_lt. assumption. }
    unfold parse_u64 in Hn. destruct s as [|c s]; [discriminate|].
    destruct (Byte.eqb c x2b).
    - destruct s as [|c' s]; [discriminate|]. apply P in Hn; [assumption|reflexivity].
    - apply P in Hn; [assumption|reflexivity]. }
  apply bind_ok in H. destruct H as (ex & Hex & H). apply D in Hex.
  apply bind_ok in H. destruct H as (is & His & H). apply D in His.
  injection H as <-. repeat split; simpl; try assumption; try apply Hpk; try apply Hsg; try apply Hex; try apply His.
Qed.

(** Verification. *)
Lemma trust_verify_ok : forall t by_pk now, trust_verify C t by_pk now = Ok tt <->
  duration_ltb (expires_at t) now = false /\
  pk_verify C by_pk (trust_signature_bytes C (issued_for t) (expires_at t) (issued_at t)) (trust_sig t) = Ok tt.
Proof.
  intros t by_pk now. unfold trust_verify. destruct (duration_ltb (expires_at t) now).
  - split; [discriminate|intros [H _]; discriminate].
  - rewrite map_err_ok. tauto.
Qed.

Lemma pk_verify_total : forall k m s, pk_verify C k m s = Ok tt \/ exists e, pk_verify C k m s = Err e.
Proof.
  intros [f raw] m s. unfold pk_verify; simpl. destruct f.
  - destruct (ed_verify C raw m (sig_raw s)); [left; reflexivity|right; eexists; reflexivity].
  - destruct (rsa_verify C raw m (sig_raw s)); [left; reflexivity|right; eexists; reflexivity].
  - unfold secp_verify_hashed. destruct (len (sha256 C m) =? 32); [|right; eexists; reflexivity].
    destruct (secp_der C (sig_raw s)); [left; reflexivity|right; eexists; reflexivity].
Qed.

Lemma trust_verify_total : forall t k now, trust_verify C t k now = Ok tt \/ exists e, trust_verify C t k now = Err e.
Proof.
  intros. unfold trust_verify. destruct (duration_ltb (expires_at t) now); [right; eexists; reflexivity|].
  destruct (pk_verify_total k (trust_signature_bytes C (issued_for t) (expires_at t) (issued_at t)) (trust_sig t)) as [->|[e ->]];
    [left; reflexivity|right; eexists; reflexivity].
Qed.

Lemma trust_create_ok : forall E kp pk ex iss t, crypto_laws C -> kp_valid C kp ->
  @trust_create C E kp pk ex iss = Ok t ->
  issued_for t = pk /\ expires_at t = ex /\ issued_at t = iss /\ sig_valid C (trust_sig t) /\
  sig_fmt (trust_sig t) = kp_fmt kp /\
  pk_verify C (kp_public C kp) (trust_signature_bytes C pk ex iss) (trust_sig t) = Ok tt.
Proof.
  intros E kp pk ex iss t L V H. unfold trust_create in H. apply bind_ok in H. destruct H as (s & Hs & H).
  injection H as <-. cbn [issued_for expires_at issued_at trust_sig].
  destruct (kp_sign C kp (trust_signature_bytes C pk ex iss)) as [s'| | |] eqn:K; try discriminate.
  injection Hs as ->.
  destruct (kp_sign_verify C kp _ s L V K) as [A B].
  pose proof (kp_sign_sig_valid C kp _ s V K). auto 10.
Qed.

Lemma trust_create_total : forall E kp pk ex iss, crypto_laws C -> kp_fmt kp <> Rsa ->
  exists t, @trust_create C E kp pk ex iss = Ok t.
Proof.
  intros E kp pk ex iss L H. unfold trust_create.
  destruct (kp_sign_total C kp (trust_signature_bytes C pk ex iss) L H) as [s ->]. eexists. reflexivity.
Qed.

(** Signed messages. *)
Lemma app_inj_len : forall (a b c d : bytes), length a = length c -> a ++ b = c ++ d -> a = c /\ b = d.
Proof.
  induction a as [|x a IH]; intros b [|y c] d H E; simpl in *; try discriminate; [auto|].
  injection E as -> E. apply IH in E; [|lia]. destruct E as [-> ->]. auto.
Qed.

Lemma trust_metadata_inj : forall k1 e1 i1 k2 e2 i2,
  whole_secs e1 -> whole_secs i1 -> whole_secs e2 -> whole_secs i2 ->
  trust_metadata k1 e1 i1 = trust_metadata k2 e2 i2 -> k1 = k2 /\ e1 = e2 /\ i1 = i2.
Proof.
  intros k1 e1 i1 k2 e2 i2 W1 W2 W3 W4 H. unfold trust_metadata in H.
  assert (L : length (pk_encode k1) = length (pk_encode k2)).
  { apply (f_equal (@length byte)) in H. rewrite !app_length, !le_bytes_length in H. lia. }
  apply app_inj_len in H; [|exact L]. destruct H as [H1 H].
  apply app_inj_len in H; [|rewrite !le_bytes_length; reflexivity]. destruct H as [H2 H3].
  apply pk_encode_inj in H1. apply le8_inj in H2; [|apply W1|apply W3]. apply le8_inj in H3; [|apply W2|apply W4].
  rewrite <- (whole_secs_from e1), <- (whole_secs_from e2), <- (whole_secs_from i1), <- (whole_secs_from i2) by assumption.
  rewrite H2, H3. auto.
Qed.

End WithCrypto.
