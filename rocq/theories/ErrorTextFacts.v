(** Facts about the texts of errors. *)
From Coq Require Import List NArith ZArith Bool Lia ZifyBool ZifyNat ZifyN.
From Coq Require Import Strings.Byte.
From Coq Require String.
Import String.StringSyntax.
From Verif Require Import Base BaseFacts Text TextFacts Keys Trust TrustFacts Certificate Relation Storage Graph Service Spec SpecFacts ServiceSpec ServiceFacts ErrorText.
Import ListNotations.
Open Scope N_scope.

(** * Texts *)
Definition ends (z : byte) (s : text) : Prop := exists p, s = p ++ [z].
Lemma ends_app : forall z a s, ends z s -> ends z (a ++ s).
Proof. intros z a s (p & ->). exists (a ++ p). apply app_assoc. Qed.
Lemma ends_one : forall z y s, ends z s -> ends y s -> z = y.
Proof. intros z y s (p & ->) (q & E). apply app_inj_tail in E. apply E. Qed.

Lemma dec_char_inj : forall a b, a < 10 -> b < 10 -> dec_char a = dec_char b -> a = b.
Proof.
  intros a b Ha Hb H. assert (E : N_of_u8 (dec_char a) = N_of_u8 (dec_char b)) by (rewrite H; reflexivity).
  unfold dec_char in E. rewrite !N_of_u8_of_N_small in E by lia. lia.
Qed.
Lemma map_dec_char_inj : forall l m, Forall (fun d => d < 10) l -> Forall (fun d => d < 10) m -> map dec_char l = map dec_char m -> l = m.
Proof.
  induction l as [|a l IH]; intros [|b m] L M H; try discriminate H; [reflexivity|]. cbn [map] in H. injection H as H1 H2.
  inversion L; inversion M; subst. f_equal; [apply dec_char_inj; assumption|apply IH; assumption].
Qed.
Lemma u64_to_string_inj : forall a b, u64_to_string a = u64_to_string b -> a = b.
Proof.
  assert (Z : forall n, n <> 0 -> map dec_char (to_digits 10 n) <> [dec_char 0]).
  { intros n Hn H. change [dec_char 0] with (map dec_char [0]) in H. apply map_dec_char_inj in H;
      [|apply to_digits_bound; lia|constructor; [lia|constructor]].
    pose proof (to_digits_value 10 n ltac:(lia)) as V. rewrite H in V. unfold of_digits in V. cbn in V. lia. }
  intros a b. unfold u64_to_string. destruct (N.eqb_spec a 0) as [->|A], (N.eqb_spec b 0) as [->|B]; intros H.
  - reflexivity.
  - symmetry in H. destruct (Z b B H).
  - destruct (Z a A H).
  - apply map_dec_char_inj in H; [|apply to_digits_bound; lia|apply to_digits_bound; lia].
    rewrite <- (to_digits_value 10 a ltac:(lia)), <- (to_digits_value 10 b ltac:(lia)), H. reflexivity.
Qed.

(** Decimal digits. *)
Definition digit (c : byte) : Prop := exists d, d < 10 /\ c = dec_char d.
Definition not_digit_first (s : text) : Prop := match s with [] => True | c :: _ => ~ digit c end.
Lemma digit_range : forall c, digit c -> 48 <= N_of_u8 c < 58.
Proof. intros c (d & H & ->). unfold dec_char. rewrite N_of_u8_of_N_small by lia. lia. Qed.
Lemma u64_digits : forall n, Forall digit (u64_to_string n).
Proof. intros n. apply Forall_forall. intros c H. apply u64_to_string_chars in H. exact H. Qed.
Lemma digits_split : forall a b r q, Forall digit a -> Forall digit b -> not_digit_first r -> not_digit_first q -> a ++ r = b ++ q -> a = b /\ r = q.
Proof.
  induction a as [|c a IH]; intros [|d b] r q A B R Q H; cbn [app] in H.
  - split; [reflexivity|exact H].
  - subst r. inversion B; subst. destruct (R H1).
  - subst q. inversion A; subst. destruct (Q H1).
  - injection H as -> H. inversion A; inversion B; subst. destruct (IH b r q) as [-> ->]; auto.
Qed.

Lemma u64_first : forall n z c q, u64_to_string n ++ z = c :: q -> digit c.
Proof.
  intros n z c q H. pose proof (u64_digits n) as D. destruct (u64_to_string n) as [|x l] eqn:E; [destruct (u64_to_string_not_nil n E)|].
  cbn [app] in H. injection H as -> _. inversion D; assumption.
Qed.

(** * Durations *)
Lemma pow_pos : forall k, 0 < 10 ^ k.
Proof. intros k. apply N.neq_0_lt_0. apply N.pow_nonzero. lia. Qed.
Lemma fraction_digits_all : forall k n, n < 10 ^ N.of_nat k -> Forall digit (fraction_digits k n).
Proof.
  induction k as [|k IH]; intros n H; cbn [fraction_digits]; [constructor|]. destruct (n =? 0); [constructor|].
  pose proof (pow_pos (N.of_nat k)). constructor.
  - exists (n / 10 ^ N.of_nat k). split; [|reflexivity]. apply N.div_lt_upper_bound; [lia|].
    rewrite Nat2N.inj_succ, N.pow_succ_r' in H. lia.
  - apply IH. apply N.mod_lt. lia.
Qed.
Lemma fraction_digits_inj : forall k a b, a < 10 ^ N.of_nat k -> b < 10 ^ N.of_nat k -> fraction_digits k a = fraction_digits k b -> a = b.
Proof.
  induction k as [|k IH]; intros a b A B H; [cbn in A, B; lia|]. cbn [fraction_digits] in H. pose proof (pow_pos (N.of_nat k)) as P.
  rewrite Nat2N.inj_succ, N.pow_succ_r' in A, B.
  destruct (N.eqb_spec a 0) as [->|A0], (N.eqb_spec b 0) as [->|B0]; try discriminate H; [reflexivity|].
  injection H as H1 H2. apply dec_char_inj in H1; [|apply N.div_lt_upper_bound; lia|apply N.div_lt_upper_bound; lia].
  apply IH in H2; [|apply N.mod_lt; lia|apply N.mod_lt; lia].
  rewrite (N.div_mod a (10 ^ N.of_nat k)), (N.div_mod b (10 ^ N.of_nat k)) by lia. rewrite H1, H2. reflexivity.
Qed.
Lemma not_digit : forall c, (N_of_u8 c <? 48) || (57 <? N_of_u8 c) = true -> ~ digit c.
Proof. intros c H D. apply digit_range in D. lia. Qed.
Lemma fmt_decimal_inj : forall w f k u w' f' k' u' z z', f < 10 ^ N.of_nat k -> f' < 10 ^ N.of_nat k' ->
  u <> [] -> u' <> [] -> not_digit_first u -> not_digit_first u' -> hd x00 u <> x2e -> hd x00 u' <> x2e ->
  fmt_decimal w f k u ++ z = fmt_decimal w' f' k' u' ++ z' ->
  w = w' /\ (f = 0 /\ f' = 0 \/ f <> 0 /\ f' <> 0 /\ fraction_digits k f = fraction_digits k' f') /\ u ++ z = u' ++ z'.
Proof.
  intros w f k u w' f' k' u' z z' Hf Hf' N N' U U' P P' H. unfold fmt_decimal in H. rewrite <- !app_assoc in H.
  assert (D : ~ digit x2e) by (apply not_digit; reflexivity).
  assert (UZ : not_digit_first (u ++ z)) by (destruct u; [contradiction|exact U]).
  assert (UZ' : not_digit_first (u' ++ z')) by (destruct u'; [contradiction|exact U']).
  apply digits_split in H; [|apply u64_digits|apply u64_digits|destruct (f =? 0); [exact UZ|exact D]|destruct (f' =? 0); [exact UZ'|exact D]].
  destruct H as [H1 H2]. apply u64_to_string_inj in H1. split; [exact H1|].
  destruct (N.eqb_spec f 0) as [->|A], (N.eqb_spec f' 0) as [->|B]; cbn [app] in H2.
  - split; [left; split; reflexivity|exact H2].
  - destruct u as [|c u]; [contradiction|]. cbn in H2, P. injection H2 as H2 _. contradiction.
  - destruct u' as [|c u']; [contradiction|]. cbn in H2, P'. injection H2 as H2 _. symmetry in H2. contradiction.
  - injection H2 as H2. apply digits_split in H2; [|apply fraction_digits_all; assumption|apply fraction_digits_all; assumption|exact UZ|exact UZ'].
    destruct H2 as [H2 H3]. split; [right; auto|exact H3].
Qed.
(** The text of a duration, whatever follows it but the rest of a unit, is that of no other. *)
Lemma duration_debug_inj : forall a b z z', nanos a < 1000000000 -> nanos b < 1000000000 ->
  duration_debug a ++ z = duration_debug b ++ z' -> a = b /\ z = z'.
Proof.
  assert (Key : forall a, nanos a < 1000000000 -> exists w f k u, duration_debug a = fmt_decimal w f k u /\ f < 10 ^ N.of_nat k /\
    (u = str "s" /\ k = 9%nat /\ w = secs a /\ f = nanos a \/
     u = str "ms" /\ k = 6%nat /\ secs a = 0 /\ nanos a = w * 1000000 + f \/
     u = [xc2; xb5; x73] /\ k = 3%nat /\ secs a = 0 /\ nanos a = w * 1000 + f \/
     u = str "ns" /\ k = 0%nat /\ secs a = 0 /\ nanos a = w /\ f = 0)).
  { intros a A. unfold duration_debug. destruct (N.ltb_spec 0 (secs a)) as [S0|S0].
    { exists (secs a), (nanos a), 9%nat, (str "s"). split; [reflexivity|]. split; [exact A|]. left. auto. }
    destruct (N.leb_spec 1000000 (nanos a)) as [M|M].
    { exists (nanos a / 1000000), (nanos a mod 1000000), 6%nat, (str "ms"). split; [reflexivity|].
      split; [apply N.mod_lt; lia|]. right. left. repeat (split; [try reflexivity; lia|]).
      pose proof (N.div_mod (nanos a) 1000000 ltac:(lia)). lia. }
    destruct (N.leb_spec 1000 (nanos a)) as [U|U].
    { exists (nanos a / 1000), (nanos a mod 1000), 3%nat, [xc2; xb5; x73]. split; [reflexivity|].
      split; [apply N.mod_lt; lia|]. right. right. left. repeat (split; [try reflexivity; lia|]).
      pose proof (N.div_mod (nanos a) 1000 ltac:(lia)). lia. }
    exists (nanos a), 0, 0%nat, (str "ns"). split; [reflexivity|]. split; [reflexivity|]. right. right. right. repeat split; lia. }
  intros [sa na] [sb nb] z z' A B H.
  destruct (Key _ A) as (w & f & k & u & E & L & Ca). destruct (Key _ B) as (w' & f' & k' & u' & E' & L' & Cb). cbn [secs nanos] in *.
  rewrite E, E' in H.
  assert (Hu : forall v, v = str "s" \/ v = str "ms" \/ v = [xc2; xb5; x73] \/ v = str "ns" -> v <> [] /\ not_digit_first v /\ hd x00 v <> x2e).
  { intros v [-> |[-> |[-> | ->]]]; (split; [discriminate|]); (split; [cbn; apply not_digit; reflexivity|discriminate]). }
  destruct (Hu u) as (U1 & U2 & U3); [destruct Ca as [(->&_)|[(->&_)|[(->&_)|(->&_)]]]; auto|].
  destruct (Hu u') as (V1 & V2 & V3); [destruct Cb as [(->&_)|[(->&_)|[(->&_)|(->&_)]]]; auto|].
  apply fmt_decimal_inj in H; try assumption. destruct H as (-> & Fr & R).
  destruct Ca as [(->&->&Ha&Hb)|[(->&->&Ha&Hb)|[(->&->&Ha&Hb)|(->&->&Ha&Hb&Hc)]]];
    destruct Cb as [(->&->&Hd&He)|[(->&->&Hd&He)|[(->&->&Hd&He)|(->&->&Hd&He&Hg)]]]; try discriminate R;
    (split; [|try exact (f_equal (skipn 1) R); try exact (f_equal (skipn 2) R); exact (f_equal (skipn 3) R)]).
  all: assert (EF : f = f') by (destruct Fr as [[-> ->]|(_ & _ & Fr)]; [reflexivity|]; apply fraction_digits_inj in Fr; assumption).
  all: f_equal; lia.
Qed.

(** * Kinds of errors *)
Lemma service_text_ends : forall F w s, ends x64 (service_error_text F w (SVE_DtoError (DTO_InvalidKeyFormat (InvalidKeyFormat s)))).
Proof. intros F w s. cbn [service_error_text dto_error_text key_format_text]. apply ends_app. exists (str " Key format is not supporte"). reflexivity. Qed.
