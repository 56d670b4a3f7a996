(** Facts about Text.v: positional numbers, base58, decimal, lines. *)
From Coq Require Import List NArith ZArith Bool Lia ZifyBool ZifyNat ZifyN.
From Coq Require Strings.Byte String.
Import String.StringSyntax.
From Verif Require Import Base BaseFacts Text.
Import ListNotations.
Open Scope N_scope.

(** Positional numbers. *)
Lemma of_digits_snoc : forall base l d, of_digits base (l ++ [d]) = of_digits base l * base + d.
Proof. intros. unfold of_digits. rewrite fold_left_app. reflexivity. Qed.

Lemma of_digits_fold : forall base l a,
  fold_left (fun acc d => acc * base + d) l a = a * base ^ N.of_nat (length l) + of_digits base l.
Proof.
  intros base l. induction l as [|x l IH] using rev_ind; intros a.
  - unfold of_digits. simpl. lia.
  - rewrite fold_left_app. simpl fold_left. rewrite IH. rewrite of_digits_snoc.
    rewrite app_length. simpl length. rewrite Nat.add_1_r, Nnat.Nat2N.inj_succ, N.pow_succ_r by lia. lia.
Qed.

Lemma of_digits_cons : forall base d l,
  of_digits base (d :: l) = d * base ^ N.of_nat (length l) + of_digits base l.
Proof. intros. unfold of_digits at 1. simpl fold_left. rewrite of_digits_fold. lia. Qed.

Lemma to_digits_aux_acc : forall base fuel n acc,
  to_digits_aux base fuel n acc = to_digits_aux base fuel n [] ++ acc.
Proof.
  induction fuel as [|f IH]; intros n acc; simpl; [reflexivity|].
  destruct (n =? 0); [reflexivity|].
  rewrite IH. rewrite (IH _ [n mod base]). rewrite <- app_assoc. reflexivity.
Qed.

Lemma size_nat_bound : forall n, n < 2 ^ N.of_nat (N.size_nat n).
Proof.
  intros n. destruct n as [|p]; [reflexivity|].
  simpl N.size_nat. induction p as [p IH|p IH|]; simpl Pos.size_nat; [| |reflexivity].
  - rewrite Nnat.Nat2N.inj_succ, N.pow_succ_r by lia. lia.
  - rewrite Nnat.Nat2N.inj_succ, N.pow_succ_r by lia. lia.
Qed.

Lemma to_digits_aux_value : forall base, 2 <= base -> forall fuel n,
  n < 2 ^ N.of_nat fuel -> of_digits base (to_digits_aux base fuel n []) = n.
Proof.
  intros base Hb. induction fuel as [|f IH]; intros n Hn.
  - change (2 ^ N.of_nat 0) with 1 in Hn. simpl. unfold of_digits. simpl. lia.
  - simpl. destruct (n =? 0) eqn:E; [unfold of_digits; simpl; lia|].
    rewrite to_digits_aux_acc, of_digits_snoc, IH.
    + pose proof (N.div_mod n base ltac:(lia)). lia.
    + rewrite Nnat.Nat2N.inj_succ, N.pow_succ_r in Hn by lia.
      apply N.div_lt_upper_bound; [lia|]. nia.
Qed.

Lemma to_digits_value : forall base n, 2 <= base -> of_digits base (to_digits base n) = n.
Proof. intros. unfold to_digits. apply to_digits_aux_value; [assumption|]. apply size_nat_bound. Qed.

Lemma to_digits_aux_bound : forall base, 2 <= base -> forall fuel n,
  Forall (fun d => d < base) (to_digits_aux base fuel n []).
Proof.
  intros base Hb. induction fuel as [|f IH]; intros n; simpl; [constructor|].
  destruct (n =? 0); [constructor|]. rewrite to_digits_aux_acc. apply Forall_app. split; [apply IH|].
  constructor; [apply N.mod_lt; lia|constructor].
Qed.

Lemma to_digits_bound : forall base n, 2 <= base -> Forall (fun d => d < base) (to_digits base n).
Proof. intros. apply to_digits_aux_bound. assumption. Qed.

(** The head digit is not zero. *)
Definition no_lead_zero (l : list N) : Prop := match l with [] => True | d :: _ => d <> 0 end.

Lemma to_digits_aux_lead : forall base, 2 <= base -> forall fuel n,
  n < 2 ^ N.of_nat fuel -> no_lead_zero (to_digits_aux base fuel n []).
Proof.
  intros base Hb. induction fuel as [|f IH]; intros n Hn; simpl; [exact I|].
  destruct (n =? 0) eqn:E; [exact I|].
  rewrite to_digits_aux_acc.
  assert (Hdiv : n / base < 2 ^ N.of_nat f).
  { rewrite Nnat.Nat2N.inj_succ, N.pow_succ_r in Hn by lia. apply N.div_lt_upper_bound; [lia|]. nia. }
  specialize (IH _ Hdiv). pose proof (to_digits_aux_value base Hb f _ Hdiv) as Hv.
  destruct (to_digits_aux base f (n / base) []) as [|x l]; simpl; [|exact IH].
  unfold of_digits in Hv. simpl in Hv.
  assert (n / base = 0) by lia. apply N.div_small_iff in H; [|lia].
  rewrite N.mod_small by assumption. lia.
Qed.

Lemma to_digits_lead : forall base n, 2 <= base -> no_lead_zero (to_digits base n).
Proof. intros. unfold to_digits. apply to_digits_aux_lead; [assumption|]. apply size_nat_bound. Qed.

Lemma of_digits_bound : forall base l, 2 <= base -> Forall (fun d => d < base) l ->
  of_digits base l < base ^ N.of_nat (length l).
Proof.
  intros base l Hb. induction l as [|x l IH] using rev_ind; intros H.
  - unfold of_digits; simpl. lia.
  - apply Forall_app in H. destruct H as [H1 H2]. inversion H2; subst.
    rewrite of_digits_snoc, app_length. simpl length.
    rewrite Nat.add_1_r, Nnat.Nat2N.inj_succ, N.pow_succ_r by lia. specialize (IH H1). nia.
Qed.

(** Uniqueness of representations without leading zeros. *)
Lemma of_digits_inj_len : forall base l1 l2, 2 <= base ->
  Forall (fun d => d < base) l1 -> Forall (fun d => d < base) l2 ->
  length l1 = length l2 -> of_digits base l1 = of_digits base l2 -> l1 = l2.
Proof.
  intros base l1. induction l1 as [|x l1 IH] using rev_ind; intros l2 Hb F1 F2 HL HE.
  - destruct l2; [reflexivity|discriminate].
  - destruct l2 as [|y l2 _] using rev_ind; [rewrite app_length in HL; simpl in HL; lia|].
    apply Forall_app in F1, F2. destruct F1 as [F1 G1], F2 as [F2 G2].
    inversion G1; inversion G2; subst.
    rewrite !of_digits_snoc in HE. rewrite !app_length in HL. simpl in HL.
    assert (of_digits base l1 = of_digits base l2 /\ x = y) as [E1 E2].
    { set (a := of_digits base l1) in *. set (b := of_digits base l2) in *. clearbody a b.
      assert (a = b) by nia. subst. lia. }
    rewrite (IH l2) by (try assumption; lia). rewrite E2. reflexivity.
Qed.

Lemma of_digits_lower : forall base l, 2 <= base -> no_lead_zero l -> l <> [] ->
  base ^ N.of_nat (length l - 1) <= of_digits base l.
Proof.
  intros base l Hb H Hn. destruct l as [|d l]; [contradiction|]. simpl in H.
  rewrite of_digits_cons. replace (length (d :: l) - 1)%nat with (length l) by (simpl; lia). nia.
Qed.

Lemma of_digits_inj : forall base l1 l2, 2 <= base ->
  Forall (fun d => d < base) l1 -> Forall (fun d => d < base) l2 ->
  no_lead_zero l1 -> no_lead_zero l2 -> of_digits base l1 = of_digits base l2 -> l1 = l2.
Proof.
  intros base l1 l2 Hb F1 F2 Z1 Z2 HE.
  apply (of_digits_inj_len base); try assumption.
  assert (H : forall a b, Forall (fun d => d < base) a -> no_lead_zero b ->
            of_digits base a = of_digits base b -> (length b <= length a)%nat).
  { intros a b Fa Zb E. destruct b as [|d b]; [simpl; lia|].
    pose proof (of_digits_bound base a Hb Fa) as U.
    pose proof (of_digits_lower base (d :: b) Hb Zb ltac:(discriminate)) as L.
    destruct (Nat.le_gt_cases (length (d :: b)) (length a)) as [|G]; [assumption|exfalso].
    assert (base ^ N.of_nat (length a) <= base ^ N.of_nat (length (d :: b) - 1)).
    { apply N.pow_le_mono_r; lia. }
    lia. }
  pose proof (H l1 l2 F1 Z2 HE). pose proof (H l2 l1 F2 Z1 (eq_sym HE)). lia.
Qed.

Lemma to_of_digits : forall base l, 2 <= base -> Forall (fun d => d < base) l -> no_lead_zero l ->
  to_digits base (of_digits base l) = l.
Proof.
  intros. apply (of_digits_inj base); try assumption.
  - apply to_digits_bound. assumption.
  - apply to_digits_lead. assumption.
  - apply to_digits_value. assumption.
Qed.

(** span *)
Lemma span_app : forall A (p : A -> bool) l a b, span p l = (a, b) ->
  l = a ++ b /\ Forall (fun x => p x = true) a /\ match b with [] => True | x :: _ => p x = false end.
Proof.
  intros A p l. induction l as [|x l IH]; intros a b H; simpl in H.
  - injection H as <- <-. repeat split; constructor.
  - destruct (p x) eqn:E.
    + destruct (span p l) as [a' b'] eqn:S. injection H as <- <-.
      destruct (IH _ _ eq_refl) as (H1 & H2 & H3). subst. repeat split; [constructor; assumption|assumption].
    + injection H as <- <-. repeat split; [constructor|assumption].
Qed.

Lemma span_intro : forall A (p : A -> bool) a b,
  Forall (fun x => p x = true) a -> match b with [] => True | x :: _ => p x = false end ->
  span p (a ++ b) = (a, b).
Proof.
  intros A p a b H Hb. induction H as [|x a Hx Ha IH]; simpl.
  - destruct b as [|y b]; simpl; [reflexivity|]. rewrite Hb. reflexivity.
  - rewrite Hx, IH. reflexivity.
Qed.

(** The base58 alphabet. *)
Lemma b58_digit_char : forall d, d < 58 -> b58_digit (b58_char d) = Some d.
Proof.
  intros d H.
  assert (A : forallb (fun i => match b58_digit (b58_char (N.of_nat i)) with
                                | Some x => x =? N.of_nat i | None => false end) (seq 0 58) = true)
    by (vm_compute; reflexivity).
  rewrite forallb_forall in A. specialize (A (N.to_nat d)). rewrite N2Nat.id in A.
  destruct (b58_digit (b58_char d)) as [x|].
  - f_equal. apply N.eqb_eq. apply A. apply in_seq. lia.
  - discriminate A. apply in_seq. lia.
Qed.

Lemma index_of_spec : forall c l i d, index_of c l i = Some d ->
  i <= d /\ d < i + N.of_nat (length l) /\ nth (N.to_nat (d - i)) l x31 = c.
Proof.
  intros c l. induction l as [|x l IH]; intros i d H; simpl in H; [discriminate|].
  destruct (Byte.eqb c x) eqn:E.
  - injection H as <-. apply byte_eqb_eq in E. subst. rewrite N.sub_diag. simpl. repeat split; lia.
  - apply IH in H. destruct H as (H1 & H2 & H3). repeat split; [lia|simpl length; lia|].
    replace (N.to_nat (d - i)) with (S (N.to_nat (d - (i + 1)))) by lia. exact H3.
Qed.

Lemma b58_char_digit : forall c d, b58_digit c = Some d -> d < 58 /\ b58_char d = c.
Proof.
  intros c d H. unfold b58_digit in H. apply index_of_spec in H. destruct H as (_ & H2 & H3).
  split; [exact H2|]. unfold b58_char. rewrite N.sub_0_r in H3. exact H3.
Qed.

Lemma b58_char_0 : b58_char 0 = x31.
Proof. reflexivity. Qed.

Lemma b58_digit_1 : b58_digit x31 = Some 0.
Proof. reflexivity. Qed.

Lemma map_const_zero : forall (l : bytes), Forall (fun x => Byte.eqb x00 x = true) l -> map (fun _ => x00) l = l.
Proof.
  induction 1; simpl; [reflexivity|]. apply byte_eqb_eq in H. subst. rewrite IHForall. reflexivity.
Qed.

Lemma rest_digits_ok : forall rest : bytes,
  match rest with [] => True | x :: _ => Byte.eqb x00 x = false end ->
  no_lead_zero (map N_of_u8 rest).
Proof.
  intros rest H. destruct rest as [|x r]; [exact I|]. simpl. intros E.
  apply byte_eqb_neq in H. apply H. apply N_of_u8_inj. rewrite E. reflexivity.
Qed.

Lemma map_u8_bound : forall l, Forall (fun d => d < 256) (map N_of_u8 l).
Proof. intros. apply Forall_map. apply Forall_forall. intros. apply N_of_u8_bound. Qed.

Theorem b58_roundtrip : forall b, b58_decode (b58_encode b) = Ok b.
Proof.
  intros b. unfold b58_encode. destruct (span (Byte.eqb x00) b) as [zs rest] eqn:S.
  apply span_app in S. destruct S as (-> & Hz & Hr).
  unfold b58_decode.
  set (ds := to_digits 58 (of_digits 256 (map N_of_u8 rest))).
  assert (Hd : Forall (fun d => d < 58) ds) by (apply to_digits_bound; lia).
  assert (HC : collect (fun c => match b58_digit c with Some d => Ok d | None => Err B58_InvalidCharacter end)
            (map (fun _ => x31) zs ++ map b58_char ds) = Ok (map (fun _ => 0) zs ++ ds)).
  { apply collect_ok. apply Forall2_app.
    - clear. induction zs; simpl; constructor; [reflexivity|assumption].
    - clear - Hd. induction Hd; simpl; constructor; [rewrite b58_digit_char by assumption; reflexivity|assumption]. }
  rewrite HC. cbn [bind].
  rewrite (span_intro _ (N.eqb 0)).
  - f_equal. rewrite map_map.
    replace (map (fun _ : byte => x00) zs) with zs by (symmetry; apply map_const_zero; assumption).
    f_equal. unfold ds. rewrite to_digits_value by lia.
    rewrite to_of_digits; [|lia|apply map_u8_bound|apply rest_digits_ok; assumption].
    rewrite map_map. rewrite <- (map_id rest) at 2. apply map_ext. apply u8_of_N_of_u8.
  - clear. induction zs; simpl; constructor; [reflexivity|assumption].
  - pose proof (to_digits_lead 58 (of_digits 256 (map N_of_u8 rest)) ltac:(lia)) as L.
    fold ds in L. destruct ds as [|d ds']; [exact I|]. simpl in L. destruct d; [contradiction|reflexivity].
Qed.

Theorem b58_canonical : forall s b, b58_decode s = Ok b -> b58_encode b = s.
Proof.
  intros s b H. unfold b58_decode in H. apply bind_ok in H. destruct H as (ds & Hds & H).
  apply collect_ok in Hds.
  assert (Hs : s = map b58_char ds /\ Forall (fun d => d < 58) ds).
  { clear H. induction Hds as [|c d s' ds' Hc Hds IH]; [split; constructor|].
    destruct (b58_digit c) as [d'|] eqn:E; [|discriminate]. injection Hc as ->.
    apply b58_char_digit in E. destruct E as [E1 E2]. destruct IH as [IH1 IH2].
    split; [simpl; congruence|constructor; assumption]. }
  destruct Hs as [-> Hb]. clear Hds.
  destruct (span (N.eqb 0) ds) as [zs rest] eqn:S. injection H as <-.
  apply span_app in S. destruct S as (-> & Hz & Hr).
  apply Forall_app in Hb. destruct Hb as [_ Hb].
  unfold b58_encode.
  assert (Hlead : no_lead_zero rest).
  { destruct rest as [|d r]; [exact I|]. simpl. intros ->. discriminate. }
  rewrite (span_intro _ (Byte.eqb x00)).
  - rewrite map_map. rewrite map_app. f_equal.
    + clear - Hz. induction Hz as [|z zs H _ IH]; [reflexivity|]. cbn [map]. rewrite IH.
      apply N.eqb_eq in H. subst z. reflexivity.
    + f_equal. rewrite map_map.
      rewrite (map_ext_in (fun x => N_of_u8 (u8_of_N x)) (fun x => x)).
      * rewrite map_id. rewrite to_digits_value by lia. apply to_of_digits; [lia|assumption|assumption].
      * intros a Ha. apply N_of_u8_of_N_small.
        pose proof (to_digits_bound 256 (of_digits 58 rest) ltac:(lia)) as F.
        rewrite Forall_forall in F. apply F. exact Ha.
  - clear. induction zs; simpl; constructor; [reflexivity|assumption].
  - pose proof (to_digits_lead 256 (of_digits 58 rest) ltac:(lia)) as L.
    pose proof (to_digits_bound 256 (of_digits 58 rest) ltac:(lia)) as B.
    destruct (to_digits 256 (of_digits 58 rest)) as [|d ds']; [exact I|]. simpl in L |- *.
    inversion B; subst. apply byte_eqb_neq. intros E. apply L.
    rewrite <- (N_of_u8_of_N_small d) by assumption. rewrite <- E. reflexivity.
Qed.

Lemma b58_encode_inj : forall a b, b58_encode a = b58_encode b -> a = b.
Proof.
  intros a b H. pose proof (b58_roundtrip a) as Ha. rewrite H, b58_roundtrip in Ha. congruence.
Qed.

Lemma b58_decode_no_panic : forall s, b58_decode s <> Panic /\ b58_decode s <> OutOfFuel.
Proof.
  intros s. unfold b58_decode.
  assert (H : forall l, (exists ds, collect (fun c => match b58_digit c with Some d => Ok d | None => Err B58_InvalidCharacter end) l = Ok ds)
     \/ collect (fun c => match b58_digit c with Some d => Ok d | None => Err B58_InvalidCharacter end) l = Err B58_InvalidCharacter).
  { induction l as [|c l IH]; simpl; [left; eexists; reflexivity|].
    destruct (b58_digit c); simpl; [|right; reflexivity].
    destruct IH as [[ds ->]| ->]; simpl; [left; eexists; reflexivity|right; reflexivity]. }
  destruct (H s) as [[ds ->]| ->]; simpl; [|split; discriminate].
  destruct (span (N.eqb 0) ds). split; discriminate.
Qed.

Lemma b58_encode_chars : forall b c, In c (b58_encode b) -> b58_digit c <> None.
Proof.
  intros b c H. unfold b58_encode in H. destruct (span (Byte.eqb x00) b) as [zs rest].
  apply in_app_or in H. destruct H as [H|H]; apply in_map_iff in H; destruct H as (d & <- & Hd).
  - discriminate.
  - rewrite b58_digit_char; [discriminate|].
    pose proof (to_digits_bound 58 (of_digits 256 (map N_of_u8 rest)) ltac:(lia)) as F.
    rewrite Forall_forall in F. apply F. exact Hd.
Qed.

Lemma b58_encode_nil : forall b, b58_encode b = [] -> b = [].
Proof. intros b H. apply b58_encode_inj. rewrite H. reflexivity. Qed.

(** Decimal numbers. *)
Lemma dec_digit_char : forall d, d < 10 -> dec_digit (dec_char d) = Some d.
Proof.
  intros d H. unfold dec_digit, dec_char. rewrite N_of_u8_of_N_small by lia.
  replace ((48 <=? 48 + d) && (48 + d <=? 57)) with true by lia. f_equal. lia.
Qed.

Lemma parse_digits_map : forall ds acc, Forall (fun d => d < 10) ds ->
  acc * 10 ^ N.of_nat (length ds) + of_digits 10 ds < u64_bound ->
  parse_digits acc (map dec_char ds) = Ok (acc * 10 ^ N.of_nat (length ds) + of_digits 10 ds).
Proof.
  induction ds as [|d ds IH]; intros acc F H.
  - simpl. unfold of_digits. simpl. f_equal. lia.
  - inversion F; subst. cbn [map parse_digits]. rewrite dec_digit_char by assumption.
    rewrite of_digits_cons in *. cbn [length] in *. rewrite Nnat.Nat2N.inj_succ, N.pow_succ_r in * by lia.
    assert (Hp : 0 < 10 ^ N.of_nat (length ds)) by (apply N.neq_0_lt_0; apply N.pow_nonzero; lia).
    replace (acc * (10 * 10 ^ N.of_nat (length ds)) + (d * 10 ^ N.of_nat (length ds) + of_digits 10 ds))
      with ((acc * 10 + d) * 10 ^ N.of_nat (length ds) + of_digits 10 ds) in * by lia.
    assert (acc * 10 + d < u64_bound) by nia.
    replace (acc * 10 + d <? u64_bound) with true by lia.
    apply IH; assumption.
Qed.

Lemma dec_char_not_plus : forall d, d < 10 -> Byte.eqb (dec_char d) x2b = false.
Proof.
  intros d H. apply byte_eqb_neq. intros E.
  assert (N_of_u8 (dec_char d) = 43) by (rewrite E; reflexivity).
  unfold dec_char in H0. rewrite N_of_u8_of_N_small in H0 by lia. lia.
Qed.

Theorem u64_text_roundtrip : forall n, n < u64_bound -> parse_u64 (u64_to_string n) = Ok n.
Proof.
  intros n H. unfold u64_to_string. destruct (n =? 0) eqn:E.
  - apply N.eqb_eq in E. subst. reflexivity.
  - pose proof (to_digits_value 10 n ltac:(lia)) as V.
    pose proof (to_digits_bound 10 n ltac:(lia)) as B.
    destruct (to_digits 10 n) as [|d ds] eqn:T.
    + unfold of_digits in V; simpl in V. lia.
    + unfold parse_u64. cbn [map]. inversion B; subst.
      rewrite dec_char_not_plus by assumption.
      change (dec_char d :: map dec_char ds) with (map dec_char (d :: ds)).
      rewrite parse_digits_map.
      * f_equal; lia.
      * assumption.
      * lia.
Qed.

Lemma u64_to_string_chars : forall n c, In c (u64_to_string n) -> exists d, d < 10 /\ c = dec_char d.
Proof.
  intros n c H. unfold u64_to_string in H. destruct (n =? 0).
  - destruct H as [<-|[]]. exists 0. split; [lia|reflexivity].
  - apply in_map_iff in H. destruct H as (d & <- & Hd). exists d. split; [|reflexivity].
    pose proof (to_digits_bound 10 n ltac:(lia)) as F. rewrite Forall_forall in F. apply F. exact Hd.
Qed.

(** lines *)
Definition no_newline (s : text) : Prop := ~ In x0a s /\ ~ In x0d s.

Lemma lines_aux_line : forall s cur rest, no_newline s -> ~ In x0d cur ->
  lines_aux cur (s ++ x0a :: rest) = (rev cur ++ s) :: lines_aux [] rest.
Proof.
  induction s as [|c s IH]; intros cur rest [H1 H2] Hc.
  - simpl. rewrite app_nil_r. f_equal. unfold strip_cr. destruct cur as [|c cur]; [reflexivity|].
    destruct (Byte.eqb c x0d) eqn:E; [|reflexivity].
    apply byte_eqb_eq in E. subst. exfalso. apply Hc. left. reflexivity.
  - simpl. destruct (Byte.eqb c x0a) eqn:E.
    + apply byte_eqb_eq in E. subst. exfalso. apply H1. left. reflexivity.
    + rewrite IH.
      * simpl. rewrite <- app_assoc. reflexivity.
      * split; intros G; [apply H1|apply H2]; right; exact G.
      * intros [G|G]; [apply H2; left; congruence|apply Hc; exact G].
Qed.

Lemma lines_line : forall s rest, no_newline s -> lines (s ++ x0a :: rest) = s :: lines rest.
Proof. intros. unfold lines. rewrite lines_aux_line; [reflexivity|assumption|intros []]. Qed.

Lemma b58_no_newline : forall b, no_newline (b58_encode b).
Proof. intros b. split; intros H; apply b58_encode_chars in H; apply H; reflexivity. Qed.

Lemma u64_no_newline : forall n, no_newline (u64_to_string n).
Proof.
  intros n. split; intros H; apply u64_to_string_chars in H; destruct H as (d & Hd & E);
    assert (N_of_u8 (dec_char d) < 48) by (rewrite <- E; vm_compute; reflexivity);
    unfold dec_char in H; rewrite N_of_u8_of_N_small in H by lia; lia.
Qed.
