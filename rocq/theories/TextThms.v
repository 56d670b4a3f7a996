(** The properties of the text forms in their final form. PropsText.v restates them. *)
From Coq Require Import List NArith ZArith Bool Lia ZifyBool ZifyNat ZifyN.
From Coq Require String.
Import String.StringSyntax.
From Verif Require Import Base BaseFacts Text TextFacts Keys KeysFacts Trust TrustFacts Certificate CertFacts Spec SpecFacts Relation TextSpec Toy ToyFacts.
Import ListNotations.
Open Scope N_scope.

(** ** C99 *)
Lemma digit_exact : forall c d, dec_digit c = Some d <-> digit_char c d.
Proof.
  intros c d. unfold dec_digit, digit_char, N_of_u8. destruct ((48 <=? Byte.to_N c) && (Byte.to_N c <=? 57)) eqn:E.
  - split; [intros H; injection H as <-; lia|intros [H1 H2]; f_equal; lia].
  - split; [discriminate|intros [H1 H2]; lia].
Qed.
Lemma digits_exact : forall s acc n, acc < 2 ^ 64 ->
  parse_digits acc s = Ok n <-> n < 2 ^ 64 /\ exists ds, Forall2 digit_char s ds /\ n = fold_left (fun a d => 10 * a + d) ds acc.
Proof.
  induction s as [|c s IH]; intros acc n B; cbn [parse_digits].
  - split.
    + intros H. apply Ok_inj in H. subst n. split; [exact B|]. exists []. split; [constructor|reflexivity].
    + intros (H & ds & F & E). inversion F; subst. reflexivity.
  - destruct (dec_digit c) as [d|] eqn:D.
    + change u64_bound with (2 ^ 64). replace (acc * 10 + d) with (10 * acc + d) by lia. destruct (10 * acc + d <? 2 ^ 64) eqn:L.
      * rewrite IH by lia. split; intros (H & ds & F & E); (split; [exact H|]).
        -- exists (d :: ds). split; [constructor; [apply digit_exact; exact D|exact F]|exact E].
        -- inversion F as [|? d' ? ds' F1 F2]; subst. apply digit_exact in F1. rewrite D in F1. injection F1 as <-. exists ds'. split; [exact F2|reflexivity].
      * split; [discriminate|]. intros (H & ds & F & E). exfalso. inversion F as [|? d' ? ds' F1 F2]; subst. apply digit_exact in F1.
        rewrite D in F1. injection F1 as <-. cbn [fold_left] in H. assert (G : forall l a, a <= fold_left (fun a d => 10 * a + d) l a).
        { clear. induction l as [|x l IH]; intros a; cbn [fold_left]; [lia|]. specialize (IH (10 * a + x)). lia. }
        specialize (G ds' (10 * acc + d)). lia.
    + split; [discriminate|]. intros (H & ds & F & E). exfalso. inversion F as [|? d' ? ds' F1 F2]; subst. apply digit_exact in F1. congruence.
Qed.
(** A number is parsed exactly if it is decimal digits, perhaps after a plus sign, of a value below 2^64. *)
Lemma p_C99_number_exact : forall s n, parse_u64 s = Ok n <-> number_text s n.
Proof.
  intros s n. unfold parse_u64, number_text, decimal, positional. destruct s as [|c s].
  - split; [discriminate|]. intros (_ & [(ds & N & F & _)|(s' & E & _)]); [inversion F; subst; congruence|discriminate E].
  - destruct (Byte.eqb c x2b) eqn:P.
    + apply byte_eqb_eq in P. subst c. split.
      * destruct s as [|c s]; [discriminate|]. intros H. apply digits_exact in H; [|reflexivity]. destruct H as (H & ds & F & E).
        split; [exact H|]. right. exists (c :: s). split; [reflexivity|]. exists ds. split; [inversion F; discriminate|auto].
      * intros (H & [(ds & N & F & E)|(s' & E & ds & N & F & V)]).
        -- exfalso. inversion F as [|? ? ? ? [F1 F2] _]; subst. change (Byte.to_N x2b) with 43 in F2. lia.
        -- injection E as <-. assert (X : parse_digits 0 s = Ok n) by (apply digits_exact; [reflexivity|eauto]). destruct s; [|exact X].
           exfalso. inversion F; subst. congruence.
    + split.
      * intros H. apply digits_exact in H; [|reflexivity]. destruct H as (H & ds & F & E). split; [exact H|]. left. exists ds. split; [inversion F; discriminate|auto].
      * intros (H & [(ds & N & F & E)|(s' & E & _)]); [apply digits_exact; [reflexivity|eauto]|].
        injection E as -> ->. discriminate P.
Qed.

Lemma strip_cr_exact : forall r l', strip_cr r = l' <-> chopped (rev r) l'.
Proof.
  intros r l'. unfold chopped. destruct r as [|c r]; cbn [strip_cr rev].
  - split; [intros <-; right; split; [reflexivity|intros m E; destruct m; discriminate E]|].
    intros [E|[-> _]]; [destruct l'; discriminate E|reflexivity].
  - destruct (Byte.eqb c x0d) eqn:E.
    + apply byte_eqb_eq in E. subst c. split; [intros <-; left; reflexivity|]. intros [H|[_ H]].
      * apply app_inj_tail in H. apply H.
      * exfalso. apply (H (rev r)). reflexivity.
    + split.
      * intros <-. right. split; [reflexivity|]. intros m H. apply app_inj_tail in H. destruct H as [_ H]. subst c. discriminate E.
      * intros [H|[-> _]]; [|reflexivity]. apply app_inj_tail in H. destruct H as [_ H]. subst c. discriminate E.
Qed.
Lemma lines_aux_exact : forall s cur ls, ~ In x0a cur -> lines_aux cur s = ls <-> line_texts (rev cur ++ s) ls.
Proof.
  induction s as [|c s IH]; intros cur ls NI; cbn [lines_aux].
  - rewrite app_nil_r. split.
    + intros <-. destruct cur as [|x cur].
      * exists [], [], []. split; [reflexivity|]. split; [intros l [<-|[]] []|]. split; [constructor|]. left. auto.
      * exists [], (rev (x :: cur)), []. split; [reflexivity|]. split; [intros l [<-|[]] H; apply NI; apply in_rev; exact H|]. split; [constructor|].
        right. split; [|reflexivity]. cbn [rev]. intros H. apply app_eq_nil in H. destruct H as [_ H]. discriminate H.
    + intros (raw & tail & ls' & E & Nn & F & H). destruct raw as [|r raw].
      * cbn [flat_map app] in E. assert (ls' = []) by (inversion F; reflexivity). subst ls'. destruct H as [[H1 H2]|[H1 H2]]; subst ls.
        -- rewrite H1 in E. destruct cur; [reflexivity|]. cbn [rev] in E. apply app_eq_nil in E. destruct E as [_ E]. discriminate E.
        -- cbn [app]. rewrite <- E. destruct cur; [exfalso; apply H1; symmetry; exact E|reflexivity].
      * exfalso. apply NI. apply in_rev. rewrite E. cbn [flat_map]. apply in_or_app. left. apply in_or_app. left. apply in_or_app. right. left. reflexivity.
  - destruct (Byte.eqb c x0a) eqn:B.
    + apply byte_eqb_eq in B. subst c. split.
      * intros <-. destruct (proj1 (IH [] (lines_aux [] s) (fun H => H)) eq_refl) as (raw & tail & ls' & E & Nn & F & H). cbn [rev app] in E.
        exists (rev cur :: raw), tail, (strip_cr cur :: ls'). split; [cbn [flat_map]; rewrite <- !app_assoc; cbn [app]; rewrite <- E; reflexivity|].
        split; [intros l [<-|[<-|H']] Hx; [apply (Nn tail (or_introl eq_refl)); exact Hx|apply NI; apply in_rev; exact Hx|apply (Nn l (or_intror H')); exact Hx]|].
        split; [constructor; [apply strip_cr_exact; reflexivity|exact F]|].
        destruct H as [[H1 H2]|[H1 H2]]; [left|right]; (split; [exact H1|]); rewrite H2; reflexivity.
      * intros (raw & tail & ls' & E & Nn & F & H). destruct raw as [|r raw].
        -- exfalso. cbn [flat_map app] in E. apply (Nn tail (or_introl eq_refl)). rewrite <- E. apply in_or_app. right. left. reflexivity.
        -- inversion F as [|? r' ? ls2 F1 F2]; subst. cbn [flat_map] in E. rewrite <- !app_assoc in E. cbn [app] in E.
           assert (X : rev cur = r /\ s = flat_map (fun l => l ++ [x0a]) raw ++ tail).
           { assert (N1 : ~ In x0a (rev cur)) by (intros Hx; apply NI; apply in_rev; exact Hx).
             assert (N2 : ~ In x0a r) by (apply Nn; right; left; reflexivity).
             revert E N1 N2. generalize (rev cur) as p. clear. intros p. revert r. induction p as [|x p IH]; intros [|y r] E N1 N2; cbn [app] in E.
             - injection E as E. auto.
             - exfalso. injection E as E _. apply N2. left. congruence.
             - exfalso. injection E as E _. apply N1. left. congruence.
             - injection E as -> E. destruct (IH r E) as [-> H]; [intros Hx; apply N1; right; exact Hx|intros Hx; apply N2; right; exact Hx|auto]. }
           destruct X as [X1 X2]. subst r. apply strip_cr_exact in F1.
           assert (Y : exists l0, ls = r' :: l0 /\ ((tail = [] /\ l0 = ls2) \/ (tail <> [] /\ l0 = ls2 ++ [tail])))
             by (destruct H as [[H1 H2]|[H1 H2]]; subst ls; [exists ls2|exists (ls2 ++ [tail])]; auto).
           destruct Y as (l0 & -> & Y). f_equal; [exact F1|]. apply (IH [] _ (fun Hx => Hx)). cbn [rev app]. exists raw, tail, ls2. split; [exact X2|].
           split; [intros l [<-|Hl]; apply Nn; [left; reflexivity|right; right; exact Hl]|]. auto.
    + rewrite IH by (intros [H|H]; [subst c; discriminate B|exact (NI H)]). cbn [rev]. rewrite <- app_assoc. reflexivity.
Qed.
(** The lines of a text. *)
Lemma p_C99_lines_exact : forall s ls, lines s = ls <-> line_texts s ls.
Proof. intros s ls. apply (lines_aux_exact s [] ls). intros []. Qed.

(** ** base58 *)
Lemma positional_of : forall base l, positional base l = of_digits base l.
Proof.
  intros base l. unfold positional, of_digits. generalize 0. induction l as [|x l IH]; intros a; cbn [fold_left]; [reflexivity|].
  rewrite IH. f_equal. lia.
Qed.
Lemma base58_char_exact : forall c d, base58_char c d <-> b58_digit c = Some d.
Proof.
  intros c d. unfold base58_char. change (str _) with b58_alphabet. split.
  - intros H. assert (D : d < 58).
    { assert (X : nth_error b58_alphabet (N.to_nat d) <> None) by congruence. apply nth_error_Some in X. change (length b58_alphabet) with 58%nat in X. lia. }
    apply (nth_error_nth _ _ x31) in H. rewrite <- H. apply (b58_digit_char d D).
  - intros H. apply b58_char_digit in H. destruct H as [D <-]. unfold b58_char. apply nth_error_nth'. change (length b58_alphabet) with 58%nat. lia.
Qed.
Lemma chars_exact : forall s ds, Forall2 base58_char s ds <-> Forall (fun d => d < 58) ds /\ s = map b58_char ds.
Proof.
  intros s. induction s as [|c s IH]; intros ds; split.
  - intros H. inversion H; subst. split; [constructor|reflexivity].
  - intros [_ H]. destruct ds; [constructor|discriminate H].
  - intros H. inversion H as [|? d ? ds' H1 H2]; subst. apply base58_char_exact, b58_char_digit in H1. destruct H1 as [D <-].
    apply IH in H2. destruct H2 as [F ->]. split; [constructor; assumption|reflexivity].
  - intros [F H]. destruct ds as [|d ds]; [discriminate H|]. cbn [map] in H. injection H as -> ->. inversion F as [|? ? F1 F2]; subst.
    constructor; [apply base58_char_exact; apply b58_digit_char; exact F1|]. apply IH. auto.
Qed.
Lemma repeat_zeros : forall zs, Forall (fun x => Byte.eqb x00 x = true) zs -> zs = repeat x00 (length zs).
Proof. intros zs H. induction H as [|x zs H F IH]; [reflexivity|]. apply byte_eqb_eq in H. subst x. cbn [length repeat]. f_equal. exact IH. Qed.
(** The base58 text of some bytes. *)
Lemma p_C99_base58_encode_exact : forall b s, b58_encode b = s <-> base58_text s b.
Proof.
  intros b s. unfold base58_text. split.
  - intros <-. unfold b58_encode. destruct (span (Byte.eqb x00) b) as [zs rest] eqn:Sp. apply span_app in Sp. destruct Sp as (-> & Fz & Hr).
    exists (length zs), (map b58_char (to_digits 58 (of_digits 256 (map N_of_u8 rest)))), (to_digits 58 (of_digits 256 (map N_of_u8 rest))), rest.
    split; [f_equal; clear; induction zs; cbn [map length repeat]; f_equal; assumption|]. split; [f_equal; apply repeat_zeros; exact Fz|].
    split; [apply chars_exact; split; [apply to_digits_bound; lia|reflexivity]|]. split.
    + pose proof (to_digits_lead 58 (of_digits 256 (map N_of_u8 rest)) ltac:(lia)) as Hl. destruct (to_digits 58 _); [discriminate|].
      cbn [hd_error]. intros E. injection E as ->. cbn in Hl. lia.
    + split; [destruct rest as [|x rest]; [discriminate|]; cbn [hd_error]; intros E; injection E as ->; discriminate Hr|].
      rewrite !positional_of. apply to_digits_value. lia.
  - intros (z & body & ds & rest & -> & -> & F & H1 & H2 & E). apply chars_exact in F. destruct F as [F ->].
    unfold b58_encode. rewrite (span_intro _ (Byte.eqb x00) (repeat x00 z) rest).
    + f_equal; [clear; induction z; cbn [repeat map]; f_equal; assumption|]. f_equal. rewrite !positional_of in E.
      change (map N_of_u8 rest) with (map Byte.to_N rest). rewrite <- E. apply to_of_digits; [lia|exact F|].
      destruct ds as [|d ds]; [exact I|]. cbn in *. intros ->. apply H1. reflexivity.
    + clear. induction z; cbn [repeat]; constructor; [reflexivity|assumption].
    + destruct rest as [|x rest]; [exact I|]. destruct (Byte.eqb x00 x) eqn:B; [|reflexivity]. apply byte_eqb_eq in B. subst x. exfalso. apply H2. reflexivity.
Qed.
(** The texts base58 decodes. *)
Lemma p_C99_base58_decode_exact : forall s b, b58_decode s = Ok b <-> base58_text s b.
Proof.
  intros s b. rewrite <- p_C99_base58_encode_exact. split; [apply b58_canonical|intros <-; apply b58_roundtrip].
Qed.

(** ** Bytes *)
Lemma format_exact : forall f b, format_byte f b <-> fmt_byte f = b.
Proof. intros [| |] b; cbn; split; congruence. Qed.
Lemma key_bytes_exact : forall k b, key_bytes k b <-> pk_encode k = b.
Proof.
  intros k b. unfold key_bytes, pk_encode. split.
  - intros (f & F & ->). apply format_exact in F. rewrite F. reflexivity.
  - intros <-. eexists. split; [apply format_exact; reflexivity|reflexivity].
Qed.
Lemma signature_bytes_exact : forall s b, signature_bytes s b <-> sig_encode s = b.
Proof.
  intros s b. unfold signature_bytes, sig_encode. split.
  - intros (f & F & ->). apply format_exact in F. rewrite F. reflexivity.
  - intros <-. eexists. split; [apply format_exact; reflexivity|reflexivity].
Qed.
Lemma le_value_positional : forall b, le_value b = positional 256 (rev (map Byte.to_N b)).
Proof.
  induction b as [|x b IH]; [reflexivity|]. cbn [le_value map rev]. unfold positional in *. rewrite fold_left_app. cbn [fold_left]. rewrite IH.
  unfold N_of_u8. lia.
Qed.
Lemma eight_exact : forall n b, n < 2 ^ 64 -> eight_bytes n b <-> le_bytes 8 n = b.
Proof.
  intros n b H. unfold eight_bytes. rewrite <- le_value_positional. split.
  - intros [L ->]. rewrite <- L. apply le_bytes_value.
  - intros <-. split; [apply le_bytes_length|]. symmetry. apply le8_roundtrip. exact H.
Qed.
Lemma eight_value : forall n b, eight_bytes n b <-> len b = 8 /\ n = le_value b.
Proof. intros n b. unfold eight_bytes. rewrite <- le_value_positional. unfold len. split; intros [H1 H2]; split; auto; lia. Qed.
Lemma length_byte_exact : forall b l, length_byte b l <-> len b < 256 /\ u8_of_N (len b) = l.
Proof.
  intros b l. unfold length_byte. change (N.of_nat (length b)) with (len b). split.
  - intros H. change (Byte.to_N l) with (N_of_u8 l) in H. split; [rewrite <- H; apply N_of_u8_bound|]. rewrite <- H. apply u8_of_N_of_u8.
  - intros [H <-]. apply N_of_u8_of_N_small. exact H.
Qed.

(** ** Trusts and certificates as text *)
Lemma duration_exact : forall s f x, str_to_duration s f = Ok x <-> whole_secs x /\ number_text s (secs x).
Proof.
  intros s f x. unfold str_to_duration. split.
  - intros H. apply bind_ok in H. destruct H as (n & Hn & H). apply map_err_ok in Hn. apply Ok_inj in H. subst x. apply p_C99_number_exact in Hn.
    split; [apply from_secs_whole; apply Hn|exact Hn].
  - intros [W H]. apply p_C99_number_exact in H. rewrite H. cbn [map_err bind]. rewrite whole_secs_from by exact W. reflexivity.
Qed.
(** Four lines are parsed to a trust exactly if they are its key and signature in base58 and its times in decimal. *)
Lemma p_C99_trust_text_exact : forall C t a b c d, trust_from_strings C a b c d = Ok t <-> trust_lines C t a b c d.
Proof.
  intros C t a b c d. split.
  - intros H. split; [eapply trust_from_strings_fits; exact H|]. unfold trust_from_strings in H.
    apply bind_ok in H. destruct H as (pkb & H1 & H). unfold bs58_str_to_vec in H1. apply map_err_ok, b58_canonical in H1.
    apply bind_ok in H. destruct H as (pk & Hpk & H). apply map_err_ok, pk_decode_ok in Hpk.
    apply bind_ok in H. destruct H as (sgb & H2 & H). unfold bs58_str_to_vec in H2. apply map_err_ok, b58_canonical in H2.
    apply bind_ok in H. destruct H as (sg & Hsg & H). apply map_err_ok, sig_decode_ok in Hsg.
    apply bind_ok in H. destruct H as (ex & Hex & H). apply duration_exact in Hex.
    apply bind_ok in H. destruct H as (is & His & H). apply duration_exact in His.
    apply Ok_inj in H. subst t. cbn [issued_for trust_sig expires_at issued_at].
    destruct Hpk as [Hpk _], Hsg as [Hsg _].
    split; [exists pkb; split; [apply key_bytes_exact; exact Hpk|apply p_C99_base58_encode_exact; exact H1]|].
    split; [exists sgb; split; [apply signature_bytes_exact; exact Hsg|apply p_C99_base58_encode_exact; exact H2]|]. split; [apply Hex|apply His].
  - intros ((V1 & V2 & V3 & V4) & (kb & K1 & K2) & (sb & S1 & S2) & Hc & Hd). apply key_bytes_exact in K1. apply signature_bytes_exact in S1. subst kb sb.
    apply p_C99_base58_decode_exact in K2, S2. unfold trust_from_strings, bs58_str_to_vec. rewrite K2, S2. cbn [map_err bind].
    rewrite pk_decode_encode by exact V1. cbn [map_err bind]. rewrite sig_decode_encode by exact V2. cbn [map_err bind].
    assert (X : str_to_duration c F_expires_at = Ok (expires_at t)) by (apply duration_exact; auto).
    assert (Y : str_to_duration d F_issued_at = Ok (issued_at t)) by (apply duration_exact; auto).
    rewrite X, Y. destruct t. reflexivity.
Qed.
Lemma parse_exact : forall C ts ls i, cert_parse_trusts C ls i = Ok ts <-> trusts_lines C ts ls.
Proof.
  intros C ts. induction ts as [|t ts IH]; intros ls i.
  - split.
    + destruct ls as [|a [|b [|c [|d ls]]]]; cbn [cert_parse_trusts]; intros H; try discriminate H; [constructor|].
      apply bind_ok in H. destruct H as (t & _ & H). apply bind_ok in H. destruct H as (ts & _ & H). discriminate H.
    + intros H. inversion H; subst. reflexivity.
  - split.
    + destruct ls as [|a [|b [|c [|d ls]]]]; cbn [cert_parse_trusts]; intros H; try discriminate H.
      apply bind_ok in H. destruct H as (t' & H1 & H). apply bind_ok in H. destruct H as (ts' & H2 & H). apply Ok_inj in H. injection H as -> ->.
      apply map_err_ok in H1. constructor; [apply p_C99_trust_text_exact; exact H1|apply IH in H2; exact H2].
    + intros H. inversion H as [|? ? a b c d ls' H1 H2]; subst. cbn [cert_parse_trusts]. apply p_C99_trust_text_exact in H1. rewrite H1. cbn [map_err bind].
      apply (IH ls' (i + 4)%nat) in H2. rewrite H2. reflexivity.
Qed.
Lemma trusts_lines_length : forall C ts ls, trusts_lines C ts ls -> length ls = (4 * length ts)%nat.
Proof. intros C ts ls H. induction H; cbn [length]; lia. Qed.
(** A text is parsed to a certificate exactly if after two lines, whatever they say, come the lines of its trusts. *)
Lemma p_C99_certificate_text_exact : forall C s c, cert_from_str C s = Ok c <-> exists f v ls, line_texts s (f :: v :: ls) /\ trusts_lines C c ls.
Proof.
  intros C s c. unfold cert_from_str. split.
  - destruct (lines s) as [|f [|v ls]] eqn:L; try discriminate. apply p_C99_lines_exact in L. destruct (Nat.eqb (Nat.modulo (length ls) 4) 0); [|discriminate].
    intros H. apply parse_exact in H. exists f, v, ls. auto.
  - intros (f & v & ls & L & H). apply p_C99_lines_exact in L. rewrite L. pose proof (trusts_lines_length C c ls H) as N.
    replace (Nat.eqb (Nat.modulo (length ls) 4) 0) with true by (rewrite N, Nat.mul_comm, Nat.mod_mul by discriminate; reflexivity).
    apply parse_exact. exact H.
Qed.
(** A certificate error of the text names the first group of four lines that is not a trust. *)
Lemma parse_error : forall C ls i e, cert_parse_trusts C ls i = Err e -> exists ts pre a b c d post te,
  ls = pre ++ a :: b :: c :: d :: post /\ trusts_lines C ts pre /\ trust_from_strings C a b c d = Err te /\ e = CE_DecodeTrustError (i + length pre) te.
Proof.
  intros C ls. remember (length ls) as n eqn:En. assert (Hn : (length ls <= n)%nat) by lia. clear En. revert ls Hn.
  induction n as [|n IH]; intros ls Hn i e H; destruct ls as [|a [|b [|c [|d ls]]]]; cbn [length] in Hn; try lia; cbn [cert_parse_trusts] in H; try discriminate H.
  destruct (trust_from_strings C a b c d) as [t|te| |] eqn:T; cbn [map_err bind] in H; try discriminate H.
  - destruct (cert_parse_trusts C ls (i + 4)) as [ts|e'| |] eqn:P; cbn [bind] in H; try discriminate H. injection H as <-.
    destruct (IH ls ltac:(lia) (i + 4)%nat e' P) as (ts & pre & a' & b' & c' & d' & post & te & -> & H1 & H2 & ->).
    exists (t :: ts), (a :: b :: c :: d :: pre), a', b', c', d', post, te. split; [reflexivity|]. split; [constructor; [apply p_C99_trust_text_exact; exact T|exact H1]|].
    split; [exact H2|]. cbn [length]. f_equal. lia.
  - injection H as <-. exists [], [], a, b, c, d, ls, te. split; [reflexivity|]. split; [constructor|]. split; [exact T|]. cbn [length]. f_equal. lia.
Qed.
Lemma p_C99_text_error_position : forall C s e, cert_from_str C s = Err e ->
  (e = CE_IncorrectCertificateFormat s /\ forall ls, line_texts s ls -> (2 <= length ls)%nat /\ Nat.modulo (length ls - 2) 4 <> 0%nat) \/
  exists ls i a b c d te ts, line_texts s ls /\ e = CE_DecodeTrustError i te /\ trust_from_strings C a b c d = Err te /\
    trusts_lines C ts (firstn (i - 2) (skipn 2 ls)) /\ (2 <= i)%nat /\ at_pos ls i a /\ at_pos ls (i + 1) b /\ at_pos ls (i + 2) c /\ at_pos ls (i + 3) d.
Proof.
  intros C s e H. unfold cert_from_str in H. destruct (lines s) as [|f [|v ls]] eqn:L; try discriminate H.
  destruct (Nat.eqb (Nat.modulo (length ls) 4) 0) eqn:M.
  - right. apply parse_error in H. destruct H as (ts & pre & a & b & c & d & post & te & -> & H1 & H2 & ->).
    apply p_C99_lines_exact in L. exists (f :: v :: pre ++ a :: b :: c :: d :: post), (2 + length pre)%nat, a, b, c, d, te, ts.
    split; [exact L|]. split; [reflexivity|]. split; [exact H2|]. split.
    + cbn [skipn]. replace (2 + length pre - 2)%nat with (length pre) by lia. rewrite firstn_app, firstn_all, Nat.sub_diag. cbn [firstn]. rewrite app_nil_r. exact H1.
    + split; [lia|]. unfold at_pos. cbn [Nat.add nth_error].
      rewrite !nth_error_app2 by lia. rewrite Nat.sub_diag.
      replace (length pre + 1 - length pre)%nat with 1%nat by lia. replace (length pre + 2 - length pre)%nat with 2%nat by lia.
      replace (length pre + 3 - length pre)%nat with 3%nat by lia. auto.
  - left. injection H as <-. split; [reflexivity|]. intros ls0 H0. apply p_C99_lines_exact in H0. rewrite L in H0. subst ls0. cbn [length].
    split; [lia|]. replace (S (S (length ls)) - 2)%nat with (length ls) by lia. apply Nat.eqb_neq. exact M.
Qed.

(** The texts that make the certificate parser panic, in the words of this file. *)
Lemma p_C99_certificate_text_panics_exactly : forall C s, cert_from_str C s = Panic <-> exists ls, line_texts s ls /\
  ((length ls < 2)%nat \/
   exists f v ts pre a b c d post, ls = f :: v :: pre ++ a :: b :: c :: d :: post /\ Nat.modulo (length ls - 2) 4 = 0%nat /\
     trusts_lines C ts pre /\ (a = [] \/ (b = [] /\ exists k kb, pk_valid C k /\ key_bytes k kb /\ base58_text a kb))).
Proof.
  intros C s. rewrite cert_from_str_panic. split.
  - intros H. exists (lines s). split; [apply p_C99_lines_exact; reflexivity|]. destruct H as [H|H]; [left; exact H|right].
    destruct H as (f & v & k & pre & a & b & c & d & post & ts & L & M & N & P & H). exists f, v, ts, pre, a, b, c, d, post.
    split; [exact L|]. split; [exact M|]. split; [apply parse_exact in P; exact P|]. destruct H as [H|[[p H] H']]; [left; exact H|right].
    split; [exact H'|]. unfold pk_from_str, pk_from_base58 in H. apply bind_ok in H. destruct H as (kb & H1 & H2). apply map_err_ok, p_C99_base58_decode_exact in H1.
    apply pk_decode_ok in H2. destruct H2 as [H2 H3]. exists p, kb. split; [exact H3|]. split; [apply key_bytes_exact; exact H2|exact H1].
  - intros (ls & L & H). apply p_C99_lines_exact in L. subst ls. destruct H as [H|H]; [left; exact H|right].
    destruct H as (f & v & ts & pre & a & b & c & d & post & L & M & P & H). pose proof (trusts_lines_length _ _ _ P) as N.
    exists f, v, (length ts), pre, a, b, c, d, post, ts. split; [exact L|]. split; [exact M|]. split; [exact N|]. split; [apply parse_exact; exact P|].
    destruct H as [H|[H (p & kb & H1 & H2 & H3)]]; [left; exact H|right]. split; [|exact H]. exists p. unfold pk_from_str, pk_from_base58.
    apply p_C99_base58_decode_exact in H3. rewrite H3. cbn [map_err bind]. apply key_bytes_exact in H2. subst kb. apply pk_decode_encode. exact H1.
Qed.
(** What is written as text has the lines of its trusts after two lines. *)
Lemma p_C99_certificate_written : forall C c, (forall t, In t c -> trust_fits C t) ->
  exists f v ls, line_texts (cert_to_string c) (f :: v :: ls) /\ trusts_lines C c ls.
Proof. intros C c H. apply p_C99_certificate_text_exact. apply cert_text_roundtrip. exact H. Qed.

(** ** C100 *)
(** Two texts that differ in their first two lines only are read alike, *)
Lemma p_C100_text_header_ignored : forall C f v f' v' rest c, ~ In x0a f -> ~ In x0a v -> ~ In x0a f' -> ~ In x0a v' ->
  cert_from_str C (f ++ x0a :: v ++ x0a :: rest) = Ok c -> cert_from_str C (f' ++ x0a :: v' ++ x0a :: rest) = Ok c.
Proof.
  assert (P : forall f rest, ~ In x0a f -> exists g, lines (f ++ x0a :: rest) = g :: lines rest).
  { intros f rest H. unfold lines. assert (X : forall s cur, ~ In x0a s -> lines_aux cur (s ++ x0a :: rest) = strip_cr (rev s ++ cur) :: lines_aux [] rest).
    { clear. induction s as [|c s IH]; intros cur H; cbn [app lines_aux rev]; [reflexivity|]. destruct (Byte.eqb c x0a) eqn:B.
      - apply byte_eqb_eq in B. subst c. exfalso. apply H. left. reflexivity.
      - rewrite IH by (intros Hx; apply H; right; exact Hx). rewrite <- app_assoc. reflexivity. }
    rewrite X by exact H. eexists. reflexivity. }
  intros C f v f' v' rest c F V F' V' H. unfold cert_from_str in *.
  destruct (P f (v ++ x0a :: rest) F) as [g1 E1]. destruct (P v rest V) as [g2 E2]. rewrite E1, E2 in H.
  destruct (P f' (v' ++ x0a :: rest) F') as [g3 E3]. destruct (P v' rest V') as [g4 E4]. rewrite E3, E4.
  destruct (Nat.eqb (Nat.modulo (length (lines rest)) 4) 0); [exact H|discriminate H].
Qed.
(** and so are byte strings that differ in the first six bytes only. *)
Lemma decode_trusts_header : forall C h h' b n off, length h = length h' -> len h <= off ->
  cert_decode_trusts C (h ++ b) n off = cert_decode_trusts C (h' ++ b) n off.
Proof.
  intros C h h' b n. induction n as [|n IH]; intros off L O; cbn [cert_decode_trusts]; [reflexivity|].
  assert (X : forall m, cert_check_arr_len (h ++ b) m = cert_check_arr_len (h' ++ b) m).
  { intros m. unfold cert_check_arr_len, len. rewrite !app_length, L. reflexivity. }
  assert (Y : @index certificate_error (h ++ b) off = index (h' ++ b) off).
  { unfold index, len in *. rewrite !nth_error_app2 by lia. rewrite L. reflexivity. }
  rewrite X, Y. destruct (cert_check_arr_len (h' ++ b) (off + 1)); cbn [bind]; try reflexivity.
  destruct (@index certificate_error (h' ++ b) off) as [l|e| |]; cbn [bind]; try reflexivity. rewrite X.
  assert (Z : @slice certificate_error (h ++ b) (off + 1) (off + 1 + N_of_u8 l) = slice (h' ++ b) (off + 1) (off + 1 + N_of_u8 l)).
  { unfold slice, len in *. rewrite !app_length, L. rewrite !skipn_app.
    rewrite (skipn_all2 h) by lia. rewrite (skipn_all2 h') by lia. rewrite L. reflexivity. }
  rewrite Z. rewrite IH by (try exact L; lia). reflexivity.
Qed.
Lemma p_C100_bytes_header_ignored : forall C h h' b, length h = 6%nat -> length h' = 6%nat ->
  cert_decode C (h ++ b) = cert_decode C (h' ++ b).
Proof.
  intros C h h' b H H'. unfold cert_decode, cert_check_arr_len, len. rewrite !app_length, H, H'.
  destruct (N.of_nat (6 + length b) <? 7) eqn:E; cbn [bind]; [reflexivity|].
  unfold index. rewrite !nth_error_app2 by (change (N.to_nat 6) with 6%nat; lia). rewrite H, H'.
  destruct (nth_error b (N.to_nat 6 - 6)) as [n|]; cbn [bind]; [|reflexivity].
  destruct (N_of_u8 n <? 2); [reflexivity|]. apply decode_trusts_header; [congruence|unfold len; lia].
Qed.
(** So a certificate that announces another version is accepted. *)
Lemma p_C100_other_versions_rejected_refuted : exists C c, valid_certificate C c [toy_key 1] (from_secs 5) /\
  (exists v rest, cert_to_string c = v ++ rest /\ v = str "11" ++ [x0a] ++ str "1111" ++ [x0a] /\
     cert_from_str C (str "11" ++ [x0a] ++ str "7777" ++ [x0a] ++ rest) = Ok c) /\
  (exists rest, cert_encode c = [x00; x00; x00; x00; x00; x00] ++ rest /\ cert_decode C ([x00; x00; x00; x00; x00; x07] ++ rest) = Ok c).
Proof.
  exists (toy true), [toy_trust 1 1 100 1; toy_trust 1 2 90 2]. split.
  { apply cert_verify_exact. vm_compute. reflexivity. }
  split.
  - exists (str "11" ++ [x0a] ++ str "1111" ++ [x0a]), (skipn 8 (cert_to_string [toy_trust 1 1 100 1; toy_trust 1 2 90 2])).
    split; [vm_compute; reflexivity|]. split; [reflexivity|]. vm_compute. reflexivity.
  - exists (skipn 6 (cert_encode [toy_trust 1 1 100 1; toy_trust 1 2 90 2])). split; vm_compute; reflexivity.
Qed.

(** ** C101 *)
(** The bytes of keys, *)
Lemma p_C101_key_layout : forall C k b, (pk_encode k = b <-> key_bytes k b) /\ (pk_decode C b = Ok k <-> pk_valid C k /\ key_bytes k b).
Proof.
  intros C k b. split; [split; apply key_bytes_exact|]. rewrite key_bytes_exact. split.
  - intros H. apply pk_decode_ok in H. tauto.
  - intros [H <-]. apply pk_decode_encode. exact H.
Qed.
Lemma byte_to_N_inj : forall a b : byte, Byte.to_N a = Byte.to_N b -> a = b.
Proof. intros a b H. pose proof (Byte.of_to_N a) as A. rewrite H, Byte.of_to_N in A. injection A as A. symmetry. exact A. Qed.
(** the peer ids of keys that fit into them, *)
Lemma p_C101_peer_id_layout : forall C k b, pk_valid C k -> pk_fmt k <> Rsa -> pk_to_peer_id C k = b <-> peer_id_bytes k b.
Proof.
  intros C [f raw] b [_ V] NR. cbn [pk_fmt pk_raw] in *. unfold pk_to_peer_id, peer_id_bytes, length_byte. cbn [pk_fmt pk_raw].
  destruct f; try (contradiction NR; reflexivity); cbn [raw_key_ok] in V; apply andb_true_iff in V; destruct V as [V _]; apply N.eqb_eq in V; unfold len in V.
  - split.
    + intros <-. exists x24, x01, x20, (x08 :: x01 :: x12 :: x20 :: raw). cbn [length]. rewrite !Nat2N.inj_succ, V. repeat split; reflexivity.
    + intros (n & kind & l & msg & -> & E1 & -> & E2 & ->). cbn [length] in E1. rewrite !Nat2N.inj_succ, V in E1. rewrite V in E2.
      rewrite (byte_to_N_inj n x24 E1), (byte_to_N_inj l x20 E2). reflexivity.
  - split.
    + intros <-. exists x25, x02, x21, (x08 :: x02 :: x12 :: x21 :: raw). cbn [length]. rewrite !Nat2N.inj_succ, V. repeat split; reflexivity.
    + intros (n & kind & l & msg & -> & E1 & -> & E2 & ->). cbn [length] in E1. rewrite !Nat2N.inj_succ, V in E1. rewrite V in E2.
      rewrite (byte_to_N_inj n x25 E1), (byte_to_N_inj l x21 E2). reflexivity.
Qed.
(** signatures, *)
Lemma p_C101_signature_layout : forall C s b, (sig_encode s = b <-> signature_bytes s b) /\ (sig_decode C b = Ok s <-> sig_valid C s /\ signature_bytes s b).
Proof.
  intros C s b. split; [split; apply signature_bytes_exact|]. rewrite signature_bytes_exact. split.
  - intros H. apply sig_decode_ok in H. tauto.
  - intros [H <-]. apply sig_decode_encode. exact H.
Qed.
Lemma trust_bytes_exact : forall C t b, trust_fits C t ->
  trust_bytes t b <-> len (pk_encode (issued_for t)) < 256 /\ len (sig_encode (trust_sig t)) < 256 /\ trust_encode t = b.
Proof.
  intros C t b (V1 & V2 & V3 & V4). unfold trust_bytes, trust_encode. split.
  - intros (kl & key & sl & sg & ex & iss & -> & L1 & K & L2 & G & E1 & E2). apply key_bytes_exact in K. apply signature_bytes_exact in G. subst key sg.
    apply length_byte_exact in L1. destruct L1 as [L1 <-]. apply length_byte_exact in L2. destruct L2 as [L2 <-].
    apply eight_exact in E1; [|apply V3]. apply eight_exact in E2; [|apply V4]. subst ex iss. auto.
  - intros (L1 & L2 & <-). eexists _, _, _, _, _, _. split; [reflexivity|].
    split; [apply length_byte_exact; auto|]. split; [apply key_bytes_exact; reflexivity|]. split; [apply length_byte_exact; auto|].
    split; [apply signature_bytes_exact; reflexivity|]. split; apply eight_exact; try reflexivity; [apply V3|apply V4].
Qed.
(** trusts: written so whenever the key and the signature fit their length bytes, and read exactly if so written, *)
Lemma p_C101_trust_layout : forall C t, trust_fits C t -> len (pk_encode (issued_for t)) < 256 -> len (sig_encode (trust_sig t)) < 256 ->
  trust_bytes t (trust_encode t).
Proof. intros C t F L1 L2. apply (trust_bytes_exact C t _ F). auto. Qed.
Lemma p_C101_trust_read_exact : forall C t b, trust_decode C b = Ok t <-> trust_fits C t /\ trust_bytes t b.
Proof.
  intros C t b. split.
  - intros H. destruct (trust_decode_canonical C b t H) as [<- F]. split; [exact F|]. apply (trust_bytes_exact C t _ F).
    apply trust_roundtrip_iff in H. tauto.
  - intros [F H]. apply (trust_bytes_exact C t _ F) in H. destruct H as (L1 & L2 & <-). apply trust_decode_encode; assumption.
Qed.
Lemma fits_bytes_lens : forall C t, trust_fits C t -> len (trust_encode t) < 256 -> len (pk_encode (issued_for t)) < 256 /\ len (sig_encode (trust_sig t)) < 256.
Proof. intros C t _ H. rewrite trust_encode_len in H. lia. Qed.
Lemma trusts_bytes_exact : forall C ts b, (forall t, In t ts -> trust_fits C t) ->
  trusts_bytes ts b <-> (forall t, In t ts -> len (trust_encode t) < 256) /\ flat_map enc1 ts = b.
Proof.
  intros C ts. induction ts as [|t ts IH]; intros b F.
  - split; [intros H; inversion H; subst; split; [intros t []|reflexivity]|]. intros [_ <-]. constructor.
  - specialize (IH (skipn (length (enc1 t)) b) (fun u H => F u (or_intror H))). split.
    + intros H. inversion H as [|? ? l b' bs H1 H2 H3]; subst. apply (trust_bytes_exact C t _ (F t (or_introl eq_refl))) in H1. destruct H1 as (L1 & L2 & <-).
      apply length_byte_exact in H2. destruct H2 as [H2 <-]. assert (E : skipn (length (enc1 t)) (u8_of_N (len (trust_encode t)) :: trust_encode t ++ bs) = bs).
      { unfold enc1. cbn [length skipn]. rewrite skipn_app, skipn_all, Nat.sub_diag. reflexivity. }
      rewrite E in IH. apply IH in H3. destruct H3 as [H3 <-]. split; [|reflexivity]. intros u [<-|Hu]; [exact H2|apply H3; exact Hu].
    + intros [L <-]. cbn [flat_map]. unfold enc1 at 1. cbn [app]. constructor.
      * apply (trust_bytes_exact C t _ (F t (or_introl eq_refl))). pose proof (fits_bytes_lens C t (F t (or_introl eq_refl)) (L t (or_introl eq_refl))). tauto.
      * apply length_byte_exact. split; [apply L; left; reflexivity|reflexivity].
      * cbn [flat_map] in IH. assert (E : skipn (length (enc1 t)) (enc1 t ++ flat_map enc1 ts) = flat_map enc1 ts) by (rewrite skipn_app, skipn_all, Nat.sub_diag; reflexivity).
        rewrite E in IH. apply IH. split; [intros u Hu; apply L; right; exact Hu|reflexivity].
Qed.
(** certificates: six zero bytes, the number of trusts and the trusts are written; they are read whatever the first six bytes are
    and whatever comes after the last trust. *)
Lemma p_C101_certificate_layout : forall C c, (forall t, In t c -> trust_fits C t /\ len (trust_encode t) < 256) -> (length c <= 255)%nat ->
  certificate_bytes (repeat x00 6) c (cert_encode c).
Proof.
  intros C c F L. unfold certificate_bytes, cert_encode. eexists. eexists. split; [reflexivity|].
  split; [apply N_of_u8_of_N_small; lia|]. apply (trusts_bytes_exact C); [intros t H; apply F; exact H|]. split; [intros t H; apply F; exact H|reflexivity].
Qed.
Lemma p_C101_certificate_read_exact : forall C b c, cert_decode C b = Ok c <->
  (2 <= length c)%nat /\ (forall t, In t c -> trust_fits C t) /\ exists h post p, length h = 6%nat /\ certificate_bytes h c p /\ b = p ++ post.
Proof.
  intros C b c. split.
  - intros H. unfold cert_decode in H. apply bind_ok in H. destruct H as (u & L & H). unfold cert_check_arr_len in L. destruct (len b <? 7) eqn:E; [discriminate L|].
    apply bind_ok in H. destruct H as (n & Hn & H). unfold index in Hn. destruct (nth_error b (N.to_nat 6)) as [x|] eqn:X; [|discriminate Hn]. apply Ok_inj in Hn. subst x.
    destruct (N_of_u8 n <? 2) eqn:E2; [discriminate H|]. apply cert_decode_trusts_ok in H; [|lia]. destruct H as (L1 & F & post & Hp).
    split; [lia|]. split; [intros t Ht; apply F; exact Ht|].
    exists (firstn 6 b), post, (firstn 6 b ++ n :: flat_map enc1 c). unfold len in E. split; [rewrite firstn_length; lia|]. split.
    + exists n, (flat_map enc1 c). split; [reflexivity|]. split; [rewrite L1, N2Nat.id; reflexivity|]. apply (trusts_bytes_exact C); [intros t Ht; apply F; exact Ht|].
      split; [intros t Ht; apply F; exact Ht|reflexivity].
    + rewrite <- app_assoc. cbn [app]. rewrite <- Hp. rewrite <- (firstn_skipn 6 b) at 1. f_equal. change (N.to_nat 6) with 6%nat in X. change (N.to_nat 7) with 7%nat.
      clear - X. do 6 (destruct b as [|? b]; [discriminate X|]). destruct b as [|x b]; [discriminate X|]. cbn in *. congruence.
  - intros (L & F & h & post & p & Lh & (n & bs & -> & N & T) & ->). apply (trusts_bytes_exact C) in T; [|exact F]. destruct T as [T <-].
    unfold cert_decode, cert_check_arr_len. rewrite <- !app_assoc. cbn [app].
    assert (Lb : (len (h ++ n :: flat_map enc1 c ++ post) <? 7) = false) by (unfold len; rewrite app_length; cbn [length]; lia).
    rewrite Lb. cbn [bind]. rewrite index_app by (unfold len; lia). cbn [bind]. change (N_of_u8 n) with (Byte.to_N n). rewrite N.
    replace (N.of_nat (length c) <? 2) with false by lia. rewrite Nat2N.id.
    replace (h ++ n :: flat_map enc1 c ++ post) with ((h ++ [n]) ++ flat_map enc1 c ++ post) by (rewrite <- app_assoc; reflexivity).
    replace 7 with (len (h ++ [n])) by (unfold len; rewrite app_length; cbn [length]; lia). apply cert_decode_trusts_encode. auto.
Qed.
(** and what is signed. *)
Lemma p_C101_trust_payload : forall C k ex iss, whole_secs ex -> whole_secs iss ->
  exists b, trust_signature_bytes C k ex iss = sha256 C b /\ trust_payload k (secs ex) (secs iss) b.
Proof.
  intros C k ex iss [W1 _] [W2 _]. eexists. split; [reflexivity|]. eexists _, _, _. split; [reflexivity|]. split; [apply key_bytes_exact; reflexivity|].
  split; apply eight_exact; auto.
Qed.
Lemma p_C101_revocation_payload : forall C k at_, whole_secs at_ -> len (pk_encode k) < 256 ->
  exists b, revocation_signature_bytes C k at_ = sha256 C b /\ revocation_payload k (secs at_) b.
Proof.
  intros C k at_ [W _] L. eexists. split; [reflexivity|]. eexists _, _, _. split; [reflexivity|]. split; [apply length_byte_exact; auto|].
  split; [apply key_bytes_exact; reflexivity|]. apply eight_exact; auto.
Qed.

(** ** C56 *)
(** A secret is accepted exactly if it is the secret of the key pair made of it. *)
Lemma p_C56_keypair_secret_canonical : forall C b f kp, kp_from_secret_key C b f = Ok kp <->
  kp_valid C kp /\ kp_fmt kp = f /\ kp_secret_bytes kp = Some b.
Proof.
  intros C b f kp. split.
  - unfold kp_from_secret_key, kp_valid, kp_secret_bytes. destruct f; [| discriminate |]; intros H.
    + destruct (len b =? 32) eqn:L; [|discriminate H]. apply Ok_inj in H. subst kp. cbn. split; [split; [reflexivity|lia]|auto].
    + unfold secp_from_bytes in H. destruct ((len b =? 32) && secp_scalar C b) eqn:L; [|discriminate H]. apply Ok_inj in H. subst kp. cbn.
      apply andb_true_iff in L. split; [split; [reflexivity|split; [lia|apply L]]|auto].
  - intros (V & <- & H). apply kp_secret_roundtrip; assumption.
Qed.
