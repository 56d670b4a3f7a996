(** Facts about the JSON reader and writer of Distro.v. *)
From Coq Require Import List NArith Bool Lia Permutation.
From Coq Require String.
Import String.StringSyntax.
From Verif Require Import Base BaseFacts Text TextFacts Service TextSpec Distro DistroSpec.
Import ListNotations.
Open Scope N_scope.

(** ** Characters *)
Lemma is_ws_in : forall c, is_ws c = true <-> In c [x20; x09; x0a; x0d].
Proof.
  intros c. unfold is_ws. rewrite !orb_true_iff, !byte_eqb_eq. cbn [In]. split; [intros [[[-> | ->] | ->] | ->]|intros [<- | [<- | [<- | [<- | []]]]]]; tauto.
Qed.
Lemma gap_nil : gap [].
Proof. intros c []. Qed.
Lemma gap_app : forall a b, gap a -> gap b -> gap (a ++ b).
Proof. intros a b A B c H. apply in_app_or in H. destruct H; auto. Qed.
Lemma skip_gap : forall g s, gap g -> skip_ws (g ++ s) = skip_ws s.
Proof.
  induction g as [|c g IH]; intros s G; [reflexivity|]. cbn [app skip_ws]. destruct (proj2 (is_ws_in c)); [apply G; left; reflexivity|].
  rewrite (proj2 (is_ws_in c)); [|apply G; left; reflexivity]. apply IH. intros x H. apply G. right. exact H.
Qed.
Lemma skip_sound : forall s, exists g, gap g /\ s = g ++ skip_ws s.
Proof.
  induction s as [|c s IH]; [exists []; split; [apply gap_nil|reflexivity]|]. cbn [skip_ws]. destruct (is_ws c) eqn:E.
  - destruct IH as (g & G & H). exists (c :: g). split; [|cbn; congruence]. intros x [<-|H']; [apply is_ws_in; exact E|apply G; exact H'].
  - exists []. split; [apply gap_nil|reflexivity].
Qed.
Lemma skip_stop : forall c s, is_ws c = false -> skip_ws (c :: s) = c :: s.
Proof. intros c s H. cbn [skip_ws]. rewrite H. reflexivity. Qed.
Lemma skip_length : forall s, (length (skip_ws s) <= length s)%nat.
Proof. intros s. destruct (skip_sound s) as (g & _ & H). rewrite H at 2. rewrite app_length. lia. Qed.

Lemma digit_iff : forall c d, dec_digit c = Some d <-> digit_char c d.
Proof.
  intros c d. unfold dec_digit, digit_char, N_of_u8. destruct ((48 <=? Byte.to_N c) && (Byte.to_N c <=? 57)) eqn:E.
  - apply andb_prop in E. destruct E as [A B]. apply N.leb_le in A, B. split; [intros [= <-]; lia|]. intros [L ->]. f_equal. lia.
  - split; [discriminate|]. intros [L H]. apply andb_false_iff in E. destruct E as [E|E]; apply N.leb_gt in E; lia.
Qed.
Lemma is_digit_iff : forall c, is_digit c = true <-> exists d, digit_char c d.
Proof.
  intros c. unfold is_digit. destruct (dec_digit c) as [d|] eqn:E; split; try discriminate; try reflexivity.
  - intros _. exists d. apply digit_iff. exact E.
  - intros (d & H). apply digit_iff in H. congruence.
Qed.
Lemma hex_iff : forall c d, hex_val c = Some d <-> hex_digit c d.
Proof.
  intros c d. split.
  - intros H.
    assert (A : Byte.to_N c < 103). { destruct (N.lt_ge_cases (Byte.to_N c) 103) as [L|L]; [exact L|]. unfold hex_val, N_of_u8 in H.
      repeat match type of H with context [?a <=? ?b] => destruct (N.leb_spec a b) end; cbn in H; try discriminate; lia. }
    destruct c; cbn in H; try discriminate; injection H as <-;
    first [ exists 0%nat; now cbn; auto | exists 1%nat; now cbn; auto | exists 2%nat; now cbn; auto | exists 3%nat; now cbn; auto | exists 4%nat; now cbn; auto
      | exists 5%nat; now cbn; auto | exists 6%nat; now cbn; auto | exists 7%nat; now cbn; auto | exists 8%nat; now cbn; auto | exists 9%nat; now cbn; auto
      | exists 10%nat; now cbn; auto | exists 11%nat; now cbn; auto | exists 12%nat; now cbn; auto | exists 13%nat; now cbn; auto | exists 14%nat; now cbn; auto
      | exists 15%nat; now cbn; auto ].
  - intros (i & -> & H). do 16 (destruct i as [|i]; [cbn in H; destruct H as [[= <-]|[= <-]]; reflexivity|]). destruct H as [H|H]; destruct i; discriminate.
Qed.
Lemma hex_digit_bound : forall c d, hex_digit c d -> d < 16.
Proof.
  intros c d (i & -> & H). enough (i < 16)%nat by lia. destruct H as [H|H]; apply (proj1 (nth_error_Some _ _)) in H + (assert (H' : nth_error _ i <> None) by (rewrite H; discriminate); apply nth_error_Some in H'; exact H').
Qed.
Lemma hex4_iff : forall a b c d n, hex4 a b c d = Some n <-> hex_text [a; b; c; d] n.
Proof.
  intros a b c d n. unfold hex4, hex_text. split.
  - destruct (hex_val a) as [x|] eqn:A; [|discriminate]. destruct (hex_val b) as [y|] eqn:B; [|discriminate].
    destruct (hex_val c) as [z|] eqn:D; [|discriminate]. destruct (hex_val d) as [w|] eqn:F; [|discriminate]. intros [= <-].
    exists [x; y; z; w]. split; [repeat constructor; apply hex_iff; assumption|split; [reflexivity|]]. cbn [positional fold_left]. lia.
  - intros (ds & F & L & ->). destruct ds as [|x [|y [|z [|w [|? ?]]]]]; try discriminate.
    inversion F as [|? ? ? ? H1 F1]; subst. inversion F1 as [|? ? ? ? H2 F2]; subst. inversion F2 as [|? ? ? ? H3 F3]; subst. inversion F3 as [|? ? ? ? H4 F4]; subst.
    apply hex_iff in H1, H2, H3, H4. rewrite H1, H2, H3, H4. cbn [positional fold_left]. f_equal. lia.
Qed.
Lemma forall2_length : forall A B (R : A -> B -> Prop) l l', Forall2 R l l' -> length l = length l'.
Proof. intros A B R l l' H. induction H; cbn; congruence. Qed.
Lemma hex_text_four : forall h n, hex_text h n -> exists a b c d, h = [a; b; c; d] /\ hex4 a b c d = Some n.
Proof.
  intros h n H. pose proof H as (ds & F & L & _). apply forall2_length in F. rewrite L in F.
  destruct h as [|a [|b [|c [|d [|? ?]]]]]; try discriminate. exists a, b, c, d. split; [reflexivity|apply hex4_iff; exact H].
Qed.
Lemma hex_text_bound : forall h n, hex_text h n -> n < 65536.
Proof.
  intros h n (ds & F & L & ->). destruct ds as [|x [|y [|z [|w [|? ?]]]]]; try discriminate.
  inversion F as [|? ? ? ? H1 F1]; subst. inversion F1 as [|? ? ? ? H2 F2]; subst. inversion F2 as [|? ? ? ? H3 F3]; subst. inversion F3 as [|? ? ? ? H4 F4]; subst.
  apply hex_digit_bound in H1, H2, H3, H4. cbn [positional fold_left]. lia.
Qed.
Lemma escape_iff : forall e c, simple_escape e = Some c <-> In (e, c) escapes.
Proof.
  intros e c. unfold simple_escape, escapes. split.
  - repeat (match goal with |- context [Byte.eqb e ?x] => destruct (Byte.eqb e x) eqn:E; [apply byte_eqb_eq in E; subst e; intros [= <-]; cbn [In]; tauto|clear E] end). discriminate.
  - cbn [In]. intros H. repeat destruct H as [H|H]; try contradiction; injection H as <- <-; reflexivity.
Qed.
Lemma escape_not_u : forall e c, In (e, c) escapes -> Byte.eqb e x75 = false.
Proof. intros e c H. cbn [escapes In] in H. repeat destruct H as [H|H]; try contradiction; injection H as <- _; reflexivity. Qed.
Lemma plain_iff : forall c, plain c <-> Byte.eqb c x22 = false /\ Byte.eqb c x5c = false /\ is_control c = false.
Proof.
  intros c. unfold plain, is_control, N_of_u8. rewrite !byte_eqb_neq, N.ltb_ge. tauto.
Qed.

(** ** Strings *)
Lemma long_induction : forall (P : text -> Prop), (forall s, (forall s', (length s' < length s)%nat -> P s') -> P s) -> forall s, P s.
Proof. intros P H s. apply (well_founded_induction (Wf_nat.well_founded_ltof _ (@length byte))). exact H. Qed.

Lemma scan_string_complete : forall w r, string_body w -> scan_string (w ++ x22 :: r) = Ok (w, r).
Proof.
  intros w r H. induction H as [|c s P H IH|e c s E H IH|h n s X H IH]; [reflexivity| | |].
  - apply plain_iff in P. destruct P as (A & B & D). cbn [app scan_string]. rewrite A, B, D, IH. reflexivity.
  - cbn [app scan_string]. change (Byte.eqb x5c x22) with false. change (Byte.eqb x5c x5c) with true. cbv iota. rewrite (escape_not_u e c E).
    rewrite (proj2 (escape_iff e c) E), IH. reflexivity.
  - destruct (hex_text_four h n X) as (a & b & g & d & -> & E). cbn [app scan_string]. change (Byte.eqb x5c x22) with false. change (Byte.eqb x5c x5c) with true.
    change (Byte.eqb x75 x75) with true. cbv iota. rewrite E, IH. reflexivity.
Qed.
Lemma scan_string_sound : forall s w r, scan_string s = Ok (w, r) -> string_body w /\ s = w ++ x22 :: r.
Proof.
  induction s as [s IH] using long_induction. intros w r H. destruct s as [|c s]; [discriminate|]. cbn [scan_string] in H.
  destruct (Byte.eqb c x22) eqn:Q; [apply byte_eqb_eq in Q; subst c; injection H as <- <-; split; [constructor|reflexivity]|].
  destruct (Byte.eqb c x5c) eqn:Bk.
  - apply byte_eqb_eq in Bk. subst c. destruct s as [|e s]; [discriminate|]. destruct (Byte.eqb e x75) eqn:U.
    + apply byte_eqb_eq in U. subst e. destruct s as [|a [|b [|g [|h s]]]]; try discriminate. destruct (hex4 a b g h) as [n|] eqn:X; [|discriminate].
      destruct (scan_string s) as [[w' r']| | |] eqn:E; try discriminate. injection H as <- <-. apply IH in E; [|cbn; lia]. destruct E as [A ->].
      split; [|reflexivity]. apply (sb_unicode [a; b; g; h] n); [apply hex4_iff; exact X|exact A].
    + destruct (simple_escape e) as [y|] eqn:X; [|discriminate]. destruct (scan_string s) as [[w' r']| | |] eqn:E; try discriminate. injection H as <- <-.
      apply IH in E; [|cbn; lia]. destruct E as [A ->]. split; [|reflexivity]. apply (sb_escape e y); [apply escape_iff; exact X|exact A].
  - destruct (is_control c) eqn:K; [discriminate|]. destruct (scan_string s) as [[w' r']| | |] eqn:E; try discriminate. injection H as <- <-.
    apply IH in E; [|cbn; lia]. destruct E as [A ->]. split; [|reflexivity]. apply sb_plain; [apply plain_iff; auto|exact A].
Qed.
Lemma scan_string_total : forall s, scan_string s <> Panic /\ scan_string s <> OutOfFuel.
Proof.
  induction s as [s IH] using long_induction. destruct s as [|c s]; [split; discriminate|]. cbn [scan_string].
  destruct (Byte.eqb c x22); [split; discriminate|]. destruct (Byte.eqb c x5c).
  - destruct s as [|e s]; [split; discriminate|]. destruct (Byte.eqb e x75).
    + destruct s as [|a [|b [|g [|h s]]]]; try (split; discriminate). destruct (hex4 a b g h); [|split; discriminate].
      specialize (IH s ltac:(cbn; lia)). destruct (scan_string s); cbn; split; try discriminate; tauto.
    + destruct (simple_escape e); [|split; discriminate]. specialize (IH s ltac:(cbn; lia)). destruct (scan_string s); cbn; split; try discriminate; tauto.
  - destruct (is_control c); [split; discriminate|]. specialize (IH s ltac:(cbn; lia)). destruct (scan_string s); cbn; split; try discriminate; tauto.
Qed.

(** UTF-8. *)
Lemma utf8_is : forall n, n < 2 ^ 21 -> utf8_text n (utf8 n).
Proof.
  intros n H. change (2 ^ 21) with 2097152 in H. unfold utf8_text. change (2 ^ 7) with 128. change (2 ^ 11) with 2048. change (2 ^ 16) with 65536. change (2 ^ 21) with 2097152.
  assert (D : forall k, k / 64 < 64 -> True) by auto. clear D. unfold utf8.
  pose proof (N.div_mod n 64 ltac:(lia)) as E1. pose proof (N.mod_lt n 64 ltac:(lia)) as L1.
  pose proof (N.div_mod (n / 64) 64 ltac:(lia)) as E2. pose proof (N.mod_lt (n / 64) 64 ltac:(lia)) as L2.
  pose proof (N.div_mod (n / 64 / 64) 64 ltac:(lia)) as E3. pose proof (N.mod_lt (n / 64 / 64) 64 ltac:(lia)) as L3.
  assert (F1 : n / 4096 = n / 64 / 64) by (rewrite N.div_div by lia; reflexivity).
  assert (F2 : n / 262144 = n / 64 / 64 / 64) by (rewrite !N.div_div by lia; reflexivity). rewrite F1, F2.
  destruct (N.ltb_spec n 128) as [A|A]; [left; split; [exact A|]; cbn [map]; change Byte.to_N with N_of_u8; rewrite N_of_u8_of_N_small by lia; reflexivity|].
  destruct (N.ltb_spec n 2048) as [B|B].
  { right. left. split; [lia|]. exists (n / 64), (n mod 64). split; [exact E1|]. split; [exact L1|]. cbn [map]; change Byte.to_N with N_of_u8.
    rewrite !N_of_u8_of_N_small by lia. reflexivity. }
  destruct (N.ltb_spec n 65536) as [G|G].
  { right. right. left. split; [lia|]. exists (n / 64 / 64), (n / 64 mod 64), (n mod 64). split; [lia|]. split; [exact L2|]. split; [exact L1|]. cbn [map]; change Byte.to_N with N_of_u8.
    rewrite !N_of_u8_of_N_small by lia. reflexivity. }
  right. right. right. split; [lia|]. exists (n / 64 / 64 / 64), (n / 64 / 64 mod 64), (n / 64 mod 64), (n mod 64). split; [lia|]. split; [exact L3|]. split; [exact L2|]. split; [exact L1|].
  cbn [map]; change Byte.to_N with N_of_u8. rewrite !N_of_u8_of_N_small by lia. reflexivity.
Qed.
Lemma bytes_of_map : forall a b : text, map Byte.to_N a = map Byte.to_N b -> a = b.
Proof.
  induction a as [|x a IH]; intros [|y b] H; try discriminate; [reflexivity|]. injection H as H1 H2. f_equal; [|apply IH; exact H2].
  apply N_of_u8_inj. exact H1.
Qed.
Lemma divide : forall a b n, n = 64 * a + b -> b < 64 -> n / 64 = a /\ n mod 64 = b.
Proof. intros a b n E L. split; [symmetry; apply (N.div_unique n 64 a b L E)|symmetry; apply (N.mod_unique n 64 a b L E)]. Qed.
Lemma utf8_only : forall n s, utf8_text n s -> s = utf8 n.
Proof.
  intros n s H. assert (L : n < 2 ^ 21). { destruct H as [[H _]|[[H _]|[[H _]|[H _]]]]; change (2 ^ 7) with 128 in *; change (2 ^ 11) with 2048 in *; change (2 ^ 16) with 65536 in *; change (2 ^ 21) with 2097152 in *; lia. }
  pose proof (utf8_is n L) as U. clear L. apply bytes_of_map.
  destruct H as [[R H]|[[R H]|[[R H]|[R H]]]]; destruct U as [[R' U]|[[R' U]|[[R' U]|[R' U]]]];
  change (2 ^ 7) with 128 in *; change (2 ^ 11) with 2048 in *; change (2 ^ 16) with 65536 in *; change (2 ^ 21) with 2097152 in *; try lia.
  - congruence.
  - destruct H as (a & b & E & B & ->), U as (a' & b' & E' & B' & ->). destruct (divide a b n E B), (divide a' b' n E' B'). subst. congruence.
  - destruct H as (a & b & c & E & B & D & ->), U as (a' & b' & c' & E' & B' & D' & ->). destruct (divide _ c n E D) as [Q1 Q2], (divide _ c' n E' D') as [Q1' Q2'].
    destruct (divide a b (n / 64)), (divide a' b' (n / 64)); try lia. subst. congruence.
  - destruct H as (a & b & c & d & E & B & D & F & ->), U as (a' & b' & c' & d' & E' & B' & D' & F' & ->). destruct (divide _ d n E F) as [Q1 Q2], (divide _ d' n E' F') as [Q1' Q2'].
    destruct (divide _ c (n / 64) Q1 D) as [Q3 Q4], (divide _ c' (n / 64) Q1' D') as [Q3' Q4'].
    destruct (divide a b (n / 64 / 64)), (divide a' b' (n / 64 / 64)); try lia. subst. congruence.
Qed.

Lemma spells_body : forall w s, spells w s -> string_body w.
Proof.
  intros w s H. induction H as [|c w s P H IH|e c w s E H IH|h n u w s X _ _ _ H IH|h n h' n' u w s X _ X' _ _ H IH].
  - constructor.
  - constructor; assumption.
  - apply (sb_escape e c); assumption.
  - apply (sb_unicode h n); assumption.
  - apply (sb_unicode h n); [exact X|]. apply (sb_unicode h' n'); assumption.
Qed.
Lemma string_says_complete : forall w s, spells w s -> string_says w = Ok s.
Proof.
  intros w s H. induction H as [|c w s P H IH|e c w s E H IH|h n u w s X Hh Hl U H IH|h n h' n' u w s X Hh X' Hl U H IH]; [reflexivity| | | |].
  - apply plain_iff in P. destruct P as (_ & B & _). cbn [string_says]. rewrite B, IH. reflexivity.
  - cbn [string_says]. change (Byte.eqb x5c x5c) with true. cbv iota. rewrite (escape_not_u e c E), (proj2 (escape_iff e c) E), IH. reflexivity.
  - destruct (hex_text_four h n X) as (a & b & g & d & -> & E). cbn [app string_says]. change (Byte.eqb x5c x5c) with true. change (Byte.eqb x75 x75) with true. cbv iota. rewrite E.
    assert (A : (56320 <=? n) && (n <=? 57343) = false) by (apply not_true_iff_false; intros K; apply andb_prop in K; destruct K as [K1 K2]; apply N.leb_le in K1, K2; apply Hl; unfold low_surrogate; lia).
    assert (B : (55296 <=? n) && (n <=? 56319) = false) by (apply not_true_iff_false; intros K; apply andb_prop in K; destruct K as [K1 K2]; apply N.leb_le in K1, K2; apply Hh; unfold high_surrogate; lia).
    rewrite A, B, IH. cbn [bind]. rewrite (utf8_only n u U). reflexivity.
  - destruct (hex_text_four h n X) as (a & b & g & d & -> & E). destruct (hex_text_four h' n' X') as (a' & b' & g' & d' & -> & E').
    cbn [app string_says]. change (Byte.eqb x5c x5c) with true. change (Byte.eqb x75 x75) with true. cbv iota. rewrite E. unfold high_surrogate in Hh. unfold low_surrogate in Hl.
    assert (A : (56320 <=? n) && (n <=? 57343) = false) by (apply andb_false_iff; left; apply N.leb_gt; lia).
    assert (B : (55296 <=? n) && (n <=? 56319) = true) by (apply andb_true_intro; split; apply N.leb_le; lia).
    assert (D : (56320 <=? n') && (n' <=? 57343) = true) by (apply andb_true_intro; split; apply N.leb_le; lia).
    rewrite A, B. cbn [andb]. rewrite E', D, IH. cbn [bind]. rewrite (utf8_only _ u U). do 3 f_equal. lia.
Qed.
Lemma string_says_sound : forall w s, string_body w -> string_says w = Ok s -> spells w s.
Proof.
  induction w as [w IH] using long_induction. intros s Bd H. destruct w as [|c w]; [injection H as <-; constructor|]. cbn [string_says] in H.
  destruct (Byte.eqb c x5c) eqn:Bk.
  - apply byte_eqb_eq in Bk. subst c. destruct w as [|e w]; [discriminate|]. destruct (Byte.eqb e x75) eqn:U.
    + apply byte_eqb_eq in U. subst e. destruct w as [|a [|b [|g [|h w]]]]; try discriminate. destruct (hex4 a b g h) as [n|] eqn:X; [|discriminate].
      assert (Bd' : string_body w).
      { inversion Bd as [|? ? P _|? ? ? E ?|h0 n0 s0 X0 Hb E0]; subst; [exfalso; apply (proj1 (proj2 P)); reflexivity|apply escape_not_u in E; discriminate|].
        destruct (hex_text_four h0 n0 X0) as (a0 & b0 & g0 & d0 & -> & _). injection E0 as _ _ _ _ <-. exact Hb. }
      apply hex4_iff in X. destruct ((56320 <=? n) && (n <=? 57343)) eqn:L; [discriminate|]. destruct ((55296 <=? n) && (n <=? 56319)) eqn:Hs.
      * destruct w as [|p [|q [|a' [|b' [|g' [|h' w]]]]]]; try discriminate. destruct (Byte.eqb p x5c && Byte.eqb q x75) eqn:PQ; [|discriminate].
        apply andb_prop in PQ. destruct PQ as [P Q]. apply byte_eqb_eq in P, Q. subst p q. destruct (hex4 a' b' g' h') as [m|] eqn:X'; [|discriminate].
        apply hex4_iff in X'. destruct ((56320 <=? m) && (m <=? 57343)) eqn:L'; [|discriminate]. destruct (string_says w) as [s'| | |] eqn:E; try discriminate. injection H as <-.
        assert (Bd'' : string_body w).
        { inversion Bd' as [|? ? P _|? ? ? E1 ?|h0 n0 s0 X0 Hb E0]; subst; [exfalso; apply (proj1 (proj2 P)); reflexivity|apply escape_not_u in E1; discriminate|].
          destruct (hex_text_four h0 n0 X0) as (a0 & b0 & g0 & d0 & -> & _). injection E0 as _ _ _ _ <-. exact Hb. }
        apply andb_prop in Hs. destruct Hs as [H1 H2]. apply andb_prop in L'. destruct L' as [H3 H4]. apply N.leb_le in H1, H2, H3, H4.
        apply (sp_pair [a; b; g; h] n [a'; b'; g'; h'] m); [exact X|unfold high_surrogate; lia|exact X'|unfold low_surrogate; lia| |apply IH; [cbn; lia|exact Bd''|exact E]].
        replace (65536 + 1024 * (n - 55296) + (m - 56320)) with ((n - 55296) * 1024 + (m - 56320) + 65536) by lia. apply utf8_is. change (2 ^ 21) with 2097152. lia.
      * destruct (string_says w) as [s'| | |] eqn:E; try discriminate. injection H as <-.
        apply (sp_unicode [a; b; g; h] n); [exact X| | | |apply IH; [cbn; lia|exact Bd'|exact E]].
        -- intros [K1 K2]. apply andb_false_iff in Hs. destruct Hs as [K|K]; apply N.leb_gt in K; lia.
        -- intros [K1 K2]. apply andb_false_iff in L. destruct L as [K|K]; apply N.leb_gt in K; lia.
        -- apply utf8_is. apply hex_text_bound in X. change (2 ^ 21) with 2097152. lia.
    + destruct (simple_escape e) as [y|] eqn:X; [|discriminate]. destruct (string_says w) as [s'| | |] eqn:E; try discriminate. injection H as <-.
      assert (Bd' : string_body w).
      { inversion Bd as [|? ? P _|? ? ? E1 Hb|h0 n0 s0 X0 Hb E0]; subst; [exfalso; apply (proj1 (proj2 P)); reflexivity|exact Hb|discriminate]. }
      apply sp_escape; [apply escape_iff; exact X|apply IH; [cbn; lia|exact Bd'|exact E]].
  - destruct (string_says w) as [s'| | |] eqn:E; try discriminate. injection H as <-.
    inversion Bd as [|? ? P Hb|? ? ? E1 Hb|h0 n0 s0 X0 Hb E0]; subst; try discriminate. apply sp_plain; [exact P|apply IH; [cbn; lia|exact Hb|exact E]].
Qed.
Lemma string_says_total : forall s, string_says s <> Panic /\ string_says s <> OutOfFuel.
Proof.
  induction s as [s IH] using long_induction. destruct s as [|c s]; [split; discriminate|]. cbn [string_says].
  destruct (Byte.eqb c x5c).
  - destruct s as [|e s]; [split; discriminate|]. destruct (Byte.eqb e x75).
    + destruct s as [|a [|b [|g [|h s]]]]; try (split; discriminate). destruct (hex4 a b g h) as [n|]; [|split; discriminate].
      destruct ((56320 <=? n) && (n <=? 57343)); [split; discriminate|]. destruct ((55296 <=? n) && (n <=? 56319)).
      * destruct s as [|p [|q [|a' [|b' [|g' [|h' s]]]]]]; try (split; discriminate). destruct (Byte.eqb p x5c && Byte.eqb q x75); [|split; discriminate].
        destruct (hex4 a' b' g' h') as [m|]; [|split; discriminate]. destruct ((56320 <=? m) && (m <=? 57343)); [|split; discriminate].
        specialize (IH s ltac:(cbn; lia)). destruct (string_says s); cbn; split; try discriminate; tauto.
      * specialize (IH s ltac:(cbn; lia)). destruct (string_says s); cbn; split; try discriminate; tauto.
    + destruct (simple_escape e); [|split; discriminate]. specialize (IH s ltac:(cbn; lia)). destruct (string_says s); cbn; split; try discriminate; tauto.
  - specialize (IH s ltac:(cbn; lia)). destruct (string_says s); cbn; split; try discriminate; tauto.
Qed.
Lemma spells_fun : forall w s s', spells w s -> spells w s' -> s = s'.
Proof. intros w s s' A B. apply string_says_complete in A, B. congruence. Qed.

(** ** Numbers *)
Lemma digit_not : forall c x d, digit_char c x -> Byte.to_N d < 48 \/ 57 < Byte.to_N d -> Byte.eqb c d = false.
Proof. intros c x d [L X] H. apply byte_eqb_neq. intros ->. lia. Qed.
(** What may follow a value: the end, whitespace, a comma or a closing bracket. *)
Definition ends (r : text) : Prop := match r with [] => True | c :: _ => is_ws c = true \/ c = x2c \/ c = x5d \/ c = x7d end.
Lemma ends_not : forall c r, ends (c :: r) -> is_digit c = false /\ Byte.eqb c x2e = false /\ Byte.eqb c x65 = false /\ Byte.eqb c x45 = false.
Proof.
  intros c r [H|[->|[->| ->]]]; try (repeat split; reflexivity). apply is_ws_in in H. cbn [In] in H. repeat destruct H as [<-|H]; try contradiction; repeat split; reflexivity.
Qed.
Lemma digits_span : forall s r, digits s -> (match r with [] => True | c :: _ => is_digit c = false end) -> span is_digit (s ++ r) = (s, r).
Proof.
  intros s r [_ D] R. apply span_intro; [|destruct r; [exact I|exact R]]. apply Forall_forall. intros c H. apply is_digit_iff. apply D. exact H.
Qed.
Lemma span_digits : forall s a b, span is_digit s = (a, b) -> a <> [] -> digits a /\ s = a ++ b.
Proof.
  intros s a b H N. apply span_app in H. destruct H as (-> & F & _). split; [|reflexivity]. split; [exact N|]. intros c K. apply is_digit_iff. rewrite Forall_forall in F. apply F. exact K.
Qed.
Lemma scan_digits_complete : forall s r, digits s -> (match r with [] => True | c :: _ => is_digit c = false end) -> scan_digits (s ++ r) = Ok (s, r).
Proof. intros s r D R. unfold scan_digits. rewrite (digits_span s r D R). destruct s; [destruct D as [N _]; congruence|reflexivity]. Qed.
Lemma scan_digits_sound : forall s w r, scan_digits s = Ok (w, r) -> digits w /\ s = w ++ r.
Proof.
  intros s w r H. unfold scan_digits in H. destruct (span is_digit s) as [a b] eqn:E. destruct a as [|c a]; [discriminate|]. injection H as <- <-. apply span_digits in E; [exact E|discriminate].
Qed.
Lemma scan_digits_total : forall s, scan_digits s <> Panic /\ scan_digits s <> OutOfFuel.
Proof. intros s. unfold scan_digits. destruct (span is_digit s) as [[|c a] b]; split; discriminate. Qed.

Lemma scan_integer_complete : forall s r, int_part s -> (match r with [] => True | c :: _ => is_digit c = false end) -> scan_integer (s ++ r) = Ok (s, r).
Proof.
  intros s r [-> |[D Z]] R.
  - cbn [str String.list_byte_of_string map String.list_ascii_of_string app]. cbn. destruct r as [|c r]; [reflexivity|]. rewrite R. reflexivity.
  - pose proof D as [N A]. destruct s as [|c s]; [congruence|]. unfold scan_integer. rewrite <- (digits_span (c :: s) r D R). cbn [app].
    assert (K : Byte.eqb c x30 = false) by (apply byte_eqb_neq; intros ->; apply Z; reflexivity). rewrite K.
    rewrite (proj2 (is_digit_iff c)); [reflexivity|]. apply A. left. reflexivity.
Qed.
Lemma scan_integer_sound : forall s w r, scan_integer s = Ok (w, r) -> int_part w /\ s = w ++ r.
Proof.
  intros s w r H. unfold scan_integer in H. destruct s as [|c s]; [discriminate|]. destruct (Byte.eqb c x30) eqn:Z.
  - apply byte_eqb_eq in Z. subst c. destruct s as [|d s]; [injection H as <- <-; split; [left; reflexivity|reflexivity]|].
    destruct (is_digit d); [discriminate|]. injection H as <- <-. split; [left; reflexivity|reflexivity].
  - destruct (is_digit c) eqn:D; [|discriminate]. assert (H0 : span is_digit (c :: s) = (w, r)) by congruence.
    assert (H3 : exists a, w = c :: a) by (cbn [span] in H0; rewrite D in H0; destruct (span is_digit s) as [a b]; injection H0 as <- _; eexists; reflexivity).
    destruct H3 as (a & ->). apply span_digits in H0; [|discriminate]. destruct H0 as [H1 H2]. split; [right; split; [exact H1|]|exact H2]. cbn. intros [= ->]. discriminate.
Qed.
Lemma scan_fraction_complete : forall s r, frac_part s -> (match r with [] => True | c :: _ => is_digit c = false /\ Byte.eqb c x2e = false end) -> scan_fraction (s ++ r) = Ok (s, r).
Proof.
  intros s r [-> |(ds & -> & D)] R.
  - cbn [app]. destruct r as [|c r]; [reflexivity|]. cbn [scan_fraction]. rewrite (proj2 R). reflexivity.
  - cbn [app scan_fraction]. change (Byte.eqb x2e x2e) with true. cbv iota. rewrite (scan_digits_complete ds r D); [reflexivity|]. destruct r; [exact I|apply R].
Qed.
Lemma scan_fraction_sound : forall s w r, scan_fraction s = Ok (w, r) -> frac_part w /\ s = w ++ r.
Proof.
  intros s w r H. unfold scan_fraction in H. destruct s as [|c s]; [injection H as <- <-; split; [left; reflexivity|reflexivity]|].
  destruct (Byte.eqb c x2e) eqn:P; [|injection H as <- <-; split; [left; reflexivity|reflexivity]]. apply byte_eqb_eq in P. subst c.
  destruct (scan_digits s) as [[w' r']| | |] eqn:E; try discriminate. injection H as <- <-. apply scan_digits_sound in E. destruct E as [D ->]. split; [right; exists w'; auto|reflexivity].
Qed.
Lemma scan_exponent_complete : forall s r, exp_part s -> ends r -> scan_exponent (s ++ r) = Ok (s, r).
Proof.
  intros s r H R. assert (R0 : match r with [] => True | c :: _ => is_digit c = false end) by (destruct r; [exact I|apply (ends_not _ _ R)]).
  destruct H as [-> |(e & sg & ds & -> & He & Hs & D)].
  - cbn [app]. destruct r as [|c r]; [reflexivity|]. cbn [scan_exponent]. destruct (ends_not _ _ R) as (_ & _ & A & B). rewrite A, B. reflexivity.
  - assert (E : Byte.eqb e x65 || Byte.eqb e x45 = true) by (cbn [In] in He; destruct He as [<-|[<-|[]]]; reflexivity).
    cbn [app scan_exponent]. rewrite E. cbn [In] in Hs. destruct Hs as [<-|[<-|[<-|[]]]]; cbn [app].
    + pose proof D as [N A]. destruct ds as [|d ds]; [congruence|]. cbn [app]. destruct (A d (or_introl eq_refl)) as (x & X).
      assert (K : Byte.eqb d x2b || Byte.eqb d x2d = false).
      { apply orb_false_iff. split; apply (digit_not d x _ X); left; reflexivity. }
      rewrite K. change (d :: ds ++ r) with ((d :: ds) ++ r). rewrite (scan_digits_complete (d :: ds) r D R0). reflexivity.
    + change (Byte.eqb x2b x2b || Byte.eqb x2b x2d) with true. cbv iota. rewrite (scan_digits_complete ds r D R0). reflexivity.
    + change (Byte.eqb x2d x2b || Byte.eqb x2d x2d) with true. cbv iota. rewrite (scan_digits_complete ds r D R0). reflexivity.
Qed.
Lemma scan_exponent_sound : forall s w r, scan_exponent s = Ok (w, r) -> exp_part w /\ s = w ++ r.
Proof.
  intros s w r H. unfold scan_exponent in H. destruct s as [|c s]; [injection H as <- <-; split; [left; reflexivity|reflexivity]|].
  destruct (Byte.eqb c x65 || Byte.eqb c x45) eqn:P; [|injection H as <- <-; split; [left; reflexivity|reflexivity]].
  assert (P' : In c [x65; x45]) by (apply orb_true_iff in P; rewrite !byte_eqb_eq in P; cbn [In]; destruct P as [-> | ->]; tauto).
  destruct s as [|g s]; [discriminate|]. destruct (Byte.eqb g x2b || Byte.eqb g x2d) eqn:G.
  - destruct (scan_digits s) as [[w' r']| | |] eqn:E; try discriminate. injection H as <- <-. apply scan_digits_sound in E. destruct E as [D ->].
    split; [right; exists c, [g], w'|reflexivity]. repeat split; try assumption; try apply D. apply orb_true_iff in G. rewrite !byte_eqb_eq in G. cbn [In]. destruct G as [-> | ->]; tauto.
  - destruct (scan_digits (g :: s)) as [[w' r']| | |] eqn:E; try discriminate. injection H as <- <-. apply scan_digits_sound in E. destruct E as [D Eq].
    split; [right; exists c, [], w'|cbn; congruence]. repeat split; try assumption; try apply D. cbn [In]. tauto.
Qed.
Lemma scan_unsigned_complete : forall i f e r, int_part i -> frac_part f -> exp_part e -> ends r -> scan_unsigned ((i ++ f ++ e) ++ r) = Ok (i ++ f ++ e, r).
Proof.
  intros i f e r I F E R. unfold scan_unsigned. rewrite <- !app_assoc.
  assert (Re : match e ++ r with [] => True | c :: _ => is_digit c = false /\ Byte.eqb c x2e = false end).
  { destruct E as [-> |(x & sg & ds & -> & Hx & _)]; cbn [app].
    - destruct r; [exact Logic.I|]. destruct (ends_not _ _ R) as (A & B & _). auto.
    - cbn [In] in Hx. destruct Hx as [<-|[<-|[]]]; split; reflexivity. }
  assert (Rf : match f ++ e ++ r with [] => True | c :: _ => is_digit c = false end).
  { destruct F as [-> |(ds & -> & _)]; cbn [app]; [destruct (e ++ r); [exact Logic.I|apply Re]|reflexivity]. }
  rewrite (scan_integer_complete i _ I Rf). cbn [bind snd fst]. rewrite (scan_fraction_complete f _ F Re). cbn [bind snd fst]. rewrite (scan_exponent_complete e r E R). reflexivity.
Qed.
Lemma scan_unsigned_sound : forall s w r, scan_unsigned s = Ok (w, r) -> exists i f e, w = i ++ f ++ e /\ int_part i /\ frac_part f /\ exp_part e /\ s = w ++ r.
Proof.
  intros s w r H. unfold scan_unsigned in H. destruct (scan_integer s) as [[i r1]| | |] eqn:E1; try discriminate. cbn [bind snd fst] in H.
  destruct (scan_fraction r1) as [[f r2]| | |] eqn:E2; try discriminate. cbn [bind snd fst] in H. destruct (scan_exponent r2) as [[e r3]| | |] eqn:E3; try discriminate.
  cbn [bind snd fst] in H. injection H as <- <-. apply scan_integer_sound in E1. apply scan_fraction_sound in E2. apply scan_exponent_sound in E3.
  destruct E1 as [A ->], E2 as [B ->], E3 as [D ->]. exists i, f, e. rewrite <- !app_assoc. auto.
Qed.
Lemma int_part_no_minus : forall i s, int_part i -> exists c t, i ++ s = c :: t /\ Byte.eqb c x2d = false.
Proof.
  intros i s [-> |[[N A] _]]; [exists x30, s; split; reflexivity|]. destruct i as [|c i]; [congruence|]. exists c, (i ++ s). split; [reflexivity|].
  destruct (A c (or_introl eq_refl)) as (x & X). apply (digit_not c x _ X). left. reflexivity.
Qed.
Lemma scan_number_complete : forall w r, json_number w -> ends r -> scan_number (w ++ r) = Ok (w, r).
Proof.
  intros w r (sg & i & f & e & -> & S & I & F & E) R. cbn [In] in S. destruct S as [<-|[<-|[]]]; cbn [app].
  - destruct (int_part_no_minus i ((f ++ e) ++ r) I) as (c & t & Eq & M). unfold scan_number. rewrite <- app_assoc, Eq, M, <- Eq, app_assoc. apply scan_unsigned_complete; assumption.
  - unfold scan_number. change (Byte.eqb x2d x2d) with true. cbv iota. rewrite (scan_unsigned_complete i f e r I F E R). reflexivity.
Qed.
Lemma scan_number_sound : forall s w r, scan_number s = Ok (w, r) -> json_number w /\ s = w ++ r.
Proof.
  intros s w r H. unfold scan_number in H. destruct s as [|c s]; [discriminate|]. destruct (Byte.eqb c x2d) eqn:M.
  - apply byte_eqb_eq in M. subst c. destruct (scan_unsigned s) as [[w' r']| | |] eqn:E; try discriminate. injection H as <- <-. apply scan_unsigned_sound in E.
    destruct E as (i & f & e & -> & A & B & D & ->). split; [|reflexivity]. exists [x2d], i, f, e. cbn [In]. auto 8.
  - apply scan_unsigned_sound in H. destruct H as (i & f & e & -> & A & B & D & ->). split; [|reflexivity]. exists [], i, f, e. cbn [In]. auto 8.
Qed.
Lemma scan_number_total : forall s, scan_number s <> Panic /\ scan_number s <> OutOfFuel.
Proof.
  assert (E : forall s, scan_exponent s <> Panic /\ scan_exponent s <> OutOfFuel).
  { intros [|c s]; [split; discriminate|]. cbn [scan_exponent]. destruct (Byte.eqb c x65 || Byte.eqb c x45); [|split; discriminate]. destruct s as [|g s]; [split; discriminate|].
    destruct (Byte.eqb g x2b || Byte.eqb g x2d); [pose proof (scan_digits_total s) as T; destruct (scan_digits s)|pose proof (scan_digits_total (g :: s)) as T; destruct (scan_digits (g :: s))]; cbn; split; try discriminate; tauto. }
  assert (F : forall s, scan_fraction s <> Panic /\ scan_fraction s <> OutOfFuel).
  { intros [|c s]; [split; discriminate|]. cbn [scan_fraction]. destruct (Byte.eqb c x2e); [|split; discriminate]. pose proof (scan_digits_total s) as T; destruct (scan_digits s); cbn; split; try discriminate; tauto. }
  assert (I : forall s, scan_integer s <> Panic /\ scan_integer s <> OutOfFuel).
  { intros [|c s]; [split; discriminate|]. cbn [scan_integer]. destruct (Byte.eqb c x30); [destruct s as [|d s]; [|destruct (is_digit d)]|destruct (is_digit c)]; split; discriminate. }
  assert (U : forall s, scan_unsigned s <> Panic /\ scan_unsigned s <> OutOfFuel).
  { intros s. unfold scan_unsigned. specialize (I s). destruct (scan_integer s) as [[i r1]| | |]; cbn; try (split; try discriminate; tauto).
    specialize (F r1). destruct (scan_fraction r1) as [[f r2]| | |]; cbn; try (split; try discriminate; tauto). specialize (E r2). destruct (scan_exponent r2) as [[e r3]| | |]; cbn; try (split; try discriminate; tauto). }
  intros [|c s]; [split; discriminate|]. unfold scan_number. destruct (Byte.eqb c x2d); [|apply U]. specialize (U s). destruct (scan_unsigned s); cbn; split; try discriminate; tauto.
Qed.
Lemma json_number_head : forall w, json_number w -> exists c t, w = c :: t /\ (c = x2d \/ exists d, digit_char c d).
Proof.
  intros w (sg & i & f & e & -> & S & I & _). cbn [In] in S. destruct S as [<-|[<-|[]]]; cbn [app]; [|eexists; eexists; split; [reflexivity|left; reflexivity]].
  destruct I as [-> |[[N A] _]]; [exists x30, (f ++ e); split; [reflexivity|right; exists 0; split; [lia|reflexivity]]|]. destruct i as [|c i]; [congruence|]. exists c, (i ++ f ++ e). split; [reflexivity|].
  right. apply A. left. reflexivity.
Qed.

(** ** Literals *)
Lemma after_literal_complete : forall l r, after_literal l (l ++ r) = Ok r.
Proof. induction l as [|x l IH]; intros r; [reflexivity|]. cbn [app after_literal]. rewrite byte_eqb_refl. apply IH. Qed.
Lemma after_literal_sound : forall l s r, after_literal l s = Ok r -> s = l ++ r.
Proof.
  induction l as [|x l IH]; intros s r H; [injection H as ->; reflexivity|]. destruct s as [|c s]; [discriminate|]. cbn [after_literal] in H. destruct (Byte.eqb x c) eqn:E; [|discriminate].
  apply byte_eqb_eq in E. subst c. cbn [app]. f_equal. apply IH. exact H.
Qed.
Lemma after_literal_total : forall l s, after_literal l s <> Panic /\ after_literal l s <> OutOfFuel.
Proof. induction l as [|x l IH]; intros [|c s]; try (split; discriminate). cbn [after_literal]. destruct (Byte.eqb x c); [apply IH|split; discriminate]. Qed.

(** ** Values *)
Scheme json_text_min := Minimality for json_text Sort Prop
  with elements_text_min := Minimality for elements_text Sort Prop
  with members_text_min := Minimality for members_text Sort Prop.
Combined Scheme texts_ind from json_text_min, elements_text_min, members_text_min.

Ltac char_case H := match type of H with context [Byte.eqb ?c ?x] => let E := fresh "Ec" in destruct (Byte.eqb c x) eqn:E; [apply byte_eqb_eq in E; subst c|] end.

Ltac flat := cbn; repeat (rewrite <- app_assoc; cbn [app]); reflexivity.

Lemma read_sound : forall n,
  (forall s j r, read_value n s = Ok (j, r) -> exists g t, gap g /\ json_text j t /\ s = g ++ t ++ r) /\
  (forall s l r, read_elements n s = Ok (l, r) -> exists t, l <> [] /\ elements_text l t /\ s = t ++ x5d :: r) /\
  (forall s l r, read_members n s = Ok (l, r) -> exists t, l <> [] /\ members_text l t /\ s = t ++ x7d :: r).
Proof.
  induction n as [|n (IHv & IHe & IHm)]; [repeat split; discriminate|]. split; [|split].
  - intros s j r H. cbn [read_value] in H. destruct (skip_sound s) as (g & G & Es). exists g. destruct (skip_ws s) as [|c q]; [discriminate|].
    char_case H.
    { destruct (scan_string q) as [[w r']| | |] eqn:E; try discriminate. injection H as <- <-. apply scan_string_sound in E. destruct E as [B ->].
      exists (str """" ++ w ++ str """"). split; [exact G|]. split; [constructor; exact B|]. rewrite Es. cbn. rewrite <- app_assoc. reflexivity. }
    char_case H.
    { destruct (skip_sound q) as (g1 & G1 & Eq). destruct (skip_ws q) as [|b r1]; [discriminate|]. char_case H.
      - injection H as <- <-. exists (str "[" ++ g1 ++ str "]"). split; [exact G|]. split; [constructor; exact G1|]. rewrite Es, Eq. cbn. rewrite <- app_assoc. reflexivity.
      - destruct (read_elements n q) as [[l r']| | |] eqn:E'; try discriminate. injection H as <- <-. apply IHe in E'. destruct E' as (t & N & T & ->).
        exists (str "[" ++ t ++ str "]"). split; [exact G|]. split; [constructor; assumption|]. rewrite Es. cbn. rewrite <- app_assoc. reflexivity. }
    char_case H.
    { destruct (skip_sound q) as (g1 & G1 & Eq). destruct (skip_ws q) as [|b r1]; [discriminate|]. char_case H.
      - injection H as <- <-. exists (str "{" ++ g1 ++ str "}"). split; [exact G|]. split; [constructor; exact G1|]. rewrite Es, Eq. cbn. rewrite <- app_assoc. reflexivity.
      - destruct (read_members n q) as [[l r']| | |] eqn:E'; try discriminate. injection H as <- <-. apply IHm in E'. destruct E' as (t & N & T & ->).
        exists (str "{" ++ t ++ str "}"). split; [exact G|]. split; [constructor; assumption|]. rewrite Es. cbn. rewrite <- app_assoc. reflexivity. }
    char_case H.
    { destruct (after_literal (str "ull") q) as [r'| | |] eqn:E; try discriminate. injection H as <- <-. apply after_literal_sound in E. subst q. exists (str "null"). split; [exact G|]. split; [constructor|exact Es]. }
    char_case H.
    { destruct (after_literal (str "rue") q) as [r'| | |] eqn:E; try discriminate. injection H as <- <-. apply after_literal_sound in E. subst q. exists (str "true"). split; [exact G|]. split; [constructor|exact Es]. }
    char_case H.
    { destruct (after_literal (str "alse") q) as [r'| | |] eqn:E; try discriminate. injection H as <- <-. apply after_literal_sound in E. subst q. exists (str "false"). split; [exact G|]. split; [constructor|exact Es]. }
    destruct (scan_number (c :: q)) as [[w r']| | |] eqn:E'; try discriminate. injection H as <- <-. apply scan_number_sound in E'. destruct E' as [A Eq]. exists w. split; [exact G|]. split; [constructor; exact A|]. rewrite Es, Eq. reflexivity.
  - intros s l r H. cbn [read_elements] in H. destruct (read_value n s) as [[v q]| | |] eqn:Ev; try discriminate. cbn [bind fst snd] in H. apply IHv in Ev. destruct Ev as (g & t & G & T & ->).
    destruct (skip_sound q) as (g1 & G1 & Eq). destruct (skip_ws q) as [|c q1]; [discriminate|]. char_case H.
    + destruct (read_elements n q1) as [[l' r']| | |] eqn:E'; try discriminate. injection H as <- <-. apply IHe in E'. destruct E' as (t' & _ & T' & ->).
      exists (g ++ t ++ g1 ++ str "," ++ t'). split; [discriminate|]. split; [constructor; assumption|]. rewrite Eq. cbn. rewrite <- !app_assoc. reflexivity.
    + char_case H; [|discriminate]. injection H as <- <-. exists (g ++ t ++ g1). split; [discriminate|]. split; [constructor; assumption|]. rewrite Eq. rewrite <- !app_assoc. reflexivity.
  - intros s l r H. cbn [read_members] in H. destruct (skip_sound s) as (g & G & Es). destruct (skip_ws s) as [|c q]; [discriminate|]. char_case H; [|discriminate].
    destruct (scan_string q) as [[k q1]| | |] eqn:Ek; try discriminate. cbn [bind fst snd] in H. apply scan_string_sound in Ek. destruct Ek as [Bk ->].
    destruct (skip_sound q1) as (g1 & G1 & Eq1). destruct (skip_ws q1) as [|d q2]; [discriminate|]. char_case H; [|discriminate].
    destruct (read_value n q2) as [[v q3]| | |] eqn:Ev; try discriminate. cbn [bind fst snd] in H. apply IHv in Ev. destruct Ev as (g2 & t & G2 & T & ->).
    destruct (skip_sound q3) as (g3 & G3 & Eq3). destruct (skip_ws q3) as [|e q4]; [discriminate|]. char_case H.
    + destruct (read_members n q4) as [[l' r']| | |] eqn:E'; try discriminate. injection H as <- <-. apply IHm in E'. destruct E' as (t' & _ & T' & ->).
      exists (g ++ str """" ++ k ++ str """" ++ g1 ++ str ":" ++ g2 ++ t ++ g3 ++ str "," ++ t'). split; [discriminate|]. split; [constructor; assumption|]. rewrite Es, Eq1, Eq3. flat.
    + char_case H; [|discriminate]. injection H as <- <-. exists (g ++ str """" ++ k ++ str """" ++ g1 ++ str ":" ++ g2 ++ t ++ g3). split; [discriminate|]. split; [constructor; assumption|]. rewrite Es, Eq1, Eq3. flat.
Qed.

(** The first character of a value. *)
Lemma json_text_head : forall j s, json_text j s -> exists c t, s = c :: t /\ is_ws c = false /\ c <> x5d /\ c <> x7d.
Proof.
  intros j s H. destruct H as [ | | |w A| | | | | ]; try (eexists; eexists; split; [reflexivity|]; repeat split; discriminate).
  apply json_number_head in A. destruct A as (c & t & -> & [-> |(d & D)]); exists c + exists x2d; exists t; (split; [reflexivity|]); [repeat split; discriminate|].
  assert (W : is_ws c = false) by (unfold is_ws; rewrite !(digit_not c d _ D) by (left; reflexivity); reflexivity).
  split; [exact W|]. split; intros ->; destruct D as [L D]; change (Byte.to_N x5d) with 93 in D + change (Byte.to_N x7d) with 125 in D; lia.
Qed.
Lemma gap_stop : forall g c s, gap g -> is_ws c = false -> skip_ws (g ++ c :: s) = c :: s.
Proof. intros g c s G W. rewrite skip_gap by exact G. apply skip_stop. exact W. Qed.
Lemma elements_head : forall l s r, elements_text l s -> exists c t, skip_ws (s ++ r) = c :: t /\ c <> x5d.
Proof.
  intros l s r H. destruct H as [j g s g' G J G'|j g s g' l s' G J G' _]; destruct (json_text_head j s J) as (c & t & -> & W & N & _); exists c; rewrite <- app_assoc; cbn [app]; rewrite gap_stop by assumption; eexists; split; [reflexivity|exact N|reflexivity|exact N].
Qed.
Lemma members_head : forall l s r, members_text l s -> exists c t, skip_ws (s ++ r) = c :: t /\ c <> x7d.
Proof.
  intros l s r H. destruct H as [k j g g1 g2 s g' G|k j g g1 g2 s g' l s' G]; exists x22; rewrite <- app_assoc; cbn [app str String.list_byte_of_string map String.list_ascii_of_string]; eexists; (split; [cbn; apply gap_stop; [exact G|reflexivity]|discriminate]).
Qed.
Lemma ends_gap : forall g c r, gap g -> c = x2c \/ c = x5d \/ c = x7d -> ends (g ++ c :: r).
Proof. intros [|x g] c r G H; cbn; [tauto|]. left. apply is_ws_in. apply G. left. reflexivity. Qed.

Lemma read_complete :
  (forall j s, json_text j s -> forall g r n, gap g -> ends r -> (2 * length s + 1 <= n)%nat -> read_value n (g ++ s ++ r) = Ok (j, r)) /\
  (forall l s, elements_text l s -> forall r n, (2 * length s + 2 <= n)%nat -> read_elements n (s ++ x5d :: r) = Ok (l, r)) /\
  (forall l s, members_text l s -> forall r n, (2 * length s + 2 <= n)%nat -> read_members n (s ++ x7d :: r) = Ok (l, r)).
Proof.
  apply texts_ind.
  - intros g r n G R L. destruct n as [|n]; [cbn in L; lia|]. cbn [read_value]. change (str "null" ++ r) with (x6e :: str "ull" ++ r). rewrite gap_stop by (auto; reflexivity). cbn [Byte.eqb]. 
    rewrite (after_literal_complete (str "ull") r). reflexivity.
  - intros g r n G R L. destruct n as [|n]; [cbn in L; lia|]. cbn [read_value]. change (str "true" ++ r) with (x74 :: str "rue" ++ r). rewrite gap_stop by (auto; reflexivity). cbn [Byte.eqb]. 
    rewrite (after_literal_complete (str "rue") r). reflexivity.
  - intros g r n G R L. destruct n as [|n]; [cbn in L; lia|]. cbn [read_value]. change (str "false" ++ r) with (x66 :: str "alse" ++ r). rewrite gap_stop by (auto; reflexivity). cbn [Byte.eqb]. 
    rewrite (after_literal_complete (str "alse") r). reflexivity.
  - intros s Hn g r n G R L. destruct n as [|n]; [lia|]. cbn [read_value]. pose proof (scan_number_complete s r Hn R) as Sc. destruct (json_text_head (J_number s) s) as (c & t & -> & W & _ & _); [constructor; exact Hn|].
    cbn [app] in *. rewrite gap_stop by assumption.
    assert (K : forall x, x <> x2d -> Byte.to_N x < 48 \/ 57 < Byte.to_N x -> Byte.eqb c x = false).
    { intros x N1 N2. destruct (json_number_head _ Hn) as (c' & t' & [= <- <-] & [-> |(d & D)]); [apply byte_eqb_neq; congruence|apply (digit_not c d x D N2)]. }
    rewrite !K by (try discriminate; cbv; tauto). rewrite Sc. reflexivity.
  - intros w B g r n G R L. destruct n as [|n]; [lia|]. cbn [read_value]. replace ((str """" ++ w ++ str """") ++ r) with (x22 :: w ++ x22 :: r) by (cbn; rewrite <- app_assoc; reflexivity).
    rewrite gap_stop by (auto; reflexivity). change (Byte.eqb x22 x22) with true. cbv iota. rewrite (scan_string_complete w r B). reflexivity.
  - intros g1 G1 g r n G R L. destruct n as [|n]; [lia|]. cbn [read_value]. replace ((str "[" ++ g1 ++ str "]") ++ r) with (x5b :: g1 ++ x5d :: r) by (cbn; rewrite <- app_assoc; reflexivity).
    rewrite gap_stop by (auto; reflexivity). change (Byte.eqb x5b x22) with false. change (Byte.eqb x5b x5b) with true. cbv iota. rewrite gap_stop by (auto; reflexivity). reflexivity.
  - intros l s N E IH g r n G R L. destruct n as [|n]; [lia|]. cbn [read_value]. replace ((str "[" ++ s ++ str "]") ++ r) with (x5b :: s ++ x5d :: r) by (cbn; rewrite <- app_assoc; reflexivity).
    rewrite gap_stop by (auto; reflexivity). change (Byte.eqb x5b x22) with false. change (Byte.eqb x5b x5b) with true. cbv iota.
    destruct (elements_head l s (x5d :: r) E) as (c & t & -> & Nc). apply byte_eqb_neq in Nc. rewrite Nc. rewrite IH; [reflexivity|]. cbn in L. rewrite app_length in L. cbn in L. lia.
  - intros g1 G1 g r n G R L. destruct n as [|n]; [lia|]. cbn [read_value]. replace ((str "{" ++ g1 ++ str "}") ++ r) with (x7b :: g1 ++ x7d :: r) by (cbn; rewrite <- app_assoc; reflexivity).
    rewrite gap_stop by (auto; reflexivity). change (Byte.eqb x7b x22) with false. change (Byte.eqb x7b x5b) with false. change (Byte.eqb x7b x7b) with true. cbv iota. rewrite gap_stop by (auto; reflexivity). reflexivity.
  - intros l s N E IH g r n G R L. destruct n as [|n]; [lia|]. cbn [read_value]. replace ((str "{" ++ s ++ str "}") ++ r) with (x7b :: s ++ x7d :: r) by (cbn; rewrite <- app_assoc; reflexivity).
    rewrite gap_stop by (auto; reflexivity). change (Byte.eqb x7b x22) with false. change (Byte.eqb x7b x5b) with false. change (Byte.eqb x7b x7b) with true. cbv iota.
    destruct (members_head l s (x7d :: r) E) as (c & t & -> & Nc). apply byte_eqb_neq in Nc. rewrite Nc. rewrite IH; [reflexivity|]. cbn in L. rewrite app_length in L. cbn in L. lia.
  - intros j g s g' G J IH G' r n L. destruct n as [|n]; [lia|]. cbn [read_elements]. rewrite <- !app_assoc. rewrite !app_length in L. rewrite IH; [|exact G|apply ends_gap; auto|lia].
    cbn [bind snd fst]. rewrite gap_stop by (auto; reflexivity). reflexivity.
  - intros j g s g' l s' G J IH G' E IHe r n L. destruct n as [|n]; [lia|]. cbn [read_elements]. rewrite !app_length in L. replace ((g ++ s ++ g' ++ str "," ++ s') ++ x5d :: r) with (g ++ s ++ g' ++ x2c :: s' ++ x5d :: r) by (rewrite <- !app_assoc; reflexivity).
    rewrite IH; [|exact G|apply ends_gap; auto|lia]. cbn [bind snd fst]. rewrite gap_stop by (auto; reflexivity). change (Byte.eqb x2c x2c) with true. cbv iota. rewrite IHe; [reflexivity|]. cbn in L. lia.
  - intros k j g g1 g2 s g' G B G1 G2 J IH G' r n L. destruct n as [|n]; [lia|]. cbn [read_members]. rewrite !app_length in L.
    replace ((g ++ str """" ++ k ++ str """" ++ g1 ++ str ":" ++ g2 ++ s ++ g') ++ x7d :: r) with (g ++ x22 :: k ++ x22 :: g1 ++ x3a :: g2 ++ s ++ g' ++ x7d :: r) by (rewrite <- !app_assoc; reflexivity).
    rewrite gap_stop by (auto; reflexivity). change (Byte.eqb x22 x22) with true. cbv iota. rewrite scan_string_complete by exact B. cbn [bind snd fst]. rewrite gap_stop by (auto; reflexivity). change (Byte.eqb x3a x3a) with true. cbv iota.
    rewrite IH; [|exact G2|apply ends_gap; auto|lia]. cbn [bind snd fst]. rewrite gap_stop by (auto; reflexivity). reflexivity.
  - intros k j g g1 g2 s g' l s' G B G1 G2 J IH G' E IHm r n L. destruct n as [|n]; [lia|]. cbn [read_members]. rewrite !app_length in L.
    replace ((g ++ str """" ++ k ++ str """" ++ g1 ++ str ":" ++ g2 ++ s ++ g' ++ str "," ++ s') ++ x7d :: r) with (g ++ x22 :: k ++ x22 :: g1 ++ x3a :: g2 ++ s ++ g' ++ x2c :: s' ++ x7d :: r) by (rewrite <- !app_assoc; reflexivity).
    rewrite gap_stop by (auto; reflexivity). change (Byte.eqb x22 x22) with true. cbv iota. rewrite scan_string_complete by exact B. cbn [bind snd fst]. rewrite gap_stop by (auto; reflexivity). change (Byte.eqb x3a x3a) with true. cbv iota.
    rewrite IH; [|exact G2|apply ends_gap; auto|lia]. cbn [bind snd fst]. rewrite gap_stop by (auto; reflexivity). change (Byte.eqb x2c x2c) with true. cbv iota. rewrite IHm; [reflexivity|]. cbn in L. lia.
Qed.

Lemma json_text_nonempty : forall j s, json_text j s -> (1 <= length s)%nat.
Proof. intros j s H. destruct (json_text_head j s H) as (c & t & -> & _). cbn. lia. Qed.
Lemma read_total : forall n,
  (forall s, (2 * length s + 1 <= n)%nat -> read_value n s <> Panic /\ read_value n s <> OutOfFuel) /\
  (forall s, (2 * length s + 2 <= n)%nat -> read_elements n s <> Panic /\ read_elements n s <> OutOfFuel) /\
  (forall s, (2 * length s + 2 <= n)%nat -> read_members n s <> Panic /\ read_members n s <> OutOfFuel).
Proof.
  induction n as [|n (IHv & IHe & IHm)]; [repeat split; lia|].
  assert (Rest : forall s v q, read_value n s = Ok (v, q) -> (length (skip_ws q) < length s)%nat).
  { intros s v q H. apply (proj1 (read_sound n)) in H. destruct H as (g & t & _ & T & ->). apply json_text_nonempty in T. pose proof (skip_length q). rewrite !app_length. lia. }
  split; [|split]; intros s L.
  - cbn [read_value]. pose proof (skip_length s) as Ls. destruct (skip_ws s) as [|c q]; [split; discriminate|]. cbn [length] in Ls.
    destruct (Byte.eqb c x22); [pose proof (scan_string_total q) as T; destruct (scan_string q); cbn; split; try discriminate; tauto|].
    destruct (Byte.eqb c x5b).
    { destruct (skip_ws q) as [|b r1]; [split; discriminate|]. destruct (Byte.eqb b x5d); [split; discriminate|]. specialize (IHe q ltac:(lia)). destruct (read_elements n q); cbn; split; try discriminate; tauto. }
    destruct (Byte.eqb c x7b).
    { destruct (skip_ws q) as [|b r1]; [split; discriminate|]. destruct (Byte.eqb b x7d); [split; discriminate|]. specialize (IHm q ltac:(lia)). destruct (read_members n q); cbn; split; try discriminate; tauto. }
    destruct (Byte.eqb c x6e); [pose proof (after_literal_total (str "ull") q) as T; destruct (after_literal (str "ull") q); cbn; split; try discriminate; tauto|].
    destruct (Byte.eqb c x74); [pose proof (after_literal_total (str "rue") q) as T; destruct (after_literal (str "rue") q); cbn; split; try discriminate; tauto|].
    destruct (Byte.eqb c x66); [pose proof (after_literal_total (str "alse") q) as T; destruct (after_literal (str "alse") q); cbn; split; try discriminate; tauto|].
    pose proof (scan_number_total (c :: q)) as T; destruct (scan_number (c :: q)); cbn; split; try discriminate; tauto.
  - cbn [read_elements]. specialize (IHv s ltac:(lia)). destruct (read_value n s) as [[v q]| | |] eqn:Ev; cbn [bind fst snd]; try (split; try discriminate; tauto).
    apply Rest in Ev. destruct (skip_ws q) as [|c q1]; [split; discriminate|]. cbn [length] in Ev. destruct (Byte.eqb c x2c).
    + specialize (IHe q1 ltac:(lia)). destruct (read_elements n q1); cbn; split; try discriminate; tauto.
    + destruct (Byte.eqb c x5d); split; discriminate.
  - cbn [read_members]. pose proof (skip_length s) as Ls. destruct (skip_ws s) as [|c q]; [split; discriminate|]. cbn [length] in Ls. destruct (Byte.eqb c x22); [|split; discriminate].
    pose proof (scan_string_total q) as T. destruct (scan_string q) as [[k q1]| | |] eqn:Ek; cbn [bind fst snd]; try (split; try discriminate; tauto).
    apply scan_string_sound in Ek. destruct Ek as [_ ->]. rewrite app_length in Ls. cbn [length] in Ls. pose proof (skip_length q1) as L1. destruct (skip_ws q1) as [|d q2]; [split; discriminate|]. cbn [length] in L1.
    destruct (Byte.eqb d x3a); [|split; discriminate]. specialize (IHv q2 ltac:(lia)). destruct (read_value n q2) as [[v q3]| | |] eqn:Ev; cbn [bind fst snd]; try (split; try discriminate; tauto).
    apply Rest in Ev. destruct (skip_ws q3) as [|e q4]; [split; discriminate|]. cbn [length] in Ev. destruct (Byte.eqb e x2c).
    + specialize (IHm q4 ltac:(lia)). destruct (read_members n q4); cbn; split; try discriminate; tauto.
    + destruct (Byte.eqb e x7d); split; discriminate.
Qed.

(** ** Files *)
Lemma read_json_iff : forall s j, read_json s = Ok j <-> json_file j s.
Proof.
  intros s j. unfold read_json, json_file. split.
  - intros H. destruct (read_value (2 * length s + 1) s) as [[v q]| | |] eqn:E; try discriminate. cbn [bind fst snd] in H. apply (proj1 (read_sound _)) in E. destruct E as (g & t & G & T & Es).
    destruct (skip_sound q) as (g' & G' & Eq). destruct (skip_ws q); [|discriminate]. injection H as <-. exists g, t, g'. rewrite app_nil_r in Eq. subst q. auto.
  - intros (g & t & g' & G & T & G' & ->). rewrite (proj1 read_complete j t T g g'); [|exact G|destruct g' as [|c g']; [exact I|left; apply is_ws_in; apply G'; left; reflexivity]|rewrite !app_length; lia].
    cbn [bind fst snd]. rewrite <- (app_nil_r g'). rewrite skip_gap by exact G'. reflexivity.
Qed.
Lemma read_json_total : forall s, (exists j, read_json s = Ok j) \/ read_json s = Err JSON_Error.
Proof.
  intros s. unfold read_json. pose proof (proj1 (read_total (2 * length s + 1)) s ltac:(lia)) as T. destruct (read_value (2 * length s + 1) s) as [[v q]|[]| |]; cbn [bind fst snd]; try tauto.
  destruct (skip_ws q); [left; eexists; reflexivity|right; reflexivity].
Qed.
Lemma json_file_fun : forall s j j', json_file j s -> json_file j' s -> j = j'.
Proof. intros s j j' A B. apply read_json_iff in A, B. congruence. Qed.
Lemma json_text_file : forall j s, json_text j s -> json_file j s.
Proof. intros j s H. exists [], s, []. rewrite app_nil_r. split; [apply gap_nil|]. split; [exact H|]. split; [apply gap_nil|reflexivity]. Qed.
Lemma json_text_fun : forall s j j', json_text j s -> json_text j' s -> j = j'.
Proof. intros s j j' A B. apply (json_file_fun s); apply json_text_file; assumption. Qed.

(** Values that are written somewhere. *)
Definition written (j : json) : Prop := exists s, json_text j s.
Lemma elements_written : forall l s, elements_text l s -> forall v, In v l -> written v.
Proof.
  intros l. induction l as [|j l IH]; intros s H v K; [destruct K|]. inversion H; subst; destruct K as [<-|K]; try (eexists; eassumption); [destruct K|eapply IH; eassumption].
Qed.
Lemma members_written : forall l s, members_text l s -> forall k v, In (k, v) l -> string_body k /\ written v.
Proof.
  intros l. induction l as [|[k0 j] l IH]; intros s H k v K; [destruct K|].
  inversion H; subst; destruct K as [[= <- <-]|K]; try (split; [assumption|eexists; eassumption]); [destruct K|eapply IH; eassumption].
Qed.
Lemma array_written : forall l, written (J_array l) -> forall v, In v l -> written v.
Proof. intros l (s & H) v K. inversion H; subst; [destruct K|eapply elements_written; eassumption]. Qed.
Lemma object_written : forall l, written (J_object l) -> forall k v, In (k, v) l -> string_body k /\ written v.
Proof. intros l (s & H) k v K. inversion H; subst; [destruct K|eapply members_written; eassumption]. Qed.
Lemma string_written : forall w, written (J_string w) -> string_body w.
Proof. intros w (s & H). inversion H. assumption. Qed.
Lemma number_written : forall w, written (J_number w) -> json_number w.
Proof. intros w (s & H). inversion H. subst. assumption. Qed.

(** ** Looking into values *)
Lemma as_string_iff : forall j s, written j -> as_string j = Ok s <-> is_string s j.
Proof.
  intros j s W. split.
  - intros H. destruct j as [| | |w| |]; try discriminate. exists w. split; [reflexivity|]. apply string_says_sound; [apply string_written; exact W|exact H].
  - intros (w & -> & H). apply string_says_complete. exact H.
Qed.
Lemma digits_value_iff : forall s a n, digits_value a s = Some n <-> exists ds, Forall2 digit_char s ds /\ n = fold_left (fun x d => 10 * x + d) ds a.
Proof.
  induction s as [|c s IH]; intros a n; cbn [digits_value].
  - split; [intros [= <-]; exists []; split; [constructor|reflexivity]|]. intros (ds & F & ->). inversion F. reflexivity.
  - split.
    + destruct (dec_digit c) as [d|] eqn:E; [|discriminate]. intros H. apply IH in H. destruct H as (ds & F & ->). exists (d :: ds). split; [constructor; [apply digit_iff; exact E|exact F]|].
      cbn [fold_left]. f_equal. lia.
    + intros (ds & F & ->). inversion F as [|? d ? ds' H F']; subst. apply digit_iff in H. rewrite H. apply IH. exists ds'. split; [exact F'|]. cbn [fold_left]. f_equal. lia.
Qed.
Lemma as_uint_iff : forall b j n, written j -> as_uint b j = Ok n <-> is_uint b n j.
Proof.
  intros b j n W. split.
  - intros H. destruct j as [| |w| | |]; try discriminate. cbn [as_uint] in H. destruct (digits_value 0 w) as [m|] eqn:E; [|discriminate]. destruct (N.ltb_spec m b) as [L|L]; [|discriminate]. injection H as ->.
    exists w. split; [reflexivity|]. split; [|exact L]. apply digits_value_iff in E. destruct E as (ds & F & ->). exists ds. split; [|split; [exact F|reflexivity]]. intros ->. inversion F; subst.
    apply number_written in W. apply json_number_head in W. destruct W as (c & t & K & _). discriminate.
  - intros (w & -> & (ds & _ & F & ->) & L). cbn [as_uint]. rewrite (proj2 (digits_value_iff w 0 (positional 10 ds))); [|exists ds; split; [exact F|reflexivity]]. apply N.ltb_lt in L. rewrite L. reflexivity.
Qed.
Lemma collect_iff : forall A B (f : A -> result json_error B) (R : B -> A -> Prop) l ys, (forall v y, In v l -> f v = Ok y <-> R y v) -> collect f l = Ok ys <-> Forall2 R ys l.
Proof.
  intros A B f R. induction l as [|v l IH]; intros ys H; cbn [collect].
  - split; [intros [= <-]; constructor|]. intros F. inversion F. reflexivity.
  - split.
    + intros E. destruct (f v) as [y| | |] eqn:Ev; try discriminate. cbn [bind] in E. destruct (collect f l) as [ys'| | |] eqn:El; try discriminate. injection E as <-. constructor.
      * apply H; [left; reflexivity|exact Ev].
      * apply IH; [|reflexivity]. intros v' y' K. apply H. right. exact K.
    + intros F. inversion F as [|y ? ys' ? Hy Hys]; subst. apply H in Hy; [|left; reflexivity]. rewrite Hy. cbn [bind]. apply IH in Hys; [rewrite Hys; reflexivity|]. intros v' y' K. apply H. right. exact K.
Qed.
Lemma as_vec_iff : forall A (f : json -> result json_error A) is j l, written j -> (forall v y, written v -> f v = Ok y <-> is y v) -> as_vec f j = Ok l <-> is_list is l j.
Proof.
  intros A f is j l W H. split.
  - intros E. destruct j as [| | | |vs|]; try discriminate. exists vs. split; [reflexivity|]. apply (collect_iff _ _ f is vs l); [|exact E]. intros v y K. apply H. apply (array_written vs W v K).
  - intros (vs & -> & F). apply (collect_iff _ _ f is vs l); [|exact F]. intros v y K. apply H. apply (array_written vs W v K).
Qed.

(** ** Fields *)
Definition is_named (n : text) (kv : text * json) : bool := match string_says (fst kv) with Ok k => bytes_eqb k n | _ => false end.
Definition named (ms : list (text * json)) (n : text) : list json := map snd (filter (is_named n) ms).
Definition keys_read (ms : list (text * json)) : Prop := forall k v, In (k, v) ms -> exists n, string_says k = Ok n.
Definition fill (o : option json) (vs : list json) : option (option json) :=
  match vs with
  | [] => Some o
  | [v] => match o with None => Some (Some v) | Some _ => None end
  | _ => None
  end.
Definition upd (f : text -> option json) (k : text) (v : json) (n : text) : option json := if bytes_eqb k n then Some v else f n.

Lemma put_slot_map : forall names f k v, NoDup names ->
  put_slot names (map f names) k v =
    if existsb (bytes_eqb k) names then match f k with None => Ok (map (upd f k v) names) | Some _ => Err JSON_Error end else Ok (map f names).
Proof.
  induction names as [|n names IH]; intros f k v ND; [reflexivity|]. inversion ND as [|? ? Nin ND']; subst. cbn [map put_slot existsb]. destruct (bytes_eqb k n) eqn:E; cbn [orb].
  - apply bytes_eqb_eq in E. subst n. destruct (f k); [reflexivity|]. do 2 f_equal; [unfold upd; rewrite bytes_eqb_refl; reflexivity|]. apply map_ext_in. intros m K. unfold upd.
    destruct (bytes_eqb k m) eqn:E; [apply bytes_eqb_eq in E; subst m; contradiction|reflexivity].
  - rewrite (IH f k v ND'). destruct (existsb (bytes_eqb k) names); [|reflexivity]. destruct (f k); [reflexivity|]. cbn [bind]. do 2 f_equal. unfold upd. rewrite E. reflexivity.
Qed.
Lemma visit_map_iff : forall ms names f sl, NoDup names ->
  visit_map names (map f names) ms = Ok sl <-> keys_read ms /\ exists f', sl = map f' names /\ forall n, In n names -> fill (f n) (named ms n) = Some (f' n).
Proof.
  induction ms as [|[k v] ms IH]; intros names f sl ND; cbn [visit_map].
  - split.
    + intros [= <-]. split; [intros k v []|]. exists f. split; [reflexivity|]. intros n _. reflexivity.
    + intros (_ & f' & -> & H). f_equal. apply map_ext_in. intros n K. specialize (H n K). cbn in H. congruence.
  - assert (Nm : forall k' n, string_says k = Ok k' -> named ((k, v) :: ms) n = if bytes_eqb k' n then v :: named ms n else named ms n).
    { intros k' n E. unfold named, is_named. cbn [filter fst]. rewrite E. destruct (bytes_eqb k' n); reflexivity. }
    split.
    + intros H. destruct (string_says k) as [k'| | |] eqn:E; try discriminate. cbn [bind] in H. rewrite (put_slot_map names f k' v ND) in H.
      assert (KR : keys_read ms -> keys_read ((k, v) :: ms)) by (intros K k0 v0 [[= <- <-]|H0]; [exists k'; exact E|eapply K; exact H0]).
      destruct (existsb (bytes_eqb k') names) eqn:Ex.
      * destruct (f k') eqn:F; [discriminate|]. cbn [bind] in H. apply IH in H; [|exact ND]. destruct H as (K & f' & -> & H). split; [apply KR; exact K|]. exists f'. split; [reflexivity|]. intros n Hn. specialize (H n Hn).
        rewrite (Nm k' n eq_refl). unfold upd in H. destruct (bytes_eqb k' n) eqn:B; [|exact H]. apply bytes_eqb_eq in B. subst n. rewrite F. destruct (named ms k') as [|v1 [|v2 l]]; cbn in H |- *; congruence.
      * cbn [bind] in H. apply IH in H; [|exact ND]. destruct H as (K & f' & -> & H). split; [apply KR; exact K|]. exists f'. split; [reflexivity|]. intros n Hn. rewrite (Nm k' n eq_refl).
        destruct (bytes_eqb k' n) eqn:B; [|apply H; exact Hn]. exfalso. apply not_true_iff_false in Ex. apply Ex. apply existsb_exists. exists n. split; assumption.
    + intros (K & f' & -> & H). destruct (K k v (or_introl eq_refl)) as (k' & E). rewrite E. cbn [bind]. rewrite (put_slot_map names f k' v ND).
      assert (K' : keys_read ms) by (intros k0 v0 H0; apply (K k0 v0); right; exact H0).
      destruct (existsb (bytes_eqb k') names) eqn:Ex.
      * apply existsb_exists in Ex. destruct Ex as (n & Hn & B). apply bytes_eqb_eq in B. subst n. pose proof (H k' Hn) as Hk. rewrite (Nm k' k' E), bytes_eqb_refl in Hk. destruct (f k') eqn:F.
        { exfalso. destruct (named ms k'); discriminate. }
        cbn [bind]. apply IH; [exact ND|]. split; [exact K'|]. exists f'. split; [reflexivity|]. intros n Hn'. unfold upd. destruct (bytes_eqb k' n) eqn:B.
        -- apply bytes_eqb_eq in B. subst n. destruct (named ms k') as [|v1 [|v2 l]]; cbn in Hk |- *; congruence.
        -- specialize (H n Hn'). rewrite (Nm k' n E), B in H. exact H.
      * cbn [bind]. apply IH; [exact ND|]. split; [exact K'|]. exists f'. split; [reflexivity|]. intros n Hn. specialize (H n Hn). rewrite (Nm k' n E) in H. destruct (bytes_eqb k' n) eqn:B; [|exact H].
        exfalso. apply not_true_iff_false in Ex. apply Ex. apply existsb_exists. exists n. split; assumption.
Qed.
Lemma named_none : forall ms n, (forall k v, In (k, v) ms -> exists n', string_says k = Ok n' /\ n' <> n) -> named ms n = [].
Proof.
  induction ms as [|[k v] ms IH]; intros n H; [reflexivity|]. unfold named in *. cbn [filter]. destruct (H k v (or_introl eq_refl)) as (n' & E & N). unfold is_named at 1. cbn [fst]. rewrite E.
  apply bytes_eqb_neq in N. rewrite N. apply IH. intros k0 v0 K. apply (H k0 v0). right. exact K.
Qed.
Lemma named_app : forall a b n, named (a ++ b) n = named a n ++ named b n.
Proof. intros a b n. unfold named. rewrite filter_app, map_app. reflexivity. Qed.
Lemma named_split : forall ms n v, named ms n = [v] -> exists a k b, ms = a ++ (k, v) :: b /\ string_says k = Ok n /\ named a n = [] /\ named b n = [].
Proof.
  induction ms as [|[k w] ms IH]; intros n v H; [discriminate|]. unfold named in H. cbn [filter] in H. destruct (is_named n (k, w)) eqn:E.
  - cbn [map snd] in H. injection H as -> H. exists [], k, ms. split; [reflexivity|]. unfold is_named in E. cbn [fst] in E. destruct (string_says k) as [k'| | |]; try discriminate. apply bytes_eqb_eq in E. subst k'. auto.
  - destruct (IH n v H) as (a & k' & b & -> & A & B & D). exists ((k, w) :: a), k', b. split; [reflexivity|]. split; [exact A|]. split; [|exact D]. unfold named in *. cbn [filter]. rewrite E. exact B.
Qed.
Lemma named_nil_not : forall ms n k v, named ms n = [] -> In (k, v) ms -> string_says k <> Ok n.
Proof.
  intros ms n k v H K E. assert (F : In (k, v) (filter (is_named n) ms)) by (apply filter_In; split; [exact K|]; unfold is_named; cbn [fst]; rewrite E; apply bytes_eqb_refl).
  unfold named in H. apply map_eq_nil in H. rewrite H in F. destruct F.
Qed.
Lemma member_iff : forall ms n v, (forall k w, In (k, w) ms -> string_body k) -> member ms n v <-> keys_read ms /\ named ms n = [v].
Proof.
  intros ms n v B. split.
  - intros (a & k & b & -> & Sp & O).
    assert (O' : forall k' v', In (k', v') (a ++ b) -> exists n', string_says k' = Ok n' /\ n' <> n) by (intros k' v' K; destruct (O k' v' K) as (n' & S' & N); exists n'; split; [apply string_says_complete; exact S'|exact N]).
    split.
    + intros k' v' K. apply in_app_or in K. destruct K as [K|[[= <- <-]|K]]; [destruct (O' k' v') as (n' & E & _); [apply in_or_app; auto|eauto]|exists n; apply string_says_complete; exact Sp|destruct (O' k' v') as (n' & E & _); [apply in_or_app; auto|eauto]].
    + rewrite named_app. rewrite (named_none a n) by (intros k' v' K; apply (O' k' v'); apply in_or_app; auto). cbn [app]. change ((k, v) :: b) with ([(k, v)] ++ b). rewrite named_app.
      rewrite (named_none b n) by (intros k' v' K; apply (O' k' v'); apply in_or_app; auto). unfold named, is_named. cbn [filter fst]. rewrite (string_says_complete k n Sp), bytes_eqb_refl. reflexivity.
  - intros [KR H]. destruct (named_split ms n v H) as (a & k & b & -> & E & Na & Nb). exists a, k, b. split; [reflexivity|]. split; [apply string_says_sound; [apply (B k v); apply in_or_app; right; left; reflexivity|exact E]|].
    intros k' v' K. assert (K' : In (k', v') (a ++ (k, v) :: b)) by (apply in_app_or in K; apply in_or_app; destruct K; [left|right; right]; assumption).
    destruct (KR k' v' K') as (n' & E'). exists n'. split; [apply string_says_sound; [apply (B k' v' K')|exact E']|]. intros ->. apply in_app_or in K. destruct K as [K|K]; [apply (named_nil_not a n k' v' Na K E')|apply (named_nil_not b n k' v' Nb K E')].
Qed.
Lemma slots_filled : forall names (f : text -> option json) vs,
  collect (fun o => match o with Some v => Ok v | None => Err JSON_Error end) (map f names) = Ok vs <-> Forall2 (fun n v => f n = Some v) names vs.
Proof.
  induction names as [|n names IH]; intros f vs; cbn [map collect].
  - split; [intros [= <-]; constructor|]. intros H. inversion H. reflexivity.
  - split.
    + intros H. destruct (f n) as [v|] eqn:E; [|discriminate]. cbn [bind] in H. destruct (collect _ (map f names)) as [l| | |] eqn:El; try discriminate. injection H as <-. constructor; [exact E|]. apply IH. exact El.
    + intros H. inversion H as [|? v ? l Hv Hl]; subst. rewrite Hv. cbn [bind]. apply IH in Hl. rewrite Hl. reflexivity.
Qed.
Lemma as_struct_iff : forall names vs j, NoDup names -> names <> [] -> written j -> as_struct names j = Ok vs <-> has_fields names vs j.
Proof.
  intros names vs j ND NE W. split.
  - intros H. destruct j as [| | | |l|ms]; try discriminate.
    + right. cbn [as_struct] in H. destruct (Nat.eqb (length l) (length names)) eqn:L; [|discriminate]. apply PeanoNat.Nat.eqb_eq in L. injection H as ->. auto.
    + left. exists ms. split; [reflexivity|]. cbn [as_struct] in H. destruct (visit_map names (map (fun _ => None) names) ms) as [sl| | |] eqn:E; try discriminate. cbn [bind] in H.
      apply (visit_map_iff ms names (fun _ => None) sl ND) in E. destruct E as (KR & f' & -> & F). apply slots_filled in H.
      clear NE ND. induction H as [|n v names vs Hv Hvs IH]; constructor.
      * apply member_iff; [intros k w K; apply (object_written ms W k w K)|]. split; [exact KR|]. specialize (F n (or_introl eq_refl)). rewrite Hv in F. destruct (named ms n) as [|v1 [|v2 l]]; cbn in F; congruence.
      * apply IH. intros n' K. apply F. right. exact K.
  - intros [(ms & -> & F)|[-> L]].
    + cbn [as_struct]. set (f' := fun n => match named ms n with [v] => Some v | _ => None end).
      assert (B : forall k w, In (k, w) ms -> string_body k) by (intros k w K; apply (object_written ms W k w K)).
      assert (F' : Forall2 (fun n v => keys_read ms /\ named ms n = [v]) names vs) by (clear - F B; induction F; constructor; [apply member_iff; assumption|assumption]).
      assert (KR : keys_read ms) by (destruct F' as [|? ? ? ? [K _] _]; [congruence|exact K]).
      assert (E : visit_map names (map (fun _ => None) names) ms = Ok (map f' names)).
      { apply visit_map_iff; [exact ND|]. split; [exact KR|]. exists f'. split; [reflexivity|]. intros n K. clear - F' K. unfold f'. induction F' as [|m v names vs [_ H] F' IH]; [destruct K|]. destruct K as [<-|K]; [rewrite H; reflexivity|apply IH; exact K]. }
      rewrite E. cbn [bind]. apply slots_filled. clear - F'. induction F' as [|n v names vs [_ H] F' IH]; constructor; [unfold f'; rewrite H; reflexivity|exact IH].
    + cbn [as_struct]. rewrite L, PeanoNat.Nat.eqb_refl. reflexivity.
Qed.
Lemma has_fields_written : forall names vs j, written j -> has_fields names vs j -> forall v, In v vs -> written v.
Proof.
  intros names vs j W [(ms & -> & F)|[-> _]] v K; [|apply (array_written vs W v K)].
  induction F as [|n w names vs (a & k & b & E & _) F IH]; [destruct K|]. destruct K as [<-|K]; [|apply IH; exact K]. apply (object_written ms W k w). rewrite E. apply in_or_app. right. left. reflexivity.
Qed.

Lemma distinct_names : NoDup trust_fields /\ NoDup [str "chain"] /\ NoDup [str "root_node"; str "max_chain_length"; str "certs"].
Proof. repeat split; repeat constructor; cbn; intuition discriminate. Qed.
Lemma as_trust_iff : forall t j, written j -> as_trust j = Ok t <-> is_trust t j.
Proof.
  intros t j W. unfold as_trust, is_trust. fold trust_fields. split.
  - intros H. destruct (as_struct trust_fields j) as [l| | |] eqn:E; try discriminate. cbn [bind] in H. apply as_struct_iff in E; [|apply distinct_names|discriminate|exact W].
    pose proof (has_fields_written _ _ _ W E) as Wv. destruct l as [|a [|b [|c [|d [|e [|]]]]]]; try discriminate.
    destruct (as_string a) as [x1| | |] eqn:E1; try discriminate. cbn [bind] in H. destruct (as_uint u64_bound b) as [x2| | |] eqn:E2; try discriminate. cbn [bind] in H.
    destruct (as_string c) as [x3| | |] eqn:E3; try discriminate. cbn [bind] in H. destruct (as_string d) as [x4| | |] eqn:E4; try discriminate. cbn [bind] in H. destruct (as_uint u64_bound e) as [x5| | |] eqn:E5; try discriminate. cbn [bind] in H. injection H as <-.
    exists a, b, c, d, e. split; [exact E|]. cbn [dt_issued_for dt_expires_at dt_signature dt_sig_type dt_issued_at].
    apply as_string_iff in E1, E3, E4; try (apply Wv; cbn; tauto). apply as_uint_iff in E2, E5; try (apply Wv; cbn; tauto). auto.
  - intros (a & b & c & d & e & E & E1 & E2 & E3 & E4 & E5). pose proof (has_fields_written _ _ _ W E) as Wv. apply as_struct_iff in E; [|apply distinct_names|discriminate|exact W]. rewrite E. cbn [bind].
    apply as_string_iff in E1, E3, E4; try (apply Wv; cbn; tauto). apply as_uint_iff in E2, E5; try (apply Wv; cbn; tauto). change (2 ^ 64) with u64_bound in *. rewrite E1, E2, E3, E4, E5. destruct t. reflexivity.
Qed.
Lemma as_cert_iff : forall c j, written j -> as_cert j = Ok c <-> is_cert c j.
Proof.
  intros c j W. unfold as_cert, is_cert. split.
  - intros H. destruct (as_struct [str "chain"] j) as [l| | |] eqn:E; try discriminate. cbn [bind] in H. apply as_struct_iff in E; [|apply distinct_names|discriminate|exact W].
    pose proof (has_fields_written _ _ _ W E) as Wv. destruct l as [|a [|]]; try discriminate. exists a. split; [exact E|]. apply (as_vec_iff _ as_trust); [apply Wv; left; reflexivity|intros v y Wy; apply as_trust_iff; exact Wy|exact H].
  - intros (a & E & H). pose proof (has_fields_written _ _ _ W E) as Wv. apply as_struct_iff in E; [|apply distinct_names|discriminate|exact W]. rewrite E. cbn [bind].
    apply (as_vec_iff _ as_trust is_trust); [apply Wv; left; reflexivity|intros v y Wy; apply as_trust_iff; exact Wy|exact H].
Qed.
Lemma as_certs_iff : forall c j, written j -> as_certs j = Ok c <-> is_certs c j.
Proof.
  intros c j W. unfold as_certs, is_certs. split.
  - intros H. destruct (as_struct [str "root_node"; str "max_chain_length"; str "certs"] j) as [l| | |] eqn:E; try discriminate. cbn [bind] in H. apply as_struct_iff in E; [|apply distinct_names|discriminate|exact W].
    pose proof (has_fields_written _ _ _ W E) as Wv. destruct l as [|x [|y [|z [|]]]]; try discriminate.
    destruct (as_string x) as [x1| | |] eqn:E1; try discriminate. cbn [bind] in H. destruct (as_uint u32_bound y) as [x2| | |] eqn:E2; try discriminate. cbn [bind] in H. destruct (as_vec as_cert z) as [x3| | |] eqn:E3; try discriminate. cbn [bind] in H. injection H as <-.
    exists x, y, z. split; [exact E|]. cbn [root_node max_chain_length certs]. apply as_string_iff in E1; [|apply Wv; cbn; tauto]. apply as_uint_iff in E2; [|apply Wv; cbn; tauto].
    apply (as_vec_iff _ as_cert is_cert) in E3; [auto|apply Wv; cbn; tauto|intros v w Wy; apply as_cert_iff; exact Wy].
  - intros (x & y & z & E & E1 & E2 & E3). pose proof (has_fields_written _ _ _ W E) as Wv. apply as_struct_iff in E; [|apply distinct_names|discriminate|exact W]. rewrite E. cbn [bind].
    apply as_string_iff in E1; [|apply Wv; cbn; tauto]. apply as_uint_iff in E2; [|apply Wv; cbn; tauto]. change (2 ^ 32) with u32_bound in *.
    apply (as_vec_iff _ as_cert is_cert) in E3; [|apply Wv; cbn; tauto|intros v w Wy; apply as_cert_iff; exact Wy]. rewrite E1, E2, E3. destruct c. reflexivity.
Qed.
Lemma certs_from_str_iff : forall s c, certs_from_str s = Ok c <-> certs_text s c.
Proof.
  intros s c. unfold certs_from_str, certs_text. split.
  - intros H. destruct (read_json s) as [j| | |] eqn:E; try discriminate. cbn [bind] in H. apply read_json_iff in E. exists j. split; [exact E|]. apply as_certs_iff; [|exact H]. destruct E as (g & t & g' & _ & T & _). exists t. exact T.
  - intros (j & F & H). apply as_certs_iff in H; [|destruct F as (g & t & g' & _ & T & _); exists t; exact T]. apply read_json_iff in F. rewrite F. exact H.
Qed.

(** ** No panics *)
Definition sane {A} (r : result json_error A) : Prop := r <> Panic /\ r <> OutOfFuel.
Lemma sane_bind : forall A B (r : result json_error A) (f : A -> result json_error B), sane r -> (forall a, sane (f a)) -> sane (bind r f).
Proof. intros A B r f [P O] H. destruct r; cbn; [apply H|split; discriminate|congruence|congruence]. Qed.
Lemma sane_collect : forall A B (f : A -> result json_error B) l, (forall a, sane (f a)) -> sane (collect f l).
Proof. intros A B f l H. induction l as [|x l IH]; [split; discriminate|]. cbn [collect]. apply sane_bind; [apply H|]. intros y. apply sane_bind; [exact IH|]. intros ys. split; discriminate. Qed.
Lemma sane_string : forall j, sane (as_string j).
Proof. intros [| | |w| |]; try (split; discriminate). apply string_says_total. Qed.
Lemma sane_uint : forall b j, sane (as_uint b j).
Proof. intros b [| |w| | |]; try (split; discriminate). cbn [as_uint]. destruct (digits_value 0 w) as [n|]; [destruct (n <? b)|]; split; discriminate. Qed.
Lemma sane_put : forall names slots k v, sane (put_slot names slots k v).
Proof.
  induction names as [|n names IH]; intros [|o slots] k v; try (split; discriminate). cbn [put_slot]. destruct (bytes_eqb k n); [destruct o; split; discriminate|]. apply sane_bind; [apply IH|]. intros l. split; discriminate.
Qed.
Lemma sane_visit : forall ms names slots, sane (visit_map names slots ms).
Proof. induction ms as [|[k v] ms IH]; intros names slots; [split; discriminate|]. cbn [visit_map]. apply sane_bind; [apply string_says_total|]. intros k'. apply sane_bind; [apply sane_put|]. intros sl. apply IH. Qed.
Lemma sane_struct : forall names j, sane (as_struct names j).
Proof.
  intros names [| | | |l|ms]; try (split; discriminate); cbn [as_struct]; [destruct (Nat.eqb (length l) (length names)); split; discriminate|].
  apply sane_bind; [apply sane_visit|]. intros sl. apply sane_collect. intros [v|]; split; discriminate.
Qed.
Lemma sane_trust : forall j, sane (as_trust j).
Proof.
  intros j. unfold as_trust. apply sane_bind; [apply sane_struct|]. intros [|a [|b [|c [|d [|e [|]]]]]]; try (split; discriminate).
  repeat (apply sane_bind; [apply sane_string + apply sane_uint|intros ?]). split; discriminate.
Qed.
Lemma sane_cert : forall j, sane (as_cert j).
Proof. intros j. unfold as_cert. apply sane_bind; [apply sane_struct|]. intros [|a [|]]; try (split; discriminate). destruct a; try (split; discriminate). cbn [as_vec]. apply sane_collect. apply sane_trust. Qed.
Lemma sane_certs : forall j, sane (as_certs j).
Proof.
  intros j. unfold as_certs. apply sane_bind; [apply sane_struct|]. intros [|a [|b [|c [|]]]]; try (split; discriminate). apply sane_bind; [apply sane_string|]. intros x. apply sane_bind; [apply sane_uint|]. intros y.
  apply sane_bind; [|intros z; split; discriminate]. destruct c; try (split; discriminate). cbn [as_vec]. apply sane_collect. apply sane_cert.
Qed.
Lemma certs_from_str_total : forall s, (exists c, certs_from_str s = Ok c) \/ certs_from_str s = Err JSON_Error.
Proof.
  intros s. unfold certs_from_str. destruct (read_json_total s) as [(j & ->)| ->]; [|right; reflexivity]. cbn [bind]. pose proof (sane_certs j) as [P O]. destruct (as_certs j) as [c|[]| |]; try congruence; [left; eexists; reflexivity|right; reflexivity].
Qed.

(** ** Writing *)
Lemma write_char_spells : forall c w s, spells w s -> spells (write_char c ++ w) (c :: s).
Proof.
  intros c w s H. unfold write_char.
  repeat match goal with |- context [Byte.eqb c ?x] => destruct (Byte.eqb c x) eqn:?E;
    [match goal with K : Byte.eqb c x = true |- _ => apply byte_eqb_eq in K; subst c end; cbn [app]; apply sp_escape; [cbn; tauto|exact H]|] end.
  destruct (is_control c) eqn:K.
  - assert (X : exists h l, [hex_char (N_of_u8 c / 16); hex_char (N_of_u8 c mod 16)] = [h; l] /\ hex4 x30 x30 h l = Some (Byte.to_N c) /\ Byte.to_N c < 32).
    { clear - K. destruct c; try discriminate; eexists; eexists; (split; [reflexivity|]); split; reflexivity. }
    destruct X as (h & l & -> & X & L). change ((str "\u00" ++ [h; l]) ++ w) with (x5c :: x75 :: [x30; x30; h; l] ++ w). change (c :: s) with ([c] ++ s).
    apply (sp_unicode _ (Byte.to_N c)); [apply hex4_iff; exact X|unfold high_surrogate; lia|unfold low_surrogate; lia|left; split; [change (2 ^ 7) with 128; lia|reflexivity]|exact H].
  - cbn [app]. apply sp_plain; [apply plain_iff; auto|exact H].
Qed.
Lemma write_spells : forall s, spells (flat_map write_char s) s.
Proof. induction s as [|c s IH]; [constructor|]. cbn [flat_map]. apply write_char_spells. exact IH. Qed.
Lemma write_string_text : forall s, json_text (J_string (flat_map write_char s)) (write_string s).
Proof. intros s. apply (jt_string (flat_map write_char s)). eapply spells_body. apply write_spells. Qed.
Lemma write_uint_decimal : forall n, n < u64_bound -> exists w, write_uint n = w /\ decimal w n /\ json_number w.
Proof.
  intros n L. exists (write_uint n). split; [reflexivity|]. unfold write_uint, u64_to_string. destruct (N.eqb_spec n 0) as [->|Z].
  - split; [exists [0]; split; [discriminate|split; [repeat constructor|reflexivity]]|]. exists [], (str "0"), [], []. cbn [In]. split; [reflexivity|]. split; [tauto|]. split; [left; reflexivity|]. split; left; reflexivity.
  - pose proof (to_digits_bound 10 n ltac:(lia)) as B. pose proof (to_digits_value 10 n ltac:(lia)) as V. pose proof (to_digits_lead 10 n ltac:(lia)) as Ld.
    assert (F : Forall2 digit_char (map dec_char (to_digits 10 n)) (to_digits 10 n)).
    { clear - B. induction B as [|d ds H B IH]; constructor; [|exact IH]. apply digit_iff. apply dec_digit_char. exact H. }
    assert (NE : to_digits 10 n <> []) by (intros E; rewrite E in V; cbn in V; lia).
    split.
    + exists (to_digits 10 n). split; [exact NE|]. split; [exact F|]. rewrite <- V at 1. unfold of_digits, positional. generalize 0. generalize (to_digits 10 n). clear.
      induction l as [|d l IH]; intros a; [reflexivity|]. cbn [fold_left]. rewrite IH. f_equal. lia.
    + exists [], (map dec_char (to_digits 10 n)), [], []. cbn [In]. split; [rewrite !app_nil_r; reflexivity|]. split; [tauto|]. split; [|split; left; reflexivity]. right. split.
      * split; [destruct (to_digits 10 n); [congruence|discriminate]|]. intros c K. clear - F K. remember (map dec_char (to_digits 10 n)) as cs. clear Heqcs. induction F as [|c' d ? ? H F IH]; [destruct K|]. destruct K as [<-|K]; [exists d; exact H|apply IH; exact K].
      * destruct (to_digits 10 n) as [|d ds]; [congruence|]. cbn. intros [= E]. inversion F as [|? ? ? ? H _]; subst. rewrite E in H. destruct H as [_ H]. change (Byte.to_N x30) with 48 in H.
        assert (d = 0) by lia. subst d. unfold no_lead_zero in Ld. cbn in Ld. congruence.
Qed.
Lemma commas_elements : forall vs xs, Forall2 json_text vs xs -> vs <> [] -> elements_text vs (commas xs).
Proof.
  intros vs xs H. induction H as [|v x vs xs J H IH]; intros N; [congruence|]. destruct H as [|v' x' vs xs J' H].
  - pose proof (et_one v [] x [] gap_nil J gap_nil) as E. rewrite app_nil_r in E. exact E.
  - apply (et_more v [] x [] (v' :: vs) (commas (x' :: xs)) gap_nil J gap_nil). apply IH. discriminate.
Qed.
Lemma write_array_text : forall vs xs, Forall2 json_text vs xs -> json_text (J_array vs) (write_array xs).
Proof.
  intros vs xs H. unfold write_array. destruct H as [|v x vs xs J H]; [apply (jt_array_empty [] gap_nil)|]. apply (jt_array (v :: vs)); [discriminate|]. apply commas_elements; [constructor; assumption|discriminate].
Qed.
(** The members of a written object. *)
Definition shows (m : text * text) (kv : text * json) : Prop := fst kv = flat_map write_char (fst m) /\ json_text (snd kv) (snd m).
Lemma commas_members : forall ms l, Forall2 shows ms l -> l <> [] -> members_text l (commas (map (fun m => write_string (fst m) ++ x3a :: snd m) ms)).
Proof.
  intros ms l H. induction H as [|[n x] [k v] ms l [E J] H IH]; intros N; [congruence|]. cbn [fst snd] in E, J. subst k.
  assert (B : string_body (flat_map write_char n)) by (eapply spells_body; apply write_spells). destruct H as [|[n' x'] [k' v'] ms l E' H].
  - pose proof (mt_one _ v [] [] [] x [] gap_nil B gap_nil gap_nil J gap_nil) as K. rewrite app_nil_r in K. cbn [map commas fst snd].
    replace (write_string n ++ x3a :: x) with ([] ++ str """" ++ flat_map write_char n ++ str """" ++ [] ++ str ":" ++ [] ++ x); [exact K|]. unfold write_string. flat.
  - pose proof (mt_more _ v [] [] [] x [] ((k', v') :: l) _ gap_nil B gap_nil gap_nil J gap_nil (IH ltac:(discriminate))) as K.
    replace (commas _) with ([] ++ str """" ++ flat_map write_char n ++ str """" ++ [] ++ str ":" ++ [] ++ x ++ [] ++ str "," ++ commas (map (fun m => write_string (fst m) ++ x3a :: snd m) ((n', x') :: ms))); [exact K|].
    cbn [map commas fst snd]. unfold write_string at 2. flat.
Qed.
Lemma write_object_text : forall ms l, Forall2 shows ms l -> json_text (J_object l) (write_object ms).
Proof.
  intros ms l H. unfold write_object. pose proof (commas_members ms l H) as C. destruct l as [|kv l].
  - inversion H; subst. apply (jt_object_empty [] gap_nil).
  - apply (jt_object (kv :: l)); [discriminate|]. apply C. discriminate.
Qed.
Lemma shows_member : forall ms l n x, Forall2 shows ms l -> NoDup (map fst ms) -> In (n, x) ms -> exists v, member l n v /\ json_text v x.
Proof.
  intros ms l n x H ND K. apply in_split in K. destruct K as (a & b & ->). apply Forall2_app_inv_l in H. destruct H as (la & lb' & Ha & Hb & ->). inversion Hb as [|? [k v] ? lb [E J] Hb']; subst. cbn [fst snd] in E, J. subst k.
  exists v. split; [|exact J]. exists la, (flat_map write_char n), lb. split; [reflexivity|]. split; [apply write_spells|].
  rewrite map_app in ND. cbn [map fst] in ND. apply NoDup_remove_2 in ND. rewrite <- map_app in ND. pose proof (Forall2_app Ha Hb') as Hab. clear - Hab ND.
  intros k' v' K. induction Hab as [|[m y] [k w] ms l [E _] H IH]; [destruct K|]. cbn [fst] in E. subst k. cbn [map fst In] in ND. destruct K as [[= <- <-]|K].
  - exists m. split; [apply write_spells|]. intros ->. apply ND. left. reflexivity.
  - apply IH; [|exact K]. intros D. apply ND. right. exact D.
Qed.

Lemma is_string_written : forall s v, json_text v (write_string s) -> is_string s v.
Proof. intros s v H. exists (flat_map write_char s). split; [apply (json_text_fun (write_string s)); [exact H|apply write_string_text]|apply write_spells]. Qed.
Lemma is_uint_written : forall b n v, n < b -> b <= u64_bound -> json_text v (write_uint n) -> is_uint b n v.
Proof.
  intros b n v L B H. destruct (write_uint_decimal n ltac:(lia)) as (w & E & D & J). rewrite E in H. exists w. split; [apply (json_text_fun w); [exact H|constructor; exact J]|]. split; assumption.
Qed.
Lemma is_list_written : forall A (is : A -> json -> Prop) (f : A -> text) l v, (forall a, In a l -> exists j, json_text j (f a) /\ is a j) -> json_text v (write_array (map f l)) -> is_list is l v.
Proof.
  intros A is f l v H J. assert (X : exists vs, Forall2 json_text vs (map f l) /\ Forall2 is l vs).
  { clear J. induction l as [|a l IH]; [exists []; split; constructor|]. destruct (H a (or_introl eq_refl)) as (j & Ja & Ia). destruct IH as (vs & F & G); [intros a' K; apply H; right; exact K|]. exists (j :: vs). split; constructor; assumption. }
  destruct X as (vs & F & G). exists vs. split; [apply (json_text_fun _ _ _ J); apply write_array_text; exact F|exact G].
Qed.
(** Members whose values are values. *)
Definition valued (m : text * text) : Prop := exists v, json_text v (snd m).
Lemma valued_shows : forall ms, Forall valued ms -> exists l, Forall2 shows ms l.
Proof. intros ms H. induction H as [|[n x] ms (v & J) H (l & IH)]; [exists []; constructor|]. exists ((flat_map write_char n, v) :: l). constructor; [split; [reflexivity|exact J]|exact IH]. Qed.
Lemma valued_string : forall n s, valued (n, write_string s).
Proof. intros n s. eexists. apply write_string_text. Qed.
Lemma valued_uint : forall n m, m < u64_bound -> valued (n, write_uint m).
Proof. intros n m L. destruct (write_uint_decimal m L) as (w & E & _ & J). exists (J_number w). cbn [snd]. rewrite E. constructor. exact J. Qed.

Lemma written_trust : forall order t, Permutation (order t) (trust_members t) -> trust_fits t -> exists j, json_text j (write_object (order t)) /\ is_trust t j.
Proof.
  intros order t P [L1 L2]. change (2 ^ 64) with u64_bound in *.
  assert (V : Forall valued (order t)).
  { apply (Permutation_Forall (Permutation_sym P)). repeat constructor; try apply valued_string; apply valued_uint; assumption. }
  destruct (valued_shows _ V) as (l & S). exists (J_object l). split; [apply write_object_text; exact S|].
  assert (ND : NoDup (map fst (order t))) by (apply (Permutation_NoDup (Permutation_sym (Permutation_map fst P))); exact (proj1 distinct_names)).
  assert (M : forall n x, In (n, x) (trust_members t) -> exists v, member l n v /\ json_text v x) by (intros n x K; apply (shows_member (order t)); [exact S|exact ND|apply (Permutation_in _ (Permutation_sym P)); exact K]).
  destruct (M (str "issued_for") _ ltac:(left; reflexivity)) as (a & Ma & Ja). destruct (M (str "expires_at") _ ltac:(right; left; reflexivity)) as (b & Mb & Jb).
  destruct (M (str "signature") _ ltac:(do 2 right; left; reflexivity)) as (c & Mc & Jc). destruct (M (str "sig_type") _ ltac:(do 3 right; left; reflexivity)) as (d & Md & Jd).
  destruct (M (str "issued_at") _ ltac:(do 4 right; left; reflexivity)) as (e & Me & Je). exists a, b, c, d, e. split; [left; exists l; split; [reflexivity|repeat constructor; assumption]|].
  split; [apply is_string_written; exact Ja|]. split; [apply is_uint_written; [exact L1|reflexivity|exact Jb]|]. split; [apply is_string_written; exact Jc|]. split; [apply is_string_written; exact Jd|]. apply is_uint_written; [exact L2|reflexivity|exact Je].
Qed.
Lemma written_cert : forall order c, (forall t, In t c -> Permutation (order t) (trust_members t) /\ trust_fits t) -> exists j, json_text j (write_cert order c) /\ is_cert c j.
Proof.
  intros order c H. set (x := write_array (map (fun t => write_object (order t)) c)).
  assert (T : forall t, In t c -> exists j, json_text j (write_object (order t)) /\ is_trust t j) by (intros t K; destruct (H t K); apply written_trust; assumption).
  assert (V : exists v, json_text v x).
  { assert (X : exists vs, Forall2 json_text vs (map (fun t => write_object (order t)) c)).
    { clear - T. induction c as [|t c IH]; [exists []; constructor|]. destruct (T t (or_introl eq_refl)) as (j & J & _). destruct IH as (vs & F); [intros t' K; apply T; right; exact K|]. exists (j :: vs). constructor; assumption. }
    destruct X as (vs & F). exists (J_array vs). apply write_array_text. exact F. }
  destruct V as (v & V). exists (J_object [(flat_map write_char (str "chain"), v)]). split; [apply write_object_text; repeat constructor; exact V|].
  exists v. split; [|apply (is_list_written _ is_trust (fun t => write_object (order t))); assumption]. left. eexists. split; [reflexivity|]. repeat constructor. exists [], (flat_map write_char (str "chain")), []. split; [reflexivity|]. split; [apply write_spells|intros k' v' []].
Qed.
(** The certificates, as a value of a member. *)
Lemma written_certs : forall order cs, orders order cs -> (forall c t, In c cs -> In t c -> trust_fits t) ->
  exists v, json_text v (write_array (map (write_cert order) cs)) /\ is_list is_cert cs v.
Proof.
  intros order cs O F. assert (T : forall c, In c cs -> exists j, json_text j (write_cert order c) /\ is_cert c j) by (intros c K; apply written_cert; intros t K'; split; [apply (O c); assumption|apply (F c); assumption]).
  assert (X : exists vs, Forall2 json_text vs (map (write_cert order) cs)).
  { clear - T. induction cs as [|t c IH]; [exists []; constructor|]. destruct (T t (or_introl eq_refl)) as (j & J & _). destruct IH as (vs & F); [intros t' K; apply T; right; exact K|]. exists (j :: vs). constructor; assumption. }
  destruct X as (vs & G). exists (J_array vs). pose proof (write_array_text _ _ G) as J. split; [exact J|]. apply (is_list_written _ is_cert (write_cert order)); assumption.
Qed.
Lemma written_distro : forall order root m cs, orders order cs -> (forall c t, In c cs -> In t c -> trust_fits t) -> m < u32_bound ->
  certs_text (write_object [ (str "root_node", write_string root); (str "max_chain_length", write_uint m); (str "certs", write_array (map (write_cert order) cs)) ]) (mk_distro_certs root m cs).
Proof.
  intros order root m cs O F L. destruct (written_certs order cs O F) as (v & J & Lv). assert (L' : m < u64_bound) by (change u64_bound with (u32_bound * u32_bound); change u32_bound with 4294967296 in *; lia).
  set (ms := [(str "root_node", write_string root); (str "max_chain_length", write_uint m); (str "certs", write_array (map (write_cert order) cs))]).
  assert (V : Forall valued ms) by (repeat constructor; [apply valued_string|apply valued_uint; exact L'|exists v; exact J]). destruct (valued_shows _ V) as (l & S).
  exists (J_object l). split; [apply json_text_file; apply write_object_text; exact S|].
  assert (ND : NoDup (map fst ms)) by exact (proj2 (proj2 distinct_names)).
  destruct (shows_member ms l (str "root_node") _ S ND ltac:(left; reflexivity)) as (a & Ma & Ja). destruct (shows_member ms l (str "max_chain_length") _ S ND ltac:(right; left; reflexivity)) as (b & Mb & Jb).
  destruct (shows_member ms l (str "certs") _ S ND ltac:(do 2 right; left; reflexivity)) as (c & Mc & Jc). exists a, b, c. split; [left; exists l; split; [reflexivity|repeat constructor; assumption]|].
  cbn [root_node max_chain_length certs]. split; [apply is_string_written; exact Ja|]. split; [apply is_uint_written; [exact L|discriminate|exact Jb]|]. rewrite (json_text_fun _ _ _ Jc J). exact Lv.
Qed.
