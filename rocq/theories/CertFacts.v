(** Facts about Certificate.v. *)
From Coq Require Import List NArith ZArith Bool Lia ZifyBool ZifyNat ZifyN.
From Coq Require Strings.Byte String.
Import String.StringSyntax.
From Verif Require Import Base BaseFacts Text TextFacts Keys KeysFacts Trust TrustFacts Certificate Spec.
Import ListNotations.
Open Scope N_scope.

Section WithCrypto.
Variable C : crypto.

(** The link between trust number [i] and the one before it verifies. *)
Definition link_ok (chain : list trust) (now : duration) (i : nat) : Prop :=
  exists g t, nth_error chain i = Some g /\ nth_error chain (S i) = Some t /\
              trust_verify C t (issued_for g) now = Ok tt.

Lemma cert_verify_from_ok : forall chain now i, (i < length chain)%nat ->
  cert_verify_from C chain i now = Ok tt <-> forall j, (j < i)%nat -> link_ok chain now j.
Proof.
  intros chain now. induction i as [|i IH]; intros Hi; cbn [cert_verify_from].
  - split; [intros _ j Hj; lia|reflexivity].
  - destruct (nth_error chain (S i)) as [t|] eqn:E1.
    2:{ apply nth_error_None in E1. lia. }
    destruct (nth_error chain i) as [g|] eqn:E2.
    2:{ apply nth_error_None in E2. lia. }
    rewrite bind_ok. split.
    + intros (u & H1 & H2) j Hj. apply map_err_ok in H1. destruct u.
      destruct (Nat.eq_dec j i) as [->|Hne]; [exists g, t; auto|].
      apply IH; [lia|assumption|lia].
    + intros H. exists tt. split.
      * apply map_err_ok. destruct (H i ltac:(lia)) as (g' & t' & A & B & D). congruence.
      * apply IH; [lia|]. intros j Hj. apply H. lia.
Qed.

Lemma cert_verify_ok : forall chain roots now,
  cert_verify C chain roots now = Ok tt <->
  exists t0 rest, chain = t0 :: rest /\ trust_verify C t0 (issued_for t0) now = Ok tt /\
    In (issued_for t0) roots /\ forall j, (S j < length chain)%nat -> link_ok chain now j.
Proof.
  intros chain roots now. unfold cert_verify. destruct chain as [|t0 rest].
  - split; [discriminate|]. intros (t0 & rest & H & _). discriminate.
  - rewrite bind_ok. split.
    + intros (u & H1 & H2). apply map_err_ok in H1. destruct u.
      destruct (existsb (pk_eqb (issued_for t0)) roots) eqn:E; [|discriminate].
      apply existsb_pk in E. exists t0, rest. repeat split; try assumption.
      intros j Hj. rewrite cert_verify_from_ok in H2 by (simpl; lia). apply H2. simpl in *. lia.
    + intros (t0' & rest' & H & H1 & H2 & H3). injection H as <- <-. exists tt. split; [apply map_err_ok; assumption|].
      apply existsb_pk in H2. rewrite H2. apply cert_verify_from_ok; [simpl; lia|].
      intros j Hj. apply H3. simpl in *. lia.
Qed.

(** Which error is reported. *)
Lemma cert_verify_from_err : forall chain now i e, (i < length chain)%nat ->
  cert_verify_from C chain i now = Err e <->
  exists j te g t, (S j <= i)%nat /\ e = CE_VerificationError (S j) te /\
    nth_error chain j = Some g /\ nth_error chain (S j) = Some t /\
    trust_verify C t (issued_for g) now = Err te /\
    forall l, (S j <= l < i)%nat -> link_ok chain now l.
Proof.
  intros chain now. induction i as [|i IH]; intros e Hi; cbn [cert_verify_from].
  - split; [discriminate|]. intros (j & te & g & t & H & _). lia.
  - destruct (nth_error chain (S i)) as [t|] eqn:E1.
    2:{ apply nth_error_None in E1. lia. }
    destruct (nth_error chain i) as [g|] eqn:E2.
    2:{ apply nth_error_None in E2. lia. }
    destruct (trust_verify_total C t (issued_for g) now) as [V|[te V]]; rewrite V; cbn [map_err bind].
    + rewrite IH by lia. split.
      * intros (j & te & g' & t' & H1 & H2 & H3 & H4 & H5 & H6). exists j, te, g', t'.
        repeat split; try assumption; try lia. intros l Hl.
        destruct (Nat.eq_dec l i) as [->|]; [exists g, t; auto|apply H6; lia].
      * intros (j & te & g' & t' & H1 & H2 & H3 & H4 & H5 & H6).
        assert (j <> i) by (intros ->; congruence).
        exists j, te, g', t'. repeat split; try assumption; try lia. intros l Hl. apply H6. lia.
    + split.
      * intros H. injection H as <-. exists i, te, g, t. repeat split; try assumption; lia.
      * intros (j & te' & g' & t' & H1 & H2 & H3 & H4 & H5 & H6).
        destruct (Nat.eq_dec j i) as [->|Hne]; [congruence|].
        destruct (H6 i ltac:(lia)) as (g2 & t2 & A & B & D). congruence.
Qed.

Lemma cert_verify_from_no_panic : forall chain now i, (i < length chain)%nat ->
  cert_verify_from C chain i now <> Panic /\ cert_verify_from C chain i now <> OutOfFuel.
Proof.
  intros chain now. induction i as [|i IH]; intros Hi; cbn [cert_verify_from]; [split; discriminate|].
  destruct (nth_error chain (S i)) as [t|] eqn:E1.
  2:{ apply nth_error_None in E1. lia. }
  destruct (nth_error chain i) as [g|] eqn:E2.
  2:{ apply nth_error_None in E2. lia. }
  destruct (trust_verify_total C t (issued_for g) now) as [V|[te V]]; rewrite V; cbn [map_err bind].
  - apply IH. lia.
  - split; discriminate.
Qed.

Lemma cert_verify_total : forall chain roots now,
  cert_verify C chain roots now = Ok tt \/ exists e, cert_verify C chain roots now = Err e.
Proof.
  intros chain roots now. unfold cert_verify. destruct chain as [|t0 rest]; [right; eexists; reflexivity|].
  destruct (trust_verify_total C t0 (issued_for t0) now) as [V|[te V]]; rewrite V; cbn [map_err bind];
    [|right; eexists; reflexivity].
  destruct (existsb (pk_eqb (issued_for t0)) roots); [|right; eexists; reflexivity].
  destruct (cert_verify_from_no_panic (t0 :: rest) now (length (t0 :: rest) - 1)) as [A B]; [simpl; lia|].
  destruct (cert_verify_from C (t0 :: rest) (length (t0 :: rest) - 1) now) as [[]|e| |];
    [left; reflexivity|right; eexists; reflexivity|contradiction|contradiction].
Qed.

Lemma trust_verify_earlier : forall t k now now', duration_ltb now now' = false ->
  trust_verify C t k now = Ok tt -> trust_verify C t k now' = Ok tt.
Proof.
  intros t k now now' H V. apply trust_verify_ok in V. destruct V as [V1 V2]. apply trust_verify_ok.
  split; [|assumption]. unfold duration_ltb in *. lia.
Qed.

Lemma cert_verify_earlier : forall chain roots now now', duration_ltb now now' = false ->
  cert_verify C chain roots now = Ok tt -> cert_verify C chain roots now' = Ok tt.
Proof.
  intros chain roots now now' H V. apply cert_verify_ok in V. destruct V as (t0 & rest & E & V0 & R & L).
  apply cert_verify_ok. exists t0, rest. repeat split; try assumption.
  - eapply trust_verify_earlier; eassumption.
  - intros j Hj. destruct (L j Hj) as (g & t & A & B & D). exists g, t. repeat split; try assumption.
    eapply trust_verify_earlier; eassumption.
Qed.

Lemma cert_verify_more_roots : forall chain roots roots' now, (forall k, In k roots -> In k roots') ->
  cert_verify C chain roots now = Ok tt -> cert_verify C chain roots' now = Ok tt.
Proof.
  intros chain roots roots' now H V. apply cert_verify_ok in V. destruct V as (t0 & rest & E & V0 & R & L).
  apply cert_verify_ok. exists t0, rest. repeat split; try assumption. apply H. assumption.
Qed.

(** Prefixes. *)
Lemma nth_error_firstn : forall A (l : list A) n i, (i < n)%nat -> nth_error (firstn n l) i = nth_error l i.
Proof.
  induction l as [|x l IH]; intros n i H; destruct n; try lia; simpl.
  - destruct i; reflexivity.
  - destruct i; [reflexivity|]. simpl. apply IH. lia.
Qed.

Lemma last_index_of_spec : forall pk chain i acc,
  match last_index_of pk chain i acc with
  | None => acc = None /\ forall t, In t chain -> issued_for t <> pk
  | Some j =>
      (acc = Some j /\ forall t, In t chain -> issued_for t <> pk) \/
      (exists n t, j = (i + n)%nat /\ nth_error chain n = Some t /\ issued_for t = pk /\
        forall m u, (n < m)%nat -> nth_error chain m = Some u -> issued_for u <> pk)
  end.
Proof.
  intros pk chain. induction chain as [|t chain IH]; intros i acc; simpl.
  - destruct acc; [left; split; [reflexivity|intros ? []]|split; [reflexivity|intros ? []]].
  - specialize (IH (S i) (if pk_eqb (issued_for t) pk then Some i else acc)).
    destruct (last_index_of pk chain (S i) (if pk_eqb (issued_for t) pk then Some i else acc)) as [j|].
    + destruct IH as [[IH1 IH2]|(n & u & E & N1 & N2 & N3)].
      * destruct (pk_eqb (issued_for t) pk) eqn:P.
        -- injection IH1 as <-. apply pk_eqb_eq in P. right. exists 0%nat, t.
           repeat split; [lia|assumption|]. intros m u Hm Hu. destruct m; [lia|]. simpl in Hu.
           apply nth_error_In in Hu. apply IH2. assumption.
        -- apply pk_eqb_neq in P. left. split; [assumption|]. intros u [<-|Hu]; [assumption|apply IH2; assumption].
      * right. exists (S n), u. repeat split; [lia|assumption|assumption|].
        intros m v Hm Hv. destruct m; [lia|]. simpl in Hv. eapply N3; [|eassumption]. lia.
    + destruct IH as [IH1 IH2]. destruct (pk_eqb (issued_for t) pk) eqn:P; [discriminate|].
      apply pk_eqb_neq in P. split; [assumption|]. intros u [<-|Hu]; [assumption|apply IH2; assumption].
Qed.

Lemma cert_prefix_for_ok : forall pk c now p, cert_prefix_for C pk c now = Ok p ->
  exists t0 n t, hd_error c = Some t0 /\ cert_verify C c [issued_for t0] now = Ok tt /\
    nth_error c n = Some t /\ issued_for t = pk /\
    (forall m u, (n < m)%nat -> nth_error c m = Some u -> issued_for u <> pk) /\
    p = firstn (S n) c.
Proof.
  intros pk c now p H. unfold cert_prefix_for in H. destruct c as [|t0 rest]; [discriminate|].
  apply bind_ok in H. destruct H as ([] & V & H).
  pose proof (last_index_of_spec pk (t0 :: rest) 0 None) as S.
  destruct (last_index_of pk (t0 :: rest) 0 None) as [j|]; [|discriminate].
  apply Ok_inj in H. destruct S as [[S _]|(n & t & E & N1 & N2 & N3)]; [discriminate|].
  simpl in E. subst j. exists t0, n, t. repeat split; try assumption.
  rewrite Nat.add_1_r in H. symmetry. assumption.
Qed.

Lemma cert_prefix_verify : forall c roots now n, (0 < n)%nat -> cert_verify C c roots now = Ok tt ->
  cert_verify C (firstn n c) roots now = Ok tt.
Proof.
  intros c roots now n Hn V. apply cert_verify_ok in V. destruct V as (t0 & rest & -> & V0 & R & L).
  apply cert_verify_ok. destruct n as [|n]; [lia|]. exists t0, (firstn n rest). repeat split; try assumption.
  intros j Hj. rewrite firstn_length in Hj.
  destruct (L j ltac:(lia)) as (g & t & A & B & D). exists g, t.
  rewrite !nth_error_firstn by lia. auto.
Qed.

Lemma cert_verify_snoc : forall c t roots now lst, cert_verify C c roots now = Ok tt ->
  nth_error c (length c - 1) = Some lst -> trust_verify C t (issued_for lst) now = Ok tt ->
  cert_verify C (c ++ [t]) roots now = Ok tt.
Proof.
  intros c t roots now lst V Hl Vt. apply cert_verify_ok in V. destruct V as (t0 & rest & -> & V0 & R & L).
  apply cert_verify_ok. exists t0, (rest ++ [t]). repeat split; try assumption.
  intros j Hj. rewrite app_length in Hj. simpl in Hj.
  destruct (Nat.eq_dec j (length (t0 :: rest) - 1)) as [->|Hne].
  - exists lst, t. repeat split; try assumption.
    + rewrite nth_error_app1 by (simpl; lia). assumption.
    + rewrite nth_error_app2 by (simpl; lia). replace (S (length (t0 :: rest) - 1) - length (t0 :: rest))%nat with 0%nat by (simpl; lia). reflexivity.
  - simpl in Hne. destruct (L j ltac:(simpl; lia)) as (g & u & A & B & D). exists g, u.
    rewrite !nth_error_app1 by (simpl; lia). auto.
Qed.

Lemma cert_prefix_extend_verify : forall pk c now p t roots, cert_prefix_for C pk c now = Ok p ->
  trust_verify C t pk now = Ok tt -> (forall t0, hd_error c = Some t0 -> In (issued_for t0) roots) ->
  cert_verify C (p ++ [t]) roots now = Ok tt.
Proof.
  intros pk c now p t roots H V R. apply cert_prefix_for_ok in H.
  destruct H as (t0 & n & l & Hh & Hv & Hn & Hpk & _ & ->).
  assert (n < length c)%nat by (apply nth_error_Some; congruence).
  apply (cert_verify_snoc _ _ _ _ l).
  - apply (cert_verify_more_roots _ [issued_for t0]).
    + intros k [<-|[]]. apply R. assumption.
    + apply cert_prefix_verify; [lia|assumption].
  - rewrite firstn_length. rewrite nth_error_firstn by lia.
    replace (Nat.min (S n) (length c) - 1)%nat with n by lia. assumption.
  - congruence.
Qed.

(** Binary codec. *)
Lemma skipn_skipn : forall A (l : list A) n m, skipn n (skipn m l) = skipn (m + n) l.
Proof.
  intros A l n m. revert l. induction m as [|m IH]; intros l; [reflexivity|].
  destruct l as [|x l]; [simpl; apply skipn_nil|]. simpl. apply IH.
Qed.

Lemma trust_encode_len : forall t, len (trust_encode t) = 18 + len (pk_encode (issued_for t)) + len (sig_encode (trust_sig t)).
Proof. intros. unfold trust_encode. rewrite len_cons, len_app, len_cons, !len_app, !le_bytes_len8. lia. Qed.

Lemma cert_decode_trusts_encode : forall ts pre post,
  (forall t, In t ts -> trust_fits C t /\ len (trust_encode t) < 256) ->
  cert_decode_trusts C (pre ++ flat_map enc1 ts ++ post) (length ts) (len pre) = Ok ts.
Proof.
  induction ts as [|t ts IH]; intros pre post H; [reflexivity|].
  destruct (H t (or_introl eq_refl)) as [F L].
  change (length (t :: ts)) with (S (length ts)). cbn [cert_decode_trusts].
  set (arr := pre ++ flat_map enc1 (t :: ts) ++ post).
  assert (Harr : arr = (pre ++ [u8_of_N (len (trust_encode t))]) ++ trust_encode t ++ flat_map enc1 ts ++ post).
  { unfold arr. simpl. rewrite <- !app_assoc. reflexivity. }
  assert (Hlen : len arr = len pre + 1 + len (trust_encode t) + len (flat_map enc1 ts ++ post)).
  { rewrite Harr. rewrite !len_app. change (len [u8_of_N (len (trust_encode t))]) with 1. lia. }
  unfold cert_check_arr_len. rewrite Hlen.
  match goal with |- context [?a <? ?b] => replace (a <? b) with false by lia end. cbn [bind].
  unfold arr at 1. rewrite index_app by reflexivity. cbn [flat_map enc1 app bind].
  rewrite N_of_u8_of_N_small by assumption.
  match goal with |- context [?a <? ?b] => replace (a <? b) with false by lia end. cbn [bind].
  rewrite Harr at 1. rewrite slice_app; [|rewrite len_app; reflexivity|lia].
  replace (len pre + 1 + len (trust_encode t) - (len pre + 1)) with (len (trust_encode t)) by lia.
  rewrite (len_app (trust_encode t)). replace (len (trust_encode t) <=? len (trust_encode t) + len (flat_map enc1 ts ++ post)) with true by lia.
  cbn [bind]. rewrite firstn_app_exact by apply len_to_nat.
  rewrite trust_encode_len in L.
  rewrite trust_decode_encode; [|assumption|lia|lia]. cbn [map_err bind].
  replace (len pre + (1 + len (trust_encode t))) with (len (pre ++ enc1 t)).
  2:{ rewrite len_app. unfold enc1. rewrite len_cons. lia. }
  replace arr with ((pre ++ enc1 t) ++ flat_map enc1 ts ++ post).
  2:{ unfold arr. cbn [flat_map]. rewrite <- !app_assoc. reflexivity. }
  rewrite IH by (intros; apply H; right; assumption). reflexivity.
Qed.

Lemma cert_decode_encode : forall c,
  (forall t, In t c -> trust_fits C t /\ len (trust_encode t) < 256) ->
  (2 <= length c)%nat -> (length c <= 255)%nat ->
  cert_decode C (cert_encode c) = Ok c.
Proof.
  intros c H L1 L2. unfold cert_decode.
  change (cert_encode c) with ((FORMAT ++ VERSION) ++ [u8_of_N (N.of_nat (length c))] ++ flat_map enc1 c).
  set (arr := (FORMAT ++ VERSION) ++ [u8_of_N (N.of_nat (length c))] ++ flat_map enc1 c).
  assert (Hl : len arr = 7 + len (flat_map enc1 c)).
  { unfold arr. rewrite !len_app. change (len [u8_of_N (N.of_nat (length c))]) with 1.
    change (len FORMAT) with 2. change (len VERSION) with 4. lia. }
  unfold cert_check_arr_len. rewrite Hl.
  match goal with |- context [?a <? ?b] => replace (a <? b) with false by lia end. cbn [bind].
  unfold arr at 1. rewrite index_app by reflexivity. cbn [app bind].
  rewrite N_of_u8_of_N_small by lia.
  replace (N.of_nat (length c) <? 2) with false by lia.
  rewrite Nnat.Nat2N.id.
  replace arr with (((FORMAT ++ VERSION) ++ [u8_of_N (N.of_nat (length c))]) ++ flat_map enc1 c ++ []).
  2:{ rewrite app_nil_r. unfold arr. rewrite <- app_assoc. reflexivity. }
  change 7 with (len ((FORMAT ++ VERSION) ++ [u8_of_N (N.of_nat (length c))])).
  apply cert_decode_trusts_encode. assumption.
Qed.

Lemma cert_decode_trusts_ok : forall n arr off ts, off <= len arr -> cert_decode_trusts C arr n off = Ok ts ->
  length ts = n /\ (forall t, In t ts -> trust_fits C t /\ len (trust_encode t) < 256) /\
  exists post, skipn (N.to_nat off) arr = flat_map enc1 ts ++ post.
Proof.
  induction n as [|n IH]; intros arr off ts Hoff H; cbn [cert_decode_trusts] in H.
  - apply Ok_inj in H. subst. split; [reflexivity|]. split; [intros ? []|]. eexists. reflexivity.
  - apply bind_ok in H. destruct H as (u & Hu & H). unfold cert_check_arr_len in Hu.
    destruct (len arr <? off + 1) eqn:E1; [discriminate|].
    apply bind_ok in H. destruct H as (tl & Htl & H).
    apply bind_ok in H. destruct H as (u2 & Hu2 & H). unfold cert_check_arr_len in Hu2.
    destruct (len arr <? off + 1 + N_of_u8 tl) eqn:E2; [discriminate|].
    apply bind_ok in H. destruct H as (sl & Hsl & H).
    apply bind_ok in H. destruct H as (t & Ht & H). apply map_err_ok in Ht.
    apply bind_ok in H. destruct H as (rest & Hrest & H). apply Ok_inj in H. subst ts.
    apply IH in Hrest; [|lia]. destruct Hrest as (R1 & R2 & post & R3).
    apply trust_decode_canonical in Ht. destruct Ht as [Ht Hf].
    unfold slice in Hsl. replace ((off + 1 <=? off + 1 + N_of_u8 tl) && (off + 1 + N_of_u8 tl <=? len arr)) with true in Hsl by lia.
    apply Ok_inj in Hsl.
    assert (Hsk : skipn (N.to_nat off) arr = tl :: skipn (N.to_nat (off + 1)) arr).
    { unfold index in Htl. destruct (nth_error arr (N.to_nat off)) as [b|] eqn:E; [|discriminate].
      apply Ok_inj in Htl. subst b. replace (N.to_nat (off + 1)) with (S (N.to_nat off)) by lia.
      clear - E. revert E. generalize (N.to_nat off). intros n. revert arr.
      induction n as [|n IH]; intros [|x arr] E; simpl in *; try discriminate.
      - injection E as ->. reflexivity.
      - apply IH. assumption. }
    replace (off + 1 + N_of_u8 tl - (off + 1)) with (N_of_u8 tl) in Hsl by lia.
    assert (Hslen : len sl = N_of_u8 tl).
    { rewrite <- Hsl. apply firstn_len. rewrite skipn_len. lia. }
    split; [simpl; lia|]. split.
    + intros x [<-|Hx]; [|apply R2; assumption]. split; [assumption|].
      rewrite Ht, Hslen. apply N_of_u8_bound.
    + exists post. rewrite Hsk. cbn [flat_map]. unfold enc1 at 1. rewrite Ht.
      rewrite Hslen, u8_of_N_of_u8. cbn [app]. f_equal. rewrite <- app_assoc, <- R3.
      rewrite <- Hsl. rewrite <- (firstn_skipn (N.to_nat (N_of_u8 tl)) (skipn (N.to_nat (off + 1)) arr)) at 1.
      f_equal. rewrite skipn_skipn. f_equal. lia.
Qed.

(** Only the 6 header bytes and trailing bytes are not determined by the decoded certificate. *)
Lemma cert_decode_ok : forall b c, cert_decode C b = Ok c ->
  (2 <= length c <= 255)%nat /\ (forall t, In t c -> trust_fits C t) /\
  exists hdr post, len hdr = 6 /\ b = hdr ++ skipn 6 (cert_encode c) ++ post.
Proof.
  intros b c H. unfold cert_decode in H.
  apply bind_ok in H. destruct H as (u & Hu & H). unfold cert_check_arr_len in Hu.
  destruct (len b <? 7) eqn:E1; [discriminate|].
  apply bind_ok in H. destruct H as (nb & Hnb & H).
  destruct (N_of_u8 nb <? 2) eqn:E2; [discriminate|].
  apply cert_decode_trusts_ok in H; [|lia]. destruct H as (H1 & H2 & post & H3).
  pose proof (N_of_u8_bound nb). split; [lia|]. split; [intros t Ht; apply H2; assumption|].
  exists (firstn 6 b), post. split.
  - apply (firstn_len 6). lia.
  - assert (Hs6 : skipn 6 (cert_encode c) = nb :: flat_map enc1 c).
    { unfold cert_encode. change (skipn 6 (FORMAT ++ VERSION ++ ?x)) with x.
      replace (N.of_nat (length c)) with (N_of_u8 nb) by lia. rewrite u8_of_N_of_u8. reflexivity. }
    rewrite Hs6. rewrite <- app_comm_cons. rewrite <- H3.
    rewrite <- (firstn_skipn 6 b) at 1. f_equal.
    unfold index in Hnb. destruct (nth_error b (N.to_nat 6)) as [x|] eqn:E; [|discriminate].
    apply Ok_inj in Hnb. subst x. change (N.to_nat 7) with 7%nat. change (N.to_nat 6) with 6%nat in E.
    do 6 (destruct b as [|? b]; [discriminate|]). destruct b as [|y b]; [discriminate|].
    simpl in E. injection E as ->. reflexivity.
Qed.

(** Text codec. *)
Lemma pk_line : forall k, no_newline (b58_encode (pk_encode k)).
Proof. intros. apply b58_no_newline. Qed.

Lemma lines_cert : forall ts,
  lines (flat_map (fun t => trust_to_string t ++ [x0a]) ts) =
  flat_map (fun t => match trust_strings t with (a, b, c, d) => [a; b; c; d] end) ts.
Proof.
  induction ts as [|t ts IH]; [reflexivity|].
  cbn [flat_map]. unfold trust_to_string at 1. unfold trust_strings at 1 2.
  repeat (rewrite <- app_assoc || rewrite <- app_comm_cons).
  rewrite lines_line by apply b58_no_newline.
  rewrite lines_line by apply b58_no_newline.
  rewrite lines_line by apply u64_no_newline.
  cbn [app]. rewrite lines_line by apply u64_no_newline.
  rewrite IH. reflexivity.
Qed.

Lemma cert_parse_trusts_strings : forall ts i, (forall t, In t ts -> trust_fits C t) ->
  cert_parse_trusts C (flat_map (fun t => match trust_strings t with (a, b, c, d) => [a; b; c; d] end) ts) i = Ok ts.
Proof.
  induction ts as [|t ts IH]; intros i H; [reflexivity|]. cbn [flat_map].
  destruct (trust_strings t) as [[[a b] c] d] eqn:E. cbn [app cert_parse_trusts].
  rewrite (trust_strings_roundtrip C t a b c d) by (try assumption; apply H; left; reflexivity).
  cbn [map_err bind]. rewrite IH by (intros; apply H; right; assumption). reflexivity.
Qed.

Lemma flat_map_len4 : forall ts : list trust,
  length (flat_map (fun t => match trust_strings t with (a, b, c, d) => [a; b; c; d] end) ts) = (4 * length ts)%nat.
Proof.
  induction ts as [|t ts IH]; [reflexivity|]. cbn [flat_map]. rewrite app_length, IH.
  destruct (trust_strings t) as [[[a b] c] d]. simpl. lia.
Qed.

Lemma cert_lines : forall c, lines (cert_to_string c) =
  b58_encode FORMAT :: b58_encode VERSION ::
  flat_map (fun t => match trust_strings t with (a, b, c, d) => [a; b; c; d] end) c.
Proof.
  intros c. unfold cert_to_string. cbn [app].
  rewrite lines_line by apply b58_no_newline. rewrite lines_line by apply b58_no_newline.
  rewrite lines_cert. reflexivity.
Qed.

Lemma cert_text_roundtrip : forall c, (forall t, In t c -> trust_fits C t) ->
  cert_from_str C (cert_to_string c) = Ok c.
Proof.
  intros c H. unfold cert_from_str. rewrite cert_lines, flat_map_len4.
  rewrite Nat.mul_comm, Nat.mod_mul by lia. simpl Nat.eqb. cbv iota.
  apply cert_parse_trusts_strings. assumption.
Qed.

Lemma cert_parse_trusts_fits : forall n ls i ts, (length ls <= n)%nat -> cert_parse_trusts C ls i = Ok ts ->
  forall t, In t ts -> trust_fits C t.
Proof.
  induction n as [|n IH]; intros ls i ts Hn H t Ht.
  - destruct ls; [|simpl in Hn; lia]. apply Ok_inj in H. subst. destruct Ht.
  - destruct ls as [|a [|b [|c [|d ls]]]]; simpl in H; try discriminate.
    + apply Ok_inj in H. subst. destruct Ht.
    + apply bind_ok in H. destruct H as (t0 & H0 & H). apply map_err_ok, trust_from_strings_fits in H0.
      apply bind_ok in H. destruct H as (ts' & H1 & H). apply Ok_inj in H. subst ts.
      destruct Ht as [<-|Ht]; [assumption|]. eapply IH; [|eassumption|assumption]. simpl in Hn. lia.
Qed.

Lemma cert_from_str_fits : forall s c, cert_from_str C s = Ok c -> forall t, In t c -> trust_fits C t.
Proof.
  intros s c H. unfold cert_from_str in H. destruct (lines s) as [|f [|v ls]]; try discriminate.
  destruct (Nat.eqb (Nat.modulo (length ls) 4) 0); [|discriminate].
  eapply cert_parse_trusts_fits; [reflexivity|eassumption].
Qed.

(** Panics of the text parser. *)
Lemma bs58_err : forall s f r, bs58_str_to_vec s f = r -> r <> Panic /\ r <> OutOfFuel.
Proof.
  intros s f r <-. unfold bs58_str_to_vec. destruct (b58_decode_no_panic s).
  destruct (b58_decode s); simpl; split; congruence.
Qed.
Lemma parse_digits_total : forall s acc, parse_digits acc s <> Panic /\ parse_digits acc s <> OutOfFuel.
Proof.
  induction s as [|c s IH]; intros acc; simpl; [split; discriminate|].
  destruct (dec_digit c); [|split; discriminate]. destruct (acc * 10 + n <? u64_bound); [apply IH|split; discriminate].
Qed.
Lemma str_to_duration_total : forall s f, str_to_duration s f <> Panic /\ str_to_duration s f <> OutOfFuel.
Proof.
  intros s f. unfold str_to_duration.
  assert (parse_u64 s <> Panic /\ parse_u64 s <> OutOfFuel) as [A B].
  { unfold parse_u64. destruct s as [|c s]; [split; discriminate|]. destruct (Byte.eqb c x2b); [|apply parse_digits_total].
    destruct s; [split; discriminate|apply parse_digits_total]. }
  destruct (parse_u64 s); simpl; split; congruence.
Qed.

Lemma b58_decode_nil : forall s, b58_decode s = Ok [] -> s = [].
Proof. intros s H. apply b58_canonical in H. rewrite <- H. reflexivity. Qed.

Lemma trust_from_strings_panic : forall a b c d, trust_from_strings C a b c d = Panic <->
  a = [] \/ ((exists k, pk_from_str C a = Ok k) /\ b = []).
Proof.
  intros a b c d. unfold trust_from_strings, bs58_str_to_vec, pk_from_str, pk_from_base58.
  destruct (b58_decode a) as [pkb|e| |] eqn:Ea; cbn [bind map_err].
  2:{ split; [discriminate|]. intros [->|[(k & H) _]]; discriminate. }
  2:{ apply b58_decode_no_panic in Ea. contradiction. }
  2:{ apply b58_decode_no_panic in Ea. contradiction. }
  destruct (pk_decode C pkb) as [pk|e| |] eqn:Epk; cbn [bind map_err].
  - destruct (b58_decode b) as [sgb|e| |] eqn:Eb; cbn [bind map_err].
    2:{ split; [discriminate|]. intros [->|[_ ->]]; [|discriminate].
        apply Ok_inj in Ea. subst pkb. discriminate. }
    2:{ apply b58_decode_no_panic in Eb. contradiction. }
    2:{ apply b58_decode_no_panic in Eb. contradiction. }
    destruct (sig_decode C sgb) as [sg|e| |] eqn:Esg; cbn [bind map_err].
    + split.
      * destruct (str_to_duration_total c F_expires_at) as [A B].
        destruct (str_to_duration c F_expires_at); cbn [bind]; intros H; try contradiction; try discriminate.
        destruct (str_to_duration_total d F_issued_at) as [A' B'].
        destruct (str_to_duration d F_issued_at); cbn [bind] in H; intros; try contradiction; try discriminate.
      * intros [->|[_ ->]]; [apply Ok_inj in Ea; subst pkb; discriminate|].
        apply Ok_inj in Eb. subst sgb. discriminate.
    + split; [discriminate|]. intros [->|[_ ->]]; [apply Ok_inj in Ea; subst pkb; discriminate|].
      apply Ok_inj in Eb. subst sgb. discriminate.
    + split; [|reflexivity]. intros _. right. split; [exists pk; reflexivity|].
      apply sig_decode_panic in Esg. subst. apply b58_decode_nil. assumption.
    + apply sig_decode_fuel in Esg. contradiction.
  - split; [discriminate|]. intros [->|[(k & H) _]]; [|discriminate]. apply Ok_inj in Ea. subst pkb. discriminate.
  - split; [|reflexivity]. intros _. left. apply pk_decode_panic in Epk. subst. apply b58_decode_nil. assumption.
  - apply pk_decode_fuel in Epk. contradiction.
Qed.

(** The parser of the trusts panics exactly at the first group of four lines that makes it. *)
Lemma cert_parse_trusts_panic : forall n ls i, (length ls <= n)%nat -> Nat.modulo (length ls) 4 = 0%nat ->
  cert_parse_trusts C ls i = Panic <->
  exists k pre a b c d post ts, ls = pre ++ a :: b :: c :: d :: post /\ length pre = (4 * k)%nat /\
    cert_parse_trusts C pre i = Ok ts /\ (a = [] \/ ((exists p, pk_from_str C a = Ok p) /\ b = [])).
Proof.
  induction n as [|n IH]; intros ls i Hn Hm.
  - destruct ls; [|simpl in Hn; lia]. split; [discriminate|].
    intros (k & pre & a & b & c & d & post & ts & E & _). destruct pre; discriminate.
  - destruct ls as [|a [|b [|c [|d ls]]]]; try discriminate Hm.
    + split; [discriminate|]. intros (k & pre & a & b & c & d & post & ts & E & _). destruct pre; discriminate.
    + assert (Hm' : Nat.modulo (length ls) 4 = 0%nat).
      { change (length (a :: b :: c :: d :: ls)) with (4 + length ls)%nat in Hm. 
        rewrite Nat.add_comm in Hm. rewrite <- (Nat.mod_add (length ls) 1 4) by lia.
        replace (length ls + 1 * 4)%nat with (length ls + 4)%nat by lia. exact Hm. }
      assert (Hn' : (length ls <= n)%nat) by (simpl in Hn; lia).
      cbn [cert_parse_trusts].
      destruct (trust_from_strings C a b c d) as [t|e| |] eqn:E; cbn [map_err bind].
      * specialize (IH ls (i + 4)%nat Hn' Hm').
        split.
        -- intros H. destruct (cert_parse_trusts C ls (i + 4)) as [ts|e| |] eqn:P; cbn [bind] in H; try discriminate.
           destruct IH as [IH _]. destruct (IH eq_refl) as (k & pre & a' & b' & c' & d' & post & ts & E1 & E2 & E3 & E4).
           exists (S k), (a :: b :: c :: d :: pre), a', b', c', d', post, (t :: ts).
           repeat split; [subst; reflexivity|simpl; lia| |assumption].
           cbn [cert_parse_trusts]. rewrite E. cbn [map_err bind]. rewrite E3. reflexivity.
        -- intros (k & pre & a' & b' & c' & d' & post & ts & E1 & E2 & E3 & E4).
           destruct k as [|k].
           ++ destruct pre; [|simpl in E2; lia]. injection E1 as <- <- <- <- <-.
              apply (trust_from_strings_panic a b c d) in E4. congruence.
           ++ destruct pre as [|p1 [|p2 [|p3 [|p4 pre]]]]; simpl in E2; try lia.
              injection E1 as <- <- <- <- E1. cbn [cert_parse_trusts] in E3. rewrite E in E3. cbn [map_err bind] in E3.
              apply bind_ok in E3. destruct E3 as (ts' & E3 & _).
              destruct IH as [_ IH]. rewrite IH; [reflexivity|].
              exists k, pre, a', b', c', d', post, ts'. repeat split; try assumption. lia.
      * split; [discriminate|]. intros (k & pre & a' & b' & c' & d' & post & ts & E1 & E2 & E3 & E4).
        destruct k as [|k].
        -- destruct pre; [|simpl in E2; lia]. injection E1 as <- <- <- <- <-.
           apply (trust_from_strings_panic a b c d) in E4. congruence.
        -- destruct pre as [|p1 [|p2 [|p3 [|p4 pre]]]]; simpl in E2; try lia.
           injection E1 as <- <- <- <- E1. cbn [cert_parse_trusts] in E3. rewrite E in E3. discriminate.
      * split; [|reflexivity]. intros _. exists 0%nat, [], a, b, c, d, ls, [].
        repeat split. apply (trust_from_strings_panic a b c d). assumption.
      * exfalso. unfold trust_from_strings in E.
        destruct (bs58_err a F_issued_for _ eq_refl) as [A1 A2].
        destruct (bs58_str_to_vec a F_issued_for) as [pkb| | |]; cbn [bind] in E; try discriminate; try contradiction.
        destruct (pk_decode C pkb) as [pk|e| |] eqn:Epk; cbn [bind map_err] in E; try discriminate.
        2:{ apply pk_decode_fuel in Epk. contradiction. }
        destruct (bs58_err b F_signature _ eq_refl) as [B1 B2].
        destruct (bs58_str_to_vec b F_signature) as [sgb| | |]; cbn [bind] in E; try discriminate; try contradiction.
        destruct (sig_decode C sgb) as [sg|e| |] eqn:Esg; cbn [bind map_err] in E; try discriminate.
        2:{ apply sig_decode_fuel in Esg. contradiction. }
        destruct (str_to_duration_total c F_expires_at) as [D1 D2].
        destruct (str_to_duration c F_expires_at); cbn [bind] in E; try discriminate; try contradiction.
        destruct (str_to_duration_total d F_issued_at) as [D1' D2'].
        destruct (str_to_duration d F_issued_at); cbn [bind] in E; try discriminate; try contradiction.
Qed.

Lemma cert_from_str_panic : forall s, cert_from_str C s = Panic <->
  (length (lines s) < 2)%nat \/
  exists f v k pre a b c d post ts, lines s = f :: v :: pre ++ a :: b :: c :: d :: post /\
    Nat.modulo (length (lines s) - 2) 4 = 0%nat /\ length pre = (4 * k)%nat /\
    cert_parse_trusts C pre 2 = Ok ts /\ (a = [] \/ ((exists p, pk_from_str C a = Ok p) /\ b = [])).
Proof.
  intros s. unfold cert_from_str. destruct (lines s) as [|f [|v ls]].
  - split; [intros _; left; simpl; lia|reflexivity].
  - split; [intros _; left; simpl; lia|reflexivity].
  - replace (length (f :: v :: ls) - 2)%nat with (length ls) by (simpl; lia).
    destruct (Nat.eqb (Nat.modulo (length ls) 4) 0) eqn:E.
    + apply Nat.eqb_eq in E. rewrite (cert_parse_trusts_panic (length ls)) by (try assumption; lia). split.
      * intros (k & pre & a & b & c & d & post & ts & E1 & E2 & E3 & E4). right.
        exists f, v, k, pre, a, b, c, d, post, ts. subst ls. auto.
      * intros [H|(f' & v' & k & pre & a & b & c & d & post & ts & E1 & E2 & E3 & E4 & E5)]; [simpl in H; lia|].
        injection E1 as _ _ ->. exists k, pre, a, b, c, d, post, ts. auto.
    + apply Nat.eqb_neq in E. split; [discriminate|].
      intros [H|(f' & v' & k & pre & a & b & c & d & post & ts & E1 & E2 & _)]; [simpl in H; lia|]. contradiction.
Qed.

Lemma trust_from_strings_fuel : forall a b c d, trust_from_strings C a b c d <> OutOfFuel.
Proof.
  intros a b c d. unfold trust_from_strings, bs58_str_to_vec.
  destruct (b58_decode a) as [pkb|e| |] eqn:Ea; cbn [bind map_err]; try discriminate.
  2:{ apply b58_decode_no_panic in Ea. contradiction. }
  destruct (pk_decode C pkb) as [pk|e| |] eqn:Epk; cbn [bind map_err]; try discriminate.
  2:{ apply pk_decode_fuel in Epk. contradiction. }
  destruct (b58_decode b) as [sgb|e| |] eqn:Eb; cbn [bind map_err]; try discriminate.
  2:{ apply b58_decode_no_panic in Eb. contradiction. }
  destruct (sig_decode C sgb) as [sg|e| |] eqn:Esg; cbn [bind map_err]; try discriminate.
  2:{ apply sig_decode_fuel in Esg. contradiction. }
  destruct (str_to_duration_total c F_expires_at) as [A B].
  destruct (str_to_duration c F_expires_at); cbn [bind]; try discriminate; try contradiction.
  destruct (str_to_duration_total d F_issued_at) as [A' B'].
  destruct (str_to_duration d F_issued_at); cbn [bind]; try discriminate; try contradiction.
Qed.
Lemma cert_parse_trusts_fuel : forall n ls i, (length ls <= n)%nat -> cert_parse_trusts C ls i <> OutOfFuel.
Proof.
  induction n as [|n IH]; intros ls i H.
  - destruct ls; [discriminate|simpl in H; lia].
  - destruct ls as [|a [|b [|c [|d ls]]]]; try discriminate. cbn [cert_parse_trusts].
    pose proof (trust_from_strings_fuel a b c d). destruct (trust_from_strings C a b c d); cbn [map_err bind]; try discriminate; try contradiction.
    assert (X : cert_parse_trusts C ls (i + 4) <> OutOfFuel) by (apply IH; simpl in H; lia).
    destruct (cert_parse_trusts C ls (i + 4)); cbn [bind]; try discriminate. contradiction.
Qed.
Lemma cert_from_str_fuel : forall s, cert_from_str C s <> OutOfFuel.
Proof.
  intros s. unfold cert_from_str. destruct (lines s) as [|f [|v ls]]; try discriminate.
  destruct (Nat.eqb (Nat.modulo (length ls) 4) 0); [|discriminate]. apply (cert_parse_trusts_fuel (length ls)). apply le_n.
Qed.

(** Panics of the binary parser: exactly when, after some trusts that decode, the bytes announced as
    the next trust make the trust decoder panic. *)
Lemma slice_in : forall E arr from to, from <= to -> to <= len arr ->
  @slice E arr from to = Ok (firstn (N.to_nat (to - from)) (skipn (N.to_nat from) arr)).
Proof. intros. unfold slice. replace ((from <=? to) && (to <=? len arr)) with true by lia. reflexivity. Qed.

Lemma index_skipn : forall arr off, off + 1 <= len arr -> exists b r,
  skipn (N.to_nat off) arr = b :: r /\ forall E, @index E arr off = Ok b.
Proof.
  intros arr off H. unfold index. destruct (nth_error arr (N.to_nat off)) as [b|] eqn:E.
  2:{ apply nth_error_None in E. unfold len in H. lia. }
  exists b, (skipn (S (N.to_nat off)) arr). split; [|reflexivity].
  clear H. revert E. generalize (N.to_nat off). intros n. revert arr.
  induction n as [|n IH]; intros [|x arr] E; simpl in *; try discriminate.
  - injection E as ->. reflexivity.
  - apply IH. assumption.
Qed.

Lemma skipn_step : forall (arr : bytes) n b r, skipn n arr = b :: r -> skipn (S n) arr = r.
Proof.
  intros arr n. revert arr. induction n as [|n IH]; intros [|x arr] b r H; simpl in *; try discriminate.
  - injection H as _ ->. reflexivity.
  - eapply IH. eassumption.
Qed.

Lemma cert_decode_trusts_panic : forall n arr off, off <= len arr ->
  cert_decode_trusts C arr n off = Panic <->
  exists k ts pre l sl post, (k < n)%nat /\ cert_decode_trusts C arr k off = Ok ts /\
    skipn (N.to_nat off) arr = flat_map enc1 ts ++ pre /\
    pre = l :: sl ++ post /\ len sl = N_of_u8 l /\ trust_decode C sl = Panic.
Proof.
  induction n as [|n IH]; intros arr off Hoff.
  - split; [discriminate|]. intros (k & ts & pre & l & sl & post & H & _). lia.
  - cbn [cert_decode_trusts]. unfold cert_check_arr_len at 1.
    destruct (len arr <? off + 1) eqn:E1.
    { split; [discriminate|]. intros (k & ts & pre & l & sl & post & Hk & Hd & Hs & Hp & _). exfalso.
      assert (Hz : len (skipn (N.to_nat off) arr) = 0) by (rewrite skipn_len; lia).
      rewrite Hs, Hp in Hz. rewrite len_app, len_cons in Hz. lia. }
    cbn [bind]. destruct (index_skipn arr off ltac:(lia)) as (b & r & Hsk & Hidx). rewrite Hidx. cbn [bind].
    unfold cert_check_arr_len at 1.
    assert (Hr : len r = len arr - off - 1).
    { pose proof (skipn_len off arr) as L. rewrite Hsk, len_cons in L. lia. }
    assert (Hr' : skipn (N.to_nat (off + 1)) arr = r).
    { replace (N.to_nat (off + 1)) with (S (N.to_nat off)) by lia. eapply skipn_step. eassumption. }
    destruct (len arr <? off + 1 + N_of_u8 b) eqn:E2.
    { split; [discriminate|]. intros (k & ts & pre & l & sl & post & Hk & Hd & Hs & Hp & Hl & _). exfalso.
      destruct k as [|k].
      - simpl in Hd. apply Ok_inj in Hd. subst ts. simpl in Hs. rewrite Hsk, Hp in Hs. injection Hs as <- ->.
        rewrite len_app in Hr. lia.
      - cbn [cert_decode_trusts] in Hd. unfold cert_check_arr_len in Hd at 1. rewrite E1 in Hd. cbn [bind] in Hd.
        rewrite Hidx in Hd. cbn [bind] in Hd. unfold cert_check_arr_len in Hd at 1. rewrite E2 in Hd. discriminate. }
    cbn [bind]. rewrite slice_in by lia. replace (off + 1 + N_of_u8 b - (off + 1)) with (N_of_u8 b) by lia.
    rewrite Hr'. cbn [bind].
    set (sl := firstn (N.to_nat (N_of_u8 b)) r).
    assert (Hsl : len sl = N_of_u8 b) by (apply firstn_len; lia).
    destruct (trust_decode C sl) as [t|e| |] eqn:E3; cbn [map_err bind].
    + pose proof (trust_decode_canonical C sl t E3) as [Hc _].
      assert (Henc : enc1 t = b :: sl).
      { unfold enc1. rewrite Hc, Hsl, u8_of_N_of_u8. reflexivity. }
      assert (Hnext : skipn (N.to_nat (off + (1 + N_of_u8 b))) arr = skipn (N.to_nat (N_of_u8 b)) r).
      { rewrite <- Hr', skipn_skipn. f_equal. lia. }
      assert (Hwhole : skipn (N.to_nat off) arr = enc1 t ++ skipn (N.to_nat (off + (1 + N_of_u8 b))) arr).
      { rewrite Henc, Hnext, Hsk. cbn [app]. f_equal. symmetry. apply firstn_skipn. }
      specialize (IH arr (off + (1 + N_of_u8 b)) ltac:(lia)).
      assert (Hstep : forall k, cert_decode_trusts C arr (S k) off =
                 let? rest := cert_decode_trusts C arr k (off + (1 + N_of_u8 b)) in Ok (t :: rest)).
      { intros k. cbn [cert_decode_trusts]. unfold cert_check_arr_len at 1. rewrite E1. cbn [bind]. rewrite Hidx. cbn [bind].
        unfold cert_check_arr_len at 1. rewrite E2. cbn [bind]. rewrite slice_in by lia.
        replace (off + 1 + N_of_u8 b - (off + 1)) with (N_of_u8 b) by lia. rewrite Hr'. cbn [bind]. fold sl.
        rewrite E3. reflexivity. }
      split.
      * intros H. destruct (cert_decode_trusts C arr n (off + (1 + N_of_u8 b))) as [ts|e| |] eqn:P; cbn [bind] in H; try discriminate.
        destruct IH as [IH _]. destruct (IH eq_refl) as (k & ts & pre & l & sl' & post & Hk & Hd & Hs & Hp & Hl & Hpan).
        exists (S k), (t :: ts), pre, l, sl', post. repeat split; try assumption; [lia| |].
        -- rewrite Hstep, Hd. reflexivity.
        -- rewrite Hwhole, Hs. cbn [flat_map]. rewrite app_assoc. reflexivity.
      * intros (k & ts & pre & l & sl' & post & Hk & Hd & Hs & Hp & Hl & Hpan).
        destruct k as [|k].
        -- exfalso. simpl in Hd. apply Ok_inj in Hd. subst ts. simpl in Hs. rewrite Hsk, Hp in Hs. injection Hs as <- Hr2.
           assert (sl' = sl). { unfold sl. rewrite Hr2, firstn_app_exact; [reflexivity|]. unfold len in Hl. lia. }
           congruence.
        -- rewrite Hstep in Hd. apply bind_ok in Hd. destruct Hd as (ts' & Hd & Ht). apply Ok_inj in Ht. subst ts.
           cbn [flat_map] in Hs. rewrite Hwhole in Hs. rewrite <- app_assoc in Hs. apply app_inv_head in Hs.
           destruct IH as [_ IH]. rewrite IH; [reflexivity|].
           exists k, ts', pre, l, sl', post. repeat split; try assumption. lia.
    + split; [discriminate|]. intros (k & ts & pre & l & sl' & post & Hk & Hd & Hs & Hp & Hl & Hpan). exfalso.
      destruct k as [|k].
      * simpl in Hd. apply Ok_inj in Hd. subst ts. simpl in Hs. rewrite Hsk, Hp in Hs. injection Hs as <- Hr2.
        assert (sl' = sl). { unfold sl. rewrite Hr2, firstn_app_exact; [reflexivity|]. unfold len in Hl. lia. }
        congruence.
      * cbn [cert_decode_trusts] in Hd. unfold cert_check_arr_len in Hd at 1. rewrite E1 in Hd. cbn [bind] in Hd.
        rewrite Hidx in Hd. cbn [bind] in Hd. unfold cert_check_arr_len in Hd at 1. rewrite E2 in Hd. cbn [bind] in Hd.
        rewrite slice_in in Hd by lia. replace (off + 1 + N_of_u8 b - (off + 1)) with (N_of_u8 b) in Hd by lia.
        rewrite Hr' in Hd. cbn [bind] in Hd. fold sl in Hd. rewrite E3 in Hd. discriminate.
    + split; [|reflexivity]. intros _.
      exists 0%nat, [], (skipn (N.to_nat off) arr), b, sl, (skipn (N.to_nat (N_of_u8 b)) r).
      repeat split; try assumption; try lia. rewrite Hsk. f_equal. symmetry. apply firstn_skipn.
    + apply trust_decode_fuel in E3. contradiction.
Qed.

End WithCrypto.
