(** Theorems about bincode: C188, C189. *)
From Coq Require Import List NArith ZArith Bool Lia.
From Coq Require String.
Import String.StringSyntax.
From Verif Require Import Base Text Keys Trust Relation Spec Convert Bincode BincodeSpec.
From Verif Require Import BaseFacts KeysFacts TrustFacts ConvertFacts ConvertThms Toy ToyFacts.
Import ListNotations.
Open Scope N_scope.

(** ** Readers *)
(** Reads [x] from the front of [w ++ rest]. *)
Definition reads {A} (r : reader A) (w : bytes) (x : A) : Prop := forall rest, r (w ++ rest) = Ok (x, rest).

Lemma reads_bind : forall A B (r : reader A) (f : A -> reader B) w w' x y,
  reads r w x -> reads (f x) w' y -> reads (r_bind r f) (w ++ w') y.
Proof. intros A B r f w w' x y H H' rest. unfold r_bind. rewrite <- app_assoc, H. cbn [bind fst snd]. apply H'. Qed.
Lemma reads_last : forall A B (r : reader A) (f : A -> reader B) w x y,
  reads r w x -> reads (f x) [] y -> reads (r_bind r f) w y.
Proof. intros A B r f w x y H H'. rewrite <- (app_nil_r w). eapply reads_bind; eassumption. Qed.
Lemma reads_ret : forall A (x : A), reads (r_ret x) [] x.
Proof. intros A x rest. reflexivity. Qed.

Lemma reads_take : forall w, reads (r_take (len w)) w w.
Proof.
  intros w rest. unfold r_take. assert (E : len w <=? len (w ++ rest) = true) by (apply N.leb_le; rewrite len_app; lia).
  rewrite E. rewrite firstn_app_exact, skipn_app_exact by (unfold len; lia). reflexivity.
Qed.
Lemma reads_int : forall k n, n < 256 ^ N.of_nat k -> reads (r_int (N.of_nat k)) (le_bytes k n) n.
Proof.
  intros k n H. unfold r_int. eapply reads_last.
  - replace (N.of_nat k) with (len (le_bytes k n)) by (unfold len; rewrite le_bytes_length; reflexivity). apply reads_take.
  - rewrite le_value_bytes by exact H. apply reads_ret.
Qed.
Lemma reads_u64 : forall n, n < u64_bound -> reads (r_int 8) (b_u64 n) n.
Proof. intros n H. apply (reads_int 8). exact H. Qed.
Lemma reads_u32 : forall n, n < u32_bound -> reads (r_int 4) (b_u32 n) n.
Proof. intros n H. apply (reads_int 4). exact H. Qed.
Lemma reads_vec : forall v, len v < u64_bound -> reads r_vec (b_vec v) v.
Proof. intros v H. unfold r_vec, b_vec. eapply reads_bind; [apply reads_u64; exact H|apply reads_take]. Qed.

Lemma reads_duration : forall d, duration_wf d -> reads r_duration (b_duration d) d.
Proof.
  intros [s n] [Hs Hn]. cbn [secs nanos] in *. unfold r_duration, b_duration. cbn [secs nanos].
  eapply reads_bind; [apply reads_u64; exact Hs|]. eapply reads_last; [apply reads_u32; unfold u32_bound; lia|].
  rewrite (N.div_small n), (N.mod_small n), N.add_0_r by exact Hn.
  assert (E : s <? u64_bound = true) by (apply N.ltb_lt; exact Hs). rewrite E. apply reads_ret.
Qed.

Lemma reads_variant : forall C f, fmt_supported C f = true -> reads (r_variant C) (b_variant C f) f.
Proof.
  intros C f H. unfold r_variant, b_variant. apply reads_last with (x := variant_index C f).
  - apply reads_u32. destruct f; cbn; [reflexivity|reflexivity|destruct (wasm32 C); reflexivity].
  - unfold variants, variant_index. destruct f; cbn in H; destruct (wasm32 C); try discriminate; apply reads_ret.
Qed.

Lemma reads_key : forall C k, pk_valid C k -> key_short k -> reads (r_key C) (b_key C k) k.
Proof.
  intros C [f raw] [Hs Hr] Hl. cbn [pk_fmt pk_raw] in *. unfold r_key, b_key. cbn [pk_fmt pk_raw].
  eapply reads_bind; [apply reads_variant; exact Hs|]. eapply reads_last; [apply reads_vec; exact Hl|].
  assert (D : decode_raw_key C f raw = Ok (mk_pk f raw)) by (apply decode_raw_key_ok; auto). rewrite D. apply reads_ret.
Qed.
Lemma reads_sig : forall C s, sig_valid C s -> sig_short s -> reads (r_sig C) (b_sig C s) s.
Proof.
  intros C [f raw] Hs Hl. unfold sig_valid, sig_short in *. cbn [sig_fmt sig_raw] in *. unfold r_sig, b_sig. cbn [sig_fmt sig_raw].
  eapply reads_bind; [apply reads_variant; exact Hs|]. eapply reads_last; [apply reads_vec; exact Hl|apply reads_ret].
Qed.
Lemma reads_trust : forall C t, trust_typed C t -> key_short (issued_for t) -> sig_short (trust_sig t) ->
  reads (r_trust C) (b_trust C t) t.
Proof.
  intros C [k e s i] (Hk & Hs & He & Hi) Lk Ls. cbn [issued_for expires_at trust_sig issued_at] in *. unfold r_trust, b_trust.
  eapply reads_bind; [apply reads_key; assumption|]. eapply reads_bind; [apply reads_duration; exact He|].
  eapply reads_bind; [apply reads_sig; assumption|]. eapply reads_last; [apply reads_duration; exact Hi|apply reads_ret].
Qed.
Lemma reads_revocation : forall C r, revocation_typed C r -> key_short (rev_pk r) -> key_short (revoked_by r) -> sig_short (rev_sig r) ->
  reads (r_revocation C) (b_revocation C r) r.
Proof.
  intros C [k a b s] (Hk & Hb & Hs & Ha) Lk Lb Ls. cbn [rev_pk revoked_at revoked_by rev_sig] in *. unfold r_revocation, b_revocation.
  eapply reads_bind; [apply reads_key; assumption|]. eapply reads_bind; [apply reads_duration; exact Ha|].
  eapply reads_bind; [apply reads_key; assumption|]. eapply reads_last; [apply reads_sig; assumption|apply reads_ret].
Qed.
Lemma reads_relation : forall C x, relation_typed C x -> relation_short x -> reads (r_relation C) (b_relation C x) x.
Proof.
  intros C [[t b]|r]; cbn [relation_typed relation_short auth_trust issued_by].
  - intros [Ht Hb] (L1 & L2 & L3). unfold r_relation, b_relation. cbn [auth_trust issued_by].
    eapply reads_bind; [apply reads_u32; reflexivity|]. cbn [N.eqb]. eapply reads_bind; [apply reads_trust; assumption|].
    eapply reads_last; [apply reads_key; assumption|apply reads_ret].
  - intros Hr (L1 & L2 & L3). unfold r_relation, b_relation.
    eapply reads_bind; [apply reads_u32; reflexivity|]. cbn [N.eqb Pos.eqb]. eapply reads_last; [apply reads_revocation; assumption|apply reads_ret].
Qed.

Lemma reads_read : forall A (r : reader A) w x rest, reads r w x -> bin_read r (w ++ rest) = Ok x.
Proof. intros A r w x rest H. unfold bin_read. rewrite H. reflexivity. Qed.

(** A reader that looks only at what it takes, and takes it from the front; and never panics. *)
Definition frontal {A} (r : reader A) : Prop :=
  (forall b x rest more, r b = Ok (x, rest) -> r (b ++ more) = Ok (x, rest ++ more)) /\ forall b, r b <> Panic /\ r b <> OutOfFuel.
Lemma frontal_bind : forall A B (r : reader A) (f : A -> reader B), frontal r -> (forall x, frontal (f x)) -> frontal (r_bind r f).
Proof.
  intros A B r f [H P] H'. unfold r_bind. split.
  - intros b x rest more E. apply bind_ok_inv in E. destruct E as [[y b'] [E1 E2]]. cbn [fst snd] in E2.
    rewrite (H _ _ _ more E1). cbn [bind fst snd]. apply (proj1 (H' y)). exact E2.
  - intros b. destruct (P b) as [P1 P2]. destruct (r b) as [[y b']| | |]; cbn [bind fst snd]; [apply (proj2 (H' y))|split; discriminate|congruence|congruence].
Qed.
Lemma frontal_ret : forall A (x : A), frontal (r_ret x).
Proof. intros A x. split; [intros b y rest more H; inversion H; subst; reflexivity|intros b; split; discriminate]. Qed.
Lemma frontal_fail : forall A e, frontal (@r_fail A e).
Proof. intros A e. split; [intros b y rest more H; discriminate|intros b; split; discriminate]. Qed.
Lemma frontal_take : forall n, frontal (r_take n).
Proof.
  intros n. unfold r_take. split.
  - intros b x rest more. destruct (n <=? len b) eqn:E; [|discriminate]. intros H. inversion H; subst. clear H. apply N.leb_le in E.
    assert (E' : n <=? len (b ++ more) = true) by (apply N.leb_le; rewrite len_app; lia). rewrite E'.
    assert (Z : (N.to_nat n - length b = 0)%nat) by (unfold len in E; lia).
    rewrite firstn_app, skipn_app, Z, firstn_O, app_nil_r. reflexivity.
  - intros b. destruct (n <=? len b); split; discriminate.
Qed.
Lemma frontal_int : forall k, frontal (r_int k).
Proof. intros k. apply frontal_bind; [apply frontal_take|intros; apply frontal_ret]. Qed.
Lemma frontal_vec : frontal r_vec.
Proof. apply frontal_bind; [apply frontal_int|intros; apply frontal_take]. Qed.
Lemma frontal_duration : frontal r_duration.
Proof.
  apply frontal_bind; [apply frontal_int|]. intros s. apply frontal_bind; [apply frontal_int|]. intros n.
  destruct (s + n / 1000000000 <? u64_bound); [apply frontal_ret|apply frontal_fail].
Qed.
Lemma frontal_variant : forall C, frontal (r_variant C).
Proof.
  intros C. apply frontal_bind; [apply frontal_int|]. intros i. destruct (i <? 3); [|apply frontal_fail].
  destruct (nth_error (variants C) (N.to_nat i)); [apply frontal_ret|apply frontal_fail].
Qed.
Lemma frontal_key : forall C, frontal (r_key C).
Proof.
  intros C. apply frontal_bind; [apply frontal_variant|]. intros f. apply frontal_bind; [apply frontal_vec|]. intros raw.
  destruct (decode_raw_key C f raw) eqn:E; [apply frontal_ret|apply frontal_fail| |apply frontal_fail].
  exfalso. destruct f; cbn in E; [destruct (len raw =? 32); [destruct (ed_point C raw)|]|discriminate|destruct (_ && _)]; discriminate.
Qed.
Lemma frontal_sig : forall C, frontal (r_sig C).
Proof.
  intros C. apply frontal_bind; [apply frontal_variant|]. intros f. apply frontal_bind; [apply frontal_vec|]. intros. apply frontal_ret.
Qed.
Lemma frontal_trust : forall C, frontal (r_trust C).
Proof.
  intros C. apply frontal_bind; [apply frontal_key|]. intros. apply frontal_bind; [apply frontal_duration|]. intros.
  apply frontal_bind; [apply frontal_sig|]. intros. apply frontal_bind; [apply frontal_duration|]. intros. apply frontal_ret.
Qed.
Lemma frontal_revocation : forall C, frontal (r_revocation C).
Proof.
  intros C. apply frontal_bind; [apply frontal_key|]. intros. apply frontal_bind; [apply frontal_duration|]. intros.
  apply frontal_bind; [apply frontal_key|]. intros. apply frontal_bind; [apply frontal_sig|]. intros. apply frontal_ret.
Qed.
Lemma frontal_relation : forall C, frontal (r_relation C).
Proof.
  intros C. apply frontal_bind; [apply frontal_int|]. intros i. destruct (i =? 0); [|destruct (i =? 1)].
  - apply frontal_bind; [apply frontal_trust|]. intros. apply frontal_bind; [apply frontal_key|]. intros. apply frontal_ret.
  - apply frontal_bind; [apply frontal_revocation|]. intros. apply frontal_ret.
  - apply frontal_fail.
Qed.

(** What is read is a value of the type. *)
Lemma r_bind_ok : forall A B (r : reader A) (f : A -> reader B) b y rest, r_bind r f b = Ok (y, rest) ->
  exists x b', r b = Ok (x, b') /\ f x b' = Ok (y, rest).
Proof. intros A B r f b y rest H. unfold r_bind in H. apply bind_ok_inv in H. destruct H as [[x b'] [H H']]. eauto. Qed.
Lemma r_take_inv : forall n b w rest, r_take n b = Ok (w, rest) -> b = w ++ rest /\ len w = n.
Proof.
  intros n b w rest. unfold r_take. destruct (n <=? len b) eqn:E; [|discriminate]. intros H. inversion H; subst. apply N.leb_le in E.
  split; [symmetry; apply firstn_skipn|]. unfold len in *. rewrite firstn_length. lia.
Qed.
Lemma r_int_inv : forall k b n rest, r_int (N.of_nat k) b = Ok (n, rest) -> b = le_bytes k n ++ rest /\ n < 256 ^ N.of_nat k.
Proof.
  intros k b n rest H. apply r_bind_ok in H. destruct H as (w & b' & H & H'). apply r_take_inv in H. destruct H as [-> L].
  inversion H'; subst. assert (E : length w = k) by (unfold len in L; lia). subst k. rewrite le_bytes_value. split; [reflexivity|apply le_value_bound].
Qed.
Lemma r_vec_inv : forall b v rest, r_vec b = Ok (v, rest) -> b = b_vec v ++ rest.
Proof.
  intros b v rest H. apply r_bind_ok in H. destruct H as (n & b' & H & H'). apply (r_int_inv 8) in H. destruct H as [-> _].
  apply r_take_inv in H'. destruct H' as [-> <-]. unfold b_vec. rewrite <- app_assoc. reflexivity.
Qed.
Lemma r_variant_inv : forall C b f rest, r_variant C b = Ok (f, rest) -> b = b_variant C f ++ rest /\ fmt_supported C f = true.
Proof.
  intros C b f rest H. apply r_bind_ok in H. destruct H as (i & b' & H & H'). apply (r_int_inv 4) in H. destruct H as [-> _].
  destruct (i <? 3) eqn:L; [|discriminate]. apply N.ltb_lt in L.
  assert (I : i = 0 \/ i = 1 \/ i = 2) by lia. unfold b_variant, variants, variant_index, fmt_supported, b_u32 in *.
  destruct (wasm32 C); destruct I as [-> |[-> | ->]]; cbn in H'; inversion H'; subst; split; reflexivity.
Qed.
Lemma r_key_inv : forall C b k rest, r_key C b = Ok (k, rest) -> b = b_key C k ++ rest /\ pk_valid C k.
Proof.
  intros C b k rest H. apply r_bind_ok in H. destruct H as (f & b1 & H & H'). apply r_variant_inv in H. destruct H as [-> S].
  apply r_bind_ok in H'. destruct H' as (raw & b2 & H & H'). apply r_vec_inv in H. subst b1.
  destruct (decode_raw_key C f raw) eqn:D; try discriminate. apply decode_raw_key_ok in D. destruct D as [-> R]. inversion H'; subst.
  split; [unfold b_key; cbn [pk_fmt pk_raw]; rewrite <- app_assoc; reflexivity|split; assumption].
Qed.
Lemma r_sig_inv : forall C b s rest, r_sig C b = Ok (s, rest) -> b = b_sig C s ++ rest /\ sig_valid C s.
Proof.
  intros C b s rest H. apply r_bind_ok in H. destruct H as (f & b1 & H & H'). apply r_variant_inv in H. destruct H as [-> S].
  apply r_bind_ok in H'. destruct H' as (raw & b2 & H & H'). apply r_vec_inv in H. subst b1. inversion H'; subst.
  split; [unfold b_sig; cbn [sig_fmt sig_raw]; rewrite <- app_assoc; reflexivity|exact S].
Qed.
Lemma r_duration_wf : forall b d rest, r_duration b = Ok (d, rest) -> duration_wf d.
Proof.
  intros b d rest H. apply r_bind_ok in H. destruct H as (s & b1 & _ & H). apply r_bind_ok in H. destruct H as (n & b2 & _ & H).
  destruct (s + n / 1000000000 <? u64_bound) eqn:E; [|discriminate]. apply N.ltb_lt in E.
  assert (d = mk_duration (s + n / 1000000000) (n mod 1000000000)) as ->
    by (unfold r_ret in H; apply (f_equal (fun r => match r with Ok p => fst p | _ => d end)) in H; cbn [fst] in H; symmetry; exact H).
  split; [exact E|]. apply N.mod_lt. discriminate.
Qed.
Lemma r_duration_inv : forall b d rest, r_duration b = Ok (d, rest) -> exists w, b = w ++ rest /\ spells w d.
Proof.
  intros b d rest H. apply r_bind_ok in H. destruct H as (s & b1 & H1 & H). apply r_bind_ok in H. destruct H as (n & b2 & H2 & H).
  apply (r_int_inv 8) in H1. destruct H1 as [-> _]. apply (r_int_inv 4) in H2. destruct H2 as [-> Bn].
  destruct (s + n / 1000000000 <? u64_bound) eqn:E; [|discriminate].
  assert (d = mk_duration (s + n / 1000000000) (n mod 1000000000)) as ->
    by (unfold r_ret in H; apply (f_equal (fun r => match r with Ok p => fst p | _ => d end)) in H; cbn [fst] in H; symmetry; exact H).
  assert (b2 = rest) as -> by (unfold r_ret in H; apply (f_equal (fun r => match r with Ok p => snd p | _ => b2 end)) in H; cbn [snd] in H; exact H).
  exists (le_bytes 8 s ++ le_bytes 4 n). rewrite <- app_assoc. split; [reflexivity|]. exists s, n. split; [reflexivity|]. split; [exact Bn|]. cbn [secs nanos].
  pose proof (N.div_mod n 1000000000 ltac:(discriminate)). pose proof (N.mod_lt n 1000000000 ltac:(discriminate)). lia.
Qed.
Lemma r_trust_typed : forall C b t rest, r_trust C b = Ok (t, rest) -> trust_typed C t.
Proof.
  intros C b t rest H. apply r_bind_ok in H. destruct H as (k & b1 & K & H). apply r_bind_ok in H. destruct H as (e & b2 & E & H).
  apply r_bind_ok in H. destruct H as (s & b3 & S & H). apply r_bind_ok in H. destruct H as (i & b4 & I & H). unfold r_ret in H. inversion H; subst.
  split; [eapply r_key_inv; exact K|]. split; [eapply r_sig_inv; exact S|]. split; [eapply r_duration_wf; exact E|eapply r_duration_wf; exact I].
Qed.
Lemma r_revocation_typed : forall C b v rest, r_revocation C b = Ok (v, rest) -> revocation_typed C v.
Proof.
  intros C b v rest H. apply r_bind_ok in H. destruct H as (k & b1 & K & H). apply r_bind_ok in H. destruct H as (a & b2 & A & H).
  apply r_bind_ok in H. destruct H as (y & b3 & Y & H). apply r_bind_ok in H. destruct H as (s & b4 & S & H). unfold r_ret in H. inversion H; subst.
  split; [eapply r_key_inv; exact K|]. split; [eapply r_key_inv; exact Y|]. split; [eapply r_sig_inv; exact S|eapply r_duration_wf; exact A].
Qed.
Lemma r_relation_typed : forall C b x rest, r_relation C b = Ok (x, rest) -> relation_typed C x.
Proof.
  intros C b x rest H. apply r_bind_ok in H. destruct H as (i & b1 & _ & H). destruct (i =? 0); [|destruct (i =? 1); [|discriminate]].
  - apply r_bind_ok in H. destruct H as (t & b2 & T & H). apply r_bind_ok in H. destruct H as (k & b3 & K & H). unfold r_ret in H. inversion H; subst.
    split; [eapply r_trust_typed; exact T|eapply r_key_inv; exact K].
  - apply r_bind_ok in H. destruct H as (t & b2 & T & H). unfold r_ret in H. inversion H; subst. eapply r_revocation_typed; exact T.
Qed.

Lemma bin_read_ok : forall A (r : reader A) b x, bin_read r b = Ok x -> exists rest, r b = Ok (x, rest).
Proof. intros A r b x H. unfold bin_read in H. apply bind_ok_inv in H. destruct H as [[y rest] [H E]]. inversion E; subst. eauto. Qed.
Lemma read_no_panic : forall A (r : reader A) b, frontal r -> bin_read r b <> Panic.
Proof. intros A r b [_ P]. unfold bin_read. destruct (P b). destruct (r b); cbn [bind]; congruence. Qed.
Lemma read_err : forall A (r : reader A) b, frontal r -> (forall x, bin_read r b <> Ok x) -> exists e, bin_read r b = Err e.
Proof.
  intros A r b [_ P] H. unfold bin_read in *. destruct (P b) as [P1 P2]. destruct (r b) as [p|e| |]; cbn [bind] in *;
    [exfalso; eapply H; reflexivity|eauto|congruence|congruence].
Qed.

(** ** C188 *)
(** A relation encoded by a build is decoded by that build as the same relation, whatever bytes follow it; so are keys and
    signatures. *)
Lemma p_C188_roundtrip : forall C, 
  (forall x rest, relation_typed C x -> relation_short x -> bin_read (r_relation C) (b_relation C x ++ rest) = Ok x) /\
  (forall k rest, pk_valid C k -> key_short k -> bin_read (r_key C) (b_key C k ++ rest) = Ok k) /\
  (forall s rest, sig_valid C s -> sig_short s -> bin_read (r_sig C) (b_sig C s ++ rest) = Ok s).
Proof.
  intros C. split; [|split]; intros x rest H L; apply reads_read; [apply reads_relation|apply reads_key|apply reads_sig]; assumption.
Qed.

(** Of an encoding that was cut short nothing is read. *)
Lemma p_C188_cut : forall C x w lost, relation_typed C x -> relation_short x -> b_relation C x = w ++ lost -> lost <> [] ->
  exists e, bin_read (r_relation C) w = Err e.
Proof.
  intros C x w lost T L E N. apply read_err; [apply frontal_relation|]. intros y H. apply bin_read_ok in H. destruct H as [rest H].
  pose proof (proj1 (frontal_relation C) _ _ _ lost H) as M. rewrite <- E in M.
  pose proof (reads_relation C x T L []) as R. rewrite app_nil_r in R. rewrite R in M. inversion M as [[M1 M2]].
  symmetry in M2. apply app_eq_nil in M2. destruct M2 as [_ M2]. exact (N M2).
Qed.

(** No two relations have the same encoding, and none has one that begins with another's. *)
Lemma p_C188_told_apart : forall C x y more, relation_typed C x -> relation_short x -> relation_typed C y -> relation_short y ->
  b_relation C x = b_relation C y ++ more -> x = y.
Proof.
  intros C x y more Tx Lx Ty Ly E. pose proof (reads_relation C x Tx Lx []) as R. rewrite app_nil_r, E in R.
  rewrite (reads_relation C y Ty Ly more) in R. inversion R. reflexivity.
Qed.

(** A key and a signature have one encoding each: whatever is read as one begins with it. *)
Lemma p_C188_one_encoding : forall C b,
  (forall k, bin_read (r_key C) b = Ok k -> exists rest, b = b_key C k ++ rest) /\
  (forall s, bin_read (r_sig C) b = Ok s -> exists rest, b = b_sig C s ++ rest).
Proof.
  intros C b. split; intros x H; apply bin_read_ok in H; destruct H as [rest H]; exists rest;
    [apply r_key_inv in H|apply r_sig_inv in H]; apply H.
Qed.

(** Whatever is read holds only parsed keys, kinds the build has, and durations in range; reading never panics. *)
Lemma p_C188_any_bytes : forall C b,
  (forall x, bin_read (r_relation C) b = Ok x -> relation_typed C x) /\
  (forall k, bin_read (r_key C) b = Ok k -> pk_valid C k) /\
  (forall s, bin_read (r_sig C) b = Ok s -> sig_valid C s) /\
  bin_read (r_relation C) b <> Panic /\ bin_read (r_key C) b <> Panic /\ bin_read (r_sig C) b <> Panic.
Proof.
  intros C b. split; [|split; [|split; [|split; [|split]]]].
  - intros x H. apply bin_read_ok in H. destruct H as [rest H]. eapply r_relation_typed; exact H.
  - intros x H. apply bin_read_ok in H. destruct H as [rest H]. eapply r_key_inv; exact H.
  - intros x H. apply bin_read_ok in H. destruct H as [rest H]. eapply r_sig_inv; exact H.
  - apply read_no_panic, frontal_relation.
  - apply read_no_panic, frontal_key.
  - apply read_no_panic, frontal_sig.
Qed.
(** Bytes that are decoded as a relation hold it: they begin with 0 for a trust or 1 for a revocation, and then come the fields in
    order, each in its only encoding, but for the durations. *)
Lemma p_C188_only : forall C b x, bin_read (r_relation C) b = Ok x ->
  match x with
  | RAuth a => exists e i rest, spells e (expires_at (auth_trust a)) /\ spells i (issued_at (auth_trust a)) /\
      b = le_bytes 4 0 ++ b_key C (issued_for (auth_trust a)) ++ e ++ b_sig C (trust_sig (auth_trust a)) ++ i ++ b_key C (issued_by a) ++ rest
  | RRev r => exists w rest, spells w (revoked_at r) /\
      b = le_bytes 4 1 ++ b_key C (rev_pk r) ++ w ++ b_key C (revoked_by r) ++ b_sig C (rev_sig r) ++ rest
  end.
Proof.
  intros C b x H. unfold bin_read in H. apply bind_ok_inv in H. destruct H as [[y rest] [H Hx]]. cbn [fst] in Hx. apply Ok_inj in Hx. subst y.
  apply r_bind_ok in H. destruct H as (i & b1 & Hi & H). apply (r_int_inv 4) in Hi. destruct Hi as [-> _].
  destruct (N.eqb_spec i 0) as [->|_]; [|destruct (N.eqb_spec i 1) as [->|_]; [|discriminate H]].
  - apply r_bind_ok in H. destruct H as (t & b2 & Ht & H). apply r_bind_ok in H. destruct H as (k & b3 & Hk & H). unfold r_ret in H. inversion H; subst. clear H.
    apply r_key_inv in Hk. destruct Hk as [-> _]. cbn [auth_trust issued_by].
    apply r_bind_ok in Ht. destruct Ht as (f & b4 & Hf & Ht). apply r_key_inv in Hf. destruct Hf as [-> _].
    apply r_bind_ok in Ht. destruct Ht as (e & b5 & He & Ht). apply r_duration_inv in He. destruct He as (we & -> & Se).
    apply r_bind_ok in Ht. destruct Ht as (s & b6 & Hs & Ht). apply r_sig_inv in Hs. destruct Hs as [-> _].
    apply r_bind_ok in Ht. destruct Ht as (j & b7 & Hj & Ht). apply r_duration_inv in Hj. destruct Hj as (wj & -> & Sj).
    unfold r_ret in Ht. inversion Ht; subst. cbn [issued_for expires_at issued_at trust_sig]. exists we, wj, rest. auto.
  - apply r_bind_ok in H. destruct H as (v & b2 & Hv & H). unfold r_ret in H. inversion H; subst. clear H.
    apply r_bind_ok in Hv. destruct Hv as (k & b3 & Hk & Hv). apply r_key_inv in Hk. destruct Hk as [-> _].
    apply r_bind_ok in Hv. destruct Hv as (a & b4 & Ha & Hv). apply r_duration_inv in Ha. destruct Ha as (w & -> & Sw).
    apply r_bind_ok in Hv. destruct Hv as (k' & b5 & Hk' & Hv). apply r_key_inv in Hk'. destruct Hk' as [-> _].
    apply r_bind_ok in Hv. destruct Hv as (s & b6 & Hs & Hv). apply r_sig_inv in Hs. destruct Hs as [-> _].
    unfold r_ret in Hv. inversion Hv; subst. cbn [rev_pk revoked_at revoked_by rev_sig]. exists w, rest. auto.
Qed.

(** ** C189 *)
(** What the other build makes of the bytes this build writes. *)
Definition cross_key (C : crypto) (k : public_key) : result bin_error public_key :=
  match pk_fmt k with
  | Ed25519 => Ok k
  | Rsa => if raw_key_ok C Secp256k1 (pk_raw k) then Ok (mk_pk Secp256k1 (pk_raw k)) else Err BE_custom
  | Secp256k1 => if wasm32 C then Ok (mk_pk Rsa (pk_raw k)) else Err BE_variant
  end.
Definition cross_sig (C : crypto) (s : signature) : result bin_error signature :=
  match sig_fmt s with
  | Ed25519 => Ok s
  | Rsa => Ok (mk_sig Secp256k1 (sig_raw s))
  | Secp256k1 => if wasm32 C then Ok (mk_sig Rsa (sig_raw s)) else Err BE_variant
  end.
Definition with_rest {A} (rest : bytes) (r : result bin_error A) : result bin_error (A * bytes) := let? x := r in Ok (x, rest).

Lemma cross_variant : forall C f rest, fmt_supported C f = true ->
  r_variant (other_build C) (b_variant C f ++ rest) =
    match f with
    | Ed25519 => Ok (Ed25519, rest)
    | Rsa => Ok (Secp256k1, rest)
    | Secp256k1 => if wasm32 C then Ok (Rsa, rest) else Err BE_variant
    end.
Proof.
  intros C f rest H. unfold r_variant, b_variant, r_bind.
  rewrite (reads_u32 (variant_index C f)) by (destruct f; cbn; [reflexivity|reflexivity|destruct (wasm32 C); reflexivity]).
  cbn [bind fst snd]. unfold variants, variant_index. cbn [wasm32 other_build].
  destruct f; cbn in H; destruct (wasm32 C); try discriminate; reflexivity.
Qed.
Lemma decode_other : forall C f raw, decode_raw_key (other_build C) f raw = decode_raw_key C f raw.
Proof. intros C [] raw; reflexivity. Qed.

Lemma cross_key_reads : forall C k rest, pk_valid C k -> key_short k ->
  r_key (other_build C) (b_key C k ++ rest) = with_rest rest (cross_key C k).
Proof.
  intros C [f raw] rest [Hs Hr] L. unfold key_short in L. cbn [pk_fmt pk_raw] in *. unfold r_key, b_key, cross_key. cbn [pk_fmt pk_raw].
  rewrite <- app_assoc. unfold r_bind at 1. rewrite cross_variant by exact Hs.
  destruct f; [| |destruct (wasm32 C)]; cbn [bind fst snd with_rest]; try reflexivity; unfold r_bind; rewrite (reads_vec raw L); cbn [bind fst snd];
    rewrite decode_other.
  - assert (D : decode_raw_key C Ed25519 raw = Ok (mk_pk Ed25519 raw)) by (apply decode_raw_key_ok; auto). rewrite D. reflexivity.
  - destruct (raw_key_ok C Secp256k1 raw) eqn:E.
    + assert (D : decode_raw_key C Secp256k1 raw = Ok (mk_pk Secp256k1 raw)) by (apply decode_raw_key_ok; auto). rewrite D. reflexivity.
    + cbn in E |- *. rewrite E. reflexivity.
  - reflexivity.
Qed.
Lemma cross_sig_reads : forall C s rest, sig_valid C s -> sig_short s ->
  r_sig (other_build C) (b_sig C s ++ rest) = with_rest rest (cross_sig C s).
Proof.
  intros C [f raw] rest Hs L. unfold sig_valid, sig_short in *. cbn [sig_fmt sig_raw] in *. unfold r_sig, b_sig, cross_sig. cbn [sig_fmt sig_raw].
  rewrite <- app_assoc. unfold r_bind at 1. rewrite cross_variant by exact Hs.
  destruct f; [| |destruct (wasm32 C)]; cbn [bind fst snd with_rest]; try reflexivity; unfold r_bind; rewrite (reads_vec raw L); reflexivity.
Qed.
Lemma with_rest_read : forall A (r : reader A) b rest v, r b = with_rest rest v -> bin_read r b = v.
Proof. intros A r b rest v H. unfold bin_read. rewrite H. destruct v; reflexivity. Qed.

(** What the wasm32 build writes for a secp256k1 key, the native build reads as an RSA key, and what the native build writes
    for an RSA signature, the wasm32 build reads as a secp256k1 signature, without an error. *)
Lemma p_C189_refuted : exists C k s, crypto_laws C /\ wasm32 C = true /\ pk_valid C k /\ sig_valid (other_build C) s /\
  (exists k', bin_read (r_key (other_build C)) (b_key C k) = Ok k' /\ k' <> k) /\
  (exists s', bin_read (r_sig C) (b_sig (other_build C) s) = Ok s' /\ s' <> s).
Proof.
  exists (toy true), (mk_pk Secp256k1 (x02 :: toy_secret 7)), (mk_sig Rsa [x01; x02]).
  split; [apply toy_laws|]. split; [reflexivity|]. split; [split; reflexivity|]. split; [reflexivity|]. split.
  - exists (mk_pk Rsa (x02 :: toy_secret 7)). split; [vm_compute; reflexivity|discriminate].
  - exists (mk_sig Secp256k1 [x01; x02]). split; [vm_compute; reflexivity|discriminate].
Qed.

(** Exactly what the other build reads for a key. *)
Lemma p_C189_keys : forall C k, pk_valid C k -> key_short k ->
  bin_read (r_key (other_build C)) (b_key C k) =
    match pk_fmt k with
    | Ed25519 => Ok k
    | Rsa => if raw_key_ok C Secp256k1 (pk_raw k) then Ok (mk_pk Secp256k1 (pk_raw k)) else Err BE_custom
    | Secp256k1 => if wasm32 C then Ok (mk_pk Rsa (pk_raw k)) else Err BE_variant
    end.
Proof.
  intros C k V L. rewrite <- (app_nil_r (b_key C k)). apply with_rest_read with (rest := []).
  rewrite (cross_key_reads C k [] V L). reflexivity.
Qed.

(** And for a signature. *)
Lemma p_C189_signatures : forall C s, sig_valid C s -> sig_short s ->
  bin_read (r_sig (other_build C)) (b_sig C s) =
    match sig_fmt s with
    | Ed25519 => Ok s
    | Rsa => Ok (mk_sig Secp256k1 (sig_raw s))
    | Secp256k1 => if wasm32 C then Ok (mk_sig Rsa (sig_raw s)) else Err BE_variant
    end.
Proof.
  intros C s V L. rewrite <- (app_nil_r (b_sig C s)). apply with_rest_read with (rest := []).
  rewrite (cross_sig_reads C s [] V L). reflexivity.
Qed.

Lemma cross_key_same : forall C k, cross_key C k = Ok k <-> pk_fmt k = Ed25519.
Proof.
  intros C [f raw]. unfold cross_key. cbn [pk_fmt pk_raw]. split.
  - destruct f; [reflexivity|destruct (raw_key_ok _ _ _); intros H; inversion H|destruct (wasm32 C); intros H; inversion H].
  - intros ->. reflexivity.
Qed.
Lemma cross_sig_same : forall C s, cross_sig C s = Ok s <-> sig_fmt s = Ed25519.
Proof.
  intros C [f raw]. unfold cross_sig. cbn [sig_fmt sig_raw]. split.
  - destruct f; [reflexivity|intros H; inversion H|destruct (wasm32 C); intros H; inversion H].
  - intros ->. reflexivity.
Qed.

(** A relation is read as the same one by the other build exactly when all its keys and signatures are ed25519. *)
Lemma p_C189_exact : forall C x, relation_typed C x -> relation_short x ->
  (bin_read (r_relation (other_build C)) (b_relation C x) = Ok x <-> Forall (fun f => f = Ed25519) (kinds x)).
Proof.
  intros C [[[k e s i] b]|[k a b s]]; cbn [relation_typed relation_short trust_typed revocation_typed auth_trust issued_by issued_for trust_sig].
  - intros [(Hk & Hs & He & Hi) Hb] (L1 & L2 & L3). cbn [issued_for trust_sig expires_at issued_at] in *.
    assert (E : bin_read (r_relation (other_build C)) (b_relation C (RAuth (mk_auth (mk_trust k e s i) b))) =
                let? k' := cross_key C k in let? s' := cross_sig C s in let? b' := cross_key C b in Ok (RAuth (mk_auth (mk_trust k' e s' i) b'))).
    { unfold r_relation, b_relation, b_trust. cbn [auth_trust issued_by issued_for expires_at trust_sig issued_at]. rewrite <- !app_assoc.
      unfold bin_read, r_bind at 1. rewrite (reads_u32 0) by reflexivity. cbn [bind fst snd N.eqb]. unfold r_bind at 1, r_trust, r_bind at 1.
      rewrite cross_key_reads by assumption. destruct (cross_key C k); cbn [bind with_rest fst snd]; try reflexivity.
      unfold r_bind at 1. rewrite (reads_duration e He). cbn [bind fst snd]. unfold r_bind at 1.
      rewrite cross_sig_reads by assumption. destruct (cross_sig C s); cbn [bind with_rest fst snd]; try reflexivity.
      unfold r_bind at 1. rewrite (reads_duration i Hi). cbn [bind fst snd r_ret]. unfold r_bind at 1.
      rewrite <- (app_nil_r (b_key C b)). rewrite cross_key_reads by assumption. destruct (cross_key C b); reflexivity. }
    rewrite E. cbn [kinds auth_trust issued_by issued_for trust_sig]. split.
    + intros H. destruct (cross_key C k) as [k'| | |] eqn:K; cbn [bind] in H; try discriminate.
      destruct (cross_sig C s) as [s'| | |] eqn:S; cbn [bind] in H; try discriminate.
      destruct (cross_key C b) as [b'| | |] eqn:B; cbn [bind] in H; try discriminate. inversion H; subst.
      apply cross_key_same in K. apply cross_sig_same in S. apply cross_key_same in B. repeat (constructor; [assumption|]). constructor.
    + intros F. inversion F as [|? ? F1 F']; subst. inversion F' as [|? ? F2 F'']; subst. inversion F'' as [|? ? F3 _]; subst.
      apply cross_key_same with (C := C) in F1. apply cross_sig_same with (C := C) in F2. apply cross_key_same with (C := C) in F3.
      rewrite F1, F2, F3. reflexivity.
  - intros (Hk & Hb & Hs & Ha) (L1 & L2 & L3). cbn [rev_pk revoked_at revoked_by rev_sig] in *.
    assert (E : bin_read (r_relation (other_build C)) (b_relation C (RRev (mk_rev k a b s))) =
                let? k' := cross_key C k in let? b' := cross_key C b in let? s' := cross_sig C s in Ok (RRev (mk_rev k' a b' s'))).
    { unfold r_relation, b_relation, b_revocation. cbn [rev_pk revoked_at revoked_by rev_sig]. rewrite <- (app_nil_r (b_sig C s)), <- ?app_assoc.
      unfold bin_read, r_bind at 1. rewrite (reads_u32 1) by reflexivity. cbn [bind fst snd N.eqb Pos.eqb]. unfold r_bind at 1, r_revocation, r_bind at 1.
      rewrite cross_key_reads by assumption. destruct (cross_key C k); cbn [bind with_rest fst snd]; try reflexivity.
      unfold r_bind at 1. rewrite (reads_duration a Ha). cbn [bind fst snd]. unfold r_bind at 1.
      rewrite cross_key_reads by assumption. destruct (cross_key C b); cbn [bind with_rest fst snd]; try reflexivity.
      unfold r_bind at 1. rewrite cross_sig_reads by assumption. destruct (cross_sig C s); reflexivity. }
    rewrite E. cbn [kinds rev_pk revoked_by rev_sig]. split.
    + intros H. destruct (cross_key C k) as [k'| | |] eqn:K; cbn [bind] in H; try discriminate.
      destruct (cross_key C b) as [b'| | |] eqn:B; cbn [bind] in H; try discriminate.
      destruct (cross_sig C s) as [s'| | |] eqn:S; cbn [bind] in H; try discriminate. inversion H; subst.
      apply cross_key_same in K. apply cross_sig_same in S. apply cross_key_same in B. repeat (constructor; [assumption|]). constructor.
    + intros F. inversion F as [|? ? F1 F']; subst. inversion F' as [|? ? F2 F'']; subst. inversion F'' as [|? ? F3 _]; subst.
      apply cross_key_same with (C := C) in F1. apply cross_key_same with (C := C) in F2. apply cross_sig_same with (C := C) in F3.
      rewrite F1, F2, F3. reflexivity.
Qed.

(** In formats that name the variants the builds agree: a key or signature is read by the other build as the same one, or,
    if it is RSA and the reader has no RSA, refused. *)
Lemma p_C189_by_name : forall C f, f = As_bytes \/ f = As_list ->
  (forall k, pk_valid C k -> pk_fmt k <> Rsa -> de_key (other_build C) (through f (ser_key k)) = Ok k) /\
  (forall s, sig_valid C s -> sig_fmt s <> Rsa -> de_sig (other_build C) (through f (ser_sig s)) = Ok s) /\
  (forall k, pk_valid C k -> pk_fmt k = Rsa -> exists e, de_key (other_build C) (through f (ser_key k)) = Err e) /\
  (forall s, sig_valid C s -> sig_fmt s = Rsa -> exists e, de_sig (other_build C) (through f (ser_sig s)) = Err e).
Proof.
  intros C f Hf. assert (N : f <> As_text) by (destruct Hf; subst; discriminate).
  assert (W : forall g, fmt_supported C g = true -> g = Rsa -> wasm32 (other_build C) = true) by (intros g H ->; exact H).
  split; [|split; [|split]].
  - intros k [V1 V2] R. apply de_ser_key; [exact N|]. destruct k as [g raw]. cbn [pk_fmt pk_raw] in *. split; cbn [pk_fmt pk_raw].
    + destruct g; [reflexivity|congruence|reflexivity].
    + destruct g; exact V2.
  - intros s V R. apply de_ser_sig. destruct s as [g raw]. unfold sig_valid in *. cbn [sig_fmt] in *. destruct g; [reflexivity|congruence|reflexivity].
  - intros k [V1 V2] R. exact (proj1 (p_C121_wasm (other_build C) f k (mk_sig Rsa []) (W _ V1 R) R eq_refl)).
  - intros s V R. exact (proj2 (p_C121_wasm (other_build C) f (mk_pk Rsa []) s (W _ V R) eq_refl R)).
Qed.

(** and a relation is decoded as itself if it has nothing RSA in it, and refused otherwise. *)
Lemma p_C189_relations_by_name : forall C f x, f = As_bytes \/ f = As_list -> relation_typed C x ->
  (~ In Rsa (kinds x) -> de_relation (other_build C) (through f (ser_relation x)) = Ok x) /\
  (In Rsa (kinds x) -> exists e, de_relation (other_build C) (through f (ser_relation x)) = Err e).
Proof.
  intros C f x Hf T. assert (N : f <> As_text) by (destruct Hf; subst; discriminate).
  destruct (p_C189_by_name C f Hf) as (_ & _ & KR & SR).
  assert (KV : forall k, pk_valid C k -> pk_fmt k <> Rsa -> pk_valid (other_build C) k).
  { intros [g raw] [V1 V2] R. cbn [pk_fmt pk_raw] in *. split; cbn [pk_fmt pk_raw]; destruct g; try reflexivity; try congruence; exact V2. }
  assert (SV : forall s, sig_valid C s -> sig_fmt s <> Rsa -> sig_valid (other_build C) s).
  { intros [g raw] V R. unfold sig_valid in *. cbn [sig_fmt] in *. destruct g; [reflexivity|congruence|reflexivity]. }
  split.
  - intros NR. apply de_ser_relation; [exact N|]. destruct x as [[[k e s i] b]|[k a b s]]; cbn in NR, T |- *.
    + destruct T as [(Tk & Ts & Te & Ti) Tb]. cbn in *. split; [|apply KV; [exact Tb|intros X; apply NR; cbn in X; rewrite X; tauto]].
      split; [apply KV; [exact Tk|intros X; apply NR; cbn in X; rewrite X; tauto]|]. split; [apply SV; [exact Ts|intros X; apply NR; cbn in X; rewrite X; tauto]|]. split; assumption.
    + destruct T as (Tk & Tb & Ts & Ta). cbn in *. split; [apply KV; [exact Tk|intros X; apply NR; cbn in X; rewrite X; tauto]|].
      split; [apply KV; [exact Tb|intros X; apply NR; cbn in X; rewrite X; tauto]|]. split; [apply SV; [exact Ts|intros X; apply NR; cbn in X; rewrite X; tauto]|exact Ta].
  - intros IR. destruct (settled_relation (other_build C) (through f (ser_relation x))) as [S1 S2].
    destruct (de_relation (other_build C) (through f (ser_relation x))) as [y|e| |] eqn:H; [exfalso|exists e; reflexivity|congruence|congruence]. clear S1 S2.
    assert (KN : forall k y', pk_valid C k -> de_key (other_build C) (through f (ser_key k)) = Ok y' -> pk_fmt k <> Rsa) by (intros k y' V Y R; destruct (KR k V R) as [e X]; congruence).
    assert (SN : forall k y', sig_valid C k -> de_sig (other_build C) (through f (ser_sig k)) = Ok y' -> sig_fmt k <> Rsa) by (intros k y' V Y R; destruct (SR k V R) as [e X]; congruence).
    destruct x as [[t b]|r]; unfold ser_relation in H; cbn [through auth_trust issued_by map fst snd] in H; unfold de_relation in H.
    + change (bytes_eqb (str "Auth") (str "Auth")) with true in H. cbn iota in H. destruct T as [(Tk & Ts & _) Tb]. cbn [auth_trust issued_by] in *.
      apply bind_ok_inv in H. destruct H as (t' & Ht & H). apply bind_ok_inv in H. destruct H as (b' & Hb & _).
      apply bind_ok_inv in Hb. destruct Hb as (vb & Eb & Hb). apply bind_ok_inv in Ht. destruct Ht as (vt & Et & Ht).
      assert (vb = through f (ser_key b)) by (symmetry in Eb; injection Eb as ->; reflexivity). subst vb.
      assert (vt = through f (ser_trust t)) by (symmetry in Et; injection Et as ->; reflexivity). subst vt. apply KN in Hb; [|exact Tb].
      unfold ser_trust in Ht. cbn [through map fst snd] in Ht. unfold de_trust in Ht. apply bind_ok_inv in Ht. destruct Ht as (k' & Hk & Ht). apply bind_ok_inv in Ht. destruct Ht as (e' & _ & Ht).
      apply bind_ok_inv in Ht. destruct Ht as (s' & Hs & _). apply bind_ok_inv in Hk. destruct Hk as (vk & Ek & Hk). apply bind_ok_inv in Hs. destruct Hs as (vs & Es & Hs).
      assert (vk = through f (ser_key (issued_for t))) by (symmetry in Ek; injection Ek as ->; reflexivity). subst vk.
      assert (vs = through f (ser_sig (trust_sig t))) by (symmetry in Es; injection Es as ->; reflexivity). subst vs. apply KN in Hk; [|exact Tk]. apply SN in Hs; [|exact Ts].
      cbn [kinds auth_trust issued_by In] in IR. intuition congruence.
    + change (bytes_eqb (str "Revocation") (str "Auth")) with false in H. change (bytes_eqb (str "Revocation") (str "Revocation")) with true in H. cbn iota in H. destruct T as (Tk & Tb & Ts & _).
      apply bind_ok_inv in H. destruct H as (r' & Hr & _). unfold ser_revocation in Hr. cbn [through map fst snd] in Hr. unfold de_revocation in Hr.
      apply bind_ok_inv in Hr. destruct Hr as (k' & Hk & Hr). apply bind_ok_inv in Hr. destruct Hr as (e' & _ & Hr). apply bind_ok_inv in Hr. destruct Hr as (b' & Hb & Hr). apply bind_ok_inv in Hr. destruct Hr as (s' & Hs & _).
      apply bind_ok_inv in Hk. destruct Hk as (vk & Ek & Hk). apply bind_ok_inv in Hb. destruct Hb as (vb & Eb & Hb). apply bind_ok_inv in Hs. destruct Hs as (vs & Es & Hs).
      assert (vk = through f (ser_key (rev_pk r))) by (symmetry in Ek; injection Ek as ->; reflexivity). subst vk.
      assert (vb = through f (ser_key (revoked_by r))) by (symmetry in Eb; injection Eb as ->; reflexivity). subst vb.
      assert (vs = through f (ser_sig (rev_sig r))) by (symmetry in Es; injection Es as ->; reflexivity). subst vs. apply KN in Hk; [|exact Tk]. apply KN in Hb; [|exact Tb]. apply SN in Hs; [|exact Ts].
      cbn [kinds In] in IR. intuition congruence.
Qed.

(** ** Examples *)
(** A secp256k1 key natively: index 2, length 33. *)
Example e_C188_bytes : let k := mk_pk Secp256k1 (x02 :: toy_secret 7) in
  pk_valid (toy false) k /\ key_short k /\
  b_key (toy false) k = [x02; x00; x00; x00; x21; x00; x00; x00; x00; x00; x00; x00] ++ x02 :: toy_secret 7.
Proof. split; [split; reflexivity|]. split; vm_compute; reflexivity. Qed.
(** A trust and a revocation meet the hypotheses. *)
Example e_C188_relations : let x := RAuth (mk_auth (toy_trust 1 2 1000 5) (toy_key 1)) in let y := RRev (toy_rev 1 2 9) in
  relation_typed (toy false) x /\ relation_short x /\ relation_typed (toy false) y /\ relation_short y /\
  len (b_relation (toy false) x) = 192 /\ len (b_relation (toy false) y) = 180.
Proof.
  cbv zeta. cbv [relation_typed trust_typed revocation_typed relation_short key_short sig_short pk_valid sig_valid duration_wf auth_trust issued_by].
  repeat match goal with |- _ /\ _ => split end; vm_compute; reflexivity.
Qed.
(** Nanoseconds beyond a second are carried: 1 s and 2,000,000,000 ns is read as 3 s. *)
Example e_C188_carry : bin_read r_duration (b_u64 1 ++ b_u32 2000000000) = Ok (from_secs 3).
Proof. vm_compute. reflexivity. Qed.
(** The revocation above is read alike by both builds; one signed with secp256k1 is refused by the wasm32 build. *)
Example e_C189_relations : let y := toy_rev 1 2 9 in let z := mk_rev (rev_pk y) (revoked_at y) (revoked_by y) (mk_sig Secp256k1 [x30]) in
  kinds (RRev y) = [Ed25519; Ed25519; Ed25519] /\ bin_read (r_relation (toy true)) (b_relation (toy false) (RRev y)) = Ok (RRev y) /\
  bin_read (r_relation (toy true)) (b_relation (toy false) (RRev z)) = Err BE_variant /\ other_build (toy false) = toy true.
Proof. cbv zeta. repeat match goal with |- _ /\ _ => split end; vm_compute; reflexivity. Qed.
