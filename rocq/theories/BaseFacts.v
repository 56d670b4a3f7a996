(** Facts about Base.v. *)
From Coq Require Import List NArith ZArith Bool Lia ZifyBool ZifyNat ZifyN.
From Coq Require Strings.Byte.
From Verif Require Import Base.
Import ListNotations.
Open Scope N_scope.

Ltac Zify.zify_post_hook ::= Z.div_mod_to_equations.

Lemma N_of_u8_bound : forall b, N_of_u8 b < 256.
Proof. intros b. unfold N_of_u8. pose proof (Byte.to_N_bounded b). lia. Qed.

Lemma N_of_u8_of_N : forall n, N_of_u8 (u8_of_N n) = n mod 256.
Proof.
  intros n. unfold N_of_u8, u8_of_N.
  destruct (Byte.of_N (n mod 256)) as [b|] eqn:E.
  - apply Byte.to_of_N in E. exact E.
  - apply Byte.of_N_None_iff in E. pose proof (N.mod_lt n 256 ltac:(lia)). lia.
Qed.

Lemma N_of_u8_of_N_small : forall n, n < 256 -> N_of_u8 (u8_of_N n) = n.
Proof. intros n H. rewrite N_of_u8_of_N. apply N.mod_small. exact H. Qed.

Lemma u8_of_N_of_u8 : forall b, u8_of_N (N_of_u8 b) = b.
Proof.
  intros b. unfold u8_of_N. rewrite N.mod_small by apply N_of_u8_bound.
  unfold N_of_u8. rewrite Byte.of_to_N. reflexivity.
Qed.

Lemma N_of_u8_inj : forall a b, N_of_u8 a = N_of_u8 b -> a = b.
Proof. intros a b H. rewrite <- (u8_of_N_of_u8 a), <- (u8_of_N_of_u8 b), H. reflexivity. Qed.

Lemma byte_eqb_eq : forall a b, Byte.eqb a b = true <-> a = b.
Proof.
  intros a b. split.
  - apply Byte.byte_dec_bl.
  - apply Byte.byte_dec_lb.
Qed.

Lemma byte_eqb_refl : forall a, Byte.eqb a a = true.
Proof. intros a. apply byte_eqb_eq. reflexivity. Qed.

Lemma byte_eqb_neq : forall a b, Byte.eqb a b = false <-> a <> b.
Proof.
  intros a b. destruct (Byte.eqb a b) eqn:E.
  - apply byte_eqb_eq in E. split; [discriminate|contradiction].
  - split; [|reflexivity]. intros _ H. apply byte_eqb_eq in H. congruence.
Qed.

Lemma bytes_eqb_eq : forall a b, bytes_eqb a b = true <-> a = b.
Proof.
  induction a as [|x a IH]; destruct b as [|y b]; simpl; split; intros H; try discriminate; try reflexivity.
  - apply andb_true_iff in H. destruct H as [H1 H2].
    apply byte_eqb_eq in H1. apply IH in H2. congruence.
  - injection H as -> ->. rewrite byte_eqb_refl. simpl. apply IH. reflexivity.
Qed.

Lemma bytes_eqb_refl : forall a, bytes_eqb a a = true.
Proof. intros. apply bytes_eqb_eq. reflexivity. Qed.

Lemma bytes_eqb_neq : forall a b, bytes_eqb a b = false <-> a <> b.
Proof.
  intros a b. destruct (bytes_eqb a b) eqn:E.
  - apply bytes_eqb_eq in E. split; [discriminate|contradiction].
  - split; [|reflexivity]. intros _ H. apply bytes_eqb_eq in H. congruence.
Qed.

Lemma bytes_eq_dec : forall a b : bytes, {a = b} + {a <> b}.
Proof.
  intros a b. destruct (bytes_eqb a b) eqn:E.
  - left. apply bytes_eqb_eq. exact E.
  - right. apply bytes_eqb_neq. exact E.
Qed.

(** Little endian. *)
Lemma le_bytes_length : forall k n, length (le_bytes k n) = k.
Proof. induction k; intros; simpl; [reflexivity|]. rewrite IHk. reflexivity. Qed.

Lemma le_bytes_len8 : forall n, len (le_bytes 8 n) = 8.
Proof. intros. unfold len. rewrite le_bytes_length. reflexivity. Qed.

Lemma le_value_bytes : forall k n, n < 256 ^ N.of_nat k -> le_value (le_bytes k n) = n.
Proof.
  induction k as [|k IH]; intros n H.
  - simpl in H. simpl. lia.
  - change (le_bytes (S k) n) with (u8_of_N n :: le_bytes k (n / 256)).
    change (le_value (u8_of_N n :: le_bytes k (n / 256)))
      with (N_of_u8 (u8_of_N n) + 256 * le_value (le_bytes k (n / 256))).
    rewrite IH.
    + rewrite N_of_u8_of_N. pose proof (N.div_mod n 256 ltac:(lia)). lia.
    + apply N.div_lt_upper_bound; [lia|].
      rewrite Nnat.Nat2N.inj_succ, N.pow_succ_r in H by lia. exact H.
Qed.

Lemma le_bytes_value : forall l, le_bytes (length l) (le_value l) = l.
Proof.
  induction l as [|b l IH]; [reflexivity|].
  change (le_bytes (length (b :: l)) (le_value (b :: l)))
    with (u8_of_N (N_of_u8 b + 256 * le_value l) :: le_bytes (length l) ((N_of_u8 b + 256 * le_value l) / 256)).
  pose proof (N_of_u8_bound b) as Hb.
  replace ((N_of_u8 b + 256 * le_value l) / 256) with (le_value l).
  2:{ rewrite (N.mul_comm 256), N.div_add by lia. rewrite N.div_small by lia. lia. }
  rewrite IH. f_equal.
  rewrite <- (u8_of_N_of_u8 b) at 2. unfold u8_of_N. f_equal.
  rewrite (N.mul_comm 256), N.mod_add by lia. reflexivity.
Qed.

Lemma le_value_bound : forall l, le_value l < 256 ^ N.of_nat (length l).
Proof.
  induction l as [|b l IH]; [simpl; lia|].
  change (le_value (b :: l)) with (N_of_u8 b + 256 * le_value l).
  change (length (b :: l)) with (S (length l)).
  rewrite Nnat.Nat2N.inj_succ, N.pow_succ_r by lia.
  pose proof (N_of_u8_bound b). lia.
Qed.

Lemma pow_256_8 : 256 ^ N.of_nat 8 = u64_bound.
Proof. reflexivity. Qed.

Lemma le8_roundtrip : forall n, n < u64_bound -> le_value (le_bytes 8 n) = n.
Proof. intros. apply le_value_bytes. rewrite pow_256_8. assumption. Qed.

Lemma le8_inj : forall a b, a < u64_bound -> b < u64_bound -> le_bytes 8 a = le_bytes 8 b -> a = b.
Proof. intros a b Ha Hb H. rewrite <- (le8_roundtrip a Ha), <- (le8_roundtrip b Hb), H. reflexivity. Qed.

(** Signed/unsigned 64-bit reinterpretation. *)
Lemma u64_i64_roundtrip : forall n, n < u64_bound -> u64_of_i64 (i64_of_u64 n) = n.
Proof.
  intros n H. unfold u64_of_i64, i64_of_u64.
  destruct (n <? i64_bound) eqn:E.
  - rewrite Z.mod_small. apply N2Z.id. unfold u64_bound in *. lia.
  - replace (Z.of_N n - Z.of_N u64_bound)%Z with (Z.of_N n + (-1) * Z.of_N u64_bound)%Z by lia.
    rewrite Z_mod_plus_full. rewrite Z.mod_small by (unfold u64_bound in *; lia). apply N2Z.id.
Qed.

Lemma i64_le_small : forall a b, a < i64_bound -> b < i64_bound ->
  (i64_of_u64 a <=? i64_of_u64 b)%Z = (a <=? b).
Proof.
  intros a b Ha Hb. unfold i64_of_u64.
  apply N.ltb_lt in Ha. apply N.ltb_lt in Hb. rewrite Ha, Hb. lia.
Qed.

(** Durations. *)
Lemma duration_ltb_lt : forall a b, duration_ltb a b = true <->
  (secs a < secs b \/ (secs a = secs b /\ nanos a < nanos b)).
Proof. intros. unfold duration_ltb. lia. Qed.

Lemma duration_ltb_irrefl : forall a, duration_ltb a a = false.
Proof. intros. unfold duration_ltb. lia. Qed.

Lemma duration_ltb_trans : forall a b c,
  duration_ltb a b = true -> duration_ltb b c = true -> duration_ltb a c = true.
Proof. intros a b c. unfold duration_ltb. lia. Qed.

Lemma duration_ltb_le_trans : forall a b c,
  duration_ltb a b = true -> duration_ltb c b = false -> duration_ltb a c = true.
Proof. intros a b c. unfold duration_ltb. lia. Qed.

Lemma duration_le_ltb_trans : forall a b c,
  duration_ltb b a = false -> duration_ltb b c = true -> duration_ltb a c = true.
Proof. intros a b c. unfold duration_ltb. lia. Qed.

Lemma duration_total : forall a b, duration_ltb a b = false -> duration_ltb b a = false -> a = b.
Proof.
  intros [sa na] [sb nb]. unfold duration_ltb; simpl. intros. f_equal; lia.
Qed.

Lemma duration_eta : forall d, mk_duration (secs d) (nanos d) = d.
Proof. destruct d; reflexivity. Qed.

Lemma whole_secs_from : forall d, whole_secs d -> from_secs (secs d) = d.
Proof. intros [s n] [_ H]. simpl in *. subst. reflexivity. Qed.

Lemma from_secs_whole : forall n, n < u64_bound -> whole_secs (from_secs n).
Proof. intros. split; simpl; [assumption|reflexivity]. Qed.

Lemma ltb_from_secs : forall a b, duration_ltb (from_secs a) (from_secs b) = (a <? b).
Proof. intros. unfold duration_ltb, from_secs; simpl. lia. Qed.

(** len *)
Lemma len_app : forall a b, len (a ++ b) = len a + len b.
Proof. intros. unfold len. rewrite app_length. lia. Qed.
Lemma len_cons : forall x a, len (x :: a) = 1 + len a.
Proof. intros. unfold len. simpl length. lia. Qed.
Lemma len_nil : len [] = 0.
Proof. reflexivity. Qed.
Lemma len_to_nat : forall l, N.to_nat (len l) = length l.
Proof. intros. unfold len. lia. Qed.

(** results *)
Lemma Ok_inj : forall E A (a b : A), @Ok E A a = Ok b -> a = b.
Proof. intros E A a b H. injection H. auto. Qed.

Lemma bind_ok : forall E A B (r : result E A) (f : A -> result E B) b,
  bind r f = Ok b <-> exists a, r = Ok a /\ f a = Ok b.
Proof.
  intros. destruct r; simpl; split; intros H; try discriminate; try (destruct H as (x & H1 & H2); discriminate).
  - exists a. auto.
  - destruct H as (x & H1 & H2). congruence.
Qed.

Lemma map_err_ok : forall E F A (f : E -> F) (r : result E A) a, map_err f r = Ok a <-> r = Ok a.
Proof. intros. destruct r; simpl; split; intros; congruence. Qed.

Lemma map_err_err : forall E F A (f : E -> F) (r : result E A) e,
  map_err f r = Err e <-> exists e', r = Err e' /\ e = f e'.
Proof.
  intros. destruct r; simpl; split; intros H; try discriminate; try (destruct H as (x & H1 & H2); discriminate).
  - exists e0. split; congruence.
  - destruct H as (x & H1 & H2). congruence.
Qed.

Lemma map_err_panic : forall E F A (f : E -> F) (r : result E A), map_err f r = Panic <-> r = Panic.
Proof. intros. destruct r; simpl; split; intros; congruence. Qed.

Lemma collect_ok : forall E A B (f : A -> result E B) l ys,
  collect f l = Ok ys <-> Forall2 (fun x y => f x = Ok y) l ys.
Proof.
  induction l as [|x l IH]; intros ys; simpl.
  - split; intros H. injection H as <-. constructor. inversion H. reflexivity.
  - split; intros H.
    + apply bind_ok in H. destruct H as (y & Hy & H). apply bind_ok in H. destruct H as (ys' & Hys & H).
      injection H as <-. constructor; [assumption|]. apply IH. assumption.
    + inversion H; subst. rewrite H2. simpl. apply IH in H4. rewrite H4. reflexivity.
Qed.

Lemma collect_map : forall E A B A' (f : A -> result E B) (g : A' -> A) l,
  collect f (map g l) = collect (fun x => f (g x)) l.
Proof. induction l; simpl; [reflexivity|]. rewrite IHl. reflexivity. Qed.

Lemma collect_all_ok : forall E A B (f : A -> result E B) (g : A -> B) l,
  (forall x, In x l -> f x = Ok (g x)) -> collect f l = Ok (map g l).
Proof.
  induction l as [|x l IH]; intros H; simpl; [reflexivity|].
  rewrite H by (left; reflexivity). simpl. rewrite IH by (intros; apply H; right; assumption). reflexivity.
Qed.
