(** The paths found by the search, read as certificates (root first). *)
From Coq Require Import List NArith ZArith Bool Lia ZifyBool ZifyNat ZifyN.
From Verif Require Import Base BaseFacts Text TextFacts Keys KeysFacts Trust TrustFacts Certificate CertFacts Relation Storage StorageFacts Graph SearchFacts.
Import ListNotations.

Lemma nth_error_ext_local : forall A (l m : list A), (forall i, nth_error l i = nth_error m i) -> l = m.
Proof.
  induction l as [|x l IH]; intros [|y m] H; [reflexivity|specialize (H 0%nat); discriminate|specialize (H 0%nat); discriminate|].
  f_equal; [specialize (H 0%nat); simpl in H; congruence|]. apply IH. intros i. apply (H (S i)).
Qed.

Definition key_of (a : auth) : public_key := issued_for (auth_trust a).

(** Paths by index. *)
Record pathp (rs : list relation) (pk : public_key) (p : list auth) : Prop := mk_pathp {
  pp_stored : forall a, In a p -> In (RAuth a) rs;
  pp_first : exists a, nth_error p 0 = Some a /\ key_of a = pk;
  pp_links : forall j a b, nth_error p j = Some a -> nth_error p (S j) = Some b -> key_of b = issued_by a;
  pp_fresh : forall i j a b, (i < j)%nat -> nth_error p i = Some b -> nth_error p j = Some a -> issued_by a <> key_of b;
  pp_unrev : forall j a v, (1 <= j)%nat -> nth_error p j = Some a -> In (RRev v) rs -> revoked_by v = issued_by a ->
     rev_pk v <> pk /\ forall i b, (1 <= i < j)%nat -> nth_error p i = Some b -> rev_pk v <> issued_by b
}.

Definition rv_spec (rs : list relation) (pk : public_key) (p : list auth) (rv : list public_key) : Prop :=
  forall k, In k rv <-> exists v, In (RRev v) rs /\ revoked_by v = k /\
    (rev_pk v = pk \/ exists i b, (1 <= i)%nat /\ nth_error p i = Some b /\ rev_pk v = issued_by b).

Lemma nth_error_snoc : forall A (l : list A) x i y, nth_error (l ++ [x]) i = Some y <->
  nth_error l i = Some y \/ (i = length l /\ y = x).
Proof.
  intros A l x i y. destruct (Nat.lt_ge_cases i (length l)) as [H|H].
  - rewrite nth_error_app1 by assumption. split; [auto|]. intros [E|[-> _]]; [assumption|lia].
  - rewrite nth_error_app2 by assumption. assert (N : nth_error l i = None) by (apply nth_error_None; assumption).
    rewrite N. destruct (i - length l)%nat as [|k] eqn:E.
    + simpl. split; [intros X; injection X as <-; right; split; [lia|reflexivity]|].
      intros [X|[_ ->]]; [discriminate|reflexivity].
    + simpl. split; [destruct k; discriminate|]. intros [X|[X _]]; [discriminate|lia].
Qed.

Lemma in_revs_map : forall rs k x, In x (map revoked_by (revs_of rs k)) <->
  exists v, In (RRev v) rs /\ revoked_by v = x /\ rev_pk v = k.
Proof.
  intros. rewrite in_map_iff. split.
  - intros (v & H1 & H2). apply in_revs_of in H2. exists v. tauto.
  - intros (v & H1 & H2 & H3). exists v. split; [assumption|]. apply in_revs_of. auto.
Qed.

Lemma last_nth : forall A (p : list A) l, last p l = l -> In l p -> nth_error p (length p - 1) = Some l.
Proof.
  intros A p l H Hin. destruct p as [|x p _] using rev_ind; [destruct Hin|].
  rewrite last_last in H. subst x. rewrite app_length. simpl length at 2.
  apply nth_error_snoc. right. split; [lia|reflexivity].
Qed.

Lemma nth_last : forall A (p : list A) l, nth_error p (length p - 1) = Some l -> last p l = l /\ In l p.
Proof.
  intros A p l H. split; [|eapply nth_error_In; eassumption].
  destruct p as [|x p _] using rev_ind; [reflexivity|].
  rewrite app_length in H. simpl length in H. apply nth_error_snoc in H. destruct H as [H|[_ ->]].
  - assert (length p + 1 - 1 < length p)%nat by (apply nth_error_Some; congruence). lia.
  - apply last_last.
Qed.

Lemma path_pathp : forall rs pk p rv, path rs pk p rv -> pathp rs pk p /\ rv_spec rs pk p rv.
Proof.
  intros rs pk p rv H. induction H as [a Ha Hf|p rv l a Hp [IH IHrv] Hl Hin Ha Hf Hr Hv].
  - split; [split|].
    + intros x [<-|[]]; assumption.
    + exists a. auto.
    + intros [|j] x y H1 H2; simpl in H2; [discriminate|]. destruct j; discriminate.
    + intros i [|j] x y Hij H1 H2; [lia|]. simpl in H2. destruct j; discriminate.
    + intros [|j] x v Hj H1; [lia|]. simpl in H1. destruct j; discriminate.
    + intros k. rewrite in_revs_map. split.
      * intros (v & H1 & H2 & H3). exists v. auto.
      * intros (v & H1 & H2 & [H3|(i & b & Hi & H3 & _)]); [exists v; auto|].
        destruct i as [|i]; [lia|]. simpl in H3. destruct i; discriminate.
  - assert (Hlast : nth_error p (length p - 1) = Some l) by (apply last_nth; assumption).
    destruct IH as [I1 I2 I3 I4 I5]. split; [split|].
    + intros x Hx. apply in_app_or in Hx. destruct Hx as [Hx|[<-|[]]]; [apply I1|]; assumption.
    + destruct I2 as (x & X1 & X2). exists x. split; [|assumption]. apply nth_error_snoc. auto.
    + intros j x y H1 H2. apply nth_error_snoc in H1, H2. destruct H2 as [H2|[E ->]].
      * destruct H1 as [H1|[E _]]; [eapply I3; eassumption|].
        assert (S j < length p)%nat by (apply nth_error_Some; congruence). lia.
      * destruct H1 as [H1|[E2 _]]; [|lia]. replace j with (length p - 1)%nat in H1 by lia.
        rewrite Hlast in H1. injection H1 as <-. assumption.
    + intros i j x y Hij H1 H2. apply nth_error_snoc in H1, H2. destruct H2 as [H2|[E ->]].
      * destruct H1 as [H1|[E _]]; [eapply I4; eassumption|].
        assert (j < length p)%nat by (apply nth_error_Some; congruence). lia.
      * destruct H1 as [H1|[E2 _]]; [|lia]. intros E3. apply Hv. rewrite E3.
        apply in_map_iff. exists y. split; [reflexivity|]. eapply nth_error_In; eassumption.
    + intros j x v Hj H1 H2 H3. apply nth_error_snoc in H1. destruct H1 as [H1|[E ->]].
      * destruct (I5 j x v Hj H1 H2 H3) as [J1 J2]. split; [assumption|].
        intros i b Hi Hb. apply nth_error_snoc in Hb. destruct Hb as [Hb|[E _]]; [eapply J2; eassumption|].
        assert (j < length p)%nat by (apply nth_error_Some; congruence). lia.
      * assert (Hnr : ~ In (revoked_by v) rv) by (rewrite H3; assumption).
        split.
        -- intros E2. apply Hnr. apply IHrv. exists v. auto.
        -- intros i b Hi Hb E2. apply nth_error_snoc in Hb. destruct Hb as [Hb|[E3 _]]; [|lia].
           apply Hnr. apply IHrv. exists v. repeat split; try assumption. right. exists i, b. repeat split; try assumption. lia.
    + intros k. rewrite in_app_iff, in_revs_map. rewrite (IHrv k). split.
      * intros [(v & H1 & H2 & H3)|(v & H1 & H2 & H3)].
        -- exists v. repeat split; try assumption. right. exists (length p), a. repeat split; [|apply nth_error_snoc; auto|assumption].
           destruct p; [destruct Hin|simpl; lia].
        -- exists v. repeat split; try assumption. destruct H3 as [H3|(i & b & Hi & Hb & H3)]; [left; assumption|].
           right. exists i, b. repeat split; try assumption. apply nth_error_snoc. auto.
      * intros (v & H1 & H2 & [H3|(i & b & Hi & Hb & H3)]).
        -- right. exists v. auto.
        -- apply nth_error_snoc in Hb. destruct Hb as [Hb|[E ->]].
           ++ right. exists v. repeat split; try assumption. right. exists i, b. auto.
           ++ left. exists v. auto.
Qed.

Lemma pathp_path : forall rs pk p, pathp rs pk p -> exists rv, path rs pk p rv.
Proof.
  intros rs pk p. induction p as [|a p IH] using rev_ind; intros H.
  - destruct (pp_first _ _ _ H) as (a & Ha & _). discriminate.
  - destruct p as [|x p'] eqn:Ep.
    + simpl in H. destruct H as [H1 H2 _ _ _]. destruct H2 as (b & H2 & H3). injection H2 as <-.
      eexists. apply path_one; [apply H1; left; reflexivity|assumption].
    + rewrite <- Ep in *. assert (Hlen : (1 <= length p)%nat) by (rewrite Ep; simpl; lia).
      assert (Hp : pathp rs pk p).
      { destruct H as [H1 H2 H3 H4 H5]. split.
        - intros y Hy. apply H1. apply in_or_app. auto.
        - destruct H2 as (y & Y1 & Y2). exists y. split; [|assumption].
          rewrite nth_error_app1 in Y1 by lia. assumption.
        - intros j y z Y Z. apply (H3 j y z); apply nth_error_snoc; auto.
        - intros i j y z Hij Y Z. apply (H4 i j y z Hij); apply nth_error_snoc; auto.
        - intros j y v Hj Y V1 V2. destruct (H5 j y v Hj) as [A B]; [apply nth_error_snoc; auto|assumption|assumption|].
          split; [assumption|]. intros i b Hi Hb. apply (B i b Hi). apply nth_error_snoc. auto. }
      destruct (IH Hp) as (rv & Hpath). pose proof (path_pathp _ _ _ _ Hpath) as [_ Hrv].
      destruct (nth_error p (length p - 1)) as [l|] eqn:El.
      2:{ apply nth_error_None in El. lia. }
      destruct (nth_last _ _ _ El) as [L1 L2].
      destruct H as [H1 H2 H3 H4 H5].
      assert (Hna : nth_error (p ++ [a]) (length p) = Some a) by (apply nth_error_snoc; auto).
      eexists. eapply path_push with (l := l); try eassumption.
      * apply H1. apply in_or_app. right. left. reflexivity.
      * apply (H3 (length p - 1)%nat l a); [apply nth_error_snoc; auto|].
        replace (S (length p - 1)) with (length p) by lia. assumption.
      * intros Hin. apply Hrv in Hin. destruct Hin as (v & V1 & V2 & V3).
        destruct (H5 (length p) a v Hlen Hna V1 V2) as [A B].
        destruct V3 as [V3|(i & b & Hi & Hb & V3)]; [contradiction|].
        apply (B i b); [|apply nth_error_snoc; auto|assumption].
        split; [assumption|]. apply nth_error_Some. congruence.
      * intros Hin. apply in_map_iff in Hin. destruct Hin as (b & E & Hb). apply In_nth_error in Hb. destruct Hb as (i & Hb).
        apply (H4 i (length p) a b); [apply nth_error_Some; congruence|apply nth_error_snoc; auto|assumption|].
        symmetry. assumption.
Qed.

(** Certificates: trusts with the issuers they must have. *)
Fixpoint with_issuers (by_pk : public_key) (c : list trust) : list auth :=
  match c with
  | [] => []
  | t :: c' => mk_auth t by_pk :: with_issuers (issued_for t) c'
  end.
Definition cert_auths (c : list trust) : list auth :=
  match c with [] => [] | t :: _ => with_issuers (issued_for t) c end.

Lemma with_issuers_trusts : forall c k, map auth_trust (with_issuers k c) = c.
Proof. induction c as [|t c IH]; intros k; simpl; [reflexivity|]. rewrite IH. reflexivity. Qed.
Lemma cert_auths_trusts : forall c, map auth_trust (cert_auths c) = c.
Proof. intros [|t c]; [reflexivity|]. apply (with_issuers_trusts (t :: c)). Qed.

Lemma with_issuers_nth : forall c k i t,
  nth_error (with_issuers k c) (S i) = Some t <->
  exists u g, nth_error c (S i) = Some u /\ nth_error c i = Some g /\ t = mk_auth u (issued_for g).
Proof.
  induction c as [|x c IH]; intros k i t.
  - simpl. split; [discriminate|]. intros (u & g & H & _). discriminate.
  - cbn [with_issuers nth_error]. destruct i as [|i].
    + destruct c as [|y c]; simpl.
      * split; [discriminate|]. intros (u & g & H & _). discriminate.
      * split.
        -- intros H. injection H as <-. exists y, x. auto.
        -- intros (u & g & H1 & H2 & ->). injection H1 as ->. injection H2 as ->. reflexivity.
    + rewrite IH. reflexivity.
Qed.

(** The typed specification of a returned certificate. *)
Record cert_path (rs : list relation) (rks : list public_key) (pk : public_key) (c : list trust) : Prop := mk_cert_path {
  cp_len : (2 <= length c)%nat;
  cp_last : exists t, nth_error c (length c - 1) = Some t /\ issued_for t = pk;
  cp_root : exists t, nth_error c 0 = Some t /\ In (issued_for t) rks /\ In (RAuth (mk_auth t (issued_for t))) rs;
  cp_links : forall i g t, nth_error c i = Some g -> nth_error c (S i) = Some t -> In (RAuth (mk_auth t (issued_for g))) rs;
  cp_simple : forall i j a b, (i < j)%nat -> nth_error c i = Some a -> nth_error c j = Some b ->
     issued_for a = issued_for b -> j = S i /\ (0 < i)%nat;
  cp_unrev : forall i j a b v, (i < j)%nat -> (j + 2)%nat <> length c -> nth_error c i = Some a -> nth_error c j = Some b ->
     In (RRev v) rs -> revoked_by v = issued_for a -> rev_pk v <> issued_for b
}.

Lemma nth_error_rev : forall A (l : list A) i, (i < length l)%nat ->
  nth_error (rev l) i = nth_error l (length l - 1 - i).
Proof.
  intros A l. induction l as [|x l IH] using rev_ind; intros i H; [simpl in H; lia|].
  rewrite rev_app_distr. simpl rev. rewrite app_length in *. simpl length in *.
  destruct i as [|i].
  - simpl. rewrite nth_error_app2 by lia. replace (length l + 1 - 1 - 0 - length l)%nat with 0%nat by lia. reflexivity.
  - simpl. rewrite IH by lia. rewrite nth_error_app1 by lia. f_equal. lia.
Qed.

(** A pair of keys has one relation: an authorisation excludes a revocation. *)
Lemma pair_unique : forall rs x y, NoDup (map (fun x => (rel_issued_for x, rel_issued_by x)) rs) ->
  In x rs -> In y rs -> rel_issued_for x = rel_issued_for y -> rel_issued_by x = rel_issued_by y -> x = y.
Proof.
  induction rs as [|z rs IH]; intros x y H Hx Hy E1 E2; [destruct Hx|]. simpl in H. inversion H; subst.
  destruct Hx as [->|Hx], Hy as [->|Hy]; [reflexivity| | |apply IH; assumption].
  - exfalso. apply H2. rewrite E1, E2. apply (in_map (fun x => (rel_issued_for x, rel_issued_by x))). assumption.
  - exfalso. apply H2. rewrite <- E1, <- E2. apply (in_map (fun x => (rel_issued_for x, rel_issued_by x))). assumption.
Qed.

Definition term (rks : list public_key) (p : list auth) : Prop :=
  exists l, nth_error p (length p - 1) = Some l /\ issued_by l = key_of l /\ In (issued_by l) rks /\ (1 < length p)%nat.

Lemma in_found_paths' : forall rs rks pk p, In p (found_paths rs rks pk) <-> pathp rs pk p /\ term rks p.
Proof.
  intros rs rks pk p. rewrite in_found_paths. split.
  - intros (rv & l & Hp & Hl & Hin & T1 & T2 & T3). apply path_pathp in Hp. split; [apply Hp|].
    exists l. split; [apply last_nth; assumption|auto].
  - intros (Hp & l & Hl & T1 & T2 & T3). apply pathp_path in Hp. destruct Hp as (rv & Hp). apply nth_last in Hl.
    exists rv, l. tauto.
Qed.

(** From paths to certificates. *)
Lemma path_cert : forall rs rks pk p, NoDup (map (fun x => (rel_issued_for x, rel_issued_by x)) rs) ->
  pathp rs pk p -> term rks p ->
  cert_path rs rks pk (rev (map auth_trust p)) /\ p = rev (cert_auths (rev (map auth_trust p))).
Proof.
  intros rs rks pk p ND [P1 P2 P3 P4 P5] (l & L1 & L2 & L3 & L4).
  set (c := rev (map auth_trust p)).
  assert (Hlen : length c = length p) by (unfold c; rewrite rev_length, map_length; reflexivity).
  (* index translation *)
  assert (TR : forall i t, nth_error c i = Some t -> (i < length p)%nat /\ exists a, nth_error p (length p - 1 - i) = Some a /\ auth_trust a = t).
  { intros i t H. assert (Hi : (i < length c)%nat) by (apply nth_error_Some; congruence). rewrite Hlen in Hi.
    split; [assumption|]. unfold c in H. rewrite nth_error_rev in H by (rewrite map_length; assumption).
    rewrite map_length in H. rewrite nth_error_map in H. destruct (nth_error p (length p - 1 - i)) as [a|]; [|discriminate].
    injection H as <-. exists a. auto. }
  (* issuer of the trust at index i *)
  assert (ISS : forall i a, (S i < length p)%nat -> nth_error p (length p - 1 - S i) = Some a ->
            exists g, nth_error c i = Some g /\ issued_by a = issued_for g).
  { intros i a Hi Ha. destruct (nth_error p (length p - 1 - i)) as [b|] eqn:Eb.
    2:{ apply nth_error_None in Eb. lia. }
    exists (auth_trust b). split.
    - unfold c. rewrite nth_error_rev by (rewrite map_length; lia). rewrite map_length, nth_error_map, Eb. reflexivity.
    - symmetry. apply (P3 (length p - 1 - S i)%nat a b Ha). replace (S (length p - 1 - S i)) with (length p - 1 - i)%nat by lia. assumption. }
  split.
  - split.
    + lia.
    + destruct P2 as (a & A1 & A2). exists (auth_trust a). split; [|assumption].
      unfold c. rewrite nth_error_rev by (rewrite rev_length, map_length; lia).
      rewrite rev_length, map_length. replace (length p - 1 - (length p - 1))%nat with 0%nat by lia.
      rewrite nth_error_map, A1. reflexivity.
    + exists (auth_trust l). split; [|split].
      * unfold c. rewrite nth_error_rev by (rewrite map_length; lia). rewrite map_length, Nat.sub_0_r, nth_error_map, L1. reflexivity.
      * unfold key_of in L2. rewrite <- L2. assumption.
      * unfold key_of in L2. rewrite <- L2. replace (mk_auth (auth_trust l) (issued_by l)) with l by (destruct l; reflexivity).
        apply P1. eapply nth_error_In. eassumption.
    + intros i g t Hg Ht. apply TR in Ht. destruct Ht as (Hi & a & Ha & <-).
      destruct (ISS i a Hi Ha) as (g' & Hg' & E). assert (g' = g) by congruence. subst g'.
      rewrite <- E. replace (mk_auth (auth_trust a) (issued_by a)) with a by (destruct a; reflexivity).
      apply P1. eapply nth_error_In. eassumption.
    + intros i j a b Hij Ha Hb E. pose proof Ha as Ha'. apply TR in Ha, Hb. destruct Ha as (Hi & x & Hx & <-), Hb as (Hj & y & Hy & <-).
      destruct (Nat.eq_dec j (S i)) as [Hji|Hji].
      * split; [assumption|]. destruct i as [|i]; [|lia]. exfalso.
        rewrite Nat.sub_0_r in Hx. rewrite L1 in Hx. injection Hx as <-.
        apply (P4 (length p - 1 - j)%nat (length p - 1)%nat l y); [lia|assumption|assumption|].
        unfold key_of in L2 |- *. congruence.
      * exfalso. destruct (nth_error p (length p - 1 - S i)) as [z|] eqn:Ez.
        2:{ apply nth_error_None in Ez. lia. }
        destruct (ISS i z ltac:(lia) Ez) as (g & Hg & Eg). assert (g = auth_trust x) by congruence. subst g.
        apply (P4 (length p - 1 - j)%nat (length p - 1 - S i)%nat z y); [lia|assumption|assumption|].
        unfold key_of. congruence.
    + intros i j a b v Hij Hne Ha Hb Hv Er Ek.
      pose proof Ha as Ha'. pose proof Hb as Hb'.
      apply TR in Ha, Hb. destruct Ha as (Hi & x & Hx & <-), Hb as (Hj & y & Hy & <-).
      (* the auth whose issuer is key i *)
      destruct (nth_error p (length p - 1 - S i)) as [z|] eqn:Ez.
      2:{ apply nth_error_None in Ez. lia. }
      destruct (ISS i z ltac:(lia) Ez) as (g & Hg & Eg). assert (g = auth_trust x) by congruence. subst g.
      destruct (Nat.eq_dec j (S i)) as [Hji|Hji].
      * (* revocation of the pair that is authorised *)
        subst j. assert (z = y) by congruence. subst z.
        assert (X : RAuth y = RRev v).
        { apply (pair_unique rs); try assumption; [apply P1; eapply nth_error_In; eassumption| |]; simpl; congruence. }
        discriminate.
      * destruct (P5 (length p - 1 - S i)%nat z v) as [Q1 Q2]; [lia|assumption|assumption|congruence|].
        destruct (Nat.eq_dec j (length p - 1)) as [Hl|Hl].
        -- (* target *)
           apply Q1. destruct P2 as (a0 & A1 & A2). replace (length p - 1 - j)%nat with 0%nat in Hy by lia.
           rewrite A1 in Hy. injection Hy as <-. unfold key_of in A2. congruence.
        -- destruct (nth_error p (length p - 1 - S j)) as [w|] eqn:Ew.
           2:{ apply nth_error_None in Ew. lia. }
           destruct (ISS j w ltac:(lia) Ew) as (g & Hg' & Eg'). assert (g = auth_trust y) by congruence. subst g.
           apply (Q2 (length p - 1 - S j)%nat w); [lia|assumption|congruence].
  - (* the issuers are determined *)
    assert (X : rev p = cert_auths c).
    { apply nth_error_ext_local. intros i.
      destruct (Nat.lt_ge_cases i (length p)) as [Hi|Hi].
      2:{ assert (nth_error (rev p) i = None) as -> by (apply nth_error_None; rewrite rev_length; lia).
          symmetry. apply nth_error_None. rewrite <- (map_length auth_trust), cert_auths_trusts, Hlen. lia. }
      rewrite nth_error_rev by assumption.
      destruct (nth_error p (length p - 1 - i)) as [a|] eqn:Ea.
      2:{ apply nth_error_None in Ea. lia. }
      assert (Hc : nth_error c i = Some (auth_trust a)).
      { unfold c. rewrite nth_error_rev by (rewrite map_length; lia). rewrite map_length, nth_error_map, Ea. reflexivity. }
      symmetry. destruct c as [|t c'] eqn:Ec; [destruct i; discriminate|]. cbn [cert_auths].
      destruct i as [|i].
      - simpl in Hc. injection Hc as ->. simpl. f_equal. rewrite Nat.sub_0_r, L1 in Ea. injection Ea as <-.
        unfold key_of in L2. rewrite <- L2. destruct l; reflexivity.
      - apply with_issuers_nth. destruct (ISS i a Hi Ea) as (g & Hg & Eg).
        exists (auth_trust a), g. repeat split; try assumption. rewrite <- Eg. destruct a; reflexivity. }
    rewrite <- X, rev_involutive. reflexivity.
Qed.

Lemma cert_auths_nth_0 : forall c t, nth_error c 0 = Some t -> nth_error (cert_auths c) 0 = Some (mk_auth t (issued_for t)).
Proof. intros [|x c] t H; [discriminate|]. simpl in *. injection H as ->. reflexivity. Qed.

Lemma cert_auths_nth_S : forall c i a, nth_error (cert_auths c) (S i) = Some a <->
  exists u g, nth_error c (S i) = Some u /\ nth_error c i = Some g /\ a = mk_auth u (issued_for g).
Proof.
  intros [|x c] i a.
  - simpl. split; [discriminate|]. intros (u & g & H & _). discriminate.
  - apply with_issuers_nth.
Qed.

Lemma cert_auths_length : forall c, length (cert_auths c) = length c.
Proof. intros c. rewrite <- (map_length auth_trust), cert_auths_trusts. reflexivity. Qed.

(** The trust and the issuer's position of every element of [cert_auths]. *)
Lemma cert_auths_nth : forall c i a, nth_error (cert_auths c) i = Some a ->
  nth_error c i = Some (auth_trust a) /\ exists g, nth_error c (i - 1) = Some g /\ issued_by a = issued_for g.
Proof.
  intros c [|i] a H.
  - destruct c as [|t c]; [discriminate|]. simpl in H. injection H as <-. split; [reflexivity|]. exists t. auto.
  - apply cert_auths_nth_S in H. destruct H as (u & g & H1 & H2 & ->). split; [assumption|].
    exists g. rewrite Nat.sub_succ, Nat.sub_0_r. auto.
Qed.

(** From certificates to paths. *)
Lemma cert_to_path : forall rs rks pk c, NoDup (map (fun x => (rel_issued_for x, rel_issued_by x)) rs) ->
  cert_path rs rks pk c ->
  pathp rs pk (rev (cert_auths c)) /\ term rks (rev (cert_auths c)).
Proof.
  intros rs rks pk c ND [C1 C2 C3 C4 C5 C6].
  assert (Hlen : length (rev (cert_auths c)) = length c) by (rewrite rev_length; apply cert_auths_length).
  assert (TR : forall j a, nth_error (rev (cert_auths c)) j = Some a ->
            (j < length c)%nat /\ nth_error c (length c - 1 - j) = Some (auth_trust a) /\
            exists g, nth_error c (length c - 1 - j - 1) = Some g /\ issued_by a = issued_for g).
  { intros j a H. assert (Hj : (j < length c)%nat) by (rewrite <- Hlen; apply nth_error_Some; congruence).
    split; [assumption|]. rewrite nth_error_rev in H by (rewrite cert_auths_length; assumption).
    rewrite cert_auths_length in H. apply cert_auths_nth in H. exact H. }
  destruct C3 as (t0 & T1 & T2 & T3). destruct C2 as (tl & L1 & L2).
  split; [split|].
  - intros a Ha. apply in_rev in Ha. apply In_nth_error in Ha. destruct Ha as (i & Ha).
    destruct i as [|i].
    + rewrite (cert_auths_nth_0 _ _ T1) in Ha. injection Ha as <-. assumption.
    + apply cert_auths_nth_S in Ha. destruct Ha as (u & g & H1 & H2 & ->). apply (C4 i); assumption.
  - destruct (nth_error (rev (cert_auths c)) 0) as [a|] eqn:E.
    2:{ apply nth_error_None in E. lia. }
    exists a. split; [reflexivity|]. apply TR in E. destruct E as (_ & E & _). rewrite Nat.sub_0_r in E.
    unfold key_of. congruence.
  - intros j a b Ha Hb. apply TR in Ha, Hb. destruct Ha as (J1 & A1 & g & A2 & A3). destruct Hb as (J2 & B1 & _).
    replace (length c - 1 - j - 1)%nat with (length c - 1 - S j)%nat in A2 by lia.
    unfold key_of. congruence.
  - intros i j a b Hij Hb Ha E. apply TR in Ha, Hb. destruct Ha as (J1 & A1 & g & A2 & A3). destruct Hb as (J2 & B1 & _).
    unfold key_of in E. rewrite A3 in E.
    destruct (C5 (length c - 1 - j - 1)%nat (length c - 1 - i)%nat g (auth_trust b)) as [X Y]; try assumption; lia.
  - intros j a v Hj Ha Hv Er. apply TR in Ha. destruct Ha as (J1 & A1 & g & A2 & A3).
    rewrite A3 in Er. split.
    + rewrite <- L2. apply (C6 (length c - 1 - j - 1)%nat (length c - 1)%nat g tl v); try assumption; lia.
    + intros i b Hi Hb. apply TR in Hb. destruct Hb as (I1 & B1 & g' & B2 & B3). rewrite B3.
      destruct (Nat.eq_dec (length c - 1 - j - 1) (length c - 1 - i - 1)) as [Eq|Ne].
      * rewrite Eq in A2. assert (g' = g) by congruence. subst g'.
        assert (length c - 1 - i - 1 = 0)%nat by lia. rewrite H in B2. assert (g = t0) by congruence. subst g.
        intros Ek. assert (X : RAuth (mk_auth t0 (issued_for t0)) = RRev v).
        { apply (pair_unique rs); try assumption; simpl; congruence. }
        discriminate.
      * apply (C6 (length c - 1 - j - 1)%nat (length c - 1 - i - 1)%nat g g' v); try assumption; lia.
  - exists (mk_auth t0 (issued_for t0)). rewrite Hlen. repeat split; try assumption; try lia.
    rewrite nth_error_rev by (rewrite cert_auths_length; lia). rewrite cert_auths_length.
    replace (length c - 1 - (length c - 1))%nat with 0%nat by lia. apply cert_auths_nth_0. assumption.
Qed.

(** Certificates found by the pure search. *)
Definition found_certs (rs : list relation) (rks : list public_key) (pk : public_key) : list certificate :=
  map (fun p => rev (map auth_trust p)) (found_paths rs rks pk).

Lemma in_found_certs : forall rs rks pk c, NoDup (map (fun x => (rel_issued_for x, rel_issued_by x)) rs) ->
  In c (found_certs rs rks pk) <-> cert_path rs rks pk c.
Proof.
  intros rs rks pk c ND. unfold found_certs. rewrite in_map_iff. split.
  - intros (p & <- & Hp). apply in_found_paths' in Hp. destruct Hp as [Hp Ht]. apply (path_cert rs rks pk p ND Hp Ht).
  - intros H. exists (rev (cert_auths c)). split.
    + rewrite map_rev, rev_involutive. apply cert_auths_trusts.
    + apply in_found_paths'. apply cert_to_path; assumption.
Qed.

(** Order and absence of duplicates. *)
Lemma NoDup_auths_of : forall rs pk, NoDup (map (fun x => (rel_issued_for x, rel_issued_by x)) rs) ->
  NoDup (map issued_by (auths_of rs pk)).
Proof.
  intros rs pk. induction rs as [|x rs IH]; intros H; [constructor|]. simpl in H. inversion H; subst.
  unfold auths_of in *. cbn [filter]. destruct (pk_eqb (rel_issued_for x) pk) eqn:E; [|auto].
  destruct x as [a|v]; unfold only_auths in *; cbn [flat_map app map]; [|auto].
  constructor; [|auto]. intros Hin. apply H2. apply in_map_iff in Hin. destruct Hin as (b & Eb & Hb).
  apply in_flat_map in Hb. destruct Hb as ([b'|] & Hb & Hb'); [|destruct Hb']. destruct Hb' as [->|[]].
  apply filter_In in Hb. destruct Hb as [Hb1 Hb2]. apply pk_eqb_eq in E, Hb2.
  apply in_map_iff. exists (RAuth b). split; [|assumption]. simpl in *. congruence.
Qed.

Lemma NoDup_map_inv' : forall A B (f : A -> B) l, NoDup (map f l) -> NoDup l.
Proof. intros A B f l H. eapply NoDup_map_inv. exact H. Qed.

Lemma NoDup_map_filter : forall A B (f : A -> B) p l, NoDup (map f l) -> NoDup (map f (filter p l)).
Proof. exact NoDup_filter_map. Qed.

Lemma NoDup_app_intro : forall A (l m : list A), NoDup l -> NoDup m -> (forall x, In x l -> ~ In x m) -> NoDup (l ++ m).
Proof.
  induction l as [|x l IH]; intros m Hl Hm H; [assumption|]. inversion Hl; subst. simpl. constructor.
  - intros Hin. apply in_app_or in Hin. destruct Hin as [Hin|Hin]; [contradiction|]. apply (H x); [left; reflexivity|assumption].
  - apply IH; try assumption. intros y Hy. apply H. right. assumption.
Qed.

Lemma NoDup_map_inj : forall A B (f : A -> B) l, (forall x y, In x l -> In y l -> f x = f y -> x = y) -> NoDup l -> NoDup (map f l).
Proof.
  induction l as [|x l IH]; intros Hf H; [constructor|]. inversion H; subst. simpl. constructor.
  - intros Hin. apply in_map_iff in Hin. destruct Hin as (y & E & Hy). apply Hf in E; [|right; assumption|left; reflexivity].
    subst. contradiction.
  - apply IH; [|assumption]. intros y z Hy Hz. apply Hf; right; assumption.
Qed.

Lemma level_nodup : forall rs pk i, NoDup (map (fun x => (rel_issued_for x, rel_issued_by x)) rs) ->
  NoDup (map ch_auths (level rs pk i)).
Proof.
  intros rs pk i ND. induction i as [|i IH].
  - cbn [level]. rewrite map_map. apply NoDup_map_inj.
    + intros x y _ _ E. unfold ch_auths, ch_new, ch_add_revocations in E. cbn in E. congruence.
    + eapply NoDup_map_inv'. apply NoDup_auths_of. assumption.
  - cbn [level]. induction (level rs pk i) as [|c l IHl]; [constructor|]. cbn [map] in IH. inversion IH; subst.
    cbn [flat_map]. rewrite map_app. apply NoDup_app_intro.
    + unfold ext, ext_with. rewrite map_map. apply NoDup_map_inj.
      * intros x y _ _ E. rewrite !ch_auths_push in E. apply app_inj_tail in E. apply E.
      * apply NoDup_filter. eapply NoDup_map_inv'. apply NoDup_auths_of. assumption.
    + apply IHl. assumption.
    + intros p Hp Hp'. apply in_map_iff in Hp, Hp'. destruct Hp as (c1 & <- & Hc1), Hp' as (c2 & E2 & Hc2).
      apply in_flat_map in Hc2. destruct Hc2 as (c0 & H0 & Hc2). apply in_ext in Hc1, Hc2.
      destruct Hc1 as (a1 & -> & _), Hc2 as (a2 & -> & _). rewrite !ch_auths_push in E2.
      apply app_inj_tail in E2. destruct E2 as [E2 _]. apply H1. rewrite <- E2. apply in_map. assumption.
Qed.

Lemma levels_nodup : forall rs pk n, NoDup (map (fun x => (rel_issued_for x, rel_issued_by x)) rs) ->
  NoDup (map ch_auths (levels rs pk n)).
Proof.
  intros rs pk n ND. induction n as [|n IH]; [constructor|]. rewrite levels_S, map_app. apply NoDup_app_intro.
  - assumption.
  - apply level_nodup. assumption.
  - intros p Hp Hp'. apply in_map_iff in Hp, Hp'. destruct Hp as (c1 & <- & Hc1), Hp' as (c2 & E2 & Hc2).
    unfold levels in Hc1. apply in_flat_map in Hc1. destruct Hc1 as (i & Hi & Hc1). apply in_seq in Hi.
    apply level_path in Hc1, Hc2. destruct Hc1 as [_ L1], Hc2 as [_ L2]. rewrite E2 in L2. lia.
Qed.

Lemma found_paths_nodup : forall rs rks pk, NoDup (map (fun x => (rel_issued_for x, rel_issued_by x)) rs) ->
  NoDup (found_paths rs rks pk).
Proof. intros. unfold found_paths. apply NoDup_map_filter. apply levels_nodup. assumption. Qed.

Lemma found_certs_nodup : forall rs rks pk, NoDup (map (fun x => (rel_issued_for x, rel_issued_by x)) rs) ->
  NoDup (found_certs rs rks pk).
Proof.
  intros rs rks pk ND. unfold found_certs. apply NoDup_map_inj.
  - intros p q Hp Hq E. apply in_found_paths' in Hp, Hq. destruct Hp as [P1 P2], Hq as [Q1 Q2].
    destruct (path_cert rs rks pk p ND P1 P2) as [_ Ep]. destruct (path_cert rs rks pk q ND Q1 Q2) as [_ Eq].
    rewrite Ep, Eq, E. reflexivity.
  - apply found_paths_nodup. assumption.
Qed.

(** Non-decreasing lengths. *)
Definition sorted_len {A} (l : list (list A)) : Prop :=
  forall i j a b, (i < j)%nat -> nth_error l i = Some a -> nth_error l j = Some b -> (length a <= length b)%nat.

Lemma sorted_len_app : forall A (l m : list (list A)), sorted_len l -> sorted_len m ->
  (forall a b, In a l -> In b m -> (length a <= length b)%nat) -> sorted_len (l ++ m).
Proof.
  intros A l m Hl Hm H i j a b Hij Ha Hb.
  destruct (Nat.lt_ge_cases j (length l)) as [Hj|Hj].
  - rewrite nth_error_app1 in Ha, Hb by lia. exact (Hl i j a b Hij Ha Hb).
  - rewrite (nth_error_app2 l m Hj) in Hb. destruct (Nat.lt_ge_cases i (length l)) as [Hi|Hi].
    + rewrite nth_error_app1 in Ha by lia. apply H; eapply nth_error_In; eassumption.
    + rewrite nth_error_app2 in Ha by lia. apply (Hm (i - length l)%nat (j - length l)%nat); try assumption; lia.
Qed.

Lemma sorted_len_const : forall A (l : list (list A)) n, (forall a, In a l -> length a = n) -> sorted_len l.
Proof.
  intros A l n H i j a b _ Ha Hb. rewrite (H a), (H b); [lia| |]; eapply nth_error_In; eassumption.
Qed.

Lemma found_paths_sorted : forall rs rks pk, sorted_len (found_paths rs rks pk).
Proof.
  intros rs rks pk. unfold found_paths, all_chains. generalize (2 * length rs + 2)%nat. intros n.
  induction n as [|n IH].
  - intros i j a b _ H. destruct i; discriminate.
  - rewrite levels_S, filter_app, map_app. apply sorted_len_app; [assumption| |].
    + apply (sorted_len_const _ _ (S n)). intros p Hp. apply in_map_iff in Hp. destruct Hp as (c & <- & Hc).
      apply filter_In in Hc. destruct Hc as [Hc _]. apply level_path in Hc. apply Hc.
    + intros p q Hp Hq. apply in_map_iff in Hp, Hq. destruct Hp as (c & <- & Hc), Hq as (c' & <- & Hc').
      apply filter_In in Hc, Hc'. destruct Hc as [Hc _], Hc' as [Hc' _]. apply level_path in Hc'.
      unfold levels in Hc. apply in_flat_map in Hc. destruct Hc as (i & Hi & Hc). apply in_seq in Hi. apply level_path in Hc.
      destruct Hc as [_ Hc], Hc' as [_ Hc']. lia.
Qed.

Lemma found_certs_sorted : forall rs rks pk, sorted_len (found_certs rs rks pk).
Proof.
  intros rs rks pk i j a b Hij Ha Hb. unfold found_certs in Ha, Hb. rewrite nth_error_map in Ha, Hb.
  destruct (nth_error (found_paths rs rks pk) i) as [p|] eqn:Ep; [|discriminate].
  destruct (nth_error (found_paths rs rks pk) j) as [q|] eqn:Eq; [|discriminate].
  injection Ha as <-. injection Hb as <-. rewrite !rev_length, !map_length.
  eapply found_paths_sorted; eassumption.
Qed.
