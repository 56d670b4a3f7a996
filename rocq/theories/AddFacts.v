(** Added certificates take effect; the weight reported by add_trust. *)
From Coq Require Import List NArith ZArith Bool Lia ZifyBool ZifyNat ZifyN.
From Verif Require Import Base BaseFacts Text TextFacts Keys KeysFacts Trust TrustFacts Certificate CertFacts Relation
  Storage StorageFacts Graph SearchFacts PathFacts Spec SpecFacts GraphFacts StateFacts ChainFacts ImportFacts.
Import ListNotations.
Open Scope N_scope.

Lemma nth_firstn : forall A (l : list A) k i x, nth_error (firstn k l) i = Some x <-> (i < k)%nat /\ nth_error l i = Some x.
Proof.
  induction l as [|y l IH]; intros k i x.
  - rewrite firstn_nil. destruct i; split; try discriminate; intros [_ H]; discriminate.
  - destruct k as [|k].
    + split; [destruct i; discriminate|]. intros [H _]. lia.
    + destruct i as [|i]; cbn [firstn nth_error]; [split; [intros H; split; [lia|exact H]|intros [_ H]; exact H]|].
      rewrite IH. split; intros [H1 H2]; split; auto; lia.
Qed.

Lemma nth_map_some : forall A B (f : A -> B) l i y, nth_error (map f l) i = Some y <-> exists x, nth_error l i = Some x /\ y = f x.
Proof.
  intros A B f l i y. rewrite nth_error_map. destruct (nth_error l i) as [x|]; cbn; split; intros H.
  - injection H as <-. eauto.
  - destruct H as (x' & E & ->). injection E as ->. reflexivity.
  - discriminate.
  - destruct H as (x' & E & _). discriminate.
Qed.

Lemma chain_weight_pos : forall m h, 1 <= chain_weight m h.
Proof. intros m h. unfold chain_weight. pose proof (N.pow_nonzero 2 (m - N.of_nat h) ltac:(discriminate)). lia. Qed.

Lemma chain_weight_mono : forall m h h', (h <= h')%nat -> chain_weight m h' <= chain_weight m h.
Proof. intros m h h' H. unfold chain_weight. apply N.pow_le_mono_r; lia. Qed.

Lemma chain_weight_half : forall m h, (N.of_nat h < m)%N -> chain_weight m h / 2 = chain_weight m (S h).
Proof.
  intros m h H. unfold chain_weight. replace (m - N.of_nat h) with (N.succ (m - N.of_nat (S h))) by lia.
  rewrite N.pow_succ_r', N.mul_comm. apply N.div_mul. discriminate.
Qed.

(** A relation is there after its import if what was stored for its keys is older or the same. *)
Lemma upd_whole : forall rs x, NoDup (map (fun x => (rel_issued_for x, rel_issued_by x)) rs) ->
  (forall z, In z rs -> same_keys x z -> before (rel_issued_at z) (rel_issued_at x) \/ z = whole x) -> In (whole x) (upd rs x).
Proof.
  intros rs x ND H. apply in_upd; [exact ND|]. destruct (find_rel rs (rel_issued_for x) (rel_issued_by x)) as [old|] eqn:F.
  - apply find_rel_in in F. destruct F as (Ho & F1 & F2).
    assert (U : forall z, In z rs -> same_keys x z -> z = old) by (intros z Hz [K1 K2]; apply (pair_unique rs); congruence).
    assert (Ko : same_keys x old) by (split; congruence).
    destruct (duration_ltb (rel_issued_at old) (rel_issued_at x)) eqn:L.
    + apply before_ltb in L. right. right. split; [reflexivity|]. intros z Hz K. rewrite (U z Hz K). exact L.
    + apply not_before_ltb in L. destruct (H old Ho Ko) as [X|X]; [contradiction|]. right. left. rewrite <- X. auto.
  - right. right. split; [reflexivity|]. intros z Hz [K1 K2]. exfalso. apply (find_rel_none _ _ _ F z Hz). auto.
Qed.

Section WithCrypto.
Variable C : crypto.

(** * Certificates take effect *)
Section Chain.
Variables (c : certificate) (now : duration) (m : N) (k0 : public_key).
Hypothesis Hlen : N.of_nat (length c) <= m + 1.
Hypothesis Hm : m <= 16.
Hypothesis Hroot : key_at c 0 k0.
Hypothesis Hkeys : NoDup (map issued_for c).
Hypothesis Hexp : forall t, In t c -> secs now < secs (expires_at t) < i64_bound.
Hypothesis Hnow : secs now < i64_bound.
Hypothesis Htyped : Forall (trust_typed C) c.
Hypothesis Hver : forall a, In a (cert_auths c) -> trust_verify C (auth_trust a) (issued_by a) now = Ok tt.

Record ready (s : state) (n : nat) : Prop := mk_ready {
  rd_inv : inv C s;
  rd_done : forall i a, nth_error (cert_auths c) i = Some a -> (i < n)%nat ->
     In (RAuth (mk_auth (whole_trust (auth_trust a)) (issued_by a))) (rels s);
  rd_todo : forall i a z, nth_error (cert_auths c) i = Some a -> (n <= i)%nat -> In z (rels s) -> same_keys (RAuth a) z ->
     before (rel_issued_at z) (rel_issued_at (RAuth a)) \/ z = whole (RAuth a);
  rd_revs : forall v, In (RRev v) (rels s) -> In (revoked_by v) (map issued_for c) -> In (rev_pk v) (map issued_for c) -> False;
  rd_root : root_max_len (db_of s) k0 m
}.

Lemma keys_distinct : forall i j a b, nth_error c i = Some a -> nth_error c j = Some b -> issued_for a = issued_for b -> i = j.
Proof.
  intros i j a b Ha Hb E. rewrite NoDup_nth_error in Hkeys. apply Hkeys.
  - rewrite map_length. apply nth_error_Some. congruence.
  - rewrite !nth_error_map, Ha, Hb. cbn. congruence.
Qed.

Lemma ready_gc : forall s n now', (forall t, In t c -> secs now' < secs (expires_at t)) -> secs now' < i64_bound ->
  ready s n -> ready (apply_w s (W_gc now')) n.
Proof.
  intros s n now' He Hn [I D T V R]. split.
  - apply inv_gc. exact I.
  - intros i a Ha Hi. cbn [apply_w rels]. apply in_gc. split; [eapply D; eassumption|].
    destruct (cert_auths_nth _ _ _ Ha) as (Pa & _). apply nth_error_In in Pa.
    pose proof (He _ Pa). pose proof (Hexp _ Pa).
    intros X. apply db_expired_small in X; cbn [whole_trust expires_at from_secs secs] in *; lia.
  - intros i a z Ha Hi Hz. cbn [apply_w rels] in Hz. apply in_gc in Hz. eapply T; [eassumption|exact Hi|apply Hz].
  - intros v Hv. cbn [apply_w rels] in Hv. apply in_gc in Hv. apply V. apply Hv.
  - exact R.
Qed.

Lemma ready_cert : forall s n k t, ready s n -> (2 <= k)%nat -> (k <= n)%nat -> nth_error c (k - 1) = Some t ->
  In (firstn k (map whole_trust c)) (certs_of s (issued_for t)).
Proof.
  intros s n k t [I D T V R] K2 Kn Ht. apply (certs_of_path C); [apply I|].
  assert (Kc : (k <= length c)%nat) by (assert (k - 1 < length c)%nat by (apply nth_error_Some; congruence); lia).
  assert (Lk : length (firstn k (map whole_trust c)) = k) by (rewrite firstn_length, map_length; lia).
  split.
  - lia.
  - exists (whole_trust t). rewrite Lk. split; [|reflexivity]. apply nth_firstn. split; [lia|]. apply nth_map_some. eauto.
  - destruct Hroot as (t0 & H0 & E0). exists (whole_trust t0). split; [|split].
    + apply nth_firstn. split; [lia|]. apply nth_map_some. eauto.
    + cbn [whole_trust issued_for]. rewrite E0. apply is_root_in. apply (is_root_max_len C); eauto.
    + cbn [whole_trust issued_for]. apply (D 0%nat (mk_auth t0 (issued_for t0))); [apply cert_auths_nth_0; exact H0|lia].
  - intros i g u Hg Hu. apply nth_firstn in Hg. apply nth_firstn in Hu. destruct Hg as [_ Hg]. destruct Hu as [Lu Hu].
    apply nth_map_some in Hg. apply nth_map_some in Hu. destruct Hg as (g' & Hg & ->). destruct Hu as (u' & Hu & ->).
    apply (D (S i) (mk_auth u' (issued_for g'))); [|lia]. apply cert_auths_nth_S. exists u', g'. auto.
  - intros i j a b Hij Ha Hb E. exfalso. apply nth_firstn in Ha. apply nth_firstn in Hb. destruct Ha as [_ Ha]. destruct Hb as [_ Hb].
    apply nth_map_some in Ha. apply nth_map_some in Hb. destruct Ha as (a' & Ha & ->). destruct Hb as (b' & Hb & ->).
    pose proof (keys_distinct i j a' b' Ha Hb E). lia.
  - intros i j a b v Hij N Ha Hb Hv E1 E2. apply nth_firstn in Ha. apply nth_firstn in Hb. destruct Ha as [_ Ha]. destruct Hb as [_ Hb].
    apply nth_map_some in Ha. apply nth_map_some in Hb. destruct Ha as (a' & Ha & ->). destruct Hb as (b' & Hb & ->).
    apply (V v Hv).
    + rewrite E1. apply in_map_iff. exists a'. split; [reflexivity|]. eapply nth_error_In. exact Ha.
    + rewrite E2. apply in_map_iff. exists b'. split; [reflexivity|]. eapply nth_error_In. exact Hb.
Qed.

Lemma ready_weight : forall s n t, ready s n -> (1 <= n)%nat -> nth_error c (n - 1) = Some t ->
  chain_weight m (n - 1) <= weight_of s (issued_for t).
Proof.
  intros s n t Rd N1 Ht. destruct (Nat.eq_dec n 1) as [->|N].
  - destruct Hroot as (t0 & H0 & E0). change (1 - 1)%nat with 0%nat in *. unfold at_pos in H0. rewrite H0 in Ht. injection Ht as <-.
    unfold weight_of. destruct (root_weight_spec C s (issued_for t0) (rd_inv _ _ Rd)) as [(m' & R & E)|[X _]].
    + rewrite E. assert (m' = m) as -> by (eapply root_max_len_fun; [exact R|]; rewrite E0; apply (rd_root _ _ Rd)).
      unfold chain_weight. replace (m - N.of_nat 0) with m by lia. lia.
    + exfalso. apply X. rewrite E0. apply (is_root_max_len C); [apply (rd_inv _ _ Rd)|]. exists m. apply (rd_root _ _ Rd).
  - assert (Kc : (n <= length c)%nat) by (assert (n - 1 < length c)%nat by (apply nth_error_Some; congruence); lia).
    pose proof (ready_cert s n n t Rd ltac:(lia) ltac:(lia) Ht) as Hc.
    destruct Hroot as (t0 & H0 & E0). destruct c as [|t0' c'] eqn:Ec; [discriminate|]. injection H0 as ->.
    destruct n as [|n]; [lia|]. cbn [firstn map] in Hc.
    assert (L : length (whole_trust t0 :: firstn n (map whole_trust c')) = S n).
    { cbn [length]. rewrite firstn_length, map_length. cbn [length] in Kc. lia. }
    pose proof (certs_weight_ge C s _ _ _ m (rd_inv _ _ Rd) Hc) as W. cbn [whole_trust issued_for] in W. rewrite E0 in W.
    specialize (W (rd_root _ _ Rd)). rewrite L in W. unfold weight_of.
    assert (N.of_nat (S n) + 16 < u32_bound) by (unfold u32_bound; cbn [length] in *; lia).
    specialize (W H). lia.
Qed.

Lemma ready_step : forall s n a, ready s n -> nth_error (cert_auths c) n = Some a ->
  (exists w, fst (add_trust_sem C s (auth_trust a) (issued_by a) now) = Ok w) /\
  ready (run_ws (snd (add_trust_sem C s (auth_trust a) (issued_by a) now)) s) (S n).
Proof.
  intros s n a Rd Ha.
  assert (Rg : ready (apply_w s (W_gc now)) n) by (apply ready_gc; [intros t Ht; apply Hexp; exact Ht|exact Hnow|exact Rd]).
  destruct (cert_auths_nth _ _ _ Ha) as (Pa & Pb).
  assert (NZ : next_weight_of (apply_w s (W_gc now)) (issued_by a) (issued_for (auth_trust a)) <> 0).
  { destruct n as [|n].
    - destruct Hroot as (t0 & H0 & E0). unfold at_pos in H0. rewrite H0 in Pa. injection Pa as Pa.
      pose proof (cert_auths_nth_0 _ _ H0) as X. rewrite X in Ha. injection Ha as <-. cbn [auth_trust issued_by] in *.
      unfold next_weight_of. rewrite pk_eqb_refl. unfold weight_of.
      destruct (root_weight_spec C (apply_w s (W_gc now)) (issued_for t0) (rd_inv _ _ Rg)) as [(m' & R & E)|[Y _]].
      + rewrite E. pose proof (N.pow_nonzero 2 m' ltac:(discriminate)). lia.
      + exfalso. apply Y. rewrite E0. apply (is_root_max_len C); [apply (rd_inv _ _ Rg)|]. exists m. apply (rd_root _ _ Rg).
    - apply cert_auths_nth_S in Ha. destruct Ha as (u & g & H1 & H2 & ->). cbn [auth_trust issued_by] in *.
      assert (Lc : (S n < length c)%nat) by (apply nth_error_Some; congruence).
      assert (Hg : nth_error c (S n - 1) = Some g) by (replace (S n - 1)%nat with n by lia; first [exact H1|exact H2]).
      pose proof (ready_weight _ (S n) g Rg ltac:(lia) Hg) as W.
      assert (CW : 2 <= chain_weight m (S n - 1)).
      { unfold chain_weight. change 2 with (2 ^ 1) at 1. apply N.pow_le_mono_r; lia. }
      unfold next_weight_of. destruct (pk_eqb (issued_for g) (issued_for u)); [lia|].
      assert (1 <= weight_of (apply_w s (W_gc now)) (issued_for g) / 2); [|lia].
      apply N.div_le_lower_bound; lia. }
  assert (In a (cert_auths c)) as Hina by (eapply nth_error_In; exact Ha).
  unfold add_trust_sem. rewrite (Hver a Hina). cbv zeta. apply N.eqb_neq in NZ. rewrite NZ. cbn [fst snd].
  split; [eexists; reflexivity|]. cbn [run_ws fold_left].
  assert (ND : NoDup (map (fun x => (rel_issued_for x, rel_issued_by x)) (rels (apply_w s (W_gc now)))))
    by (apply (wf_nodup C); apply (rd_inv _ _ Rg)).
  replace (mk_auth (auth_trust a) (issued_by a)) with a by (destruct a; reflexivity).
  assert (Ta : rel_typed C (RAuth a)).
  { replace a with (mk_auth (auth_trust a) (issued_by a)) by (destruct a; reflexivity). rewrite Forall_forall in Htyped.
    apply trust_rel_typed.
    - apply Htyped. eapply nth_error_In. exact Pa.
    - destruct Pb as (g & Pg & ->). apply Htyped. eapply nth_error_In. exact Pg. }
  destruct Rg as [I D T V R]. split.
  - apply (inv_step C _ _ (G_add_trust (auth_trust a) (issued_by a) now)); [exact I| |exact Ta].
    cbn. split; [auto|]. exists now. split; [reflexivity|]. apply Hver. exact Hina.
  - intros i b Hb Hi. change (rels (apply_w (apply_w s (W_gc now)) (W_upd (RAuth a)))) with (upd (rels (apply_w s (W_gc now))) (RAuth a)).
    destruct (Nat.eq_dec i n) as [->|Ni].
    + rewrite Ha in Hb. injection Hb as <-. apply (upd_whole _ (RAuth a)); [exact ND|].
      intros z Hz K. eapply T; [exact Ha|lia|exact Hz|exact K].
    + apply in_upd; [exact ND|]. left. split; [|eapply D; [exact Hb|lia]].
      intros [K _]. destruct (cert_auths_nth _ _ _ Hb) as (Qb & _). cbn [rel_issued_for auth_trust whole_trust issued_for] in K.
      pose proof (keys_distinct _ _ _ _ Pa Qb K). congruence.
  - intros i b z Hb Hi Hz K. change (rels (apply_w (apply_w s (W_gc now)) (W_upd (RAuth a)))) with (upd (rels (apply_w s (W_gc now))) (RAuth a)) in Hz.
    apply in_upd in Hz; [|exact ND]. destruct Hz as [[_ H]|[(_ & H & _)|[-> _]]].
    + eapply T; [exact Hb|lia|exact H|exact K].
    + eapply T; [exact Hb|lia|exact H|exact K].
    + exfalso. destruct K as [K _]. destruct (cert_auths_nth _ _ _ Hb) as (Qb & _). cbn [whole rel_issued_for auth_trust whole_trust issued_for] in K.
      pose proof (keys_distinct _ _ _ _ Qb Pa K). lia.
  - intros v Hv. change (rels (apply_w (apply_w s (W_gc now)) (W_upd (RAuth a)))) with (upd (rels (apply_w s (W_gc now))) (RAuth a)) in Hv.
    apply in_upd in Hv; [|exact ND]. destruct Hv as [[_ H]|[(_ & H & _)|[X _]]]; [apply V; exact H|apply V; exact H|discriminate].
  - exact R.
Qed.

Lemma ready_chain : forall rest b s n, with_issuers b rest = skipn n (cert_auths c) -> ready s n -> (n + length rest = length c)%nat ->
  fst (add_chain_sem C s rest b now) = Ok tt /\ ready (run_ws (snd (add_chain_sem C s rest b now)) s) (length c).
Proof.
  induction rest as [|t rest IH]; intros b s n E Rd L; cbn [add_chain_sem].
  - cbn [length] in L. replace (length c) with n by lia. split; [reflexivity|exact Rd].
  - cbn [with_issuers] in E.
    assert (Ha : nth_error (cert_auths c) n = Some (mk_auth t b)).
    { assert (Lf : length (firstn n (cert_auths c)) = n) by (rewrite firstn_length, cert_auths_length; cbn [length] in L; lia).
      rewrite <- (firstn_skipn n (cert_auths c)), <- E. rewrite nth_error_app2 by lia. rewrite Lf, Nat.sub_diag. reflexivity. }
    destruct (ready_step s n _ Rd Ha) as [(w & X) Y]. cbn [auth_trust issued_by] in X, Y.
    destruct (add_trust_sem C s t b now) as [r ws]. cbn [fst snd] in X, Y. subst r.
    specialize (IH (issued_for t) (run_ws ws s) (S n)). destruct (add_chain_sem C (run_ws ws s) rest (issued_for t) now) as [r ws'].
    cbn [fst snd] in *. rewrite run_ws_app. apply IH; [|exact Y|cbn [length] in L; lia].
    assert (Z : skipn 1 (skipn n (cert_auths c)) = with_issuers (issued_for t) rest) by (rewrite <- E; reflexivity).
    rewrite <- Z. rewrite skipn_skipn. f_equal. lia.
Qed.

End Chain.

Lemma add_takes_effect : forall s c now m k0 pk, inv C s -> call_typed C (G_add c now) ->
  (2 <= length c)%nat -> N.of_nat (length c) <= m + 1 ->
  key_at c 0 k0 -> root_max_len (db_of s) k0 m -> key_at c (length c - 1) pk ->
  NoDup (map issued_for c) ->
  secs now < i64_bound -> (forall t, In t c -> secs now < secs (expires_at t) < i64_bound) ->
  (forall i, (i < length c)%nat -> good_at C c now i) ->
  (forall t b z, offers_trust (G_add c now) t b -> In z (rels s) -> same_keys (RAuth (mk_auth t b)) z ->
     before (rel_issued_at z) (issued_at t) \/ z = whole (RAuth (mk_auth t b))) ->
  (forall v, In (RRev v) (rels s) -> In (revoked_by v) (map issued_for c) -> In (rev_pk v) (map issued_for c) -> False) ->
  fst (sem C s (G_add c now)) = Ok GR_unit /\
  forall now', (forall t, In t c -> secs now' < secs (expires_at t)) -> secs now' < i64_bound ->
    In (map whole_trust c) (certs_of (apply_w (run_ws (snd (sem C s (G_add c now))) s) (W_gc now')) pk).
Proof.
  intros s c now m k0 pk I [T D] L2 Lm K0 R Kl ND Bn Be G St Rv.
  assert (Hm : m <= 16) by (eapply max_len_le; exact R).
  assert (Hv : forall a, In a (cert_auths c) -> trust_verify C (auth_trust a) (issued_by a) now = Ok tt).
  { intros a Ha. apply In_nth_error in Ha. destruct Ha as (i & Ha). destruct (cert_auths_nth _ _ _ Ha) as (P & g & Pg & Eg).
    destruct (G i) as (t & k & Gt & (g' & Gg & Gk) & Sg & Ex); [apply nth_error_Some; congruence|].
    unfold at_pos in *. rewrite P in Gt. injection Gt as <-. rewrite Pg in Gg. injection Gg as <-.
    apply trust_verify_exact. split; [exact Ex|]. rewrite Eg, Gk. exact Sg. }
  assert (Rd : ready c m k0 s 0).
  { split; [exact I| | |exact Rv|exact R].
    - intros i a _ Hi. lia.
    - intros i a z Ha _ Hz K. destruct a as [t b]. apply (St t b z); [|exact Hz|exact K].
      apply imports_offers. cbn. eapply nth_error_In. exact Ha. }
  cbn [sem]. unfold add_sem. destruct c as [|t0 c']; [cbn in L2; lia|].
  destruct (ready_chain (t0 :: c') now m k0 Lm Hm K0 ND Be Bn T Hv (t0 :: c') (issued_for t0) s 0 eq_refl Rd eq_refl) as [X Y].
  destruct (add_chain_sem C s (t0 :: c') (issued_for t0) now) as [r ws]. cbn [fst snd] in *. subst r. split; [reflexivity|].
  intros now' He Hn. assert (Z : ready (t0 :: c') m k0 (apply_w (run_ws ws s) (W_gc now')) (length (t0 :: c'))) by (eapply ready_gc; eassumption).
  destruct Kl as (t & Kt & <-).
  assert (Q : In (firstn (length (t0 :: c')) (map whole_trust (t0 :: c')))
                (certs_of (apply_w (run_ws ws s) (W_gc now')) (issued_for t))) by (eapply ready_cert; try eassumption; lia).
  rewrite <- (map_length whole_trust (t0 :: c')) in Q. rewrite firstn_all in Q. exact Q.
Qed.

(** * The weight reported by add_trust *)
Lemma firstn_incl : forall A n (l : list A), incl (firstn n l) l.
Proof. intros A n l x H. rewrite <- (firstn_skipn n l). apply in_or_app. left. exact H. Qed.
(** No revocation between two of the keys. *)
Definition quiet (rs : list relation) (ks : list public_key) : Prop :=
  forall v, In (RRev v) rs -> In (revoked_by v) ks -> In (rev_pk v) ks -> False.
Lemma quiet_incl : forall rs ks ks', quiet rs ks -> incl ks' ks -> quiet rs ks'.
Proof. intros rs ks ks' Q I v Hv H1 H2. apply (Q v Hv); apply I; assumption. Qed.
Lemma quiet_unrev : forall rs (c : list trust), quiet rs (map issued_for c) ->
  forall (i j : nat) a b v, nth_error c i = Some a -> nth_error c j = Some b -> In (RRev v) rs -> revoked_by v = issued_for a -> rev_pk v <> issued_for b.
Proof.
  intros rs c Q i j a b v Ha Hb Hv E1 E2. apply (Q v Hv).
  - rewrite E1. apply in_map. eapply nth_error_In. exact Ha.
  - rewrite E2. apply in_map. eapply nth_error_In. exact Hb.
Qed.
(** A path avoiding a pair of keys stays when everything else stays. *)
Lemma path_transfer : forall rs rs' rks pk c (f b : public_key), cert_path rs rks pk c -> quiet rs' (map issued_for c) ->
  (forall x, In x rs -> ~ (rel_issued_for x = f /\ rel_issued_by x = b) -> In x rs') ->
  (forall t, nth_error c 0 = Some t -> issued_for t <> f \/ issued_for t <> b) ->
  (forall i g t, nth_error c i = Some g -> nth_error c (S i) = Some t -> issued_for t <> f \/ issued_for g <> b) ->
  cert_path rs' rks pk c.
Proof.
  intros rs rs' rks pk c f b [L La Ro Li Si Un] NR K H0 HL. split; auto.
  - destruct Ro as (t & H1 & H2 & H3). exists t. split; [exact H1|]. split; [exact H2|]. apply K; [exact H3|].
    cbn. intros [E1 E2]. destruct (H0 t H1); contradiction.
  - intros i g t Hg Ht. apply K; [eapply Li; eassumption|]. cbn. intros [E1 E2]. destruct (HL i g t Hg Ht); contradiction.
  - intros i j a d v _ _ Ha Hb Hv. apply (quiet_unrev _ _ NR i j a d v Ha Hb Hv).
Qed.

Lemma path_prefix : forall rs rs' rks pk c p t (f b : public_key), cert_path rs rks pk c -> quiet rs' (map issued_for (firstn (S p) c)) ->
  (1 <= p)%nat -> nth_error c p = Some t ->
  (forall x, In x rs -> ~ (rel_issued_for x = f /\ rel_issued_by x = b) -> In x rs') ->
  (forall t, nth_error (firstn (S p) c) 0 = Some t -> issued_for t <> f \/ issued_for t <> b) ->
  (forall i g t, nth_error (firstn (S p) c) i = Some g -> nth_error (firstn (S p) c) (S i) = Some t -> issued_for t <> f \/ issued_for g <> b) ->
  cert_path rs' rks (issued_for t) (firstn (S p) c).
Proof.
  intros rs rs' rks pk c p t f b [L La Ro Li Si Un] NR P1 Ht K H0 HL.
  assert (Lp : (p < length c)%nat) by (apply nth_error_Some; congruence).
  assert (Lf : length (firstn (S p) c) = S p) by (rewrite firstn_length; lia).
  split.
  - lia.
  - exists t. rewrite Lf. split; [|reflexivity]. apply nth_firstn. replace (S p - 1)%nat with p by lia. split; [lia|exact Ht].
  - destruct Ro as (t0 & H1 & H2 & H3). assert (N0 : nth_error (firstn (S p) c) 0 = Some t0) by (apply nth_firstn; split; [lia|exact H1]).
    exists t0. split; [exact N0|]. split; [exact H2|]. apply K; [exact H3|]. cbn. intros [E1 E2]. destruct (H0 t0 N0); contradiction.
  - intros i g u Hg Hu. apply K.
    + apply nth_firstn in Hg. apply nth_firstn in Hu. eapply Li; [apply Hg|apply Hu].
    + cbn. intros [E1 E2]. destruct (HL i g u Hg Hu); contradiction.
  - intros i j x y Hij Hx Hy. apply nth_firstn in Hx. apply nth_firstn in Hy. eapply Si; [exact Hij|apply Hx|apply Hy].
  - intros i j x y v _ _ Hx Hy Hv. apply (quiet_unrev _ _ NR i j x y v Hx Hy Hv).
Qed.

Lemma first_key : forall (c : list trust) (f : public_key),
  (forall t, In t c -> issued_for t <> f) \/
  (exists p t, nth_error c p = Some t /\ issued_for t = f /\ forall i u, (i < p)%nat -> nth_error c i = Some u -> issued_for u <> f).
Proof.
  induction c as [|t c IH]; intros f; [left; intros t []|].
  destruct (pk_eqb (issued_for t) f) eqn:E.
  - apply pk_eqb_eq in E. right. exists 0%nat, t. split; [reflexivity|]. split; [exact E|]. intros i u Hi. lia.
  - assert (N : issued_for t <> f) by (intros X; apply pk_eqb_eq in X; congruence).
    destruct (IH f) as [H|(p & u & H1 & H2 & H3)].
    + left. intros u [<-|Hu]; auto.
    + right. exists (S p), u. split; [exact H1|]. split; [exact H2|]. intros [|i] w Hi Hw; cbn in Hw; [congruence|]. eapply H3; [|exact Hw]. lia.
Qed.

Lemma path_snoc : forall rs rks b c t, cert_path rs rks b c -> quiet rs (map issued_for (c ++ [t])) ->
  (forall u, In u c -> issued_for u <> issued_for t) -> In (RAuth (mk_auth t b)) rs ->
  cert_path rs rks (issued_for t) (c ++ [t]).
Proof.
  intros rs rks b c t [L La Ro Li Si Un] NR Nf Ht. split.
  - rewrite app_length. lia.
  - exists t. split; [|reflexivity]. rewrite app_length. cbn [length]. rewrite nth_error_app2 by lia.
    replace (length c + 1 - 1 - length c)%nat with 0%nat by lia. reflexivity.
  - destruct Ro as (t0 & H1 & H2). exists t0. split; [|exact H2]. rewrite nth_error_app1 by lia. exact H1.
  - intros i g u Hg Hu. apply nth_error_snoc in Hu. destruct Hu as [Hu|[E ->]].
    + assert (S i < length c)%nat by (apply nth_error_Some; congruence). rewrite nth_error_app1 in Hg by lia. eapply Li; eassumption.
    + rewrite nth_error_app1 in Hg by lia. destruct La as (l & Hl & El). replace (length c - 1)%nat with i in Hl by lia.
      assert (g = l) by congruence. subst. exact Ht.
  - intros i j x y Hij Hx Hy E. apply nth_error_snoc in Hy. destruct Hy as [Hy|[Ej ->]].
    + assert (j < length c)%nat by (apply nth_error_Some; congruence). rewrite nth_error_app1 in Hx by lia. eapply Si; eassumption.
    + exfalso. rewrite nth_error_app1 in Hx by lia. apply (Nf x); [eapply nth_error_In; exact Hx|exact E].
  - intros i j x y v _ _ Hx Hy Hv. apply (quiet_unrev _ _ NR i j x y v Hx Hy Hv).
Qed.

Lemma add_trust_real : forall s t b now, inv C s -> fits s -> trust_typed C t -> pk_valid C b ->
  let f := issued_for t in
  let s1 := apply_w s (W_gc now) in
  let s3 := apply_w (apply_w s1 (W_upd (RAuth (mk_auth t b)))) (W_gc now) in
  trust_verify C t b now = Ok tt ->
  (forall c v, c = [] \/ In c (certs_of s1 b) -> In (RRev v) (rels s1) -> ~ same_keys (RAuth (mk_auth t b)) (RRev v) ->
     In (revoked_by v) (f :: b :: map issued_for c) -> In (rev_pk v) (f :: b :: map issued_for c) -> False) ->
  (is_root (db_of s) b -> exists u, issued_for u = b /\ In (RAuth (mk_auth u b)) (rels s1)) ->
  secs now < secs (expires_at t) < i64_bound ->
  (forall z, In z (rels s1) -> same_keys (RAuth (mk_auth t b)) z -> before (rel_issued_at z) (issued_at t)) ->
  next_weight_of s1 b f <> 0 ->
  next_weight_of s1 b f <= weight_of s3 f.
Proof.
  intros s t b now I F T V f s1 s3 Ver NR Rt Ex New NZ.
  assert (I1 : inv C s1) by (apply inv_gc; exact I).
  assert (ND : NoDup (map (fun x => (rel_issued_for x, rel_issued_by x)) (rels s1))) by (apply (wf_nodup C); apply I1).
  assert (I2 : inv C (apply_w s1 (W_upd (RAuth (mk_auth t b))))).
  { apply (inv_step C _ _ (G_add_trust t b now)); [exact I1| |apply trust_rel_typed; assumption].
    cbn. split; [auto|]. exists now. split; [reflexivity|exact Ver]. }
  assert (I3 : inv C s3) by (apply inv_gc; exact I2).
  assert (A : forall x, In x (rels s1) -> ~ (rel_issued_for x = f /\ rel_issued_by x = b) -> In x (rels s3)).
  { intros x Hx N. change (rels s3) with (gc now (upd (rels s1) (RAuth (mk_auth t b)))). apply in_gc. split.
    - apply in_upd; [exact ND|]. left. split; [|exact Hx]. intros [E1 E2]. apply N. split; [symmetry; exact E1|symmetry; exact E2].
    - change (rels s1) with (gc now (rels s)) in Hx. apply in_gc in Hx. apply Hx. }
  assert (Tn : In (RAuth (mk_auth (whole_trust t) b)) (rels s3)).
  { change (rels s3) with (gc now (upd (rels s1) (RAuth (mk_auth t b)))). apply in_gc. split.
    - apply in_upd; [exact ND|]. right. right. split; [reflexivity|]. exact New.
    - intros X. apply db_expired_small in X; cbn [whole_trust expires_at from_secs secs] in *; lia. }
  assert (NR3 : forall c, c = [] \/ In c (certs_of s1 b) -> quiet (rels s3) (f :: b :: map issued_for c)).
  { intros c Hc v Hv. change (rels s3) with (gc now (upd (rels s1) (RAuth (mk_auth t b)))) in Hv. apply in_gc in Hv. destruct Hv as [Hv _].
    apply in_upd in Hv; [|exact ND]. destruct Hv as [[N H]|[(K & H & X)|[X _]]]; [exact (NR c v Hc H N)| |discriminate].
    exfalso. apply X. apply New; assumption. }
  assert (F1 : fits s1).
  { unfold fits in *. change (rels s1) with (gc now (rels s)). unfold gc.
    assert (H : forall p (l : list relation), (length (filter p l) <= length l)%nat)
      by (intros p l; induction l as [|x l IH]; cbn; [lia|destruct (p x); cbn; lia]).
    specialize (H (fun x => negb (expired now x)) (rels s)). lia. }
  pose proof (weight_of_greatest C s1 b I1 F1) as [_ G].
  assert (NW : weight_of s1 b <> 0).
  { intros Z. apply NZ. unfold next_weight_of. rewrite Z. destruct (pk_eqb b f); reflexivity. }
  assert (RW : forall m, root_max_len (db_of s1) f m -> 2 ^ m <= weight_of s3 f).
  { intros m R. unfold weight_of. destruct (root_weight_spec C s3 f I3) as [(m' & R' & ->)|[X _]].
    - rewrite (root_max_len_fun _ _ _ _ R' R). lia.
    - exfalso. apply X. apply (is_root_max_len C); [exact I3|]. exists m. exact R. }
  assert (CW : forall u c' m, cert_path (rels s3) (map fst (roots s3)) f (u :: c') -> root_max_len (db_of s1) (issued_for u) m ->
     (length (u :: c') <= length (rels s1) + 1)%nat -> chain_weight m (length (u :: c') - 1) <= weight_of s3 f).
  { intros u c' m P R L. unfold weight_of.
    assert (In (u :: c') (certs_of s3 f)) as Hin by (apply (certs_of_path C); [apply I3|exact P]).
    assert (N.of_nat (length (u :: c')) + 16 < u32_bound) as B.
    { pose proof (cert_len_bound C s3 f _ (inv_wf C s3 I3) Hin) as B. unfold fits in *.
      change (rels s1) with (gc now (rels s)) in *. unfold u32_bound in *.
      assert (length (rels s3) <= length (rels s1) + 1)%nat; [|change (rels s1) with (gc now (rels s)) in *; lia].
      change (rels s3) with (gc now (upd (rels s1) (RAuth (mk_auth t b)))). unfold gc at 1, upd, put.
      assert (H : forall p (l : list relation), (length (filter p l) <= length l)%nat)
        by (intros p l; induction l as [|x l IH]; cbn; [lia|destruct (p x); cbn; lia]).
      etransitivity; [apply H|].
      assert (HH : (length (filter (fun y => negb (same_pair (rel_trunc (RAuth (mk_auth t b))) y)) (rels s1) ++ [rel_trunc (RAuth (mk_auth t b))])
                 <= length (rels s1) + 1)%nat) by (rewrite app_length; cbn [length]; specialize (H (fun y => negb (same_pair (rel_trunc (RAuth (mk_auth t b))) y)) (rels s1)); lia).
      destruct (find_rel _ _ _); [destruct (duration_ltb _ _)|]; try exact HH; lia. }
    pose proof (certs_weight_ge C s3 _ u c' m I3 Hin R B). lia. }
  unfold next_weight_of in *. destruct G as [[(m & R & E)|(c & Hc & u & m & Hu & R & E)]|[Z _]]; [| |contradiction].
  - (* weight of b as a root *)
    destruct (pk_eqb b f) eqn:Ebf.
    + apply pk_eqb_eq in Ebf. rewrite E. apply RW. rewrite <- Ebf. exact R.
    + assert (Nbf : b <> f) by (intros X; apply pk_eqb_eq in X; congruence).
      destruct Rt as (u & Eu & Hu); [apply (is_root_max_len C) with (s := s1); eauto|].
      assert (P : cert_path (rels s3) (map fst (roots s3)) f [u; whole_trust t]).
      { split.
        - cbn. lia.
        - exists (whole_trust t). split; reflexivity.
        - exists u. split; [reflexivity|]. split.
          + apply is_root_in. rewrite Eu. apply (is_root_max_len C) with (s := s1); eauto.
          + rewrite Eu. apply A; [exact Hu|]. cbn. intros [X _]. congruence.
        - intros [|[|i]] g w Hg Hw; cbn in Hg, Hw; try discriminate; try (destruct i; discriminate).
          injection Hg as <-. injection Hw as <-. rewrite Eu. exact Tn.
        - intros i j x y Hij Hx Hy X. exfalso. destruct j as [|[|j]]; [lia| |destruct j; discriminate].
          assert (i = 0%nat) as -> by lia. cbn in Hx, Hy. injection Hx as <-. injection Hy as <-. apply Nbf. rewrite <- Eu. exact X.
        - intros i j x y v _ _ Hx Hy Hv. apply (quiet_unrev (rels s3) [u; whole_trust t]) with (i := i) (j := j) (a := x); try assumption.
          apply (quiet_incl _ (f :: b :: map issued_for [])); [apply NR3; left; reflexivity|]. cbn. rewrite Eu. intros k [<-|[<-|[]]]; [right; left|left]; reflexivity. }
      assert (R' : root_max_len (db_of s1) (issued_for u) m) by (rewrite Eu; exact R).
      assert (L1 : (length [u; whole_trust t] <= length (rels s1) + 1)%nat).
      { destruct (rels s1) as [|x l]; [destruct Hu|]. cbn. lia. }
      specialize (CW u [whole_trust t] m P R' L1). change (length [u; whole_trust t] - 1)%nat with 1%nat in CW.
      rewrite E. replace (2 ^ m) with (chain_weight m 0) by (unfold chain_weight; f_equal; lia).
      rewrite chain_weight_half; [exact CW|].
      rewrite E in NZ. destruct (N.eq_dec m 0) as [->|Nm]; [exfalso; apply NZ; reflexivity|]. lia.
  - (* weight of b through a certificate *)
    assert (P : cert_path (rels s1) (map fst (roots s1)) b c) by (apply (certs_of_path C); [apply I1|exact Hc]).
    pose proof (cert_len_bound C s1 b c (inv_wf C s1 I1) Hc) as Lb.
    destruct c as [|u' c']; [discriminate|]. injection Hu as ->.
    assert (WB : forall x, (if pk_eqb b f then weight_of s1 b else weight_of s1 b / 2) <= x \/ x < weight_of s1 b).
    { intros x. destruct (N.le_gt_cases (weight_of s1 b) x) as [H|H]; [left|right; exact H]. destruct (pk_eqb b f); [exact H|].
      assert (weight_of s1 b / 2 <= weight_of s1 b) by (apply N.div_le_upper_bound; lia). lia. }
    destruct (WB (weight_of s3 f)) as [H|Lt]; [exact H|]. 
    destruct (first_key (u :: c') f) as [Nf|(p & x & Hp & Ef & Hfst)].
    + (* f is not on the chain *)
      assert (Nbf : pk_eqb b f = false).
      { destruct (pk_eqb b f) eqn:X; [|reflexivity]. apply pk_eqb_eq in X. exfalso. destruct (cp_last _ _ _ _ P) as (l & Hl & El).
        apply (Nf l); [eapply nth_error_In; exact Hl|congruence]. }
      rewrite Nbf in *.
      assert (P3 : cert_path (rels s3) (map fst (roots s3)) b (u :: c')).
      { apply (path_transfer (rels s1) (rels s3) _ _ _ f b); [exact P|eapply quiet_incl; [apply NR3; right; exact Hc|intros k Hk; right; right; exact Hk]|exact A| |].
        - intros w Hw. left. apply Nf. eapply nth_error_In. exact Hw.
        - intros i g w Hg Hw. left. apply Nf. eapply nth_error_In. exact Hw. }
      assert (Qs : quiet (rels s3) (map issued_for ((u :: c') ++ [whole_trust t]))).
      { eapply quiet_incl; [apply NR3; right; exact Hc|]. intros k Hk. rewrite map_app in Hk. apply in_app_or in Hk.
        destruct Hk as [Hk|[<-|[]]]; [right; right; exact Hk|left; reflexivity]. }
      pose proof (path_snoc _ _ _ _ (whole_trust t) P3 Qs Nf Tn) as Q. cbn [app] in Q.
      assert (L1 : (length (u :: (c' ++ [whole_trust t])) <= length (rels s1) + 1)%nat) by (cbn [length] in *; rewrite app_length; cbn [length]; lia).
      specialize (CW u (c' ++ [whole_trust t]) m Q R L1). rewrite E in *.
      assert (Lh : N.of_nat (length (u :: c') - 1) < m).
      { destruct (N.lt_ge_cases (N.of_nat (length (u :: c') - 1)) m) as [X|X]; [exact X|]. exfalso. apply NZ.
        unfold chain_weight. replace (m - N.of_nat (length (u :: c') - 1)) with 0 by lia. reflexivity. }
      rewrite chain_weight_half by exact Lh.
      replace (S (length (u :: c') - 1)) with (length (u :: (c' ++ [whole_trust t])) - 1)%nat by (cbn [length]; rewrite app_length; cbn [length]; lia).
      exact CW.
    + exfalso. rewrite E in Lt. destruct p as [|p].
      * injection Hp as <-. specialize (RW m). rewrite Ef in R. specialize (RW R).
        assert (chain_weight m (length (u :: c') - 1) <= 2 ^ m) by (unfold chain_weight; apply N.pow_le_mono_r; lia). lia.
      * assert (Lp : (S p < length (u :: c'))%nat) by (apply nth_error_Some; congruence).
        assert (Q3 : cert_path (rels s3) (map fst (roots s3)) f (firstn (S (S p)) (u :: c'))).
        { rewrite <- Ef at 1. apply (path_prefix (rels s1) (rels s3) _ _ _ _ _ f b P); [|lia|exact Hp|exact A| |].
          - eapply quiet_incl; [apply NR3; right; exact Hc|]. intros k Hk. right; right. rewrite <- firstn_map in Hk.
            eapply firstn_incl. exact Hk.
          - intros w Hw. left. apply nth_firstn in Hw. apply (Hfst 0%nat w); [lia|apply Hw].
          - intros i g w Hg Hw. apply nth_firstn in Hg. apply nth_firstn in Hw. destruct Hg as [Li Hg]. destruct Hw as [Lw Hw].
            destruct (Nat.eq_dec (S i) (S p)) as [X|X]; [|left; apply (Hfst (S i) w); [lia|exact Hw]].
            right. assert (i = p) as -> by lia. intros Eg.
            (* b at p and at the end: the end is S p, whose key is f; then f = b occurs at p *)
            destruct (cp_last _ _ _ _ P) as (l & Hl & El).
            destruct (cp_simple _ _ _ _ P p (length (u :: c') - 1)%nat g l ltac:(lia) Hg Hl ltac:(congruence)) as [Y _].
            rewrite Y in Hl. assert (l = x) by congruence. subst l. apply (Hfst p g); [lia|exact Hg|congruence]. }
        cbn [firstn] in Q3.
        assert (LL : length (u :: firstn (S p) c') = S (S p)) by (cbn [length]; rewrite firstn_length; cbn [length] in Lp; lia).
        specialize (CW u (firstn (S p) c') m Q3 R ltac:(rewrite LL; lia)). rewrite LL in CW.
        pose proof (chain_weight_mono m (S (S p) - 1) (length (u :: c') - 1) ltac:(lia)). lia.
Qed.

End WithCrypto.
