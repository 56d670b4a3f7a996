(** Certificates and weights of a store in the terms of Spec.v. *)
From Coq Require Import List NArith ZArith Bool Lia ZifyBool ZifyNat ZifyN.
From Verif Require Import Base BaseFacts Text TextFacts Keys KeysFacts Trust TrustFacts Certificate CertFacts Relation
  Storage StorageFacts Graph SearchFacts PathFacts Spec SpecFacts GraphFacts StateFacts.
Import ListNotations.
Open Scope N_scope.

Lemma key_at_of : forall c i t, at_pos c i t -> key_at c i (issued_for t).
Proof. intros c i t H. exists t. auto. Qed.

Section WithCrypto.
Variable C : crypto.

(** * Certificates *)
Lemma certs_of_path : forall s pk c, wf C s -> In c (certs_of s pk) <-> cert_path (rels s) (map fst (roots s)) pk c.
Proof. intros s pk c W. apply in_found_certs. apply (wf_nodup C). exact W. Qed.

Lemma certs_of_exact : forall s pk c, wf C s ->
  In c (certs_of s pk) <->
  root_chain (db_of s) pk c /\ forall i j, revokes_at (db_of s) c i j -> direct_issuer_pos c j.
Proof.
  intros s pk c W. rewrite certs_of_path by exact W. split.
  - intros [L La Ro Li Si Un]. split.
    + split; [exact L|]. split; [exact La|]. split; [|split].
      * intros t Ht. destruct Ro as (t' & H1 & H2 & H3). unfold at_pos in Ht. rewrite H1 in Ht. injection Ht as ->.
        split; [apply is_root_in; exact H2|]. apply (stored_trust_in C); assumption.
      * intros i g t Hg Ht. apply (stored_trust_in C); [exact W|]. exact (Li i g t Hg Ht).
      * intros i j k Hij (a & Ha & Ea) (b & Hb & Eb). apply (Si i j a b Hij Ha Hb). congruence.
    + intros i j (Hij & v & Hv & (a & Ha & Ea) & (b & Hb & Eb)). unfold direct_issuer_pos.
      destruct (Nat.eq_dec (j + 2) (length c)) as [E|N]; [exact E|]. exfalso.
      apply (stored_rev_in C) in Hv; [|exact W]. apply (Un i j a b v Hij N Ha Hb Hv); congruence.
  - intros ((L & La & Ro & Li & Si) & Un). split.
    + exact L.
    + exact La.
    + destruct c as [|t c]; [cbn in L; lia|]. exists t. split; [reflexivity|]. destruct (Ro t eq_refl) as [R1 R2].
      split; [apply is_root_in; exact R1|]. apply (stored_trust_in C); assumption.
    + intros i g t Hg Ht. apply (stored_trust_in C); [exact W|]. exact (Li i g t Hg Ht).
    + intros i j a b Hij Ha Hb E. apply (Si i j (issued_for a) Hij); [exists a; auto|exists b; auto].
    + intros i j a b v Hij N Ha Hb Hv E1 E2. apply N. apply (Un i j). split; [exact Hij|]. exists v.
      split; [apply (stored_rev_in C); assumption|]. split; [exists a; auto|exists b; auto].
Qed.

(** A certificate has no more trusts than there are relations. *)
Lemma cert_len_bound : forall s pk c, wf C s -> In c (certs_of s pk) -> (length c <= length (rels s))%nat.
Proof.
  intros s pk c W H. apply certs_of_path in H; [|exact W]. destruct H as [L La Ro Li Si Un].
  rewrite <- cert_auths_length, <- (map_length RAuth). apply NoDup_incl_length.
  - apply NoDup_map_inj; [intros x y _ _ E; injection E; auto|].
    apply NoDup_nth_error. intros i j Hi E.
    destruct (nth_error (cert_auths c) i) as [a|] eqn:Ea; [|apply nth_error_None in Ea; lia]. symmetry in E.
    assert (K : forall i j, (i < j)%nat -> nth_error (cert_auths c) i = Some a -> nth_error (cert_auths c) j = Some a -> False).
    { clear i j Hi Ea E. intros i j Hij Hi Hj.
      destruct (cert_auths_nth _ _ _ Hi) as (Pi & g & G & Eg). destruct (cert_auths_nth _ _ _ Hj) as (Pj & g' & G' & Eg').
      destruct (Si i j _ _ Hij Pi Pj eq_refl) as [-> Hi0].
      replace (S i - 1)%nat with i in G' by lia. rewrite Pi in G'. injection G' as <-.
      destruct (Si (i - 1)%nat (S i) g (auth_trust a) ltac:(lia) G Pj ltac:(congruence)) as [X _]. lia. }
    destruct (Nat.lt_trichotomy i j) as [X|[X|X]]; [|exact X|]; exfalso.
    + exact (K i j X Ea E).
    + exact (K j i X E Ea).
  - intros x Hx. apply in_map_iff in Hx. destruct Hx as (a & <- & Ha). apply In_nth_error in Ha. destruct Ha as ([|i] & Ha).
    + destruct Ro as (t & H1 & _ & H3). pose proof (cert_auths_nth_0 _ _ H1) as E. rewrite E in Ha. injection Ha as <-. exact H3.
    + apply cert_auths_nth_S in Ha. destruct Ha as (u & g & H1 & H2 & ->).
      first [exact (Li i g u H1 H2)|exact (Li i g u H2 H1)].
Qed.

(** * Weights *)
Lemma factor_le : forall s k f, inv C s -> root_factor (roots s) k = Some f -> f <= 16.
Proof.
  intros s k f I H. unfold root_factor in H. destruct (find _ (roots s)) as [[k' f']|] eqn:E; [|discriminate].
  cbn in H. injection H as ->. apply find_some in E. destruct E as [E _].
  pose proof (inv_factor C s I) as F. rewrite Forall_forall in F. exact (F _ E).
Qed.

Lemma root_max_len_fun : forall d k m m', root_max_len d k m -> root_max_len d k m' -> m = m'.
Proof. intros d k m m' (w & H & E) (w' & H' & E'). rewrite H in H'. injection H' as ->. lia. Qed.

Lemma is_root_max_len : forall s k, inv C s -> is_root (db_of s) k <-> exists m, root_max_len (db_of s) k m.
Proof.
  intros s k I. rewrite is_root_in. split.
  - intros H. apply root_factor_some in H. destruct H as (f & H). pose proof (factor_le s k f I H).
    exists (16 - f). apply root_max_len_factor. exists f. split; [exact H|lia].
  - intros (m & H). apply root_max_len_factor in H. destruct H as (f & H & _).
    unfold root_factor in H. destruct (find _ (roots s)) as [[k' f']|] eqn:E; [|discriminate]. apply find_some in E.
    destruct E as [E1 E2]. cbn in E2. apply pk_eqb_eq in E2. subst k'. exact (in_map fst _ _ E1).
Qed.

Lemma max_len_le : forall s k m, root_max_len (db_of s) k m -> m <= 16.
Proof. intros s k m H. apply root_max_len_factor in H. destruct H as (f & _ & E). lia. Qed.

Lemma root_weight_spec : forall s k, inv C s ->
  (exists m, root_max_len (db_of s) k m /\ root_weight (roots s) k = 2 ^ m) \/
  (~ is_root (db_of s) k /\ root_weight (roots s) k = 0).
Proof.
  intros s k I. unfold root_weight. destruct (root_factor (roots s) k) as [f|] eqn:E.
  - left. exists (16 - f). split; [|reflexivity]. apply root_max_len_factor. exists f. split; [exact E|].
    pose proof (factor_le s k f I E). lia.
  - right. split; [|reflexivity]. rewrite is_root_in. intros H. apply root_factor_some in H. destruct H as (f & H). congruence.
Qed.

Definition fits (s : state) : Prop := N.of_nat (length (rels s)) + 17 < u32_bound.

Lemma cert_factor_weight : forall s t c m, inv C s -> root_max_len (db_of s) (issued_for t) m ->
  N.of_nat (length (t :: c)) + 16 < u32_bound ->
  get_weight_from_factor (cert_factor (roots s) (t :: c)) = chain_weight m (length (t :: c) - 1).
Proof.
  intros s t c m I R B. apply root_max_len_factor in R. destruct R as (f & R & E).
  unfold cert_factor. rewrite R. unfold get_weight_from_factor, chain_weight, u32_sub, u32_add, u32_of_nat, u32_bound in *.
  pose proof (factor_le s _ f I R). change MAX_WEIGHT_FACTOR with 16. f_equal.
  rewrite (N.mod_small (N.of_nat (length (t :: c)))) by lia.
  rewrite (N.mod_small (f + N.of_nat (length (t :: c)))) by lia.
  replace (f + N.of_nat (length (t :: c)) + 4294967296 - 1) with ((f + N.of_nat (length (t :: c)) - 1) + 1 * 4294967296) by (cbn [length]; lia).
  rewrite N.mod_add by lia. rewrite N.mod_small by lia. cbn [length]. lia.
Qed.

Lemma weight_antitone : forall a b, a <= b -> get_weight_from_factor b <= get_weight_from_factor a.
Proof. intros a b H. unfold get_weight_from_factor. apply N.pow_le_mono_r; lia. Qed.

Lemma min_factor_le : forall ros cs acc, min_factor ros cs acc <= acc /\ forall c, In c cs -> min_factor ros cs acc <= cert_factor ros c.
Proof.
  intros ros cs. unfold min_factor. induction cs as [|x cs IH]; intros acc; cbn [fold_left]; [split; [lia|intros c []]|].
  destruct (IH (N.min acc (cert_factor ros x))) as [H1 H2]. split; [lia|]. intros c [->|Hc]; [lia|]. auto.
Qed.
Lemma min_factor_in : forall ros cs acc, min_factor ros cs acc = acc \/ exists c, In c cs /\ min_factor ros cs acc = cert_factor ros c.
Proof.
  intros ros cs. unfold min_factor. induction cs as [|x cs IH]; intros acc; cbn [fold_left]; [auto|].
  destruct (IH (N.min acc (cert_factor ros x))) as [H|(c & H1 & H2)].
  - rewrite H. destruct (N.min_dec acc (cert_factor ros x)) as [->| ->]; [auto|]. right. exists x. split; [left; reflexivity|reflexivity].
  - right. exists c. split; [right; exact H1|exact H2].
Qed.

(** Lower bound, with no condition on the size of the store. *)
Lemma certs_weight_ge : forall s cs t c m, inv C s -> In (t :: c) cs -> root_max_len (db_of s) (issued_for t) m ->
  N.of_nat (length (t :: c)) + 16 < u32_bound ->
  chain_weight m (length (t :: c) - 1) <= certs_weight (roots s) cs.
Proof.
  intros s cs t c m I Hin R B. rewrite <- (cert_factor_weight s t c m I R B). unfold certs_weight.
  destruct cs as [|x cs]; [destruct Hin|]. apply weight_antitone. apply min_factor_le. exact Hin.
Qed.

(** [cs] are certificates of [s], of bounded size: their best weight. *)
Lemma certs_weight_greatest : forall s cs, inv C s ->
  (forall c, In c cs -> exists t c', c = t :: c' /\ is_root (db_of s) (issued_for t) /\ N.of_nat (length c) + 16 < u32_bound) ->
  greatest (fun v => exists c, In c cs /\ cert_weight (db_of s) c v) (certs_weight (roots s) cs).
Proof.
  intros s cs I H. split.
  - intros v (c & Hc & t & m & Ht & R & ->). destruct (H c Hc) as (t' & c' & -> & _ & B). injection Ht as ->.
    apply certs_weight_ge; assumption.
  - destruct cs as [|x cs]; [right; split; [reflexivity|intros v (c & [] & _)]|]. left.
    assert (E : exists c, In c (x :: cs) /\ min_factor (roots s) (x :: cs) u32_max = cert_factor (roots s) c).
    { destruct (min_factor_in (roots s) (x :: cs) u32_max) as [E|E]; [|exact E].
      exists x. split; [left; reflexivity|]. pose proof (proj2 (min_factor_le (roots s) (x :: cs) u32_max) x (or_introl eq_refl)) as L.
      assert (cert_factor (roots s) x <= u32_max); [|lia]. unfold cert_factor. destruct x as [|t x]; [unfold u32_max; lia|].
      destruct (root_factor _ _); [|unfold u32_max; lia]. unfold u32_sub, u32_max.
      match goal with |- ?a mod ?b <= _ => pose proof (N.mod_upper_bound a b ltac:(discriminate)) end. unfold u32_bound in *. lia. }
    destruct E as (c & Hc & E). exists c. split; [exact Hc|]. destruct (H c Hc) as (t & c' & -> & R & B).
    apply is_root_max_len in R; [|exact I]. destruct R as (m & R). exists t, m. split; [reflexivity|]. split; [exact R|].
    unfold certs_weight. rewrite E. apply cert_factor_weight; assumption.
Qed.

Lemma certs_shape : forall s pk c, inv C s -> fits s -> In c (certs_of s pk) ->
  exists t c', c = t :: c' /\ is_root (db_of s) (issued_for t) /\ N.of_nat (length c) + 16 < u32_bound.
Proof.
  intros s pk c I F H. destruct (certs_root C s pk c (inv_wf C s I) H) as (t & c' & -> & R). exists t, c'.
  split; [reflexivity|]. split; [apply is_root_in; exact R|].
  pose proof (cert_len_bound s pk _ (inv_wf C s I) H). unfold fits in F. lia.
Qed.

Lemma weight_of_greatest : forall s pk, inv C s -> fits s ->
  greatest (key_weight (db_of s) (certs_of s pk) pk) (weight_of s pk).
Proof.
  intros s pk I F. pose proof (certs_weight_greatest s (certs_of s pk) I (fun c Hc => certs_shape s pk c I F Hc)) as [G1 G2].
  unfold weight_of. split.
  - intros v [(m & R & ->)|H].
    + destruct (root_weight_spec s pk I) as [(m' & R' & ->)|[N _]].
      * rewrite (root_max_len_fun _ _ _ _ R R'). lia.
      * exfalso. apply N. apply is_root_max_len; eauto.
    + specialize (G1 v H). lia.
  - destruct (root_weight_spec s pk I) as [(m & R & E)|[N E]]; rewrite E.
    + left. destruct (N.max_dec (2 ^ m) (certs_weight (roots s) (certs_of s pk))) as [X|X]; rewrite X.
      * left. eauto.
      * destruct G2 as [G2|[G2 _]]; [right; exact G2|]. exfalso. rewrite G2 in X. rewrite N.max_0_r in X.
        revert X. apply N.pow_nonzero. discriminate.
    + rewrite N.max_0_l. destruct G2 as [G2|[G2 G3]]; [left; right; exact G2|]. right. split; [exact G2|].
      intros v [(m & R & _)|H]; [|exact (G3 v H)]. apply N. apply is_root_max_len; eauto.
Qed.

Lemma weight_from_of_greatest : forall s pk i, inv C s -> fits s ->
  greatest (fun v => exists c, In c (certs_from_of s pk i) /\ cert_weight (db_of s) c v) (weight_from_of s pk i).
Proof.
  intros s pk i I F. apply certs_weight_greatest; [exact I|]. intros c Hc. unfold certs_from_of in Hc. apply filter_In in Hc.
  eapply certs_shape; [exact I|exact F|apply Hc].
Qed.

Lemma min_factor_incl : forall ros cs cs', incl cs cs' -> min_factor ros cs' u32_max <= min_factor ros cs u32_max.
Proof.
  intros ros cs cs' H. destruct (min_factor_in ros cs u32_max) as [E|(c & Hc & E)]; rewrite E.
  - apply min_factor_le.
  - apply min_factor_le. apply H. exact Hc.
Qed.
Lemma certs_weight_incl : forall ros cs cs', incl cs cs' -> certs_weight ros cs <= certs_weight ros cs'.
Proof.
  intros ros cs cs' H. unfold certs_weight. destruct cs as [|x cs]; [lia|]. destruct cs' as [|y cs'].
  - destruct (H x (or_introl eq_refl)).
  - apply weight_antitone. apply min_factor_incl. exact H.
Qed.

Lemma weight_from_le : forall s pk i, weight_from_of s pk i <= weight_of s pk.
Proof.
  intros s pk i. unfold weight_of, weight_from_of.
  pose proof (certs_weight_incl (roots s) (certs_from_of s pk i) (certs_of s pk)) as H.
  assert (incl (certs_from_of s pk i) (certs_of s pk)) by (intros c Hc; unfold certs_from_of in Hc; apply filter_In in Hc; apply Hc).
  specialize (H H0). lia.
Qed.

(** Weights are 0 or powers of two. *)
Lemma factor_power : forall f, two_power (get_weight_from_factor f).
Proof. intros f. right. exists (16 - f). split; [lia|reflexivity]. Qed.
Lemma certs_weight_power : forall ros cs, two_power (certs_weight ros cs).
Proof. intros ros cs. unfold certs_weight. destruct cs; [left; reflexivity|apply factor_power]. Qed.
Lemma root_weight_power : forall ros k, two_power (root_weight ros k).
Proof. intros ros k. unfold root_weight. destruct (root_factor ros k); [apply factor_power|left; reflexivity]. Qed.
Lemma max_power : forall a b, two_power a -> two_power b -> two_power (N.max a b).
Proof. intros a b Ha Hb. destruct (N.max_dec a b) as [->| ->]; assumption. Qed.
Lemma weight_of_power : forall s pk, two_power (weight_of s pk).
Proof. intros. apply max_power; [apply root_weight_power|apply certs_weight_power]. Qed.
Lemma half_power : forall w, two_power w -> two_power (w / 2).
Proof.
  intros w [->|(e & He & ->)]; [left; reflexivity|]. destruct (N.eq_dec e 0) as [->|Ne]; [left; reflexivity|].
  right. exists (e - 1). split; [lia|]. replace e with (N.succ (e - 1)) at 1 by lia. rewrite N.pow_succ_r'.
  rewrite N.mul_comm. apply N.div_mul. discriminate.
Qed.
Lemma next_weight_power : forall s b f, two_power (next_weight_of s b f).
Proof. intros s b f. unfold next_weight_of. destruct (pk_eqb b f); [apply weight_of_power|apply half_power; apply weight_of_power]. Qed.

Lemma sem_weight_power : forall s c w, fst (sem C s c) = Ok (GR_weight w) -> two_power w.
Proof.
  intros s c w H. destruct c; cbn [sem] in H; try discriminate.
  - unfold add_trust_sem in H. destruct (trust_verify C t by_pk now); try discriminate. cbv zeta in H.
    destruct (next_weight_of _ _ _ =? 0); cbn in H; injection H as <-; [left; reflexivity|apply next_weight_power].
  - destruct (add_sem C s c now) as [[x|x| |] ws]; discriminate.
  - cbn in H. injection H as <-. apply weight_of_power.
  - cbn in H. injection H as <-. apply certs_weight_power.
  - destruct (revoke_sem C v) as [[x|x| |] ws]; discriminate.
Qed.

(** * Growing and shrinking the store *)
(** More trusts and no more revocations: more certificates. *)
Lemma certs_of_mono : forall s s' pk, wf C s -> wf C s' -> map fst (roots s) = map fst (roots s') ->
  (forall a, In (RAuth a) (rels s) -> In (RAuth a) (rels s')) ->
  (forall v, In (RRev v) (rels s') -> In (RRev v) (rels s)) ->
  incl (certs_of s pk) (certs_of s' pk).
Proof.
  intros s s' pk W W' R A V c H. apply certs_of_path in H; [|exact W]. apply certs_of_path; [exact W'|].
  destruct H as [L La Ro Li Si Un]. split; auto.
  - destruct Ro as (t & H1 & H2 & H3). exists t. rewrite <- R. auto.
  - intros i g t Hg Ht. apply A. eapply Li; eassumption.
  - intros i j a b v Hij N Ha Hb Hv. apply (Un i j a b v Hij N Ha Hb). auto.
Qed.

Lemma weight_of_mono : forall s s' pk, wf C s -> wf C s' -> roots s = roots s' ->
  (forall a, In (RAuth a) (rels s) -> In (RAuth a) (rels s')) ->
  (forall v, In (RRev v) (rels s') -> In (RRev v) (rels s)) ->
  weight_of s pk <= weight_of s' pk.
Proof.
  intros s s' pk W W' R A V. unfold weight_of. rewrite R.
  pose proof (certs_weight_incl (roots s') _ _ (certs_of_mono s s' pk W W' (f_equal (map fst) R) A V)). lia.
Qed.

Lemma gc_wf : forall s now, wf C s -> wf C (apply_w s (W_gc now)).
Proof. intros s now W. apply apply_wf; [exact W|exact I]. Qed.

Lemma expired_mono : forall a b x, in_order a b -> db_expired a x -> db_expired b x.
Proof.
  intros a b [x|v] [O1 O2]; cbn; [|auto]. unfold i64_of_u64. destruct (secs a <? i64_bound) eqn:Ea; [|lia].
  destruct (secs b <? i64_bound) eqn:Eb; [lia|lia].
Qed.

Lemma gc_gc : forall a b rs, in_order a b -> gc b (gc a rs) = gc b rs.
Proof.
  intros a b rs O. induction rs as [|x rs IH]; [reflexivity|]. unfold gc in *. cbn [filter].
  destruct (expired a x) eqn:Ea; cbn [negb].
  - assert (E : expired b x = true) by (apply db_expired_iff; eapply expired_mono; [exact O|apply db_expired_iff; exact Ea]).
    rewrite E. cbn [negb]. exact IH.
  - cbn [filter]. destruct (expired b x); cbn [negb]; [exact IH|f_equal; exact IH].
Qed.

Lemma gc_state : forall s a b, in_order a b -> apply_w (apply_w s (W_gc a)) (W_gc b) = apply_w s (W_gc b).
Proof. intros s a b O. cbn [apply_w rels roots]. rewrite gc_gc by exact O. reflexivity. Qed.

Lemma gc_revs : forall now rs pk, revs_of (gc now rs) pk = revs_of rs pk.
Proof.
  intros now rs pk. unfold gc, revs_of. induction rs as [|x rs IH]; [reflexivity|]. cbn [filter].
  destruct x as [a|v]; cbn [expired].
  - destruct (i64_of_u64 _ <=? i64_of_u64 _)%Z; cbn [negb filter]; destruct (pk_eqb (rel_issued_for (RAuth a)) pk); exact IH.
  - cbn [negb filter]. destruct (pk_eqb (rel_issued_for (RRev v)) pk); [|exact IH]. simpl. f_equal. exact IH.
Qed.

Lemma query_after_gc : forall s a q, is_query q -> (forall now, call_time q = Some now -> in_order a now) ->
  fst (sem C (apply_w s (W_gc a)) q) = fst (sem C s q) /\
  (call_time q <> None -> run_ws (snd (sem C (apply_w s (W_gc a)) q)) (apply_w s (W_gc a)) = run_ws (snd (sem C s q)) s).
Proof.
  intros s a q Q O. destruct q; try contradiction; cbn [sem fst snd call_time] in *;
    try (rewrite (gc_state s a now (O now eq_refl)); split; [reflexivity|]; intros _; cbn [run_ws fold_left]; apply (gc_state s a now (O now eq_refl))).
  split; [|congruence]. cbn [apply_w rels]. rewrite gc_revs. reflexivity.
Qed.

Lemma query_writes : forall s q k, is_query q -> 
  firstn k (snd (sem C s q)) = [] \/ exists now, call_time q = Some now /\ firstn k (snd (sem C s q)) = [W_gc now].
Proof.
  intros s q k Q. destruct q; try contradiction; cbn [sem snd call_time]; destruct k; cbn [firstn]; eauto.
  all: rewrite firstn_nil; eauto.
Qed.

Lemma query_step : forall s q fu, inv C s -> call_typed C q -> is_query q ->
  snd (graph_step C (db_of s) (q, fu)) = db_of s \/
  exists now, call_time q = Some now /\ snd (graph_step C (db_of s) (q, fu)) = db_of (apply_w s (W_gc now)).
Proof.
  intros s q fu I T Q. destruct (graph_step_sem C s q fu (inv_wf C s I) T) as [E|(_ & k & E)]; rewrite E; cbn [snd].
  - destruct (query_writes s q (length (snd (sem C s q))) Q) as [H|(now & H1 & H)]; rewrite firstn_all in H; rewrite H; cbn [run_ws fold_left]; eauto.
  - destruct (query_writes s q k Q) as [H|(now & H1 & H)]; rewrite H; cbn [run_ws fold_left]; eauto.
Qed.

Lemma inv_gc : forall s now, inv C s -> inv C (apply_w s (W_gc now)).
Proof.
  intros s now [W A F]. split; [apply gc_wf; exact W| |exact F].
  intros x Hx. cbn [apply_w rels] in Hx. apply in_gc in Hx. apply A. apply Hx.
Qed.

Lemma queries_stable : forall es q s, inv C s -> typed_history C es -> Forall (fun e => is_query (fst e)) es ->
  call_typed C q -> is_query q ->
  (forall c fu a b, In (c, fu) es -> call_time c = Some a -> call_time q = Some b -> in_order a b) ->
  fst (graph_step C (graph_history C (db_of s) es) (q, None)) = fst (graph_step C (db_of s) (q, None)).
Proof.
  induction es as [|[c fu] es IH]; intros q s I T Q Tq Qq O; [reflexivity|].
  inversion T as [|? ? Tc T']; subst. inversion Q as [|? ? Qc Q']; subst. cbn [fst] in Tc, Qc.
  change (graph_history C (db_of s) ((c, fu) :: es)) with (graph_history C (snd (graph_step C (db_of s) (c, fu))) es).
  assert (O' : forall c0 fu0 a b, In (c0, fu0) es -> call_time c0 = Some a -> call_time q = Some b -> in_order a b)
    by (intros; eapply O; [right|..]; eassumption).
  destruct (query_step s c fu I Tc Qc) as [E|(now & En & E)]; rewrite E.
  - apply IH; assumption.
  - rewrite IH; try assumption; [|apply inv_gc; exact I].
    rewrite !step_none; try assumption; [|apply inv_gc; exact I]. cbn [fst].
    apply query_after_gc; [exact Qq|]. intros b Hb. eapply O; [left; reflexivity|exact En|exact Hb].
Qed.

(** * Verification of returned certificates *)
Lemma certs_unexpired : forall s now pk c t, inv C s -> secs now < i64_bound ->
  In c (certs_of (apply_w s (W_gc now)) pk) -> In t c -> secs now < secs (expires_at t).
Proof.
  intros s now pk c t I B H Ht. apply certs_of_path in H; [|apply gc_wf; apply I].
  assert (X : exists b, In (RAuth (mk_auth t b)) (rels (apply_w s (W_gc now)))).
  { destruct H as [L La Ro Li Si Un]. apply In_nth_error in Ht. destruct Ht as ([|i] & Ht).
    - destruct Ro as (t' & H1 & _ & H3). rewrite H1 in Ht. injection Ht as ->. eauto.
    - destruct (nth_error c i) as [g|] eqn:G.
      + exists (issued_for g). eapply Li; eassumption.
      + apply nth_error_None in G. assert (nth_error c (S i) <> None) by congruence. apply nth_error_Some in H. lia. }
  destruct X as (b & X). cbn [apply_w rels] in X. apply in_gc in X. destruct X as [X1 X2].
  pose proof (wf_rels C s (inv_wf C s I)) as F. rewrite Forall_forall in F. destruct (F _ X1) as (_ & _ & _ & _ & F2).
  eapply not_db_expired_small; [apply F2|exact B|exact X2].
Qed.

Lemma certs_valid : forall s now pk c rks, inv C s -> secs now < i64_bound -> 
  (forall k, is_root (db_of s) k -> In k rks) ->
  In c (certs_of (apply_w s (W_gc now)) pk) -> valid_certificate C c rks now.
Proof.
  intros s now pk c rks I B Rk H.
  assert (E : forall t, In t c -> ~ before (expires_at t) now).
  { intros t Ht. pose proof (certs_unexpired s now pk c t I B H Ht) as L. unfold before. lia. }
  apply certs_of_path in H; [|apply gc_wf; apply I]. destruct H as [L La Ro Li Si Un].
  assert (A : forall t b, In (RAuth (mk_auth t b)) (rels (apply_w s (W_gc now))) -> signed_trust C b t).
  { intros t b Hin. cbn [apply_w rels] in Hin. apply in_gc in Hin. exact (inv_auth C s I _ (proj1 Hin)). }
  destruct Ro as (t0 & H1 & H2 & H3).
  assert (R : In (issued_for t0) rks) by (apply Rk; apply is_root_in; exact H2).
  unfold valid_certificate.
  split; [intros ->; discriminate|]. split; [|split].
  - intros t Ht. unfold at_pos in Ht. rewrite H1 in Ht. injection Ht as <-. auto.
  - intros i g t Hg Ht. apply A. exact (Li i g t Hg Ht).
  - intros i t Ht. apply E. eapply nth_error_In. exact Ht.
Qed.

(** * Certificates through an issuer *)
Lemma in_certs_from : forall s pk i c, In c (certs_from_of s pk i) <-> In c (certs_of s pk) /\ exists t, In t c /\ issued_for t = i.
Proof.
  intros s pk i c. unfold certs_from_of. rewrite filter_In, existsb_exists. split; intros (H1 & t & H2 & H3); split; auto; exists t.
  - apply pk_eqb_eq in H3. auto.
  - split; [exact H2|]. apply pk_eqb_eq. exact H3.
Qed.

End WithCrypto.
