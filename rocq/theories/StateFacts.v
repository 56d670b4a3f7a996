(** The store in the terms of Spec.v: what is stored, invariants of every history, imports,
    collection of expired trusts, persistence. *)
From Coq Require Import List NArith ZArith Bool Lia ZifyBool ZifyNat ZifyN.
From Verif Require Import Base BaseFacts Text TextFacts Keys KeysFacts Trust TrustFacts Certificate CertFacts Relation
  Storage StorageFacts Graph SearchFacts PathFacts Spec SpecFacts GraphFacts.
Import ListNotations.
Open Scope N_scope.

Lemma i64_inj : forall a b, a < u64_bound -> b < u64_bound -> i64_of_u64 a = i64_of_u64 b -> a = b.
Proof. intros a b Ha Hb H. rewrite <- (u64_i64_roundtrip a Ha), <- (u64_i64_roundtrip b Hb), H. reflexivity. Qed.

Lemma key_text_inj : forall a b, key_text a = key_text b -> a = b.
Proof. exact pk_display_inj. Qed.

Lemma whole_trunc : forall x, whole x = rel_trunc x.
Proof. intros [a|v]; reflexivity. Qed.

Lemma whole_eq : forall a b, whole_secs a -> whole_secs b -> secs a = secs b -> a = b.
Proof. intros [sa na] [sb nb] [_ Ha] [_ Hb] H. cbn in *. congruence. Qed.

Section WithCrypto.
Variable C : crypto.

(** * What is stored *)
Lemma stored_in : forall s x, wf C s -> stored (db_of s) x <-> In x (rels s).
Proof.
  intros s x W. split.
  - destruct x as [[[f e sg i] b]|[pk ra by_ sg]]; cbn [stored].
    + intros (W1 & W2 & H). cbn [issued_for expires_at issued_at trust_sig issued_by auth_trust] in *.
      cbn [db_of tbl_relations] in H. apply in_map_iff in H. destruct H as (y & E & Hy).
      pose proof (wf_rels C s W) as F. rewrite Forall_forall in F. specialize (F y Hy).
      destruct y as [[[f' e' sg' i'] b']|v]; [|discriminate]. cbn in E, F. injection E as E1 E2 E3 E4 E5.
      destruct F as (_ & _ & _ & F1 & F2). cbn in F1, F2.
      apply key_text_inj in E1. apply key_text_inj in E2. apply i64_inj in E3; [|apply F1|apply W2].
      apply i64_inj in E4; [|apply F2|apply W1]. 
      apply whole_eq in E3; try assumption. apply whole_eq in E4; try assumption.
      assert (sg' = sg) by (apply sig_encode_inj; unfold sig_encode; congruence).
      subst. exact Hy.
    + intros (W1 & H). cbn [rev_pk revoked_at revoked_by rev_sig] in *.
      cbn [db_of tbl_relations] in H. apply in_map_iff in H. destruct H as (y & E & Hy).
      pose proof (wf_rels C s W) as F. rewrite Forall_forall in F. specialize (F y Hy).
      destruct y as [a|[pk' ra' by' sg']]; [discriminate|]. cbn in E, F. injection E as E1 E2 E3 E4.
      destruct F as (_ & _ & _ & F1 & _). cbn in F1.
      apply key_text_inj in E1. apply key_text_inj in E2. apply i64_inj in E3; [|apply F1|apply W1].
      apply whole_eq in E3; try assumption.
      assert (sg' = sg) by (apply sig_encode_inj; unfold sig_encode; congruence).
      subst. exact Hy.
  - intros H. pose proof (wf_rels C s W) as F. rewrite Forall_forall in F. specialize (F x H).
    destruct F as (_ & _ & _ & F1 & F2).
    destruct x as [a|v]; cbn [stored].
    + split; [exact F2|]. split; [exact F1|]. exact (in_map row_of_relation _ _ H).
    + split; [exact F1|]. exact (in_map row_of_relation _ _ H).
Qed.

Lemma stored_trust_in : forall s b t, wf C s -> stored_trust (db_of s) b t <-> In (RAuth (mk_auth t b)) (rels s).
Proof. intros s b t W. exact (stored_in s (RAuth (mk_auth t b)) W). Qed.
Lemma stored_rev_in : forall s v, wf C s -> stored_revocation (db_of s) v <-> In (RRev v) (rels s).
Proof. intros s v W. exact (stored_in s (RRev v) W). Qed.

Lemma is_root_in : forall s k, is_root (db_of s) k <-> In k (map fst (roots s)).
Proof.
  intros s k. unfold is_root. cbn [db_of tbl_roots]. rewrite map_map. cbn [fst]. split.
  - intros H. apply in_map_iff in H. destruct H as ((k' & f) & E & H). cbn in E. apply key_text_inj in E. subst k'.
    apply (in_map fst) in H. exact H.
  - intros H. apply in_map_iff in H. destruct H as ((k' & f) & E & H). cbn in E. subst k'.
    apply in_map_iff. exists (k, f). auto.
Qed.

Lemma first_row_factor : forall ros k,
  first_row (map (fun kf => (pk_display (fst kf), Z.of_N (snd kf))) ros) (key_text k) = option_map Z.of_N (root_factor ros k).
Proof.
  induction ros as [|[k' f] ros IH]; intros k; [reflexivity|]. cbn [map first_row fst snd].
  unfold root_factor in *. cbn [find fst].
  change (key_text k) with (pk_display k). rewrite pk_display_eqb. destruct (pk_eqb k' k); [reflexivity|]. apply IH.
Qed.

Lemma root_max_len_factor : forall s k m, root_max_len (db_of s) k m <->
  exists f, root_factor (roots s) k = Some f /\ (Z.of_N m = 16 - Z.of_N f)%Z.
Proof.
  intros s k m. unfold root_max_len. cbn [db_of tbl_roots]. rewrite first_row_factor. split.
  - intros (w & H & E). destruct (root_factor (roots s) k) as [f|]; [|discriminate]. cbn in H. injection H as <-. eauto.
  - intros (f & H & E). rewrite H. cbn. eauto.
Qed.

(** * Imports and collection *)
Lemma find_rel_some : forall rs f b x, NoDup (map (fun x => (rel_issued_for x, rel_issued_by x)) rs) ->
  find_rel rs f b = Some x <-> In x rs /\ rel_issued_for x = f /\ rel_issued_by x = b.
Proof.
  intros rs f b x ND. split; [apply find_rel_in|].
  intros (H & E1 & E2). destruct (find_rel rs f b) as [y|] eqn:F.
  - apply find_rel_in in F. destruct F as (Hy & F1 & F2). f_equal. apply (pair_unique rs); congruence.
  - exfalso. apply (find_rel_none rs f b F x H). auto.
Qed.

Lemma in_put : forall x y rs, In y (put x rs) <-> (In y rs /\ same_pair x y = false) \/ y = x.
Proof.
  intros x y rs. unfold put. rewrite in_app_iff, filter_In, negb_true_iff. simpl. split; intros [H|H]; auto.
  destruct H as [H|[]]; auto.
Qed.

Lemma same_pair_keys : forall x y, same_pair x y = true <-> same_keys x y.
Proof. exact same_pair_eq. Qed.
Lemma same_pair_keys_false : forall x y, same_pair x y = false <-> ~ same_keys x y.
Proof. intros x y. rewrite <- same_pair_keys. destruct (same_pair x y); intuition congruence. Qed.
Lemma trunc_for : forall x, rel_issued_for (rel_trunc x) = rel_issued_for x.
Proof. intros [a|v]; reflexivity. Qed.
Lemma trunc_by : forall x, rel_issued_by (rel_trunc x) = rel_issued_by x.
Proof. intros [a|v]; reflexivity. Qed.
Lemma trunc_pair : forall x y, same_pair (rel_trunc x) y = same_pair x y.
Proof. intros x y. unfold same_pair. rewrite trunc_for, trunc_by. reflexivity. Qed.

Lemma in_upd : forall rs x y, NoDup (map (fun x => (rel_issued_for x, rel_issued_by x)) rs) ->
  In y (upd rs x) <->
    (~ same_keys x y /\ In y rs) \/
    (same_keys x y /\ In y rs /\ ~ before (rel_issued_at y) (rel_issued_at x)) \/
    (y = whole x /\ forall z, In z rs -> same_keys x z -> before (rel_issued_at z) (rel_issued_at x)).
Proof.
  intros rs x y ND. rewrite whole_trunc. unfold upd.
  destruct (find_rel rs (rel_issued_for x) (rel_issued_by x)) as [old|] eqn:F.
  - apply find_rel_in in F. destruct F as (Ho & F1 & F2).
    assert (U : forall z, In z rs -> same_keys x z -> z = old).
    { intros z Hz [K1 K2]. apply (pair_unique rs); congruence. }
    destruct (duration_ltb (rel_issued_at old) (rel_issued_at x)) eqn:L.
    + apply before_ltb in L. rewrite in_put, trunc_pair, same_pair_keys_false. split.
      * intros [[H1 H2]| ->]; [left; auto|]. right. right. split; [reflexivity|].
        intros z Hz K. rewrite (U z Hz K). exact L.
      * intros [[H1 H2]|[(K & H1 & H2)|[-> _]]]; auto. exfalso. apply H2. rewrite (U y H1 K). exact L.
    + apply not_before_ltb in L. split.
      * intros H. destruct (same_pair x y) eqn:P.
        -- apply same_pair_keys in P. right. left. rewrite (U y H P) at 3. auto.
        -- apply same_pair_keys_false in P. auto.
      * intros [[_ H]|[(_ & H & _)|[_ H]]]; auto. exfalso. apply L. apply H; [exact Ho|]. split; congruence.
  - rewrite in_put, trunc_pair, same_pair_keys_false.
    assert (U : forall z, In z rs -> ~ same_keys x z).
    { intros z Hz [K1 K2]. apply (find_rel_none _ _ _ F z Hz). auto. }
    split.
    + intros [[H1 H2]| ->]; [left; auto|]. right. right. split; [reflexivity|]. intros z Hz K. exfalso. exact (U z Hz K).
    + intros [[H1 H2]|[(K & H1 & _)|[-> _]]]; auto; exfalso; exact (U y H1 K).
Qed.

Lemma imported_upd : forall s x, wf C s -> rel_typed C x -> imported (db_of s) x (db_of (apply_w s (W_upd x))).
Proof.
  intros s x W T. split; [reflexivity|]. intros y.
  assert (W' : wf C (apply_w s (W_upd x))) by (apply apply_wf; [exact W|exact T]).
  rewrite (stored_in _ _ W'). cbn [apply_w rels]. rewrite in_upd by (apply (wf_nodup C); exact W).
  rewrite (stored_in _ y W).
  assert (E : (forall z, stored (db_of s) z -> same_keys x z -> before (rel_issued_at z) (rel_issued_at x)) <->
              (forall z, In z (rels s) -> same_keys x z -> before (rel_issued_at z) (rel_issued_at x))).
  { split; intros H z Hz; apply H; apply (stored_in s z W); exact Hz. }
  rewrite E. reflexivity.
Qed.

Lemma db_expired_iff : forall now x, expired now x = true <-> db_expired now x.
Proof. intros now [a|v]; cbn; [lia|]. split; [discriminate|intros []]. Qed.
Lemma not_db_expired_iff : forall now x, expired now x = false <-> ~ db_expired now x.
Proof. intros now x. rewrite <- db_expired_iff. destruct (expired now x); intuition congruence. Qed.

Lemma in_gc : forall now rs x, In x (gc now rs) <-> In x rs /\ ~ db_expired now x.
Proof. intros now rs x. unfold gc. rewrite filter_In, negb_true_iff, not_db_expired_iff. reflexivity. Qed.

Lemma collected_gc : forall s now, wf C s -> collected (db_of s) now (db_of (apply_w s (W_gc now))).
Proof.
  intros s now W. split; [reflexivity|]. intros x.
  assert (W' : wf C (apply_w s (W_gc now))) by (apply apply_wf; [exact W|exact I]).
  rewrite (stored_in _ _ W'), (stored_in _ _ W). cbn [apply_w rels]. apply in_gc.
Qed.

Lemma db_expired_small : forall now t b, secs (expires_at t) < i64_bound -> secs now < i64_bound ->
  db_expired now (RAuth (mk_auth t b)) <-> secs (expires_at t) <= secs now.
Proof. intros now t b H1 H2. cbn. unfold i64_of_u64. replace (secs (expires_at t) <? i64_bound) with true by lia.
  replace (secs now <? i64_bound) with true by lia. lia. Qed.

Lemma not_db_expired_small : forall now t b, secs (expires_at t) < u64_bound -> secs now < i64_bound ->
  ~ db_expired now (RAuth (mk_auth t b)) -> secs now < secs (expires_at t) /\ secs (expires_at t) < i64_bound.
Proof.
  intros now t b Hu H1 H. cbn in H. unfold i64_of_u64 in H. replace (secs now <? i64_bound) with true in H by lia.
  destruct (secs (expires_at t) <? i64_bound) eqn:E; [lia|]. unfold u64_bound, i64_bound in *. lia.
Qed.

(** * Invariants of every history *)
Definition authentic (x : relation) : Prop :=
  match x with RAuth a => signed_trust C (issued_by a) (auth_trust a) | RRev v => signed_revocation C v end.

Record inv (s : state) : Prop := mk_inv {
  inv_wf : wf C s;
  inv_auth : forall x, In x (rels s) -> authentic x;
  inv_factor : Forall (fun kf => snd kf <= 16) (roots s)
}.

Lemma authentic_whole : forall x, authentic x -> authentic (whole x).
Proof. intros [a|v] H; exact H. Qed.

Lemma imports_offers : forall c t b, call_imports c t b <-> offers_trust c t b.
Proof.
  intros c t b. destruct c; cbn [call_imports offers_trust]; try reflexivity. split.
  - intros H. apply In_nth_error in H. destruct H as ([|i] & H).
    + left. destruct c as [|t0 c]; [discriminate|]. cbn in H. injection H as -> <-. split; reflexivity.
    + right. apply cert_auths_nth_S in H. destruct H as (u & g & H1 & H2 & E). injection E as -> ->. exists i, g. auto.
  - intros [[H ->]|(i & g & H1 & H2 & ->)].
    + apply cert_auths_nth_0 in H. eapply nth_error_In. exact H.
    + apply (nth_error_In _ (S i)). apply cert_auths_nth_S. exists t, g. auto.
Qed.

Lemma write_of_offers : forall c x, write_of C c (W_upd x) -> offers c x.
Proof. intros c [[t b]|v]; cbn; intros [H _]; [apply imports_offers|]; exact H. Qed.

Lemma inv_step : forall s w c, inv s -> write_of C c w -> write_ok C w -> inv (apply_w s w).
Proof.
  intros s w c [W A F] Wr Wo. split; [apply apply_wf; assumption| |].
  - intros x Hx. destruct w as [now|y|pk f]; cbn [apply_w rels] in Hx.
    + apply in_gc in Hx. apply A. apply Hx.
    + apply in_upd in Hx; [|apply (wf_nodup C); assumption]. destruct Hx as [[_ H]|[(_ & H & _)|[-> _]]]; auto.
      apply authentic_whole. destruct y as [a|v].
      * destruct Wr as (_ & now & _ & V). apply trust_verify_exact in V. exact (proj2 V).
      * destruct Wr as (_ & V). apply revocation_verify_exact in V. exact V.
    + auto.
  - destruct w as [now|y|pk f]; cbn [apply_w roots]; auto.
    apply Forall_app. split; [exact F|]. constructor; [|constructor].
    destruct Wr as (n & _ & ->). cbn [snd]. unfold get_weight_factor, MAX_WEIGHT_FACTOR. lia.
Qed.

Lemma inv_empty : inv empty_state.
Proof. split; [apply wf_empty|intros x []|constructor]. Qed.

Lemma inv_run : forall es ws s, inv s -> writes_of C es ws -> inv (run_ws ws s).
Proof.
  intros es ws. induction ws as [|w ws IH]; intros s I W; [exact I|].
  inversion W as [|? ? (e & _ & _ & H & K) W']; subst. cbn [run_ws fold_left]. apply IH; [|exact W'].
  eapply inv_step; eassumption.
Qed.

Lemma reachable_inv : forall d, reachable C d -> exists s, d = db_of s /\ inv s.
Proof.
  intros d H. apply reachable_state in H. destruct H as (es & ws & s & -> & _ & -> & W).
  exists (run_ws ws empty_state). split; [reflexivity|]. eapply inv_run; [apply inv_empty|exact W].
Qed.

Lemma sem_inv : forall s c, inv s -> call_typed C c -> forall k, inv (run_ws (firstn k (snd (sem C s c))) s).
Proof.
  intros s c I T k. apply (inv_run [(c, None)]); [exact I|].
  apply Forall_forall. intros w Hw. apply in_firstn in Hw. exists (c, None). cbn [fst].
  split; [left; reflexivity|]. split; [exact T|]. split; [apply sem_write_of with (s := s); exact Hw|].
  pose proof (sem_writes C s c T) as F. rewrite Forall_forall in F. apply F. exact Hw.
Qed.

Lemma sem_inv_all : forall s c, inv s -> call_typed C c -> inv (run_ws (snd (sem C s c)) s).
Proof. intros s c I T. pose proof (sem_inv s c I T (length (snd (sem C s c)))) as H. rewrite firstn_all in H. exact H. Qed.

(** * One call *)
Lemma SQL_not_ok : forall r : graph_reply, @Err graph_error graph_reply SQL <> Ok r.
Proof. discriminate. Qed.

Lemma step_ok : forall s c fu r d', inv s -> call_typed C c ->
  graph_step C (db_of s) (c, fu) = (Ok r, d') ->
  fst (sem C s c) = Ok r /\ d' = db_of (run_ws (snd (sem C s c)) s).
Proof.
  intros s c fu r d' I T H. destruct (graph_step_sem C s c fu (inv_wf s I) T) as [E|(_ & k & E)]; rewrite E in H.
  - injection H as -> <-. auto.
  - discriminate.
Qed.

Lemma step_none : forall s c, inv s -> call_typed C c ->
  graph_step C (db_of s) (c, None) = (fst (sem C s c), db_of (run_ws (snd (sem C s c)) s)).
Proof.
  intros s c I T. destruct (graph_step_sem C s c None (inv_wf s I) T) as [E|(N & _)]; [exact E|congruence].
Qed.

Lemma step_any : forall s c fu, inv s -> call_typed C c -> exists s', snd (graph_step C (db_of s) (c, fu)) = db_of s' /\ inv s'.
Proof.
  intros s c fu I T. destruct (graph_step_sem C s c fu (inv_wf s I) T) as [E|(_ & k & E)]; rewrite E; cbn [snd].
  - eexists. split; [reflexivity|]. apply sem_inv_all; assumption.
  - eexists. split; [reflexivity|]. apply sem_inv; assumption.
Qed.

Lemma history_snoc : forall d es e, graph_history C d (es ++ [e]) = snd (graph_step C (graph_history C d es) e).
Proof. intros. unfold graph_history. rewrite fold_left_app. reflexivity. Qed.

Lemma reachable_step : forall d c fu, reachable C d -> call_typed C c -> reachable C (snd (graph_step C d (c, fu))).
Proof. intros d c fu R T. apply (history_reachable C d [(c, fu)] R). constructor; [exact T|constructor]. Qed.

Lemma history_inv : forall s es, inv s -> typed_history C es ->
  exists s', graph_history C (db_of s) es = db_of s' /\ inv s'.
Proof.
  intros s es I T. destruct (history_writes C es s (inv_wf s I) T) as (ws & E & W).
  exists (run_ws ws s). split; [exact E|]. eapply inv_run; eassumption.
Qed.

(** * Persistence *)
Lemma persist : forall x es s, inv s -> In x (rels s) -> typed_history C es ->
  (forall c fu, In (c, fu) es -> forall now, call_time c = Some now -> ~ db_expired now x) ->
  (forall c fu, In (c, fu) es -> forall y, offers c y -> same_keys x y -> ~ before (rel_issued_at x) (rel_issued_at y)) ->
  exists s', graph_history C (db_of s) es = db_of s' /\ inv s' /\ In x (rels s').
Proof.
  intros x es s I Hx T Ht Ho. destruct (history_writes C es s (inv_wf s I) T) as (ws & E & W).
  exists (run_ws ws s). split; [exact E|]. split; [eapply inv_run; eassumption|].
  apply (run_invariant C (fun s => In x (rels s)) es); [|exact W|apply I|exact Hx].
  intros s' w c fu W' Hx' Hin Tc Wr Wo. destruct w as [now|y|pk f]; cbn [apply_w rels].
  - apply in_gc. split; [exact Hx'|]. eapply Ht; [exact Hin|exact Wr].
  - apply in_upd; [apply (wf_nodup C); exact W'|].
    destruct (same_pair y x) eqn:P.
    + apply same_pair_keys in P. right. left. split; [exact P|]. split; [exact Hx'|].
      eapply Ho; [exact Hin|apply write_of_offers; exact Wr|]. destruct P; split; congruence.
    + apply same_pair_keys_false in P. auto.
  - exact Hx'.
Qed.

End WithCrypto.
