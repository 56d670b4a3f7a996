(** The properties of the graph in their final form. PropsGraph.v restates them. *)
From Coq Require Import List NArith ZArith Bool Lia ZifyBool ZifyNat ZifyN Permutation.
From Verif Require Import Base BaseFacts Text TextFacts Keys KeysFacts Trust TrustFacts Certificate CertFacts Relation
  Storage StorageFacts Graph SearchFacts PathFacts Spec SpecFacts GraphFacts StateFacts ChainFacts ImportFacts AddFacts Toy ToyFacts Witness.
Import ListNotations.
Open Scope N_scope.

Ltac ans T E := apply after_answer; [exact T|typed1|exact E].

Lemma sem_reply : forall C s c r, fst (sem C s c) = Ok r -> reply_of c r.
Proof.
  intros C s c r H. destruct c; cbn [sem] in H.
  - injection H as <-. exact I.
  - destruct (add_trust_sem C s t by_pk now) as [[x|x| |] ws]; try discriminate. injection H as <-. exact I.
  - destruct (add_sem C s c now) as [[x|x| |] ws]; try discriminate. injection H as <-. exact I.
  - injection H as <-. exact I.
  - injection H as <-. exact I.
  - injection H as <-. exact I.
  - injection H as <-. exact I.
  - destruct (revoke_sem C v) as [[x|x| |] ws]; try discriminate. injection H as <-. exact I.
  - injection H as <-. exact I.
Qed.

Lemma small_fits : forall s, small (db_of s) <-> fits s.
Proof. intros s. unfold small, fits. cbn [db_of tbl_relations]. rewrite map_length. reflexivity. Qed.
Lemma fits_gc : forall s now, fits s -> fits (apply_w s (W_gc now)).
Proof.
  intros s now F. unfold fits in *. change (rels (apply_w s (W_gc now))) with (gc now (rels s)). unfold gc.
  assert (H : forall p (l : list relation), (length (filter p l) <= length l)%nat)
    by (intros p l; induction l as [|x l IH]; cbn; [lia|destruct (p x); cbn; lia]).
  specialize (H (fun x => negb (expired now x)) (rels s)). lia.
Qed.

(** ** C23 *)
(** Every call on every store a history leaves gives an answer of its kind or an error: the search
    for certificates always ends and nothing panics. *)
Lemma p_C23_calls_answer : forall C d c fu r d', reachable C d -> call_typed C c ->
  graph_step C d (c, fu) = (r, d') -> (exists x, r = Ok x /\ reply_of c x) \/ (exists e, r = Err e).
Proof.
  intros C d c fu r d' R T E. apply reachable_inv in R. destruct R as (s & -> & I).
  destruct (graph_step_sem C s c fu (inv_wf C s I) T) as [H|(_ & k & H)]; rewrite H in E; injection E as <- <-.
  - destruct (sem_total C s c) as [(x & X)|(e & X)]; rewrite X; [left|right]; eauto. exists x. split; [reflexivity|]. eapply sem_reply; exact X.
  - right. eauto.
Qed.
(** Without database failures, queries succeed. *)
Lemma p_C23_queries_succeed : forall C d c, reachable C d -> call_typed C c -> is_query c ->
  exists x d', graph_step C d (c, None) = (Ok x, d') /\ reply_of c x.
Proof.
  intros C d c R T Q. apply reachable_inv in R. destruct R as (s & -> & I). rewrite (step_none C s c I T).
  assert (X : exists x, fst (sem C s c) = Ok x) by (destruct c; try contradiction; eexists; reflexivity).
  destruct X as (x & X). rewrite X. eexists. eexists. split; [reflexivity|]. eapply sem_reply; exact X.
Qed.
(** A store with a chain of three trusts below a root and a revocation. *)
Example e_C23_store : reachable (toy false) (db_of (after long)) /\
  graph_step (toy false) (db_of (after long)) (G_get_all_certs (toy_key D) (at_ 10), None)
  = (Ok (GR_certs [long_cert]), db_of (after (long ++ [G_get_all_certs (toy_key D) (at_ 10)]))).
Proof. split; [apply after_reachable; exact long_typed|]. apply after_step; [exact long_typed|typed1|exact long_certs]. Qed.

(** ** C24 *)
(** [get_all_certs] first drops the expired trusts, then returns exactly the chains from a root to
    the key, except those in which a key revoked one that comes later, other than the direct issuer
    of the last key. *)
Lemma p_C24_certificates_exact : forall C d pk now fu cs d', reachable C d -> call_typed C (G_get_all_certs pk now) ->
  graph_step C d (G_get_all_certs pk now, fu) = (Ok (GR_certs cs), d') ->
  collected d now d' /\
  forall c, In c cs <-> root_chain d' pk c /\ forall i j, revokes_at d' c i j -> direct_issuer_pos c j.
Proof.
  intros C d pk now fu cs d' R T E. apply reachable_inv in R. destruct R as (s & -> & I).
  apply step_ok in E; [|exact I|exact T]. destruct E as [E ->]. cbn [sem fst snd run_ws fold_left] in *. injection E as <-.
  split; [apply (collected_gc C); apply I|]. intros c. apply (certs_of_exact C). apply gc_wf. apply I.
Qed.

(** ** C25 *)
(** Refuted: R revoked B, yet the chain R, A, B, D is returned for D. *)
Lemma p_C25_revoked_key_excluded_refuted : exists C d pk now cs d' c i j, crypto_laws C /\ reachable C d /\
  graph_step C d (G_get_all_certs pk now, None) = (Ok (GR_certs cs), d') /\ In c cs /\ revokes_at d' c i j.
Proof.
  exists W, (db_of (after long)), (toy_key D), (at_ 10), [long_cert].
  exists (db_of (after (long ++ [G_get_all_certs (toy_key D) (at_ 10)]))), long_cert, 0%nat, 2%nat.
  split; [apply toy_laws|]. split; [apply after_reachable; exact long_typed|].
  split; [apply after_step; [exact long_typed|typed1|exact long_certs]|]. split; [left; reflexivity|].
  split; [lia|]. exists (toy_rev R B 9).
  assert (T : Forall (call_typed W) (long ++ [G_get_all_certs (toy_key D) (at_ 10)])) by (apply Forall_app; split; [exact long_typed|typed1]).
  split; [apply (stored_rev_in W); [apply after_inv; exact T|]; in_tac|].
  split; eexists; split; reflexivity.
Qed.
(** What does hold: the only revoked key a returned chain may contain below its revoker is the
    direct issuer of the last key. *)
Lemma p_C25_revoked_key_excluded_partial : forall C d pk now fu cs d' c i j, reachable C d -> call_typed C (G_get_all_certs pk now) ->
  graph_step C d (G_get_all_certs pk now, fu) = (Ok (GR_certs cs), d') -> In c cs -> revokes_at d' c i j ->
  direct_issuer_pos c j.
Proof.
  intros C d pk now fu cs d' c i j R T E Hc Hr. destruct (p_C24_certificates_exact C d pk now fu cs d' R T E) as [_ X].
  apply X in Hc. destruct Hc as [_ Hc]. exact (Hc i j Hr).
Qed.
(** In particular no certificate returned for a revoked key contains its revoker above it. *)
Lemma p_C25_revoked_target_has_no_chain : forall C d v now fu cs d' c i, reachable C d ->
  call_typed C (G_get_all_certs (rev_pk v) now) -> stored_revocation d v ->
  graph_step C d (G_get_all_certs (rev_pk v) now, fu) = (Ok (GR_certs cs), d') -> In c cs ->
  (S i < length c)%nat -> ~ key_at c i (revoked_by v).
Proof.
  intros C d v now fu cs d' c i R T Hv E Hc Hi K. destruct (p_C24_certificates_exact C d _ now fu cs d' R T E) as [Col X].
  apply X in Hc. destruct Hc as [(L & La & _) Hc]. specialize (Hc i (length c - 1)%nat). unfold direct_issuer_pos in Hc.
  assert (revokes_at d' c i (length c - 1)).
  { split; [lia|]. exists v. split; [|split; [exact K|exact La]]. apply (proj2 Col (RRev v)). split; [exact Hv|intros []]. }
  specialize (Hc H). lia.
Qed.
(** The same store: R revoked B and no certificate is returned for B. *)
Example e_C25_target : stored_revocation (db_of (after long)) (toy_rev R B 9) /\
  fst (graph_step (toy false) (db_of (after long)) (G_get_all_certs (toy_key B) (at_ 10), None)) = Ok (GR_certs []).
Proof.
  split; [apply (stored_rev_in W); [apply after_inv; exact long_typed|]; in_tac|].
  erewrite after_step; [|exact long_typed|typed1|exact long_certs_b]. reflexivity.
Qed.

(** ** C26 *)
(** Below 2^63 seconds, every returned certificate passes verification at that time against the
    configured roots. *)
Lemma p_C26_returned_certificates_verify : forall C d pk now fu cs d' c rks, reachable C d -> call_typed C (G_get_all_certs pk now) ->
  graph_step C d (G_get_all_certs pk now, fu) = (Ok (GR_certs cs), d') -> In c cs ->
  secs now < i64_bound -> (forall k, is_root d k -> In k rks) ->
  cert_verify C c rks now = Ok tt.
Proof.
  intros C d pk now fu cs d' c rks R T E Hc B Hr. apply reachable_inv in R. destruct R as (s & -> & I).
  apply step_ok in E; [|exact I|exact T]. destruct E as [E _]. cbn [sem fst] in E. injection E as <-.
  apply cert_verify_exact. apply (certs_valid C s now pk c rks I B Hr Hc).
Qed.
(** The same for [get_all_certs_from]. *)
Lemma p_C26_returned_certificates_from_verify : forall C d pk iss now fu cs d' c rks, reachable C d ->
  call_typed C (G_get_all_certs_from pk iss now) ->
  graph_step C d (G_get_all_certs_from pk iss now, fu) = (Ok (GR_certs cs), d') -> In c cs ->
  secs now < i64_bound -> (forall k, is_root d k -> In k rks) ->
  cert_verify C c rks now = Ok tt.
Proof.
  intros C d pk iss now fu cs d' c rks R T E Hc B Hr. apply reachable_inv in R. destruct R as (s & -> & I).
  apply step_ok in E; [|exact I|exact T]. destruct E as [E _]. cbn [sem fst] in E. injection E as <-.
  apply cert_verify_exact. apply in_certs_from in Hc. apply (certs_valid C s now pk c rks I B Hr (proj1 Hc)).
Qed.
Example e_C26_verifies : cert_verify (toy false) long_cert [toy_key R] (at_ 10) = Ok tt.
Proof. vm_compute. reflexivity. Qed.

(** ** C27 *)
(** Refuted: at 2^63 seconds a certificate that expired long ago is returned and has weight. *)
Lemma p_C27_expired_never_counts_refuted : exists C d pk now cs d' c t w d'', crypto_laws C /\ reachable C d /\
  call_typed C (G_get_all_certs pk now) /\
  graph_step C d (G_get_all_certs pk now, None) = (Ok (GR_certs cs), d') /\ In c cs /\ In t c /\ before (expires_at t) now /\
  (forall rks, cert_verify C c rks now <> Ok tt) /\
  graph_step C d (G_weight pk now, None) = (Ok (GR_weight w), d'') /\ w <> 0.
Proof.
  exists W, (db_of (after short)), (toy_key A), (at_ i64_bound), [short_cert].
  exists (db_of (after (short ++ [G_get_all_certs (toy_key A) (at_ i64_bound)]))), short_cert, (toy_trust R A 900 50), 16.
  exists (db_of (after (short ++ [G_weight (toy_key A) (at_ i64_bound)]))).
  split; [apply toy_laws|]. split; [apply after_reachable; exact short_typed|]. split; [typed1|].
  split; [apply after_step; [exact short_typed|typed1|exact short_certs_late]|]. split; [left; reflexivity|].
  split; [right; left; reflexivity|].
  assert (X : before (expires_at (toy_trust R A 900 50)) (at_ i64_bound)) by (left; reflexivity).
  split; [exact X|]. split.
  - intros rks H. apply cert_verify_exact in H. destruct H as (_ & _ & _ & H). apply (H 1%nat (toy_trust R A 900 50) eq_refl). exact X.
  - split; [|discriminate]. apply after_step; [exact short_typed|typed1|]. vm_compute. reflexivity.
Qed.
(** Below 2^63 seconds it holds: every trust of a returned certificate expires after now, so none
    counts for the weight, which is computed from these certificates (C35). *)
Lemma p_C27_expired_never_counts_partial : forall C d pk now fu cs d' c t, reachable C d -> call_typed C (G_get_all_certs pk now) ->
  graph_step C d (G_get_all_certs pk now, fu) = (Ok (GR_certs cs), d') -> In c cs -> In t c ->
  secs now < i64_bound -> before now (expires_at t).
Proof.
  intros C d pk now fu cs d' c t R T E Hc Ht B. apply reachable_inv in R. destruct R as (s & -> & I).
  apply step_ok in E; [|exact I|exact T]. destruct E as [E _]. cbn [sem fst] in E. injection E as <-.
  left. eapply certs_unexpired; eassumption.
Qed.

(** ** C28 *)
(** Refuted: a root trust that expires at u64::MAX, as issue_root makes it, is dropped by the next
    query. *)
Lemma p_C28_unexpired_trust_kept_refuted : exists C d b t q now, crypto_laws C /\ reachable C d /\ stored_trust d b t /\
  call_typed C q /\ is_query q /\ call_time q = Some now /\ before now (expires_at t) /\
  ~ stored_trust (snd (graph_step C d (q, None))) b t.
Proof.
  exists W, (db_of (after eternal)), (toy_key R), (toy_trust R R u64_max 1), (G_weight (toy_key R) (at_ 6)), (at_ 6).
  split; [apply toy_laws|]. split; [apply after_reachable; exact eternal_typed|].
  split; [apply (stored_trust_in W); [apply after_inv; exact eternal_typed|rewrite eternal_rels; left; reflexivity]|].
  split; [typed1|]. split; [exact Logic.I|]. split; [reflexivity|]. split; [left; reflexivity|].
  erewrite after_step; [|exact eternal_typed|typed1|reflexivity]. cbn [snd].
  rewrite (stored_trust_in W); [rewrite eternal_lost; intros []|]. apply after_inv. apply Forall_app. split; [exact eternal_typed|typed1].
Qed.
(** With an expiry below 2^63 seconds a stored trust stays through any calls made at times before
    its expiry, whatever fails, as long as no strictly newer relation of the same keys is offered. *)
Lemma p_C28_unexpired_trust_kept_partial : forall C d b t es, reachable C d -> stored_trust d b t -> secs (expires_at t) < i64_bound ->
  typed_history C es ->
  (forall c fu now, In (c, fu) es -> call_time c = Some now -> secs now < secs (expires_at t)) ->
  (forall c fu y, In (c, fu) es -> offers c y -> same_keys (RAuth (mk_auth t b)) y -> ~ before (issued_at t) (rel_issued_at y)) ->
  stored_trust (graph_history C d es) b t.
Proof.
  intros C d b t es R St Ex T Ht Ho. apply reachable_inv in R. destruct R as (s & -> & I).
  apply (stored_trust_in C) in St; [|apply I].
  destruct (persist C (RAuth (mk_auth t b)) es s I St T) as (s' & E & I' & H).
  - intros c fu Hin now Hn X. specialize (Ht c fu now Hin Hn). apply db_expired_small in X; lia.
  - intros c fu Hin y. exact (Ho c fu y Hin).
  - rewrite E. apply (stored_trust_in C); [apply I'|exact H].
Qed.
Example e_C28_kept : stored_trust (db_of (after short)) (toy_key R) (toy_trust R A 900 50).
Proof. apply (stored_trust_in W); [apply after_inv; exact short_typed|]. in_tac. Qed.

(** ** C29 *)
(** After any history, with failures anywhere, every stored trust carries a signature its issuer's
    key accepts and every stored revocation one its revoker's key accepts. *)
Lemma p_C29_stored_is_authentic : forall C d, reachable C d ->
  (forall b t, stored_trust d b t -> signed_trust C b t) /\ (forall v, stored_revocation d v -> signed_revocation C v).
Proof.
  intros C d R. apply reachable_inv in R. destruct R as (s & -> & I). split.
  - intros b t H. apply (stored_trust_in C) in H; [|apply I]. exact (inv_auth C s I _ H).
  - intros v H. apply (stored_rev_in C) in H; [|apply I]. exact (inv_auth C s I _ H).
Qed.
Example e_C29_store : reachable (toy false) (db_of (after long)) /\
  stored_trust (db_of (after long)) (toy_key B) (toy_trust B D 700 1) /\ stored_revocation (db_of (after long)) (toy_rev R B 9).
Proof.
  split; [apply after_reachable; exact long_typed|]. split; [apply after_trust|apply after_rev];
    [exact long_typed|in_tac|exact long_typed|in_tac].
Qed.

(** ** C30 *)
(** At most one relation is stored for an issuer and a key. *)
Lemma p_C30_one_relation_per_pair : forall C d x y, reachable C d -> stored d x -> stored d y -> same_keys x y -> x = y.
Proof.
  intros C d x y R Hx Hy [K1 K2]. apply reachable_inv in R. destruct R as (s & -> & I).
  apply (stored_in C) in Hx; [|apply I]. apply (stored_in C) in Hy; [|apply I].
  apply (pair_unique (rels s)); try assumption. apply (wf_nodup C). apply I.
Qed.
(** Revoking imports the revocation if its signature is good, and otherwise fails and changes
    nothing. *)
Lemma p_C30_revoke_imports : forall C d v, reachable C d -> revocation_typed C v ->
  (signed_revocation C v -> exists d', graph_step C d (G_revoke v, None) = (Ok GR_unit, d') /\ imported d (RRev v) d') /\
  (~ signed_revocation C v -> exists e, graph_step C d (G_revoke v, None) = (Err (GE_RevokeCheck e), d)).
Proof.
  intros C d v R T. apply reachable_inv in R. destruct R as (s & -> & I). rewrite (step_none C s (G_revoke v) I T).
  cbn [sem]. unfold revoke_sem. destruct (revocation_verify_total C v) as [E|(e & E)]; rewrite E; cbn [fst snd run_ws fold_left map_ok].
  - split.
    + intros _. eexists. split; [reflexivity|]. apply (imported_upd C); [apply I|apply revocation_rel_typed; exact T].
    + intros N. exfalso. apply N. apply revocation_verify_exact. exact E.
  - split.
    + intros Sg. apply revocation_verify_exact in Sg. congruence.
    + intros _. exists e. reflexivity.
Qed.
Example e_C30_signed : signed_revocation (toy false) (toy_rev R B 9) /\
  ~ signed_revocation (toy false) (mk_rev (toy_key B) (at_ 9) (toy_key A) (rev_sig (toy_rev R B 9))).
Proof.
  split; [apply revocation_verify_exact; vm_compute; reflexivity|].
  intros H. apply revocation_verify_exact in H. vm_compute in H. discriminate.
Qed.
(** So does the storage for any relation. *)
Lemma relation_rel_typed : forall C x, relation_typed C x -> rel_typed C x.
Proof. intros C [[t b]|v] H; [apply trust_rel_typed; apply H|apply revocation_rel_typed; exact H]. Qed.
Lemma import_state : forall C s x, wf C s -> rel_typed C x -> import C (db_of s) x = db_of (apply_w s (W_upd x)).
Proof.
  intros C s x Wf T. unfold import.
  destruct (upd_does C s x Wf T None) as [(fu & E & _)|(N & _)]; [|congruence].
  unfold st, mmap_err in E. destruct (update_relation C x (mk_world (db_of s) None)) as [r w]. injection E as _ ->. reflexivity.
Qed.
Lemma p_C30_import : forall C d x, reachable C d -> relation_typed C x -> imported d x (import C d x).
Proof.
  intros C d x R T. apply reachable_inv in R. destruct R as (s & -> & I). apply relation_rel_typed in T.
  rewrite (import_state C s x (inv_wf C s I) T). apply (imported_upd C); [apply I|exact T].
Qed.
(** A newer revocation replaces the trust, an older one does not. *)
Example e_C30_newer : stored (import (toy false) (db_of (after short)) (RRev (toy_rev R A 80))) (RRev (toy_rev R A 80)) /\
  ~ stored (import (toy false) (db_of (after short)) (RRev (toy_rev R A 40))) (RRev (toy_rev R A 40)).
Proof.
  pose proof (after_inv short short_typed) as I.
  split; rewrite import_state; try apply (inv_wf W _ I); try (apply revocation_rel_typed; typed1);
    rewrite (stored_in W); try (apply apply_wf; [apply (inv_wf W _ I)|apply revocation_rel_typed; typed1]); [in_tac|vm_compute; intros [H|[H|[]]]; discriminate].
Qed.

(** ** C31, C62 *)
Lemma import_all_state : forall C xs s, wf C s -> Forall (rel_typed C) xs ->
  import_all C (db_of s) xs = db_of (mk_state (upd_all xs (rels s)) (roots s)) /\ wf C (mk_state (upd_all xs (rels s)) (roots s)).
Proof.
  intros C. induction xs as [|x xs IH]; intros s Wf T.
  - split; [|destruct s; exact Wf]. destruct s. reflexivity.
  - inversion T; subst. cbn [import_all fold_left]. rewrite import_state by assumption.
    apply (IH (apply_w s (W_upd x))); [apply apply_wf; assumption|assumption].
Qed.
Lemma import_order : forall C d xs ys, reachable C d -> Forall (relation_typed C) xs -> Permutation xs ys -> seconds_differ xs ->
  tbl_roots (import_all C d xs) = tbl_roots (import_all C d ys) /\
  forall x, stored (import_all C d xs) x <-> stored (import_all C d ys) x.
Proof.
  intros C d xs ys R T P S. apply reachable_inv in R. destruct R as (s & -> & I).
  assert (Tx : Forall (rel_typed C) xs) by (eapply Forall_impl; [|exact T]; intros x; apply relation_rel_typed).
  assert (Ty : Forall (rel_typed C) ys) by (eapply Permutation_Forall; eassumption).
  destruct (import_all_state C xs s (inv_wf C s I) Tx) as [Ex Wx]. destruct (import_all_state C ys s (inv_wf C s I) Ty) as [Ey Wy].
  rewrite Ex, Ey. split; [reflexivity|]. intros x. rewrite (stored_in C _ _ Wx), (stored_in C _ _ Wy). cbn [rels].
  apply (upd_all_perm C xs ys P S Tx); [apply (wf_nodup C)|apply (wf_rels C)]; apply I.
Qed.
(** Refuted: a trust and a revocation of the same keys at different times of one second. The one
    imported last stays. *)
Lemma p_C31_import_order_refuted : exists C xs ys, crypto_laws C /\ Permutation xs ys /\ Forall (relation_typed C) xs /\
  (forall x y, In x xs -> In y xs -> same_keys x y -> rel_issued_at x = rel_issued_at y -> x = y) /\
  exists x, stored (import_all C empty_db xs) x /\ ~ stored (import_all C empty_db ys) x.
Proof.
  exists W, xs12, xs21. split; [apply toy_laws|]. split; [apply perm_swap|].
  assert (T1 : relation_typed W (RAuth (mk_auth same_second_trust (toy_key R)))).
  { split; [|apply toy_key_valid]. split; [exact (toy_key_valid false A)|]. split; [reflexivity|]. split; split; reflexivity. }
  assert (T2 : relation_typed W (RRev same_second_rev)).
  { split; [exact (toy_key_valid false A)|]. split; [exact (toy_key_valid false R)|]. split; [reflexivity|]. split; reflexivity. }
  assert (T : Forall (relation_typed W) xs12) by (constructor; [exact T1|constructor; [exact T2|constructor]]).
  split; [exact T|]. split.
  - intros x y [<-|[<-|[]]] [<-|[<-|[]]] _ E; try reflexivity; discriminate.
  - assert (Tx : Forall (rel_typed W) xs12) by (eapply Forall_impl; [|exact T]; intros x; apply relation_rel_typed).
    assert (Ty : Forall (rel_typed W) xs21) by (eapply Permutation_Forall; [apply perm_swap|exact Tx]).
    destruct (import_all_state W xs12 empty_state (wf_empty W) Tx) as [Ex Wx].
    destruct (import_all_state W xs21 empty_state (wf_empty W) Ty) as [Ey Wy].
    change empty_db with (db_of empty_state). rewrite Ex, Ey. exists (RRev (toy_rev R A 5)).
    rewrite (stored_in W _ _ Wx), (stored_in W _ _ Wy). cbn [rels empty_state]. rewrite xs12_rels, xs21_rels.
    split; [left; reflexivity|]. intros [H|[]]. discriminate.
Qed.
(** When relations of the same keys differ in the second they were made, any order of import leaves
    the same relations stored. *)
Lemma p_C31_import_order_partial : forall C d xs ys, reachable C d -> Forall (relation_typed C) xs -> Permutation xs ys -> seconds_differ xs ->
  forall x, stored (import_all C d xs) x <-> stored (import_all C d ys) x.
Proof. intros C d xs ys R T P S. exact (proj2 (import_order C d xs ys R T P S)). Qed.
Example e_C31_differ : seconds_differ [RAuth (mk_auth (toy_trust R A 900 5) (toy_key R)); RRev (toy_rev R A 6)].
Proof. intros x y [<-|[<-|[]]] [<-|[<-|[]]] _ E; try reflexivity; discriminate. Qed.

(** ** C32 *)
(** A stored revocation stays through any calls at any times, whatever fails, as long as no strictly
    newer relation of the same keys is offered. *)
Lemma p_C32_revocations_never_expire : forall C d v es, reachable C d -> stored_revocation d v -> typed_history C es ->
  (forall c fu y, In (c, fu) es -> offers c y -> same_keys (RRev v) y -> ~ before (revoked_at v) (rel_issued_at y)) ->
  stored_revocation (graph_history C d es) v.
Proof.
  intros C d v es R St T Ho. apply reachable_inv in R. destruct R as (s & -> & I).
  apply (stored_rev_in C) in St; [|apply I].
  destruct (persist C (RRev v) es s I St T) as (s' & E & I' & H).
  - intros c fu Hin now Hn X. exact X.
  - intros c fu Hin y. exact (Ho c fu y Hin).
  - rewrite E. apply (stored_rev_in C); [apply I'|exact H].
Qed.
(** Adding the revoked trust again and asking a million seconds later. *)
Definition again : list (graph_call * option nat) :=
  [(G_add_trust (toy_trust R A 900 50) (toy_key R) (at_ 90), None); (G_weight (toy_key A) (at_ 1000000), Some 0%nat)].
Example e_C32_kept : stored_revocation (db_of (after new_revoke)) (toy_rev R A 80) /\ typed_history (toy false) again /\
  (forall c fu y, In (c, fu) again -> offers c y -> same_keys (RRev (toy_rev R A 80)) y -> ~ before (revoked_at (toy_rev R A 80)) (rel_issued_at y)).
Proof.
  split; [apply after_rev; [exact new_revoke_typed|in_tac]|].
  split; [unfold typed_history, again; constructor; [cbn [fst]; typed1|constructor; [cbn [fst]; typed1|constructor]]|].
  intros c fu [[t b]|v] [H|[H|[]]]; injection H as <- <-; intros O _; cbn in O; try contradiction; try discriminate.
  destruct O as [-> ->]. intros [X|[X _]]; vm_compute in X; discriminate.
Qed.

(** ** C33 *)
(** Refuted: revoking with a time before the stored trust's reports success and does nothing. *)
Lemma p_C33_revoke_takes_effect_refuted : exists C d v d1 now cs d' c i, crypto_laws C /\ reachable C d /\ revocation_typed C v /\
  graph_step C d (G_revoke v, None) = (Ok GR_unit, d1) /\ before (revoked_at v) now /\
  graph_step C d1 (G_get_all_certs (rev_pk v) now, None) = (Ok (GR_certs cs), d') /\ In c cs /\
  key_at c i (revoked_by v) /\ key_at c (S i) (rev_pk v).
Proof.
  exists W, (db_of (after short)), (toy_rev R A 40), (db_of (after old_revoke)), (at_ 60), [short_cert].
  exists (db_of (after (old_revoke ++ [G_get_all_certs (toy_key A) (at_ 60)]))), short_cert, 0%nat.
  split; [apply toy_laws|]. split; [apply after_reachable; exact short_typed|]. split; [typed1|].
  split; [apply after_step; [exact short_typed|typed1|exact old_revoke_ok]|]. split; [left; reflexivity|].
  split; [apply after_step; [exact old_revoke_typed|typed1|exact old_revoke_certs]|]. split; [left; reflexivity|].
  split; eexists; split; reflexivity.
Qed.
(** If everything stored for the two keys is older than the revocation, a successful revoke takes
    effect: at any later time, until a strictly newer relation of the two keys is offered, no
    returned certificate, for whatever key, contains the revoked key right below the revoker. *)
Lemma p_C33_revoke_takes_effect_partial : forall C d v fu d1 es pk now fu' cs d' c i, reachable C d -> revocation_typed C v ->
  (forall z, stored d z -> same_keys (RRev v) z -> before (rel_issued_at z) (revoked_at v)) ->
  graph_step C d (G_revoke v, fu) = (Ok GR_unit, d1) ->
  typed_history C es ->
  (forall c fu y, In (c, fu) es -> offers c y -> same_keys (RRev v) y -> ~ before (from_secs (secs (revoked_at v))) (rel_issued_at y)) ->
  call_typed C (G_get_all_certs pk now) ->
  graph_step C (graph_history C d1 es) (G_get_all_certs pk now, fu') = (Ok (GR_certs cs), d') -> In c cs ->
  ~ (key_at c i (revoked_by v) /\ key_at c (S i) (rev_pk v)).
Proof.
  intros C d v fu d1 es pk now fu' cs d' c i R T New E Th Ho Tq Eq Hc ((g & Hg & Eg) & (t & Ht & Et)).
  pose proof (reachable_step C d (G_revoke v) fu R T) as R1. rewrite E in R1. cbn [snd] in R1.
  assert (St1 : stored_revocation d1 (mk_rev (rev_pk v) (from_secs (secs (revoked_at v))) (revoked_by v) (rev_sig v))).
  { apply reachable_inv in R. destruct R as (s & -> & I). apply step_ok in E; [|exact I|exact T].
    destruct E as [E ->]. cbn [sem] in *. unfold revoke_sem in *. destruct (revocation_verify C v) as [[]| | |] eqn:Ev; try discriminate.
    cbn [fst snd run_ws fold_left].
    destruct (imported_upd C s (RRev v) (inv_wf C s I) (revocation_rel_typed C v T)) as [_ X].
    apply (X (RRev (mk_rev (rev_pk v) (from_secs (secs (revoked_at v))) (revoked_by v) (rev_sig v)))). right. right. split; [reflexivity|exact New]. }
  pose proof (history_reachable C d1 es R1 Th) as R2.
  assert (St2 : stored_revocation (graph_history C d1 es) (mk_rev (rev_pk v) (from_secs (secs (revoked_at v))) (revoked_by v) (rev_sig v))).
  { apply (p_C32_revocations_never_expire C); try assumption. }
  destruct (p_C24_certificates_exact C _ pk now fu' cs d' R2 Tq Eq) as [Col X]. apply X in Hc.
  destruct Hc as [(_ & _ & _ & Li & _) _]. specialize (Li i g t Hg Ht).
  apply (proj2 Col (RAuth (mk_auth t (issued_for g)))) in Li. destruct Li as [Li _].
  assert (Q : RAuth (mk_auth t (issued_for g)) = RRev (mk_rev (rev_pk v) (from_secs (secs (revoked_at v))) (revoked_by v) (rev_sig v))).
  { eapply (p_C30_one_relation_per_pair C _ _ _ R2 Li); [exact St2|]. split; cbn; congruence. }
  discriminate.
Qed.
Example e_C33_hypotheses : signed_revocation (toy false) (toy_rev R A 80) /\
  forall z, stored (db_of (after short)) z -> same_keys (RRev (toy_rev R A 80)) z -> before (rel_issued_at z) (revoked_at (toy_rev R A 80)).
Proof.
  split; [apply revocation_verify_exact; vm_compute; reflexivity|].
  intros z H [K _]. apply (after_stored short) in H; [|exact short_typed]. vm_compute in H.
  destruct H as [<-|[<-|[]]]; [discriminate|left; reflexivity].
Qed.
Example e_C33_newer : fst (graph_step (toy false) (db_of (after new_revoke)) (G_get_all_certs (toy_key A) (at_ 90), None)) = Ok (GR_certs []).
Proof. erewrite after_step; [|exact new_revoke_typed|typed1|exact new_revoke_certs]. reflexivity. Qed.

(** ** C34 *)
(** Refuted: a trust made at 50 is revoked at 80, a new trust at 100 expires at 150 and is
    collected; the trust of 50 can then be added again. *)
Lemma p_C34_no_replay_refuted : exists C d1 v t es d2 now cs d' c, crypto_laws C /\ reachable C d1 /\
  stored_revocation d1 v /\ before (issued_at t) (revoked_at v) /\ typed_history C es /\
  graph_history C d1 es = d2 /\
  (forall fu, ~ In (G_add_trust t (revoked_by v) now, fu) es) /\
  graph_step C (snd (graph_step C d2 (G_add_trust t (revoked_by v) now, None))) (G_get_all_certs (rev_pk v) now, None) = (Ok (GR_certs cs), d') /\
  In c cs /\ In t c.
Proof.
  exists W, (db_of (after new_revoke)), (toy_rev R A 80), (toy_trust R A 900 50).
  exists [(G_add_trust (toy_trust R A 150 100) (toy_key R) (at_ 110), None); (G_weight (toy_key A) (at_ 151), None)].
  exists (db_of (after replay)), (at_ 151), [short_cert].
  exists (db_of (after ((replay ++ [G_add_trust (toy_trust R A 900 50) (toy_key R) (at_ 151)]) ++ [G_get_all_certs (toy_key A) (at_ 151)]))), short_cert.
  split; [apply toy_laws|]. split; [apply after_reachable; exact new_revoke_typed|].
  split; [apply (stored_rev_in W); [apply after_inv; exact new_revoke_typed|]; in_tac|].
  split; [left; reflexivity|]. split; [unfold typed_history; constructor; [cbn [fst]; typed1|constructor; [cbn [fst]; typed1|constructor]]|].
  split.
  { change [(G_add_trust (toy_trust R A 150 100) (toy_key R) (at_ 110), None); (G_weight (toy_key A) (at_ 151), None)]
      with (map (fun c : graph_call => (c, @None nat)) [G_add_trust (toy_trust R A 150 100) (toy_key R) (at_ 110); G_weight (toy_key A) (at_ 151)]).
    rewrite run_calls_history; [|apply after_inv; exact new_revoke_typed|typed1].
    unfold run_calls. rewrite <- fold_left_app. reflexivity. }
  split; [intros fu [H|[H|[]]]; discriminate|].
  split; [|split; [left; reflexivity|right; left; reflexivity]].
  change (revoked_by (toy_rev R A 80)) with (toy_key R). change (rev_pk (toy_rev R A 80)) with (toy_key A).
  rewrite (after_step replay (G_add_trust (toy_trust R A 900 50) (toy_key R) (at_ 151)) _ replay_typed ltac:(typed1) eq_refl).
  cbn [snd]. apply after_step; [|typed1|exact replay_ok].
  apply Forall_app. split; [exact replay_typed|typed1].
Qed.
(** While the revocation is stored, that is until a strictly newer relation of the two keys is
    offered, no trust of the two keys is stored, so importing the revoked trust again has no effect. *)
Lemma p_C34_no_replay_partial : forall C d v es, reachable C d -> stored_revocation d v -> typed_history C es ->
  (forall c fu y, In (c, fu) es -> offers c y -> same_keys (RRev v) y -> ~ before (revoked_at v) (rel_issued_at y)) ->
  forall t, issued_for t = rev_pk v -> ~ stored_trust (graph_history C d es) (revoked_by v) t.
Proof.
  intros C d v es R St T Ho t Et Ht. pose proof (p_C32_revocations_never_expire C d v es R St T Ho) as H.
  pose proof (history_reachable C d es R T) as R2.
  assert (Q : RAuth (mk_auth t (revoked_by v)) = RRev v); [|discriminate].
  apply (p_C30_one_relation_per_pair C _ _ _ R2); [exact Ht|exact H|]. split; [exact Et|reflexivity].
Qed.

(** ** C35 *)
(** The weight of a key is the greatest of its root weight and of the weights of its certificates,
    and 0 if it has neither. *)
Lemma p_C35_weight_is_best_chain : forall C d pk now fu fu' cs w d1 d2, reachable C d -> call_typed C (G_weight pk now) -> small d ->
  graph_step C d (G_get_all_certs pk now, fu) = (Ok (GR_certs cs), d1) ->
  graph_step C d (G_weight pk now, fu') = (Ok (GR_weight w), d2) ->
  d1 = d2 /\ greatest (key_weight d cs pk) w /\ (w = 0 <-> ~ is_root d pk /\ cs = []).
Proof.
  intros C d pk now fu fu' cs w d1 d2 R T Sm E1 E2. apply reachable_inv in R. destruct R as (s & -> & I).
  apply step_ok in E1; [|exact I|exact T]. apply step_ok in E2; [|exact I|exact T]. cbn [sem fst snd run_ws fold_left] in *.
  destruct E1 as [E1 ->]. destruct E2 as [E2 ->]. injection E1 as <-. injection E2 as <-.
  change (mk_state (gc now (rels s)) (roots s)) with (apply_w s (W_gc now)) in *.
  split; [reflexivity|]. apply small_fits in Sm. pose proof (inv_gc C s now I) as I1.
  pose proof (weight_of_greatest C _ pk I1 (fits_gc s now Sm)) as G.
  assert (X : greatest (key_weight (db_of s) (certs_of (apply_w s (W_gc now)) pk) pk) (weight_of (apply_w s (W_gc now)) pk)) by exact G.
  split; [exact X|]. destruct X as [X1 X2]. split.
  - intros Z. split.
    + intros Hr. apply (is_root_max_len C s pk I) in Hr. destruct Hr as (m & Hr).
      assert (K : 2 ^ m <= weight_of (apply_w s (W_gc now)) pk) by (apply X1; left; eauto).
      rewrite Z in K. apply N.le_0_r in K. revert K. apply N.pow_nonzero. discriminate.
    + destruct (certs_of (apply_w s (W_gc now)) pk) as [|c cs] eqn:Ec; [reflexivity|]. exfalso.
      destruct (certs_shape C _ pk c I1 (fits_gc s now Sm)) as (t & c' & -> & Rt & _); [rewrite Ec; left; reflexivity|].
      apply (is_root_max_len C _ _ I1) in Rt. destruct Rt as (m & Rt).
      assert (K : chain_weight m (length (t :: c') - 1) <= weight_of (apply_w s (W_gc now)) pk).
      { apply X1. right. exists (t :: c'). split; [left; reflexivity|]. exists t, m. split; [reflexivity|]. split; [exact Rt|reflexivity]. }
      pose proof (chain_weight_pos m (length (t :: c') - 1)). lia.
  - intros [Nr Nc]. rewrite Nc in *. destruct X2 as [[(m & Hr & _)|(c & [] & _)]|[Z _]]; [|exact Z].
    exfalso. apply Nr. apply (is_root_max_len C s pk I). eauto.
Qed.
Example e_C35_weight : small (db_of (after short)) /\
  fst (graph_step (toy false) (db_of (after short)) (G_weight (toy_key A) (at_ 10), None)) = Ok (GR_weight (chain_weight 5 1)).
Proof. split; [vm_compute; reflexivity|]. erewrite after_step; [|exact short_typed|typed1|exact short_weight]. reflexivity. Qed.

(** ** C36 *)
(** Every weight any call reports is 0 or a power of two not above 2^16. *)
Lemma p_C36_weights_are_powers : forall C d c fu w d', reachable C d -> call_typed C c ->
  graph_step C d (c, fu) = (Ok (GR_weight w), d') -> two_power w.
Proof.
  intros C d c fu w d' R T E. apply reachable_inv in R. destruct R as (s & -> & I). apply step_ok in E; [|exact I|exact T].
  eapply sem_weight_power. apply E.
Qed.
Example e_C36_weight : fst (graph_step (toy false) (db_of (after two_ways)) (G_weight_from (toy_key B) (toy_key A) (at_ 10), None)) = Ok (GR_weight 8).
Proof. apply after_answer; [exact two_ways_typed|typed1|exact two_ways_weight_from]. Qed.

(** ** C37 *)
(** Refuted: the only root has max_chain_len 2, the only certificate of D has three trusts after the
    root trust, and D has weight 1. *)
Lemma p_C37_max_chain_len_bounds_refuted : exists C d pk now cs d1 d2 w m, crypto_laws C /\ reachable C d /\
  (forall k n, root_max_len d k n -> n <= m) /\ ~ is_root d pk /\
  graph_step C d (G_get_all_certs pk now, None) = (Ok (GR_certs cs), d1) /\
  (forall c, In c cs -> m < N.of_nat (length c - 1)) /\
  graph_step C d (G_weight pk now, None) = (Ok (GR_weight w), d2) /\ w <> 0.
Proof.
  exists W, (db_of (after too_long)), (toy_key D), (at_ 30), [long_cert].
  exists (db_of (after (too_long ++ [G_get_all_certs (toy_key D) (at_ 30)]))), (db_of (after (too_long ++ [G_weight (toy_key D) (at_ 30)]))), 1, 2.
  assert (Ro : roots (after too_long) = [(toy_key R, 14)]) by (vm_compute; reflexivity).
  split; [apply toy_laws|]. split; [apply after_reachable; exact too_long_typed|]. split; [|split].
  - intros k n H. apply root_max_len_factor in H. rewrite Ro in H. destruct H as (f & Hf & E). unfold root_factor in Hf. cbn [find fst] in Hf.
    destruct (pk_eqb (toy_key R) k); [|discriminate]. cbn in Hf. injection Hf as <-. lia.
  - rewrite is_root_in, Ro. intros [H|[]]. discriminate.
  - split; [apply after_step; [exact too_long_typed|typed1|exact too_long_certs]|]. split.
    + intros c [<-|[]]. reflexivity.
    + split; [apply after_step; [exact too_long_typed|typed1|exact too_long_weight]|discriminate].
Qed.
(** What does hold: a key all of whose certificates have at least the maximum number of trusts
    after the root trust has weight at most 1. *)
Lemma p_C37_max_chain_len_bounds_partial : forall C d pk now fu fu' cs d1 d2 w m, reachable C d -> call_typed C (G_weight pk now) -> small d ->
  (forall k n, root_max_len d k n -> n <= m) -> ~ is_root d pk ->
  graph_step C d (G_get_all_certs pk now, fu) = (Ok (GR_certs cs), d1) ->
  (forall c, In c cs -> m <= N.of_nat (length c - 1)) ->
  graph_step C d (G_weight pk now, fu') = (Ok (GR_weight w), d2) -> w <= 1.
Proof.
  intros C d pk now fu fu' cs d1 d2 w m R T Sm Hm Nr E1 Hl E2.
  destruct (p_C35_weight_is_best_chain C d pk now fu fu' cs w d1 d2 R T Sm E1 E2) as (_ & [_ [G|[-> _]]] & _); [|lia].
  destruct G as [(n & Hn & _)|(c & Hc & t & n & Ht & Hn & ->)].
  - exfalso. apply Nr. apply reachable_inv in R. destruct R as (s & -> & I). apply (is_root_max_len C s pk I). eauto.
  - specialize (Hl c Hc). specialize (Hm _ _ Hn). unfold chain_weight. replace (n - N.of_nat (length c - 1)) with 0 by lia. reflexivity.
Qed.
Example e_C37_hypotheses : small (db_of (after too_long)) /\ (forall k n, root_max_len (db_of (after too_long)) k n -> n <= 2) /\
  ~ is_root (db_of (after too_long)) (toy_key D) /\ 2 <= N.of_nat (length long_cert - 1) /\
  fst (graph_step (toy false) (db_of (after too_long)) (G_get_all_certs (toy_key D) (at_ 30), None)) = Ok (GR_certs [long_cert]).
Proof.
  assert (Ro : roots (after too_long) = [(toy_key R, 14)]) by (vm_compute; reflexivity).
  split; [vm_compute; reflexivity|]. split; [|split; [|split; [vm_compute; discriminate|apply after_answer; [exact too_long_typed|typed1|exact too_long_certs]]]].
  - intros k n H. apply root_max_len_factor in H. rewrite Ro in H. destruct H as (f & Hf & E). unfold root_factor in Hf. cbn [find fst] in Hf.
    destruct (pk_eqb (toy_key R) k); [|discriminate]. cbn in Hf. injection Hf as <-. lia.
  - rewrite is_root_in, Ro. intros [H|[]]. discriminate.
Qed.

(** ** C38 *)
(** [add_trust] fails and changes nothing if the trust is expired or badly signed. Otherwise it
    reports the weight of the issuer for a self-signed trust and half of it for any other; if that
    is 0 it only collects expired trusts, as the query for the weight does, else it also imports the
    trust. *)
Lemma p_C38_add_trust_exact : forall C d t b now, reachable C d -> call_typed C (G_add_trust t b now) ->
  (forall e, trust_verify C t b now = Err e -> graph_step C d (G_add_trust t b now, None) = (Err (GE_TrustVerification e), d)) /\
  (trust_verify C t b now = Ok tt ->
   exists w d1 w' d', graph_step C d (G_weight b now, None) = (Ok (GR_weight w), d1) /\
     graph_step C d (G_add_trust t b now, None) = (Ok (GR_weight w'), d') /\
     ((b = issued_for t /\ w' = w) \/ (b <> issued_for t /\ w' = w / 2)) /\
     (w' = 0 -> d' = d1) /\ (w' <> 0 -> imported d1 (RAuth (mk_auth t b)) d')).
Proof.
  intros C d t b now R T. apply reachable_inv in R. destruct R as (s & -> & I). pose proof T as (T1 & T2 & T3). split.
  - intros e E. rewrite (step_none C s _ I T). cbn [sem]. unfold add_trust_sem. rewrite E. reflexivity.
  - intros E. destruct (add_trust_weight C s t b now I T1 T2 T3 E) as (w & d1 & E1 & E2 & E3 & E4). cbv zeta in *.
    exists w, d1. destruct (graph_step C (db_of s) (G_add_trust t b now, None)) as [r d']. cbn [fst snd] in *.
    eexists. exists d'. split; [exact E1|]. split; [rewrite E2; reflexivity|]. split; [|split; [exact E3|exact E4]].
    destruct (pk_eqb b (issued_for t)) eqn:K.
    + left. apply pk_eqb_eq in K. auto.
    + right. split; [|reflexivity]. intros X. apply pk_eqb_eq in X. congruence.
Qed.
Example e_C38_good : trust_verify (toy false) (toy_trust R A 900 50) (toy_key R) (at_ 900) = Ok tt /\
  (exists e, trust_verify (toy false) (toy_trust R A 900 50) (toy_key B) (at_ 900) = Err e).
Proof. split; [vm_compute; reflexivity|eexists; vm_compute; reflexivity]. Qed.
(** So a key whose weight is at most 1 cannot pass trust on. *)
Lemma p_C37_weight_one_cannot_issue : forall C d t b now w d1, reachable C d -> call_typed C (G_add_trust t b now) ->
  graph_step C d (G_weight b now, None) = (Ok (GR_weight w), d1) -> w <= 1 -> b <> issued_for t ->
  trust_verify C t b now = Ok tt ->
  graph_step C d (G_add_trust t b now, None) = (Ok (GR_weight 0), d1).
Proof.
  intros C d t b now w d1 R T E Lw Nb V. destruct (p_C38_add_trust_exact C d t b now R T) as [_ X].
  destruct (X V) as (w0 & d0 & w' & d' & E1 & E2 & E3 & E4 & _). rewrite E in E1. injection E1 as <- <-.
  destruct E3 as [[K _]|[_ ->]]; [contradiction|].
  assert (Z : w / 2 = 0) by (apply N.div_small; lia). rewrite E2, Z. rewrite (E4 Z). reflexivity.
Qed.

(** ** C39 *)
(** Refuted: the root's own trust is not stored, so the key gets no weight. *)
Lemma p_C39_reported_weight_is_real_refuted : exists C d t b now w d' w' d'', crypto_laws C /\ reachable C d /\
  call_typed C (G_add_trust t b now) /\
  graph_step C d (G_add_trust t b now, None) = (Ok (GR_weight w), d') /\
  graph_step C d' (G_weight (issued_for t) now, None) = (Ok (GR_weight w'), d'') /\ w' < w.
Proof.
  exists W, (db_of (after root_only)), (toy_trust R A 900 1), (toy_key R), (at_ 5), 16.
  exists (db_of (after (root_only ++ [G_add_trust (toy_trust R A 900 1) (toy_key R) (at_ 5)]))), 0.
  exists (db_of (after ((root_only ++ [G_add_trust (toy_trust R A 900 1) (toy_key R) (at_ 5)]) ++ [G_weight (toy_key A) (at_ 5)]))).
  split; [apply toy_laws|]. split; [apply after_reachable; exact root_only_typed|]. split; [typed1|].
  split; [apply after_step; [exact root_only_typed|typed1|exact promise]|]. split; [|reflexivity].
  change (issued_for (toy_trust R A 900 1)) with (toy_key A). apply after_step; [|typed1|exact promise_weight].
  apply Forall_app. split; [exact root_only_typed|typed1].
Qed.
(** It is real if the issuer, if it is a root, has its own trust stored and unexpired, the added
    trust expires after now and below 2^63 seconds, nothing as new is stored for the two keys, and no
    other revocation is stored between keys of which each is the new key, the issuer, or on one
    certificate of the issuer. *)
Lemma p_C39_reported_weight_is_real_partial : forall C d t b now w d' w' d'', reachable C d -> call_typed C (G_add_trust t b now) -> small d ->
  graph_step C d (G_add_trust t b now, None) = (Ok (GR_weight w), d') ->
  graph_step C d' (G_weight (issued_for t) now, None) = (Ok (GR_weight w'), d'') ->
  (forall cs d1 c v, graph_step C d (G_get_all_certs b now, None) = (Ok (GR_certs cs), d1) -> c = [] \/ In c cs ->
     stored_revocation d v -> ~ same_keys (RAuth (mk_auth t b)) (RRev v) ->
     In (revoked_by v) (issued_for t :: b :: map issued_for c) -> In (rev_pk v) (issued_for t :: b :: map issued_for c) -> False) ->
  (is_root d b -> exists u, issued_for u = b /\ stored_trust d b u /\ secs now < secs (expires_at u) < i64_bound) ->
  secs now < secs (expires_at t) < i64_bound ->
  (forall z, stored d z -> same_keys (RAuth (mk_auth t b)) z -> before (rel_issued_at z) (issued_at t)) ->
  w <= w'.
Proof.
  intros C d t b now w d' w' d'' R T Sm E1 E2 NR Rt Ex New. apply reachable_inv in R. destruct R as (s & -> & I).
  pose proof T as (T1 & T2 & T3). rewrite (step_none C s _ I T) in E1. cbn [sem] in E1. unfold add_trust_sem in E1.
  destruct (trust_verify C t b now) as [[]|e| |] eqn:V; try (cbn in E1; discriminate). cbv zeta in E1.
  destruct (next_weight_of (apply_w s (W_gc now)) b (issued_for t) =? 0) eqn:Z.
  - cbn in E1. injection E1 as <- _. lia.
  - cbn [fst snd map_ok run_ws fold_left] in E1. injection E1 as <- <-.
    assert (Tw : call_typed C (G_weight (issued_for t) now)) by (split; [apply T1|exact T3]).
    assert (I2 : inv C (apply_w (apply_w s (W_gc now)) (W_upd (RAuth (mk_auth t b))))).
    { apply (inv_step C _ _ (G_add_trust t b now)); [apply inv_gc; exact I| |apply trust_rel_typed; assumption].
      cbn. split; [auto|]. exists now. split; [reflexivity|exact V]. }
    change (mk_state (upd (gc now (rels s)) (RAuth (mk_auth t b))) (roots s))
      with (apply_w (apply_w s (W_gc now)) (W_upd (RAuth (mk_auth t b)))) in E2.
    apply step_ok in E2; [|exact I2|exact Tw]. destruct E2 as [E2 _]. cbn [sem fst] in E2. injection E2 as <-.
    apply (add_trust_real C s t b now I); try assumption.
    + apply small_fits. exact Sm.
    + intros c v Hc Hv. apply (NR (certs_of (apply_w s (W_gc now)) b) (db_of (apply_w s (W_gc now))) c v); [|exact Hc|].
      * apply (step_none C s (G_get_all_certs b now) I). split; assumption.
      * apply (stored_rev_in C); [apply I|]. change (rels (apply_w s (W_gc now))) with (gc now (rels s)) in Hv.
        apply in_gc in Hv. apply Hv.
    + intros Hr. destruct (Rt Hr) as (u & Eu & Su & Xu). exists u. split; [exact Eu|].
      change (rels (apply_w s (W_gc now))) with (gc now (rels s)). apply in_gc. apply (stored_trust_in C) in Su; [|apply I].
      split; [exact Su|]. intros X. apply db_expired_small in X; lia.
    + intros z Hz. apply New. apply (stored_in C); [apply I|]. change (rels (apply_w s (W_gc now))) with (gc now (rels s)) in Hz.
      apply in_gc in Hz. apply Hz.
    + apply N.eqb_neq. exact Z.
Qed.
Lemma base_typed : Forall (call_typed W) base.
Proof. unfold base. typed1. Qed.
Lemma base_rels : rels (after base) = [RAuth (mk_auth (toy_trust R R 1000 1) (toy_key R))].
Proof. vm_compute. reflexivity. Qed.
Definition revoked_first : list graph_call := base ++ [G_revoke (toy_rev R A 40); G_revoke (toy_rev B D 40)].
Lemma revoked_first_typed : Forall (call_typed W) revoked_first.
Proof. unfold revoked_first, base. cbn [app]. typed1. Qed.
Lemma revoked_first_rels : rels (after revoked_first) =
  [RAuth (mk_auth (toy_trust R R 1000 1) (toy_key R)); RRev (toy_rev R A 40); RRev (toy_rev B D 40)].
Proof. vm_compute. reflexivity. Qed.
(** The store has the root's own trust, an older revocation of A and a revocation between other
    keys; the root gives A a trust. *)
Example e_C39_hypotheses : small (db_of (after revoked_first)) /\
  (forall cs d1 c v, graph_step (toy false) (db_of (after revoked_first)) (G_get_all_certs (toy_key R) (at_ 5), None) = (Ok (GR_certs cs), d1) ->
     c = [] \/ In c cs -> stored_revocation (db_of (after revoked_first)) v ->
     ~ same_keys (RAuth (mk_auth (toy_trust R A 900 50) (toy_key R))) (RRev v) ->
     In (revoked_by v) (toy_key A :: toy_key R :: map issued_for c) -> In (rev_pk v) (toy_key A :: toy_key R :: map issued_for c) -> False) /\
  (exists u, issued_for u = toy_key R /\ stored_trust (db_of (after revoked_first)) (toy_key R) u /\ 5 < secs (expires_at u) < i64_bound) /\
  (forall z, stored (db_of (after revoked_first)) z -> same_keys (RAuth (mk_auth (toy_trust R A 900 50) (toy_key R))) z -> before (rel_issued_at z) (at_ 50)) /\
  fst (graph_step (toy false) (db_of (after revoked_first)) (G_add_trust (toy_trust R A 900 50) (toy_key R) (at_ 5), None)) = Ok (GR_weight 16).
Proof.
  assert (S0 : forall x, stored (db_of (after revoked_first)) x -> x = RAuth (mk_auth (toy_trust R R 1000 1) (toy_key R)) \/ x = RRev (toy_rev R A 40) \/ x = RRev (toy_rev B D 40)).
  { intros x H. apply (after_stored revoked_first) in H; [|exact revoked_first_typed]. rewrite revoked_first_rels in H.
    destruct H as [<-|[<-|[<-|[]]]]; auto. }
  split; [vm_compute; reflexivity|]. split; [|split; [|split]].
  - intros cs d1 c v E Hc Hv N H1 _.
    assert (E' : fst (graph_step W (db_of (after revoked_first)) (G_get_all_certs (toy_key R) (at_ 5), None)) = Ok (GR_certs []))
      by (apply after_answer; [exact revoked_first_typed|typed1|vm_compute; reflexivity]).
    rewrite E in E'. cbn [fst] in E'. injection E' as ->. destruct Hc as [->|[]].
    destruct (S0 (RRev v) Hv) as [X|[X|X]]; [discriminate|injection X as ->; apply N; split; reflexivity|injection X as ->].
    cbn in H1. destruct H1 as [X|[X|[]]]; vm_compute in X; discriminate.
  - exists (toy_trust R R 1000 1). split; [reflexivity|]. split; [|vm_compute; split; reflexivity].
    apply after_trust; [exact revoked_first_typed|rewrite revoked_first_rels; left; reflexivity].
  - intros z H [K K']. destruct (S0 z H) as [ -> | [ -> | -> ] ]; [discriminate|left; reflexivity|discriminate].
  - apply after_answer; [exact revoked_first_typed|typed1|vm_compute; reflexivity].
Qed.

(** ** C40 *)
(** Refuted: setting a root again changes nothing. *)
Lemma p_C40_set_root_updates_refuted : exists C d k n d1 m, crypto_laws C /\ reachable C d /\ call_typed C (G_set_root k n) /\
  graph_step C d (G_set_root k n, None) = (Ok GR_unit, d1) /\ root_max_len d1 k m /\ m <> N.min n 16.
Proof.
  exists W, (db_of (after root_only)), (toy_key R), 2, (db_of (after root_twice)), 5.
  split; [apply toy_laws|]. split; [apply after_reachable; exact root_only_typed|]. split; [typed1|].
  split; [apply (after_step root_only); [exact root_only_typed|typed1|reflexivity]|]. split; [|discriminate].
  apply root_max_len_factor. exists 11. split; [vm_compute; reflexivity|reflexivity].
Qed.
(** [set_root] makes a key a root with the given length, at most 16, if it was no root before; the
    first setting of a key stays. No other root and no relation changes. *)
Lemma p_C40_set_root_exact : forall C d k n fu d', reachable C d -> call_typed C (G_set_root k n) ->
  graph_step C d (G_set_root k n, fu) = (Ok GR_unit, d') -> root_set d k (N.min n 16) d'.
Proof.
  intros C d k n fu d' R T E. apply reachable_inv in R. destruct R as (s & -> & I). apply step_ok in E; [|exact I|exact T].
  destruct E as [_ ->]. cbn [sem snd run_ws fold_left].
  replace (N.min n 16) with (16 - get_weight_factor n) by (unfold get_weight_factor, MAX_WEIGHT_FACTOR; lia).
  apply (root_set_write C); [exact I|]. unfold get_weight_factor, MAX_WEIGHT_FACTOR. lia.
Qed.
(** Lengths above 16 count as 16. *)
Example e_C40_set : graph_step (toy false) (db_of (after root_only)) (G_set_root (toy_key A) 100, None)
  = (Ok GR_unit, db_of (after (root_only ++ [G_set_root (toy_key A) 100]))) /\
  root_max_len (db_of (after (root_only ++ [G_set_root (toy_key A) 100]))) (toy_key A) 16.
Proof.
  split; [apply after_step; [exact root_only_typed|typed1|reflexivity]|].
  apply root_max_len_factor. exists 0. split; [vm_compute; reflexivity|reflexivity].
Qed.

(** ** C42 *)
(** Refuted: the third trust is bad, [add] fails, the first two are stored. *)
Lemma p_C42_add_all_or_nothing_refuted : exists C d c now e d' t, crypto_laws C /\ reachable C d /\ call_typed C (G_add c now) /\
  graph_step C d (G_add c now, None) = (Err e, d') /\ (forall b u, ~ stored_trust d b u) /\ In t c /\ stored_trust d' (issued_for t) t.
Proof.
  destruct bad_chain_err as (e & E).
  exists W, (db_of (after root_only)), bad_chain, (at_ 5), e, (db_of (after (root_only ++ [G_add bad_chain (at_ 5)]))), (toy_trust R R 1000 1).
  split; [apply toy_laws|]. split; [apply after_reachable; exact root_only_typed|]. split; [exact bad_chain_typed|].
  split; [apply after_step; [exact root_only_typed|exact bad_chain_typed|exact E]|]. split; [|split; [left; reflexivity|]].
  - intros b u H. apply (stored_trust_in W) in H; [|apply after_inv; exact root_only_typed]. exact H.
  - apply (stored_trust_in W).
    + apply after_inv. apply Forall_app. split; [exact root_only_typed|constructor; [exact bad_chain_typed|constructor]].
    + rewrite bad_chain_rels. left. reflexivity.
Qed.
(** Exactly: [add] of an empty chain fails; otherwise it behaves as adding the trusts one by one. If all
    are good it succeeds, else it stops at the first bad one, names its defect, and what the trusts
    before it did stays. *)
Lemma p_C42_add_stepwise : forall C d c now t0, reachable C d -> call_typed C (G_add c now) -> at_pos c 0 t0 ->
  let calls := map (fun x => (x, None)) (chain_calls c (issued_for t0) now) in
  ((forall i, (i < length c)%nat -> good_at C c now i) /\
   graph_step C d (G_add c now, None) = (Ok GR_unit, graph_history C d calls)) \/
  (exists n t k e, at_pos c n t /\ key_at c (n - 1) k /\ trust_defect C k t now e /\
   (forall i, (i < n)%nat -> good_at C c now i) /\
   graph_step C d (G_add c now, None) = (Err (GE_TrustVerification e), graph_history C d (firstn n calls))).
Proof.
  intros C d c now t0 R T H0 calls. apply reachable_inv in R. destruct R as (s & -> & I). rewrite (step_none C s _ I T).
  destruct c as [|t c]; [discriminate|]. injection H0 as ->. cbn [sem]. unfold add_sem.
  destruct T as [T1 T2]. pose proof T1 as T1'. inversion T1' as [|? ? Tt Tc]; subst.
  assert (Tk : pk_valid C (issued_for t0)) by apply Tt.
  pose proof (chain_calls_typed C (t0 :: c) (issued_for t0) now T1 Tk T2) as TC.
  assert (Good : forall a i, nth_error (cert_auths (t0 :: c)) i = Some a -> trust_verify C (auth_trust a) (issued_by a) now = Ok tt -> good_at C (t0 :: c) now i).
  { intros a i Ha V. destruct (cert_auths_nth _ _ _ Ha) as (P & g & Pg & Eg). exists (auth_trust a), (issued_by a).
    split; [exact P|]. split; [exists g; split; [exact Pg|congruence]|]. apply trust_verify_exact in V. split; apply V. }
  assert (Len : length (with_issuers (issued_for t0) (t0 :: c)) = length (t0 :: c)) by apply (cert_auths_length (t0 :: c)).
  destruct (add_chain_calls C (t0 :: c) s (issued_for t0) now) as [(F & E1 & E2)|(n & a & e & Ha & V & F & E1 & E2)];
    destruct (add_chain_sem C s (t0 :: c) (issued_for t0) now) as [r ws]; cbn [fst snd] in *; subst r; rewrite E2.
  - left. split.
    + intros i Hi. destruct (nth_error (cert_auths (t0 :: c)) i) as [a|] eqn:Ha.
      * apply (Good a i Ha). rewrite Forall_forall in F. apply F. eapply nth_error_In. exact Ha.
      * apply nth_error_None in Ha. rewrite cert_auths_length in Ha. lia.
    + unfold calls. rewrite run_calls_history by assumption. reflexivity.
  - right. destruct (cert_auths_nth (t0 :: c) n a Ha) as (P & g & Pg & Eg). exists n, (auth_trust a), (issued_by a), e.
    split; [exact P|]. split; [exists g; split; [exact Pg|congruence]|].
    split; [apply trust_verify_defect in V; apply V|]. split.
    + intros i Hi. destruct (nth_error (cert_auths (t0 :: c)) i) as [x|] eqn:Hx.
      * apply (Good x i Hx). rewrite Forall_forall in F. apply F. apply (nth_error_In _ i). apply nth_firstn. split; [lia|exact Hx].
      * apply nth_error_None in Hx. assert (n < length (cert_auths (t0 :: c)))%nat by (apply nth_error_Some; unfold cert_auths; congruence). lia.
    + unfold calls. rewrite firstn_map. rewrite run_calls_history; [reflexivity|exact I|].
      apply Forall_forall. intros x Hx. apply in_firstn in Hx. rewrite Forall_forall in TC. apply TC. exact Hx.
Qed.
Example e_C42_bad : call_typed (toy false) (G_add bad_chain (at_ 5)) /\
  trust_defect (toy false) (toy_key A) (toy_trust R B 900 1) (at_ 5) (TE_SignatureError VE_Ed25519).
Proof. split; [exact bad_chain_typed|]. apply trust_verify_defect. vm_compute. reflexivity. Qed.
Lemma p_C42_add_empty : forall C d now, reachable C d -> duration_wf now -> graph_step C d (G_add [] now, None) = (Err GE_EmptyChain, d).
Proof.
  intros C d now R Dw. apply reachable_inv in R. destruct R as (s & -> & I). rewrite (step_none C s (G_add [] now) I (conj (Forall_nil _) Dw)). reflexivity.
Qed.

(** ** C43 *)
(** Refuted: a certificate made by issue_root for a configured root is accepted and has no effect. *)
Lemma p_C43_added_certificate_counts_refuted : exists C kp pk ex iss c d now d1 d', crypto_laws C /\ kp_valid C kp /\
  cert_issue_root C kp pk ex iss = Ok c /\ reachable C d /\ is_root d (kp_public C kp) /\ (forall x, ~ stored d x) /\
  call_typed C (G_add c now) /\ before now ex /\ cert_verify C c [kp_public C kp] now = Ok tt /\
  graph_step C d (G_add c now, None) = (Ok GR_unit, d1) /\
  graph_step C d1 (G_get_all_certs pk now, None) = (Ok (GR_certs []), d').
Proof.
  exists W, (toy_kp R), (toy_key A), (at_ 900), (at_ 1), issued, (db_of (after root_only)), (at_ 5).
  exists (db_of (after (root_only ++ [G_add issued (at_ 5)]))).
  exists (db_of (after ((root_only ++ [G_add issued (at_ 5)]) ++ [G_get_all_certs (toy_key A) (at_ 5)]))).
  split; [apply toy_laws|]. split; [apply toy_kp_valid|]. split; [exact issued_root|]. split; [apply after_reachable; exact root_only_typed|].
  split; [apply is_root_in; left; reflexivity|].
  split; [intros x H; apply (stored_in W) in H; [exact H|apply after_inv; exact root_only_typed]|].
  split; [exact issued_typed|]. split; [left; reflexivity|]. split; [vm_compute; reflexivity|].
  split; [apply after_step; [exact root_only_typed|exact issued_typed|exact issued_ok]|].
  apply after_step; [|typed1|exact issued_certs].
  apply Forall_app. split; [exact root_only_typed|constructor; [exact issued_typed|constructor]].
Qed.
(** A good certificate takes effect if its expiries are after now and below 2^63 seconds, its keys are
    distinct, it has at most max_chain_len trusts after the root trust, nothing as new but itself is stored
    for its pairs of keys and no revocation between its keys is stored: [add] succeeds and at any
    time before the expiries the certificate, with times in whole seconds, is returned for its last
    key. *)
Lemma p_C43_added_certificate_counts_partial : forall C d c now m k0 pk, reachable C d -> call_typed C (G_add c now) ->
  (2 <= length c)%nat -> N.of_nat (length c - 1) <= m ->
  key_at c 0 k0 -> root_max_len d k0 m -> key_at c (length c - 1) pk ->
  NoDup (map issued_for c) ->
  (forall i, (i < length c)%nat -> good_at C c now i) ->
  (forall t, In t c -> secs now < secs (expires_at t) < i64_bound) ->
  (forall t b z, offers_trust (G_add c now) t b -> stored d z -> same_keys (RAuth (mk_auth t b)) z ->
     before (rel_issued_at z) (issued_at t) \/ z = whole (RAuth (mk_auth t b))) ->
  (forall v, stored_revocation d v -> In (revoked_by v) (map issued_for c) -> In (rev_pk v) (map issued_for c) -> False) ->
  exists d1, graph_step C d (G_add c now, None) = (Ok GR_unit, d1) /\
  forall now' fu cs d', duration_wf now' -> (forall t, In t c -> secs now' < secs (expires_at t)) ->
    graph_step C d1 (G_get_all_certs pk now', fu) = (Ok (GR_certs cs), d') -> In (map whole_trust c) cs.
Proof.
  intros C d c now m k0 pk R T L2 Lm K0 Rm Kl ND Gd Ex New Rv. apply reachable_inv in R. destruct R as (s & -> & I).
  rewrite (step_none C s _ I T).
  assert (Bn : secs now < i64_bound).
  { destruct K0 as (t & Ht & _). apply nth_error_In in Ht. specialize (Ex t Ht). lia. }
  destruct (add_takes_effect C s c now m k0 pk I T L2 ltac:(lia) K0 Rm Kl ND Bn Ex Gd) as [E1 E2].
  - intros t b z Ho Hz. apply (New t b z Ho). apply (stored_in C); [apply I|exact Hz].
  - intros v Hv. apply Rv. apply (stored_rev_in C); [apply I|exact Hv].
  - rewrite E1. eexists. split; [reflexivity|]. intros now' fu cs d' Dw He E.
    assert (I1 : inv C (run_ws (snd (sem C s (G_add c now))) s)) by (apply sem_inv_all; assumption).
    assert (Tk : pk_valid C pk).
    { destruct Kl as (t & Ht & <-). destruct T as [T _]. rewrite Forall_forall in T. apply (T t). eapply nth_error_In. exact Ht. }
    apply step_ok in E; [|exact I1|split; assumption]. destruct E as [E _]. cbn [sem fst] in E. injection E as <-.
    apply E2; [exact He|]. destruct K0 as (t & Ht & _). apply nth_error_In in Ht. specialize (He t Ht). specialize (Ex t Ht). lia.
Qed.
Example e_C43_hypotheses : root_max_len (db_of (after root_only)) (toy_key R) 5 /\ call_typed (toy false) (G_add way2 (at_ 5)) /\
  NoDup (map issued_for way2) /\ (forall i, (i < length way2)%nat -> good_at (toy false) way2 (at_ 5) i) /\
  (forall t, In t way2 -> secs (at_ 5) < secs (expires_at t) < i64_bound) /\ (forall x, ~ stored (db_of (after root_only)) x).
Proof.
  split; [apply root_max_len_factor; exists 11; split; [vm_compute; reflexivity|reflexivity]|].
  split; [unfold way2; typed1|]. split; [|split; [|split]].
  - constructor; [intros [H|[H|[]]]; discriminate|]. constructor; [intros [H|[]]; discriminate|]. constructor; [intros []|constructor].
  - assert (V : cert_verify W way2 [toy_key R] (at_ 5) = Ok tt) by (vm_compute; reflexivity).
    intros i Hi. assert (G : exists t k, nth_error way2 i = Some t /\ key_at way2 (i - 1) k /\ trust_verify W t k (at_ 5) = Ok tt).
    { destruct i as [|[|[|i]]]; [| | |cbn in Hi; lia].
      - exists (toy_trust R R 1000 1), (toy_key R). split; [reflexivity|]. split; [eexists; split; reflexivity|vm_compute; reflexivity].
      - exists (toy_trust R A 900 1), (toy_key R). split; [reflexivity|]. split; [eexists; split; reflexivity|vm_compute; reflexivity].
      - exists (toy_trust A B 800 1), (toy_key A). split; [reflexivity|]. split; [eexists; split; reflexivity|vm_compute; reflexivity]. }
    destruct G as (t & k & G1 & G2 & G3). apply trust_verify_exact in G3. exists t, k. split; [exact G1|]. split; [exact G2|]. split; apply G3.
  - intros t [<-|[<-|[<-|[]]]]; vm_compute; split; reflexivity.
  - intros x H. apply (after_stored root_only) in H; [exact H|exact root_only_typed].
Qed.

(** ** C44 *)
(** Queries at times not after the one of a query, below 2^63 seconds, and failing anywhere, do not
    change its answer. *)
Lemma p_C44_queries_are_stable : forall C d es q, reachable C d -> typed_history C es -> Forall (fun e => is_query (fst e)) es ->
  call_typed C q -> is_query q ->
  (forall c fu a b, In (c, fu) es -> call_time c = Some a -> call_time q = Some b -> in_order a b) ->
  fst (graph_step C (graph_history C d es) (q, None)) = fst (graph_step C d (q, None)).
Proof.
  intros C d es q R T Q Tq Qq O. apply reachable_inv in R. destruct R as (s & -> & I). apply (queries_stable C); assumption.
Qed.
Example e_C44_queries : let es := [(G_weight (toy_key A) (at_ 8), Some 1%nat); (G_get_all_certs (toy_key B) (at_ 10), None); (G_get_revocations (toy_key B), None)] in
  typed_history (toy false) es /\ Forall (fun e => is_query (fst e)) es /\
  (forall c fu a b, In (c, fu) es -> call_time c = Some a -> call_time (G_get_all_certs (toy_key B) (at_ 10)) = Some b -> in_order a b) /\
  fst (graph_step (toy false) (db_of (after two_ways)) (G_get_all_certs (toy_key B) (at_ 10), None)) = Ok (GR_certs [way1; way2]).
Proof.
  cbv zeta. split; [unfold typed_history; repeat (constructor; [cbn [fst]; typed1|]); constructor|].
  split; [repeat (constructor; [exact Logic.I|]); constructor|]. split.
  - intros c fu a b [H|[H|[H|[]]]]; injection H as <- _; intros Ha Hb; cbn in Ha, Hb; try discriminate; injection Ha as <-; injection Hb as <-;
      split; vm_compute; congruence.
  - apply after_answer; [exact two_ways_typed|typed1|exact two_ways_certs].
Qed.

(** ** C45 *)
Lemma gc_mono : forall C s a b, inv C s -> in_order a b ->
  (forall x, In (RAuth x) (rels (apply_w s (W_gc b))) -> In (RAuth x) (rels (apply_w s (W_gc a)))) /\
  (forall v, In (RRev v) (rels (apply_w s (W_gc a))) -> In (RRev v) (rels (apply_w s (W_gc b)))).
Proof.
  intros C s a b I O. cbn [apply_w rels]. split.
  - intros x H. apply in_gc in H. destruct H as [H1 H2]. apply in_gc. split; [exact H1|]. intros X. apply H2. eapply expired_mono; eassumption.
  - intros v H. apply in_gc in H. apply in_gc. split; [apply H|intros []].
Qed.
(** Certificates returned at a later time are among those returned earlier, and weights do not
    grow. *)
Lemma p_C45_certificates_shrink : forall C d pk a b fu fu' cs cs' d1 d2, reachable C d ->
  call_typed C (G_get_all_certs pk a) -> call_typed C (G_get_all_certs pk b) -> in_order a b ->
  graph_step C d (G_get_all_certs pk a, fu) = (Ok (GR_certs cs), d1) ->
  graph_step C d (G_get_all_certs pk b, fu') = (Ok (GR_certs cs'), d2) -> incl cs' cs.
Proof.
  intros C d pk a b fu fu' cs cs' d1 d2 R Ta Tb O E1 E2. apply reachable_inv in R. destruct R as (s & -> & I).
  apply step_ok in E1; [|exact I|exact Ta]. apply step_ok in E2; [|exact I|exact Tb]. cbn [sem fst] in *.
  destruct E1 as [E1 _]. destruct E2 as [E2 _]. injection E1 as <-. injection E2 as <-.
  destruct (gc_mono C s a b I O) as [M1 M2].
  apply (certs_of_mono C); [apply gc_wf; apply I|apply gc_wf; apply I|reflexivity|exact M1|exact M2].
Qed.
Lemma p_C45_weights_shrink : forall C d pk a b fu fu' w w' d1 d2, reachable C d ->
  call_typed C (G_weight pk a) -> call_typed C (G_weight pk b) -> in_order a b ->
  graph_step C d (G_weight pk a, fu) = (Ok (GR_weight w), d1) ->
  graph_step C d (G_weight pk b, fu') = (Ok (GR_weight w'), d2) -> w' <= w.
Proof.
  intros C d pk a b fu fu' w w' d1 d2 R Ta Tb O E1 E2. apply reachable_inv in R. destruct R as (s & -> & I).
  apply step_ok in E1; [|exact I|exact Ta]. apply step_ok in E2; [|exact I|exact Tb]. cbn [sem fst] in *.
  destruct E1 as [E1 _]. destruct E2 as [E2 _]. injection E1 as <-. injection E2 as <-.
  destruct (gc_mono C s a b I O) as [M1 M2].
  apply (weight_of_mono C); [apply gc_wf; apply I|apply gc_wf; apply I|reflexivity|exact M1|exact M2].
Qed.
(** R -> B expires at 700. *)
Example e_C45_shrinks : in_order (at_ 10) (at_ 700) /\
  fst (graph_step (toy false) (db_of (after two_ways)) (G_get_all_certs (toy_key B) (at_ 10), None)) = Ok (GR_certs [way1; way2]) /\
  fst (graph_step (toy false) (db_of (after two_ways)) (G_get_all_certs (toy_key B) (at_ 700), None)) = Ok (GR_certs [way2]) /\
  fst (graph_step (toy false) (db_of (after two_ways)) (G_weight (toy_key B) (at_ 10), None)) = Ok (GR_weight 16) /\
  fst (graph_step (toy false) (db_of (after two_ways)) (G_weight (toy_key B) (at_ 700), None)) = Ok (GR_weight 8).
Proof.
  split; [split; vm_compute; congruence|].
  split; [ans two_ways_typed two_ways_certs|]. split; [ans two_ways_typed two_ways_later|].
  split; [ans two_ways_typed two_ways_weight|ans two_ways_typed two_ways_weight_later].
Qed.

(** ** C46 *)
(** [get_all_certs_from] returns the certificates of [get_all_certs] that contain the issuer's key
    at some position. *)
Lemma p_C46_from_is_filter : forall C d pk i now fu fu' cs cs' d1 d2, reachable C d -> call_typed C (G_get_all_certs_from pk i now) ->
  graph_step C d (G_get_all_certs pk now, fu) = (Ok (GR_certs cs), d1) ->
  graph_step C d (G_get_all_certs_from pk i now, fu') = (Ok (GR_certs cs'), d2) ->
  forall c, In c cs' <-> In c cs /\ exists n, key_at c n i.
Proof.
  intros C d pk i now fu fu' cs cs' d1 d2 R T E1 E2 c. apply reachable_inv in R. destruct R as (s & -> & I).
  pose proof T as (Tk & Ti & Tn).
  apply step_ok in E1; [|exact I|exact (conj Tk Tn)]. apply step_ok in E2; [|exact I|exact T]. cbn [sem fst] in *.
  destruct E1 as [E1 _]. destruct E2 as [E2 _]. injection E1 as <-. injection E2 as <-. rewrite in_certs_from.
  split; intros (H1 & X); split; try exact H1.
  - destruct X as (t & Ht & Et). apply In_nth_error in Ht. destruct Ht as (n & Ht). exists n, t. auto.
  - destruct X as (n & t & Ht & Et). exists t. split; [eapply nth_error_In; exact Ht|exact Et].
Qed.
(** Refuted for the README's reading, "contains a trust issued by i": asked for certificates of A
    issued by A it returns one in which A issued nothing. *)
Lemma p_C46_from_issued_by_refuted : exists C d pk now cs d' c, crypto_laws C /\ reachable C d /\
  graph_step C d (G_get_all_certs_from pk pk now, None) = (Ok (GR_certs cs), d') /\ In c cs /\
  forall n, (S n < length c)%nat -> ~ key_at c n pk.
Proof.
  exists W, (db_of (after short)), (toy_key A), (at_ 10), [short_cert].
  exists (db_of (after (short ++ [G_get_all_certs_from (toy_key A) (toy_key A) (at_ 10)]))), short_cert.
  split; [apply toy_laws|]. split; [apply after_reachable; exact short_typed|].
  split; [apply after_step; [exact short_typed|typed1|exact short_certs_from]|]. split; [left; reflexivity|].
  intros n Hn (t & Ht & Et). cbn in Hn. assert (n = 0%nat) as -> by lia. injection Ht as <-. discriminate.
Qed.
(** For an issuer other than the key itself it is the README's reading. *)
Lemma p_C46_from_issued_by_partial : forall C d pk i now fu fu' cs cs' d1 d2, reachable C d -> call_typed C (G_get_all_certs_from pk i now) ->
  pk <> i ->
  graph_step C d (G_get_all_certs pk now, fu) = (Ok (GR_certs cs), d1) ->
  graph_step C d (G_get_all_certs_from pk i now, fu') = (Ok (GR_certs cs'), d2) ->
  forall c, In c cs' <-> In c cs /\ exists n, (S n < length c)%nat /\ key_at c n i.
Proof.
  intros C d pk i now fu fu' cs cs' d1 d2 R T Ne E1 E2 c. rewrite (p_C46_from_is_filter C d pk i now fu fu' cs cs' d1 d2 R T E1 E2 c).
  split; intros (H1 & X); split; try exact H1.
  - destruct X as (n & K). exists n. split; [|exact K].
    destruct T as (Tk & Ti & Tn). destruct (p_C24_certificates_exact C d pk now fu cs d1 R (conj Tk Tn) E1) as [_ Y].
    apply Y in H1. destruct H1 as [(L & (t & Ht & Et) & _) _]. destruct K as (u & Hu & Eu).
    assert (n < length c)%nat by (apply nth_error_Some; unfold at_pos in Hu; congruence).
    destruct (Nat.eq_dec n (length c - 1)) as [->|Nn]; [|lia]. exfalso. unfold at_pos in *. congruence.
  - destruct X as (n & _ & K). eauto.
Qed.
Example e_C46_from : toy_key B <> toy_key A /\
  fst (graph_step (toy false) (db_of (after two_ways)) (G_get_all_certs (toy_key B) (at_ 10), None)) = Ok (GR_certs [way1; way2]) /\
  fst (graph_step (toy false) (db_of (after two_ways)) (G_get_all_certs_from (toy_key B) (toy_key A) (at_ 10), None)) = Ok (GR_certs [way2]).
Proof.
  split; [discriminate|]. split; [ans two_ways_typed two_ways_certs|ans two_ways_typed two_ways_from].
Qed.
(** [weight_from] is the greatest weight of these certificates and never above [weight]. *)
Lemma p_C46_weight_from_exact : forall C d pk i now fu fu' cs w d1 d2, reachable C d -> call_typed C (G_get_all_certs_from pk i now) -> small d ->
  graph_step C d (G_get_all_certs_from pk i now, fu) = (Ok (GR_certs cs), d1) ->
  graph_step C d (G_weight_from pk i now, fu') = (Ok (GR_weight w), d2) ->
  greatest (fun v => exists c, In c cs /\ cert_weight d c v) w.
Proof.
  intros C d pk i now fu fu' cs w d1 d2 R T Sm E1 E2. apply reachable_inv in R. destruct R as (s & -> & I).
  apply step_ok in E1; [|exact I|exact T]. apply step_ok in E2; [|exact I|exact T]. cbn [sem fst] in *.
  destruct E1 as [E1 _]. destruct E2 as [E2 _]. injection E1 as <-. injection E2 as <-.
  exact (weight_from_of_greatest C _ pk i (inv_gc C s now I) (fits_gc s now (proj1 (small_fits s) Sm))).
Qed.
Lemma p_C46_weight_from_bounded : forall C d pk i now fu fu' w w' d1 d2, reachable C d -> call_typed C (G_weight_from pk i now) ->
  graph_step C d (G_weight pk now, fu) = (Ok (GR_weight w), d1) ->
  graph_step C d (G_weight_from pk i now, fu') = (Ok (GR_weight w'), d2) -> w' <= w.
Proof.
  intros C d pk i now fu fu' w w' d1 d2 R T E1 E2. apply reachable_inv in R. destruct R as (s & -> & I).
  pose proof T as (Tk & Ti & Tn).
  apply step_ok in E1; [|exact I|exact (conj Tk Tn)]. apply step_ok in E2; [|exact I|exact T]. cbn [sem fst] in *.
  destruct E1 as [E1 _]. destruct E2 as [E2 _]. injection E1 as <-. injection E2 as <-. apply weight_from_le.
Qed.
Example e_C46_weights :
  fst (graph_step (toy false) (db_of (after two_ways)) (G_weight (toy_key B) (at_ 10), None)) = Ok (GR_weight 16) /\
  fst (graph_step (toy false) (db_of (after two_ways)) (G_weight_from (toy_key B) (toy_key A) (at_ 10), None)) = Ok (GR_weight 8).
Proof. split; [ans two_ways_typed two_ways_weight|ans two_ways_typed two_ways_weight_from]. Qed.

(** ** C47 *)
(** Returned certificates are ordered by length and contain no duplicates. *)
Lemma p_C47_certificates_ordered : forall C d pk now fu cs d', reachable C d -> call_typed C (G_get_all_certs pk now) ->
  graph_step C d (G_get_all_certs pk now, fu) = (Ok (GR_certs cs), d') ->
  NoDup cs /\
  forall i j a b, (i < j)%nat -> nth_error cs i = Some a -> nth_error cs j = Some b -> (length a <= length b)%nat.
Proof.
  intros C d pk now fu cs d' R T E. apply reachable_inv in R. destruct R as (s & -> & I).
  apply step_ok in E; [|exact I|exact T]. destruct E as [E _]. cbn [sem fst] in E. injection E as <-. split.
  - apply found_certs_nodup. apply (wf_nodup C). apply gc_wf. apply I.
  - apply found_certs_sorted.
Qed.
Example e_C47_two : fst (graph_step (toy false) (db_of (after two_ways)) (G_get_all_certs (toy_key B) (at_ 10), None)) = Ok (GR_certs [way1; way2]).
Proof. apply after_answer; [exact two_ways_typed|typed1|exact two_ways_certs]. Qed.

(** ** C48 *)
(** For every call there is a list of effects (collections of expired trusts at the time of the
    call, imports of relations the call offers, a new root) that it makes when nothing fails. If the
    database fails at any statement, the call either had finished, or it reports a storage error and
    the store is what a prefix of these effects leaves. *)
Lemma p_C48_failures_are_safe : forall C d c, reachable C d -> call_typed C c -> exists es,
  Forall (effect_allowed c) es /\
  effects_on d es (snd (graph_step C d (c, None))) /\
  forall fu r d', graph_step C d (c, fu) = (r, d') ->
    (r, d') = graph_step C d (c, None) \/
    (r = Err (GE_InternalStorage SE_SQLite) /\ exists k, effects_on d (firstn k es) d').
Proof. intros C d c R T. apply reachable_inv in R. destruct R as (s & -> & I). exact (step_effects C s c I T). Qed.
(** The store is still one that calls can leave, so all the other properties hold for it. *)
Lemma p_C48_still_reachable : forall C d c fu, reachable C d -> call_typed C c -> reachable C (snd (graph_step C d (c, fu))).
Proof. exact reachable_step. Qed.
(** A failure at the third statement of an [add_trust]. *)
Example e_C48_failure : fst (graph_step (toy false) (db_of (after root_only)) (G_add_trust (toy_trust R R 1000 1) (toy_key R) (at_ 5), Some 2%nat))
  = Err (GE_InternalStorage SE_SQLite).
Proof. vm_compute. reflexivity. Qed.

(** ** C55, graph part *)
(** [get_revocations] returns exactly the stored revocations of the key, once each, and changes
    nothing. *)
Lemma p_C55_get_revocations_exact : forall C d pk fu vs d', reachable C d -> call_typed C (G_get_revocations pk) ->
  graph_step C d (G_get_revocations pk, fu) = (Ok (GR_revs vs), d') ->
  d' = d /\ NoDup vs /\ forall v, In v vs <-> stored_revocation d v /\ rev_pk v = pk.
Proof.
  intros C d pk fu vs d' R T E. apply reachable_inv in R. destruct R as (s & -> & I).
  apply step_ok in E; [|exact I|exact T]. destruct E as [E ->]. cbn [sem fst snd run_ws fold_left] in *. injection E as <-.
  split; [reflexivity|]. split.
  - pose proof (wf_nodup C s (inv_wf C s I)) as ND. apply NoDup_map_inv' in ND. unfold revs_of, only_revs.
    induction (rels s) as [|x l IH]; [constructor|]. inversion ND as [|? ? Nx ND']; subst. cbn [filter].
    destruct (pk_eqb (rel_issued_for x) pk); [|apply IH; exact ND']. cbn [flat_map]. destruct x as [a|v]; cbn [app]; [apply IH; exact ND'|].
    constructor; [|apply IH; exact ND']. intros H. apply in_flat_map in H. destruct H as (y & Hy & Hv). apply filter_In in Hy.
    destruct y as [a|v']; [destruct Hv|]. destruct Hv as [->|[]]. apply Nx. apply Hy.
  - intros v. rewrite (stored_rev_in C s v (inv_wf C s I)). rewrite in_revs_of. reflexivity.
Qed.
Example e_C55_revs : fst (graph_step (toy false) (db_of (after long)) (G_get_revocations (toy_key B), None)) = Ok (GR_revs [toy_rev R B 9]).
Proof. apply after_answer; [exact long_typed|typed1|vm_compute; reflexivity]. Qed.
