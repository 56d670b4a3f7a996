(** Further properties of the graph. PropsMore.v restates them. *)
From Coq Require Import List NArith ZArith Bool Lia ZifyBool ZifyNat ZifyN Permutation.
From Verif Require Import Base BaseFacts Text TextFacts Keys KeysFacts Trust TrustFacts Certificate CertFacts Relation
  Storage StorageFacts Graph SearchFacts PathFacts Spec SpecFacts GraphFacts StateFacts ChainFacts AlikeFacts ImportFacts AddFacts
  HistFacts Toy ToyFacts Witness GraphThms.
Import ListNotations.
Open Scope N_scope.

(** ** C62 *)
Lemma alike_contents : forall C s s', alike C s s' -> same_contents (db_of s) (db_of s').
Proof.
  intros C s s' A. split.
  - intros x. rewrite (stored_in C s x (al_wf C _ _ A)), (stored_in C s' x (al_wf' C _ _ A)). apply (al_rels C _ _ A).
  - intros k m. rewrite !root_max_len_factor. setoid_rewrite (al_roots C _ _ A k). reflexivity.
Qed.
Lemma step_none_wf : forall C s c, wf C s -> call_typed C c ->
  graph_step C (db_of s) (c, None) = (fst (sem C s c), db_of (run_ws (snd (sem C s c)) s)).
Proof. intros C s c Wf T. destruct (graph_step_sem C s c None Wf T) as [E|[N _]]; [exact E|congruence]. Qed.

Lemma alike_sem : forall C s s' c, alike C s s' -> call_typed C c ->
  same_answer (fst (sem C s c)) (fst (sem C s' c)) /\ snd (sem C s c) = snd (sem C s' c).
Proof.
  intros C s s' c A T. pose proof (fun now => alike_gc C s s' now A) as G. destruct c; cbn [sem].
  - split; reflexivity.
  - rewrite (alike_add_trust C s s' t by_pk now A). destruct (add_trust_sem C s' t by_pk now) as [[w|e| |] ws]; split; reflexivity.
  - assert (E : add_sem C s c now = add_sem C s' c now).
    { destruct c as [|t c]; [reflexivity|]. cbn [add_sem]. apply alike_add_chain; [exact A|apply T|]. destruct T as [F _]. inversion F; subst.
      match goal with H : trust_typed C t |- _ => apply H end. }
    rewrite E. destruct (add_sem C s' c now) as [[w|e| |] ws]; split; reflexivity.
  - cbn [fst snd]. rewrite (alike_weight C _ _ pk (G now)). split; reflexivity.
  - cbn [fst snd]. rewrite (alike_weight_from C _ _ pk issuer (G now)). split; reflexivity.
  - cbn [fst snd same_answer]. split; [|reflexivity]. apply (alike_certs C). apply G.
  - cbn [fst snd same_answer]. split; [|reflexivity]. apply (alike_certs_from C). apply G.
  - destruct (revoke_sem C v) as [[w|e| |] ws]; split; reflexivity.
  - cbn [fst snd same_answer]. split; [|reflexivity]. apply (alike_revs C). exact A.
Qed.
Lemma alike_step : forall C s s' c, alike C s s' -> call_typed C c -> exists t t',
  graph_step C (db_of s) (c, None) = (fst (sem C s c), db_of t) /\ graph_step C (db_of s') (c, None) = (fst (sem C s' c), db_of t') /\
  same_answer (fst (sem C s c)) (fst (sem C s' c)) /\ alike C t t'.
Proof.
  intros C s s' c A T. destruct (alike_sem C s s' c A T) as [E1 E2].
  exists (run_ws (snd (sem C s c)) s), (run_ws (snd (sem C s c)) s'). split; [apply step_none_wf; [apply A|exact T]|].
  split; [rewrite E2; apply step_none_wf; [apply A|exact T]|]. split; [exact E1|]. apply alike_run; [exact A|]. apply sem_writes. exact T.
Qed.
Lemma alike_history : forall C cs s s', alike C s s' -> Forall (call_typed C) cs -> exists t t',
  graph_history C (db_of s) (no_failures cs) = db_of t /\ graph_history C (db_of s') (no_failures cs) = db_of t' /\ alike C t t'.
Proof.
  intros C. induction cs as [|c cs IH]; intros s s' A T; [exists s, s'; split; [reflexivity|]; split; [reflexivity|exact A]|].
  inversion T; subst. destruct (alike_step C s s' c A ltac:(assumption)) as (t & t' & E & E' & _ & A').
  destruct (IH t t' A' ltac:(assumption)) as (u & u' & H & H' & A2). exists u, u'. split; [|split; [|exact A2]].
  - cbn [no_failures map graph_history fold_left]. rewrite E. exact H.
  - cbn [no_failures map graph_history fold_left]. rewrite E'. exact H'.
Qed.
Lemma alike_answers : forall C s s' cs c, alike C s s' -> Forall (call_typed C) cs -> call_typed C c ->
  same_answer (answer_after C (db_of s) cs c) (answer_after C (db_of s') cs c).
Proof.
  intros C s s' cs c A Tcs T. unfold answer_after. destruct (alike_history C cs s s' A Tcs) as (t & t' & -> & -> & A').
  destruct (alike_step C t t' c A' T) as (u & u' & -> & -> & E & _). exact E.
Qed.

(** Relations that differ in the second they were made, whenever they are of the same keys, may be
    imported in any order: the stores then hold the same, and whatever calls follow are answered
    alike. *)
Lemma p_C62_import_order : forall C d xs ys, reachable C d -> Forall (relation_typed C) xs -> Permutation xs ys -> seconds_differ xs ->
  same_contents (import_all C d xs) (import_all C d ys) /\
  forall cs c, Forall (call_typed C) cs -> call_typed C c ->
    same_answer (answer_after C (import_all C d xs) cs c) (answer_after C (import_all C d ys) cs c).
Proof.
  intros C d xs ys R T P Sd. pose proof (proj2 (import_order C d xs ys R T P Sd)) as O.
  apply reachable_inv in R. destruct R as (s & -> & I).
  assert (Tx : Forall (rel_typed C) xs) by (eapply Forall_impl; [|exact T]; intros x; apply relation_rel_typed).
  assert (Ty : Forall (rel_typed C) ys) by (eapply Permutation_Forall; eassumption).
  destruct (import_all_state C xs s (inv_wf C s I) Tx) as [Ex Wx]. destruct (import_all_state C ys s (inv_wf C s I) Ty) as [Ey Wy].
  rewrite Ex, Ey in *.
  assert (A : alike C (mk_state (upd_all xs (rels s)) (roots s)) (mk_state (upd_all ys (rels s)) (roots s))).
  { split; [exact Wx|exact Wy| |reflexivity]. intros x. rewrite <- (stored_in C _ x Wx), <- (stored_in C _ x Wy). apply O. }
  split; [apply alike_contents with (C := C); exact A|]. intros cs c Tcs Tc. apply alike_answers; assumption.
Qed.
Definition three : list relation :=
  [RAuth (mk_auth (toy_trust R A 900 5) (toy_key R)); RRev (toy_rev R A 6); RAuth (mk_auth (toy_trust R B 900 5) (toy_key R))].
(** A trust, a later revocation of it and another trust, on top of the root's own trust. *)
Example e_C62_relations : reachable (toy false) (db_of (after base)) /\ Forall (relation_typed (toy false)) three /\ seconds_differ three /\
  Permutation three (rev three) /\
  answer_after (toy false) (import_all (toy false) (db_of (after base)) three) [] (G_weight (toy_key B) (at_ 10)) = Ok (GR_weight 16) /\
  answer_after (toy false) (import_all (toy false) (db_of (after base)) three) [] (G_weight (toy_key A) (at_ 10)) = Ok (GR_weight 0).
Proof.
  split; [apply after_reachable; exact base_typed|]. split; [|split; [|split; [apply Permutation_rev|split; vm_compute; reflexivity]]].
  - constructor; [split; [apply toy_trust_typed; reflexivity|exact (toy_key_valid false R)]|].
    constructor; [apply toy_rev_typed; reflexivity|]. constructor; [|constructor].
    split; [apply toy_trust_typed; reflexivity|exact (toy_key_valid false R)].
  - intros x y [<-|[<-|[<-|[]]]] [<-|[<-|[<-|[]]]] K E; try reflexivity; try discriminate; destruct K as [K _]; vm_compute in K; discriminate.
Qed.

(** ** C86 *)
(** What a store answers, now and after any further calls, depends only on the relations and roots
    it holds, not on the calls that brought them. *)
Lemma p_C86_answers_depend_on_contents : forall C d d' cs c, reachable C d -> reachable C d' -> same_contents d d' ->
  Forall (call_typed C) cs -> call_typed C c ->
  same_answer (answer_after C d cs c) (answer_after C d' cs c) /\
  same_contents (graph_history C d (no_failures cs)) (graph_history C d' (no_failures cs)).
Proof.
  intros C d d' cs c R R' [Sr Sm] Tcs Tc. apply reachable_inv in R. destruct R as (s & -> & I). apply reachable_inv in R'. destruct R' as (s' & -> & I').
  assert (A : alike C s s').
  { split; [apply I|apply I'| |].
    - intros x. rewrite <- (stored_in C s x (inv_wf C s I)), <- (stored_in C s' x (inv_wf C s' I')). apply Sr.
    - intros k. specialize (Sm k). setoid_rewrite root_max_len_factor in Sm.
      destruct (root_factor (roots s) k) as [f|] eqn:F; destruct (root_factor (roots s') k) as [f'|] eqn:F'; try reflexivity.
      + pose proof (factor_le C s k f I F). destruct (proj1 (Sm (16 - f))) as (g & E & X); [exists f; split; [reflexivity|lia]|].
        injection E as ->. f_equal. lia.
      + pose proof (factor_le C s k f I F). destruct (proj1 (Sm (16 - f))) as (g & E & X); [exists f; split; [reflexivity|lia]|]. discriminate.
      + pose proof (factor_le C s' k f' I' F'). destruct (proj2 (Sm (16 - f'))) as (g & E & X); [exists f'; split; [reflexivity|lia]|]. discriminate. }
  split; [apply alike_answers; assumption|]. destruct (alike_history C cs s s' A Tcs) as (t & t' & -> & -> & A').
  apply alike_contents with (C := C). exact A'.
Qed.
Definition one_way : list graph_call := base ++ [G_add_trust (toy_trust R A 900 5) (toy_key R) (at_ 6); G_add_trust (toy_trust R B 900 5) (toy_key R) (at_ 6)].
Definition other_way : list graph_call := base ++ [G_add_trust (toy_trust R B 900 5) (toy_key R) (at_ 6); G_add_trust (toy_trust R A 900 5) (toy_key R) (at_ 6)].
(** Two trusts added in either order: different tables with the same contents. *)
Example e_C86_two_orders : db_of (after one_way) <> db_of (after other_way) /\ reachable (toy false) (db_of (after one_way)) /\
  reachable (toy false) (db_of (after other_way)) /\ same_contents (db_of (after one_way)) (db_of (after other_way)).
Proof.
  assert (T1 : Forall (call_typed W) one_way) by (unfold one_way, base; cbn [app]; typed1).
  assert (T2 : Forall (call_typed W) other_way) by (unfold other_way, base; cbn [app]; typed1).
  split; [intros X; vm_compute in X; discriminate X|]. split; [apply after_reachable; exact T1|]. split; [apply after_reachable; exact T2|].
  assert (R1 : rels (after one_way) = [RAuth (mk_auth (toy_trust R R 1000 1) (toy_key R)); RAuth (mk_auth (toy_trust R A 900 5) (toy_key R)); RAuth (mk_auth (toy_trust R B 900 5) (toy_key R))])
    by (vm_compute; reflexivity).
  assert (R2 : rels (after other_way) = [RAuth (mk_auth (toy_trust R R 1000 1) (toy_key R)); RAuth (mk_auth (toy_trust R B 900 5) (toy_key R)); RAuth (mk_auth (toy_trust R A 900 5) (toy_key R))])
    by (vm_compute; reflexivity).
  split.
  - intros x. rewrite (after_stored one_way x T1), (after_stored other_way x T2), R1, R2. cbn [In]. tauto.
  - intros k m. rewrite !root_max_len_factor. reflexivity.
Qed.

(** ** C63 *)
(** A stored relation was stored before, or a call of the history offered it with a good signature
    and, for a trust, before its expiry; it is stored with its times cut to whole seconds. *)
Lemma p_C63_stored_was_offered : forall C d es x, reachable C d -> typed_history C es -> stored (graph_history C d es) x ->
  stored d x \/ exists c fu y, In (c, fu) es /\ offers c y /\ genuine C c y /\ x = whole y.
Proof.
  intros C d es x R T Hx. apply reachable_inv in R. destruct R as (s & -> & I). destruct (gained C es s I T) as (s' & E & I' & G).
  rewrite E in Hx. apply (stored_in C) in Hx; [|apply I']. destruct (G x Hx) as [H|H]; [left|right; exact H]. apply (stored_in C); [apply I|exact H].
Qed.
(** The trust for B arrived with one of the calls. *)
Example e_C63_arrived : stored (db_of (after one_way)) (RAuth (mk_auth (toy_trust R B 900 5) (toy_key R))) /\
  genuine (toy false) (G_add_trust (toy_trust R B 900 5) (toy_key R) (at_ 6)) (RAuth (mk_auth (toy_trust R B 900 5) (toy_key R))).
Proof.
  assert (T1 : Forall (call_typed W) one_way) by (unfold one_way, base; cbn [app]; typed1).
  split; [exact (after_trust one_way (toy_key R) (toy_trust R B 900 5) T1 ltac:(in_tac))|].
  assert (V : trust_verify W (toy_trust R B 900 5) (toy_key R) (at_ 6) = Ok tt) by (vm_compute; reflexivity).
  apply trust_verify_exact in V. destruct V as [V1 V2]. split; [exact V2|]. exists (at_ 6). split; [reflexivity|exact V1].
Qed.

(** ** C64 *)
(** A relation leaves the store only when a call comes with a time at or after its expiry, or when a
    call offers a strictly newer relation of the same keys with a good signature. *)
Lemma p_C64_why_relations_leave : forall C d es x, reachable C d -> typed_history C es -> stored d x ->
  stored (graph_history C d es) x \/ exists c fu, In (c, fu) es /\
    ((exists now, call_time c = Some now /\ db_expired now x) \/
     (exists y, offers c y /\ genuine C c y /\ same_keys x y /\ before (rel_issued_at x) (rel_issued_at y))).
Proof.
  intros C d es x R T Hx. apply reachable_inv in R. destruct R as (s & -> & I). apply (stored_in C) in Hx; [|apply I].
  destruct (lost C es s x I T Hx) as (s' & E & I' & [H|H]); [left|right; exact H]. rewrite E. apply (stored_in C); [apply I'|exact H].
Qed.
(** A trust is stored, the newer revocation takes its place. *)
Example e_C64_replaced : stored (db_of (after short)) (RAuth (mk_auth (toy_trust R A 900 50) (toy_key R))) /\
  ~ stored (graph_history (toy false) (db_of (after short)) [(G_revoke (toy_rev R A 80), None)]) (RAuth (mk_auth (toy_trust R A 900 50) (toy_key R))).
Proof.
  split; [exact (after_trust short (toy_key R) (toy_trust R A 900 50) short_typed ltac:(in_tac))|].
  pose proof (after_inv short short_typed) as I. cbn [graph_history fold_left].
  rewrite (step_none_wf W (after short) (G_revoke (toy_rev R A 80)) (inv_wf W _ I) ltac:(typed1)). cbn [snd].
  rewrite (stored_in W).
  - vm_compute. intros [H|[H|[]]]; discriminate.
  - apply run_wf; [apply (inv_wf W _ I)|apply sem_writes; typed1].
Qed.

(** ** C87 *)
Lemma whole_keys : forall x y, same_keys x (whole y) <-> same_keys x y.
Proof. intros x [a|v]; reflexivity. Qed.
Lemma upd_again : forall C s x, wf C s -> rel_typed C x ->
  forall y, In y (upd (upd (rels s) x) x) <-> In y (upd (rels s) x).
Proof.
  intros C s x Wf T y.
  assert (Wf' : wf C (apply_w s (W_upd x))) by (apply apply_wf; assumption).
  pose proof (wf_nodup C _ Wf') as ND'. change (rels (apply_w s (W_upd x))) with (upd (rels s) x) in ND'.
  rewrite (in_upd (upd (rels s) x) x y ND'). pose proof (fun z => in_upd (rels s) x z (wf_nodup C s Wf)) as U.
  assert (Q : forall z, In z (upd (rels s) x) -> same_keys x z -> ~ before (rel_issued_at z) (rel_issued_at x) \/ z = whole x).
  { intros z Hz K. apply U in Hz. destruct Hz as [[X _]|[(_ & _ & X)|[X _]]]; [contradiction|left; exact X|right; exact X]. }
  split.
  - intros [[_ H]|[(_ & H & _)|[-> H]]]; [exact H|exact H|]. apply U.
    right; right. split; [reflexivity|]. intros z Hz K. destruct (before_dec (rel_issued_at z) (rel_issued_at x)) as [X|X]; [exact X|].
    exfalso. apply X. apply H; [|exact K]. apply U. right; left. auto.
  - intros H. destruct (same_pair x y) eqn:P.
    + apply same_pair_keys in P. destruct (Q y H P) as [X| ->]; [right; left; auto|].
      destruct (before_dec (rel_issued_at (whole x)) (rel_issued_at x)) as [X|X]; [|right; left; auto].
      right; right. split; [reflexivity|]. intros z Hz K. destruct (Q z Hz K) as [Y| ->]; [|exact X].
      exfalso. apply Y. assert (z = whole x) as ->; [|exact X].
      destruct K as [K1 K2]. destruct P as [P1 P2]. apply (pair_unique (upd (rels s) x)); try assumption; congruence.
    + left. split; [|exact H]. intros K. apply same_pair_keys in K. congruence.
Qed.

Lemma upd_again_alike : forall C s x, wf C s -> rel_typed C x ->
  alike C (apply_w s (W_upd x)) (apply_w (apply_w s (W_upd x)) (W_upd x)).
Proof.
  intros C s x Wf T. assert (Wf' : wf C (apply_w s (W_upd x))) by (apply apply_wf; assumption).
  split; [exact Wf'|apply apply_wf; assumption| |reflexivity]. intros y. symmetry. apply (upd_again C s x Wf T y).
Qed.
Lemma gc_alike : forall C s now, wf C s -> (forall x, In x (rels s) -> ~ db_expired now x) -> alike C s (apply_w s (W_gc now)).
Proof.
  intros C s now Wf N. split; [exact Wf|apply gc_wf; exact Wf| |reflexivity]. intros x. cbn [apply_w rels]. rewrite in_gc. split; [auto|tauto].
Qed.
Lemma alike_trans : forall C s1 s2 s3, alike C s1 s2 -> alike C s2 s3 -> alike C s1 s3.
Proof.
  intros C s1 s2 s3 [W1 W2 R F] [_ W3 R' F']. split; [exact W1|exact W3| |].
  - intros x. rewrite R. apply R'.
  - intros k. rewrite F. apply F'.
Qed.

(** Revoking again changes nothing. *)
Lemma p_C87_revoke_again : forall C d v d1 d2 r, reachable C d -> revocation_typed C v ->
  graph_step C d (G_revoke v, None) = (Ok GR_unit, d1) -> graph_step C d1 (G_revoke v, None) = (r, d2) ->
  r = Ok GR_unit /\ same_contents d1 d2.
Proof.
  intros C d v d1 d2 r R T E1 E2. apply reachable_inv in R. destruct R as (s & -> & I).
  assert (Tr : rel_typed C (RRev v)) by (apply revocation_rel_typed; exact T).
  rewrite (step_none_wf C s (G_revoke v) (inv_wf C s I) T) in E1. cbn [sem] in E1. unfold revoke_sem in E1.
  destruct (revocation_verify C v) as [u|e| |] eqn:V; try discriminate. cbn [map_ok fst snd run_ws fold_left] in E1. injection E1 as <-.
  change (mk_state (upd (rels s) (RRev v)) (roots s)) with (apply_w s (W_upd (RRev v))) in *.
  assert (Wf' : wf C (apply_w s (W_upd (RRev v)))) by (apply apply_wf; [apply I|exact Tr]).
  rewrite (step_none_wf C _ (G_revoke v) Wf' T) in E2. cbn [sem] in E2. unfold revoke_sem in E2. rewrite V in E2.
  cbn [map_ok fst snd run_ws fold_left] in E2. injection E2 as <- <-. split; [reflexivity|].
  apply (alike_contents C). apply upd_again_alike; [apply I|exact Tr].
Qed.
(** So does setting a root again, with whatever length. *)
Lemma p_C87_set_root_again : forall C d pk n n' d1 d2 r, reachable C d -> pk_valid C pk -> n < u32_bound -> n' < u32_bound ->
  graph_step C d (G_set_root pk n, None) = (Ok GR_unit, d1) -> graph_step C d1 (G_set_root pk n', None) = (r, d2) ->
  r = Ok GR_unit /\ same_contents d1 d2.
Proof.
  intros C d pk n n' d1 d2 r R V Hn Hn' E1 E2. apply reachable_inv in R. destruct R as (s & -> & I).
  assert (T1 : call_typed C (G_set_root pk n)) by (split; assumption). assert (T2 : call_typed C (G_set_root pk n')) by (split; assumption).
  rewrite (step_none_wf C s _ (inv_wf C s I) T1) in E1. cbn [sem fst snd run_ws fold_left] in E1. apply pair_equal_spec in E1. destruct E1 as [_ <-].
  assert (Ok1 : write_ok C (W_root pk (get_weight_factor n))) by (split; [exact V|unfold get_weight_factor, MAX_WEIGHT_FACTOR, u32_bound; lia]).
  assert (Ok2 : write_ok C (W_root pk (get_weight_factor n'))) by (split; [exact V|unfold get_weight_factor, MAX_WEIGHT_FACTOR, u32_bound; lia]).
  assert (Wf' : wf C (apply_w s (W_root pk (get_weight_factor n)))) by (apply apply_wf; [apply I|exact Ok1]).
  rewrite (step_none_wf C _ _ Wf' T2) in E2. cbn [sem fst snd run_ws fold_left] in E2. apply pair_equal_spec in E2. destruct E2 as [<- <-].
  split; [reflexivity|]. apply (alike_contents C). split; [exact Wf'|apply apply_wf; [exact Wf'|exact Ok2]|reflexivity|].
  intros k. cbn [apply_w roots]. rewrite !factor_app. cbn [fst snd]. destruct (root_factor (roots s) k); [reflexivity|].
  destruct (pk_eqb pk k); reflexivity.
Qed.
(** So does adding a trust again that has not expired, below 2^63 seconds. *)
Lemma p_C87_add_trust_again : forall C d t b now w d1 d2 r, reachable C d -> call_typed C (G_add_trust t b now) ->
  secs now < secs (expires_at t) < i64_bound ->
  graph_step C d (G_add_trust t b now, None) = (Ok (GR_weight w), d1) -> graph_step C d1 (G_add_trust t b now, None) = (r, d2) ->
  (exists w', r = Ok (GR_weight w')) /\ same_contents d1 d2.
Proof.
  intros C d t b now w d1 d2 r R T X E1 E2. apply reachable_inv in R. destruct R as (s & -> & I).
  pose proof T as (T1 & T2 & T3). pose proof (trust_rel_typed C t b T1 T2) as Tr.
  rewrite (step_none_wf C s _ (inv_wf C s I) T) in E1. cbn [sem] in E1. unfold add_trust_sem in E1.
  destruct (trust_verify C t b now) as [u|e| |] eqn:V; try (cbn in E1; discriminate). cbv zeta in E1.
  pose proof (gc_wf C s now (inv_wf C s I)) as Wg.
  assert (Ng : forall x, In x (rels (apply_w s (W_gc now))) -> ~ db_expired now x).
  { intros x Hx. cbn [apply_w rels] in Hx. apply in_gc in Hx. apply Hx. }
  destruct (next_weight_of (apply_w s (W_gc now)) b (issued_for t) =? 0) eqn:Z; cbn [map_ok fst snd] in E1; apply pair_equal_spec in E1;
    destruct E1 as [_ <-]; cbn [run_ws fold_left] in *.
  - rewrite (step_none_wf C _ _ Wg T) in E2. cbn [sem] in E2. unfold add_trust_sem in E2. rewrite V in E2. cbv zeta in E2.
    pose proof (gc_alike C _ now Wg Ng) as A. rewrite <- (alike_next_weight C _ _ b (issued_for t) A), Z in E2.
    cbn [map_ok fst snd run_ws fold_left] in E2. apply pair_equal_spec in E2. destruct E2 as [<- <-].
    split; [eexists; reflexivity|]. apply (alike_contents C). exact A.
  - set (s2 := apply_w (apply_w s (W_gc now)) (W_upd (RAuth (mk_auth t b)))) in *.
    assert (W2 : wf C s2) by (apply apply_wf; [exact Wg|exact Tr]).
    assert (N2 : forall x, In x (rels s2) -> ~ db_expired now x).
    { intros x Hx. unfold s2 in Hx. change (In x (upd (rels (apply_w s (W_gc now))) (RAuth (mk_auth t b)))) in Hx.
      apply in_upd in Hx; [|apply (wf_nodup C); exact Wg].
      destruct Hx as [[_ H]|[(_ & H & _)|[-> _]]]; [apply Ng; exact H|apply Ng; exact H|].
      cbn [whole]. intros D. apply db_expired_small in D; cbn [whole_trust expires_at from_secs secs auth_trust] in *; lia. }
    pose proof (gc_alike C s2 now W2 N2) as A.
    rewrite (step_none_wf C s2 _ W2 T) in E2. cbn [sem] in E2. unfold add_trust_sem in E2. rewrite V in E2. cbv zeta in E2.
    destruct (next_weight_of (apply_w s2 (W_gc now)) b (issued_for t) =? 0); cbn [map_ok fst snd run_ws fold_left] in E2;
      apply pair_equal_spec in E2; destruct E2 as [<- <-]; (split; [eexists; reflexivity|]); apply (alike_contents C); [exact A|].
    eapply alike_trans; [exact (upd_again_alike C (apply_w s (W_gc now)) _ Wg Tr)|]. apply alike_apply; [exact A|exact Tr].
Qed.
Definition round_trip : certificate := [toy_trust A A 900 1; toy_trust A R 900 1; toy_trust R D 900 1; toy_trust D A 900 1].
(** Refuted for certificates: a certificate whose last trust gives its first issuer a weight stores
    more when it is added again. *)
Lemma p_C87_add_again_refuted : exists C d c now d1 d2 x, crypto_laws C /\ reachable C d /\ call_typed C (G_add c now) /\
  (forall t, In t c -> secs now < secs (expires_at t) < i64_bound) /\
  graph_step C d (G_add c now, None) = (Ok GR_unit, d1) /\ graph_step C d1 (G_add c now, None) = (Ok GR_unit, d2) /\
  ~ stored d1 x /\ stored d2 x.
Proof.
  assert (T : call_typed W (G_add round_trip (at_ 5))) by (unfold round_trip; typed1).
  assert (T1 : Forall (call_typed W) (base ++ [G_add round_trip (at_ 5)])) by (unfold base, round_trip; cbn [app]; typed1).
  assert (T2 : Forall (call_typed W) (base ++ [G_add round_trip (at_ 5); G_add round_trip (at_ 5)])) by (unfold base, round_trip; cbn [app]; typed1).
  exists W, (db_of (after base)), round_trip, (at_ 5), (db_of (after (base ++ [G_add round_trip (at_ 5)]))),
    (db_of (after (base ++ [G_add round_trip (at_ 5); G_add round_trip (at_ 5)]))), (RAuth (mk_auth (toy_trust A A 900 1) (toy_key A))).
  split; [apply toy_laws|]. split; [apply after_reachable; exact base_typed|]. split; [exact T|].
  split; [intros t [<-|[<-|[<-|[<-|[]]]]]; split; reflexivity|].
  split; [vm_compute; reflexivity|]. split; [vm_compute; reflexivity|].
  rewrite (after_stored _ _ T1), (after_stored _ _ T2). split.
  - intros H. vm_compute in H. destruct H as [H|[H|[H|[]]]]; discriminate.
  - in_tac.
Qed.
(** A trust of the root, added twice. *)
Example e_C87_twice : call_typed (toy false) (G_add_trust (toy_trust R A 900 50) (toy_key R) (at_ 5)) /\ 5 < 900 < i64_bound /\
  answer_after (toy false) (db_of (after base)) [] (G_add_trust (toy_trust R A 900 50) (toy_key R) (at_ 5)) = Ok (GR_weight 16) /\
  answer_after (toy false) (db_of (after short)) [] (G_revoke (toy_rev R A 80)) = Ok GR_unit.
Proof. split; [typed1|]. split; [split; reflexivity|]. split; vm_compute; reflexivity. Qed.

Lemma verify_all_exact : forall C k m s, pk_verify C k m s = Ok tt <->
  (pk_fmt k <> Secp256k1 /\ scheme_accepts C k m (sig_raw s)) \/
  (pk_fmt k = Secp256k1 /\ len (sha256 C m) = 32 /\ secp_der C (sig_raw s) = true).
Proof.
  intros C k m s. assert (D : pk_fmt k = Secp256k1 \/ pk_fmt k <> Secp256k1) by (destruct (pk_fmt k); [right|right|left]; congruence).
  destruct D as [E|E].
  - rewrite (secp_verify_exact C k m s E). intuition congruence.
  - rewrite (ed_rsa_verify_exact C k m s E). intuition congruence.
Qed.
