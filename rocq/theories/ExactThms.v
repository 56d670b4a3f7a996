(** What exactly holds where a stronger property is false. PropsExact.v restates the lemmas [p_*] and [e_*]. *)
From Coq Require Import List NArith ZArith Bool Lia ZifyBool ZifyNat ZifyN.
From Coq Require String.
Import String.StringSyntax.
From Verif Require Import Base BaseFacts Text TextFacts Keys KeysFacts Trust TrustFacts Certificate CertFacts Relation
  Storage StorageFacts Graph SearchFacts PathFacts Service Spec SpecFacts GraphFacts StateFacts ChainFacts AddFacts ImportFacts HistFacts AlikeFacts
  ServiceSpec ServiceFacts Toy ToyFacts Witness MoreThms GraphThms ServiceWitness ServiceThms Aqua AquaSpec AquaFacts AquaThms AquaWitness AquaEx
  Boot BootSpec BootFacts Tools ToolsSpec ToolsThms ToolsEx.
Import ListNotations.
Open Scope N_scope.

(** ** C132 *)
Lemma fmt_text_inj : forall f g, fmt_text f = fmt_text g -> f = g.
Proof. intros [] []; cbn; intros H; (reflexivity || discriminate H). Qed.
(** The type a new trust record is given is the kind of the key the trust is for. *)
Lemma p_C132_trust_type : forall C d cp p e i b fu r d', service_step C d (cp, S_issue_trust p e i b, fu) = (Ok (mk_response true None (P_trust r)), d') ->
  d' = d /\ exists k, peer_key C p k /\ dt_sig_type r = fmt_text (pk_fmt k).
Proof.
  intros C d cp p e i b fu r d' E. rewrite service_plan in E. cbn [plan] in E. destruct (extract_cases C p) as [(k & X & K)|(x & X)]; rewrite X in E; cbn [bind carry_out] in E; [|discriminate E].
  apply pair_equal_spec in E. destruct E as [E <-]. injection E as <-. split; [reflexivity|]. exists k. split; [exact K|reflexivity].
Qed.
(** So it is the kind of the signature exactly if the keys of the issuer and of the subject are of the same kind. *)
Lemma p_C132_trust_type_right : forall C d cp kp p k e i m s fu r d', peer_key C p k -> kp_sign C kp m = Ok s ->
  service_step C d (cp, S_issue_trust p e i (sig_raw s), fu) = (Ok (mk_response true None (P_trust r)), d') ->
  (dt_sig_type r = fmt_text (sig_fmt s) <-> pk_fmt k = kp_fmt kp).
Proof.
  intros C d cp kp p k e i m s fu r d' K Es E. apply p_C132_trust_type in E. destruct E as (_ & k' & K' & ->). pose proof (peer_key_fun C p k k' K K') as <-.
  assert (sig_fmt s = kp_fmt kp) as ->.
  { unfold kp_sign in Es. destruct (kp_fmt kp); [injection Es as <-; reflexivity| |].
    - repeat match type of Es with (match ?x with _ => _ end) = _ => destruct x; try discriminate Es end; injection Es as <-; reflexivity.
    - repeat match type of Es with (match ?x with _ => _ end) = _ => destruct x; try discriminate Es end; cbv zeta in Es;
        repeat match type of Es with (if ?x then _ else _) = _ => destruct x; try discriminate Es end; injection Es as <-; reflexivity. }
  split; [apply fmt_text_inj|]. intros ->. reflexivity.
Qed.
(** A new revocation record has the kind of the revoker's signature. *)
Lemma p_C132_revocation_type : forall C d cp kp q p a m s fu r d', peer_key C q (kp_public C kp) -> kp_sign C kp m = Ok s ->
  service_step C d (cp, S_issue_revocation q p a (sig_raw s), fu) = (Ok (mk_response true None (P_revocation r)), d') ->
  d' = d /\ dr_sig_type r = fmt_text (sig_fmt s).
Proof.
  intros C d cp kp q p a m s fu r d' K Es E. rewrite service_plan in E. cbn [plan] in E.
  destruct (extract_cases C p) as [(k & X & Kp)|(x & X)]; rewrite X in E; cbn [bind carry_out] in E; [|discriminate E].
  destruct (extract_cases C q) as [(b & Y & Kb)|(x & Y)]; rewrite Y in E; cbn [bind carry_out] in E; [|discriminate E].
  apply pair_equal_spec in E. destruct E as [E <-]. injection E as <-. split; [reflexivity|]. cbn [dto_of_revocation dr_sig_type rev_sig sig_from_bytes sig_fmt].
  pose proof (peer_key_fun C q _ b K Kb) as <-. cbn [kp_public pk_fmt]. f_equal.
  unfold kp_sign in Es. unfold kp_public. destruct (kp_fmt kp) eqn:F; cbn; [injection Es as <-; reflexivity| |].
  - repeat match type of Es with (match ?x with _ => _ end) = _ => destruct x; try discriminate Es end; injection Es as <-; reflexivity.
  - repeat match type of Es with (match ?x with _ => _ end) = _ => destruct x; try discriminate Es end; cbv zeta in Es;
      repeat match type of Es with (if ?x then _ else _) = _ => destruct x; try discriminate Es end; injection Es as <-; reflexivity.
Qed.
(** An Ed25519 key signs a trust for a Secp256k1 key: the record says [secp256k1]. *)
Lemma p_C132_signature_type_refuted : exists C d cp kp p k e i m s r d', crypto_laws C /\ wasm32 C = true /\ kp_valid C kp /\ peer_key C p k /\
  service_step C d (cp, S_get_trust_bytes p e i, None) = (Ok (mk_response true None (P_bytes m)), d) /\ kp_sign C kp m = Ok s /\
  service_step C d (cp, S_issue_trust p e i (sig_raw s), None) = (Ok (mk_response true None (P_trust r)), d') /\
  dt_sig_type r <> fmt_text (sig_fmt s).
Proof.
  pose proof secp_pid_key as K. pose proof K as K'. apply extract_ok in K'.
  destruct (kp_sign_total (toy true) (toy_kp 1) (trust_signature_bytes (toy true) secp_key (from_secs 9) (from_secs 1)) (toy_laws true)) as [s Es]; [discriminate|].
  exists (toy true), base_store, script_call, (toy_kp 1), secp_pid, secp_key, 9, 1.
  exists (trust_signature_bytes (toy true) secp_key (from_secs 9) (from_secs 1)), s. eexists. eexists.
  split; [apply toy_laws|]. split; [reflexivity|]. split; [apply toy_kp_valid|]. split; [exact K|].
  split. { rewrite service_plan. cbn [plan]. rewrite K'. reflexivity. }
  split; [exact Es|].
  split. { rewrite service_plan. cbn [plan]. rewrite K'. reflexivity. }
  apply Ok_inj in Es. subst s. discriminate.
Qed.

(** ** C133 *)
(** An Ed25519 or Secp256k1 pair comes back from the bytes [to_vec] makes of it and from its secret. *)
Lemma p_C133_pair_comes_back : forall C kp, crypto_laws C -> kp_valid C kp -> kp_fmt kp <> Rsa ->
  exists b s, kp_to_vec C kp = Ok b /\ kp_from_vec C b (kp_fmt kp) = Ok kp /\
    kp_secret_bytes kp = Some s /\ kp_from_secret_key C s (kp_fmt kp) = Ok kp.
Proof.
  intros C kp L V N. assert (exists b, kp_to_vec C kp = Ok b) as (b & Eb) by (unfold kp_to_vec; destruct (kp_fmt kp); [eauto|congruence|eauto]).
  assert (exists s, kp_secret_bytes kp = Some s) as (s & Es) by (unfold kp_secret_bytes; destruct (kp_fmt kp); [eauto|congruence|eauto]).
  exists b, s. split; [exact Eb|]. split; [exact (kp_vec_roundtrip C kp b L V Eb)|]. split; [exact Es|exact (kp_secret_roundtrip C kp s V Es)].
Qed.
(** Reading any bytes as any kind of pair gives a pair or an error. *)
Lemma p_C133_no_panic : forall C b f,
  ((exists kp, kp_from_vec C b f = Ok kp) \/ (exists e, kp_from_vec C b f = Err e)) /\
  ((exists kp, kp_from_secret_key C b f = Ok kp) \/ (exists e, kp_from_secret_key C b f = Err e)).
Proof.
  intros C b f. unfold kp_from_vec, kp_from_secret_key, secp_from_bytes. destruct f; split;
    repeat match goal with |- context [if ?x then _ else _] => destruct x end; eauto.
Qed.
Example e_C133_pairs : kp_valid (toy true) (toy_kp 3) /\ kp_fmt (toy_kp 3) <> Rsa /\ kp_from_vec (toy true) [] Ed25519 = Err DE_InvalidLength /\
  kp_from_vec (toy true) [x01] Rsa = Err DE_KeypairDecodingIsNotSupported.
Proof. split; [apply toy_kp_valid|]. split; [discriminate|]. split; vm_compute; reflexivity. Qed.

(** ** C134 *)
Fixpoint links (b : public_key) (c : certificate) : list (trust * public_key) :=
  match c with [] => [] | t :: c' => (t, b) :: links (issued_for t) c' end.
Lemma links_chain : forall c t0 t b, nth_error c 0 = Some t0 -> In (t, b) (links (issued_for t0) c) -> in_chain c t b.
Proof.
  assert (G : forall c pre b0 t b, In (t, b) (links b0 c) -> key_at (pre ++ c) (length pre - 1) b0 \/ pre <> [] /\ (exists g, nth_error pre (length pre - 1) = Some g /\ issued_for g = b0) ->
    in_chain (pre ++ c) t b).
  { induction c as [|u c IH]; intros pre b0 t b H K; [destruct H|]. cbn [links] in H. destruct H as [H|H].
    - injection H as <- <-. exists (length pre). split; [unfold at_pos; rewrite nth_error_app2 by lia; rewrite PeanoNat.Nat.sub_diag; reflexivity|].
      destruct K as [K|(Np & g & Hg & <-)]; [exact K|]. exists g. split; [|reflexivity]. unfold at_pos.
      rewrite nth_error_app1; [exact Hg|]. destruct pre; [congruence|cbn; lia].
    - replace (pre ++ u :: c) with ((pre ++ [u]) ++ c) by (rewrite <- app_assoc; reflexivity). apply (IH (pre ++ [u]) (issued_for u)); [exact H|]. right.
      split; [destruct pre; discriminate|]. exists u. split; [|reflexivity]. rewrite app_length. cbn [length].
      replace (length pre + 1 - 1)%nat with (length pre) by lia. rewrite nth_error_app2 by lia. rewrite PeanoNat.Nat.sub_diag. reflexivity. }
  intros c t0 t b H0 H. apply (G c [] (issued_for t0)); [exact H|]. left. exists t0. split; [exact H0|reflexivity].
Qed.
(** Storing [x] again changes nothing. *)
Definition absorbed (s : state) (x : relation) : Prop :=
  exists y, In y (rels s) /\ same_keys x y /\ (y = whole x \/ ~ before (rel_issued_at y) (rel_issued_at x)).
Lemma absorbed_alike : forall C s x, wf C s -> rel_typed C x -> absorbed s x -> alike C s (apply_w s (W_upd x)).
Proof.
  intros C s x Wf T (y & Hy & Ky & D). split; [exact Wf|apply apply_wf; [exact Wf|exact T]| |reflexivity].
  intros z. cbn [apply_w rels]. rewrite (in_upd (rels s) x z (wf_nodup C s Wf)).
  assert (U : forall u, In u (rels s) -> same_keys x u -> u = y).
  { intros u Hu [K1 K2]. destruct Ky as [Y1 Y2]. apply (pair_unique (rels s)); try assumption; [apply (wf_nodup C s Wf)| |]; congruence. }
  split.
  - intros Hz. destruct (same_pair x z) eqn:P.
    + apply same_pair_keys in P. pose proof (U z Hz P) as ->. destruct D as [->|D]; [|right; left; auto].
      destruct (before_dec (rel_issued_at (whole x)) (rel_issued_at x)) as [B|B]; [|right; left; auto].
      right; right. split; [reflexivity|]. intros u Hu Ku. rewrite (U u Hu Ku). exact B.
    + left. split; [|exact Hz]. intros K. apply same_pair_keys in K. congruence.
  - intros [[_ H]|[(_ & H & _)|[-> H]]]; [exact H|exact H|]. destruct D as [<-|D]; [exact Hy|]. elim D. apply H; assumption.
Qed.
Lemma alike_refl : forall C s, wf C s -> alike C s s.
Proof. intros C s Wf. split; auto; reflexivity. Qed.
Lemma absorbed_alike_iff : forall C s s' x, alike C s s' -> absorbed s x -> absorbed s' x.
Proof. intros C s s' x A (y & Hy & K). exists y. split; [apply (al_rels _ _ _ A); exact Hy|exact K]. Qed.
(** Adding links that are all absorbed, to a state without expired trusts. *)
Lemma chain_again : forall C now c s b, wf C s -> Forall (trust_typed C) c -> pk_valid C b -> (forall x, In x (rels s) -> ~ db_expired now x) ->
  (forall t a, In (t, a) (links b c) -> trust_verify C t a now = Ok tt /\ absorbed s (RAuth (mk_auth t a))) ->
  fst (add_chain_sem C s c b now) = Ok tt /\ alike C s (run_ws (snd (add_chain_sem C s c b now)) s).
Proof.
  intros C now. induction c as [|t c IH]; intros s b Wf F V N H; cbn [add_chain_sem].
  { split; [reflexivity|]. apply alike_refl. exact Wf. }
  inversion F as [|? ? Tt Fc]; subst. destruct (H t b) as [Vt At]; [left; reflexivity|].
  pose proof (trust_rel_typed C t b Tt V) as Tr.
  assert (E : exists w ws, add_trust_sem C s t b now = (Ok w, ws) /\ alike C s (run_ws ws s)).
  { unfold add_trust_sem. rewrite Vt. cbv zeta. pose proof (gc_alike C s now Wf N) as A.
    destruct (next_weight_of (apply_w s (W_gc now)) b (issued_for t) =? 0); eexists; eexists; (split; [reflexivity|]); [exact A|].
    change (alike C s (apply_w (apply_w s (W_gc now)) (W_upd (RAuth (mk_auth t b))))). eapply alike_trans; [exact A|].
    apply absorbed_alike; [apply gc_wf; exact Wf|exact Tr|]. eapply absorbed_alike_iff; [exact A|exact At]. }
  destruct E as (w & ws & E & A). rewrite E. destruct (IH (run_ws ws s) (issued_for t)) as [I1 I2].
  - apply A.
  - exact Fc.
  - apply Tt.
  - intros x Hx. apply N. apply (al_rels _ _ _ A). exact Hx.
  - intros u a Hu. destruct (H u a) as [H1 H2]; [right; exact Hu|]. split; [exact H1|]. eapply absorbed_alike_iff; [exact A|exact H2].
  - destruct (add_chain_sem C (run_ws ws s) c (issued_for t) now) as [r ws']. cbn [fst snd] in *. split; [exact I1|].
    rewrite run_ws_app. eapply alike_trans; [exact A|exact I2].
Qed.
(** A certificate that was added has good links, and leaves no expired trusts. *)
Lemma chain_added : forall C now c s b, wf C s -> Forall (trust_typed C) c -> pk_valid C b -> (forall t, In t c -> secs now < secs (expires_at t) < i64_bound) ->
  fst (add_chain_sem C s c b now) = Ok tt ->
  (forall t a, In (t, a) (links b c) -> trust_verify C t a now = Ok tt) /\ wf C (run_ws (snd (add_chain_sem C s c b now)) s) /\
  (c <> [] \/ (forall x, In x (rels s) -> ~ db_expired now x) -> forall x, In x (rels (run_ws (snd (add_chain_sem C s c b now)) s)) -> ~ db_expired now x).
Proof.
  intros C now. induction c as [|t c IH]; intros s b Wf F V X E; cbn [add_chain_sem] in *.
  { split; [intros ? ? []|]. split; [exact Wf|]. intros [Z|Z]; [congruence|exact Z]. }
  inversion F as [|? ? Tt Fc]; subst. pose proof (trust_rel_typed C t b Tt V) as Tr. unfold add_trust_sem in *.
  destruct (trust_verify C t b now) as [[]|e| |] eqn:Vt; try discriminate E. cbv zeta in *.
  pose proof (gc_wf C s now Wf) as Wg.
  assert (Ng : forall x, In x (rels (apply_w s (W_gc now))) -> ~ db_expired now x).
  { intros x Hx. cbn [apply_w rels] in Hx. apply in_gc in Hx. apply Hx. }
  assert (W2 : wf C (apply_w (apply_w s (W_gc now)) (W_upd (RAuth (mk_auth t b))))) by (apply apply_wf; [exact Wg|exact Tr]).
  assert (N2 : forall x, In x (rels (apply_w (apply_w s (W_gc now)) (W_upd (RAuth (mk_auth t b))))) -> ~ db_expired now x).
  { intros x Hx. change (In x (upd (rels (apply_w s (W_gc now))) (RAuth (mk_auth t b)))) in Hx.
    apply in_upd in Hx; [|apply (wf_nodup C); exact Wg].
    destruct Hx as [[_ H]|[(_ & H & _)|[-> _]]]; [apply Ng; exact H|apply Ng; exact H|].
    pose proof (X t (or_introl eq_refl)) as Xt. cbn [whole]. intros D. apply db_expired_small in D; cbn [whole_trust expires_at from_secs secs auth_trust] in *; lia. }
  assert (Xc : forall u, In u c -> secs now < secs (expires_at u) < i64_bound) by (intros u Hu; apply X; right; exact Hu).
  destruct (next_weight_of (apply_w s (W_gc now)) b (issued_for t) =? 0) eqn:Z.
  - specialize (IH (run_ws [W_gc now] s) (issued_for t) Wg Fc (proj1 Tt) Xc).
    destruct (add_chain_sem C (run_ws [W_gc now] s) c (issued_for t) now) as [r ws']. cbn [fst snd] in *. destruct (IH E) as (I1 & I2 & I3).
    rewrite run_ws_app. split; [|split; [exact I2|]].
    + intros u a [H|H]; [injection H as <- <-; exact Vt|apply I1; exact H].
    + intros _. apply I3. right. exact Ng.
  - specialize (IH (run_ws [W_gc now; W_upd (RAuth (mk_auth t b))] s) (issued_for t) W2 Fc (proj1 Tt) Xc).
    destruct (add_chain_sem C (run_ws [W_gc now; W_upd (RAuth (mk_auth t b))] s) c (issued_for t) now) as [r ws']. cbn [fst snd] in *. destruct (IH E) as (I1 & I2 & I3).
    rewrite run_ws_app. split; [|split; [exact I2|]].
    + intros u a [H|H]; [injection H as <- <-; exact Vt|apply I1; exact H].
    + intros _. apply I3. right. exact N2.
Qed.
(** A certificate is added. If afterwards every trust of it is stored, or something as new from the same issuer about the same key,
    then adding it again succeeds and changes nothing. *)
Lemma p_C134_add_again : forall C d c now d1 d2 r, reachable C d -> call_typed C (G_add c now) ->
  (forall t, In t c -> secs now < secs (expires_at t) < i64_bound) ->
  graph_step C d (G_add c now, None) = (Ok GR_unit, d1) ->
  (forall t b, in_chain c t b -> exists y, stored d1 y /\ same_keys (RAuth (mk_auth t b)) y /\ (y = whole (RAuth (mk_auth t b)) \/ ~ before (rel_issued_at y) (issued_at t))) ->
  graph_step C d1 (G_add c now, None) = (r, d2) -> r = Ok GR_unit /\ same_contents d1 d2.
Proof.
  intros C d c now d1 d2 r R T X E1 Ab E2. apply reachable_inv in R. destruct R as (s & -> & I). pose proof (inv_wf C s I) as Wf.
  rewrite (step_none_wf C s _ Wf T) in E1. cbn [sem] in E1. unfold add_sem in E1. destruct c as [|t0 c']; [discriminate E1|]. set (c := t0 :: c') in *.
  pose proof T as [Ft Tn]. assert (V0 : pk_valid C (issued_for t0)) by (inversion Ft; subst; apply H1).
  pose proof (chain_added C now c s (issued_for t0) Wf Ft V0 X) as A1.
  destruct (add_chain_sem C s c (issued_for t0) now) as [r1 ws]. cbn [fst snd] in *.
  apply pair_equal_spec in E1. destruct E1 as [E1 <-]. destruct r1 as [[]|e| |]; try discriminate E1. destruct (A1 eq_refl) as (Vs & W1 & N1).
  assert (Nc : c <> []) by (unfold c; congruence). specialize (N1 (or_introl Nc)). set (s1 := run_ws ws s) in *.
  assert (R1 : forall y, stored (db_of s1) y -> In y (rels s1)) by (intros y; apply (stored_in C s1 y W1)).
  destruct (chain_again C now c s1 (issued_for t0) W1 Ft V0 N1) as [B1 B2].
  { intros t a H. split; [apply Vs; exact H|]. destruct (Ab t a) as (y & Hy & K & D); [eapply links_chain; [reflexivity|exact H]|].
    exists y. split; [apply R1; exact Hy|]. split; [exact K|]. exact D. }
  rewrite (step_none_wf C s1 _ W1 T) in E2. cbn [sem] in E2. unfold add_sem in E2. fold c in E2. cbv beta iota in E2. change (match c with [] => (Err GE_EmptyChain, []) | t :: _ => add_chain_sem C s1 c (issued_for t) now end)
    with (add_chain_sem C s1 c (issued_for t0) now) in E2.
  destruct (add_chain_sem C s1 c (issued_for t0) now) as [r2 ws2]. cbn [fst snd] in *. subst r2. apply pair_equal_spec in E2. destruct E2 as [<- <-].
  split; [reflexivity|]. apply (alike_contents C). exact B2.
Qed.
(** Key R, the root, trusts A and A trusts B. The certificate is added and all of it is stored. *)
Definition stays : certificate := [toy_trust R R 1000 1; toy_trust R A 900 1; toy_trust A B 800 1].
Example e_C134_stored : call_typed (toy false) (G_add stays (at_ 5)) /\ (forall t, In t stays -> 5 < secs (expires_at t) < i64_bound) /\
  graph_step (toy false) (db_of (after base)) (G_add stays (at_ 5), None) = (Ok GR_unit, db_of (after (base ++ [G_add stays (at_ 5)]))) /\
  forall t b, in_chain stays t b -> stored (db_of (after (base ++ [G_add stays (at_ 5)]))) (whole (RAuth (mk_auth t b))).
Proof.
  assert (T : call_typed W (G_add stays (at_ 5))) by (unfold stays; typed1).
  assert (T1 : Forall (call_typed W) (base ++ [G_add stays (at_ 5)])) by (unfold base, stays; cbn [app]; typed1).
  split; [exact T|]. split; [intros t [<-|[<-|[<-|[]]]]; split; reflexivity|]. split; [vm_compute; reflexivity|].
  intros t b (i & Ht & g & Hg & <-). rewrite (after_stored _ _ T1). unfold at_pos in *.
  destruct i as [|[|[|i]]]; cbn in Ht, Hg; [| | |destruct i; discriminate Ht]; injection Ht as <-; injection Hg as <-; in_tac.
Qed.

(** ** C135 *)
(** Databases do not fail. An error of [add_root_trust] means that nothing was stored; at most the key became a root, and only the
    owner can bring that about. *)
Lemma p_C135_error_leaves : forall C net src node p n e i now st x st', crypto_laws C -> wasm32 C = true -> network_state C st -> no_faults net ->
  n < u32_bound -> e < u64_bound -> i < u64_bound -> now < u64_bound ->
  aq_add_root_trust C net src node p n e i now st = (Ok [x], st') ->
  only_at node st st' /\ (unchanged st st' \/ (owns net node /\ exists k, peer_key C p k /\ root_set (st node) k (N.min n 16) (st' node))).
Proof.
  intros C net src node p n e i now st x st' L W N F Bm Be Bi Bn E. unfold aq_add_root_trust, sbind in E.
  destruct (aq_issue_trust C net src p p e i st) as [r1 st1] eqn:E1. apply issue_trust_step in E1. destruct E1 as [U1 E1].
  assert (Un : forall s s' : stores, unchanged s s' -> only_at node s s') by (intros s s' U m _; apply U).
  destruct E1 as [(k & s & K & G & ->)|[(k & _ & _ & ->)|(_ & y & ->)]]; cbn [fst snd bang] in E.
  2,3: unfold sret in E; apply pair_equal_spec in E; destruct E as [_ <-]; split; [apply Un; exact U1|left; exact U1].
  pose proof (network_unchanged C _ _ U1 N) as N1.
  destruct (aq_set_root C net src node p n st1) as [r0 st0] eqn:E0.
  pose proof E0 as E0'. unfold aq_set_root in E0'. apply call_network with (C := C) in E0'; [|exact Bm|exact N1]. destruct E0' as [N0 _].
  apply set_root_step in E0; try assumption; [|apply N1].
  assert (Kv : pk_valid C k) by (eapply peer_key_valid; eassumption).
  destruct E0 as (O0 & resp & -> & [(Su & Ow & k' & K' & Tk & Gr)|(Su & (y & Ex) & [(U0 & _)|(k0 & y0 & K0 & _ & Gr)])]); rewrite Su in E.
  2:{ unfold sret in E. apply pair_equal_spec in E. destruct E as [_ <-]. pose proof (unchanged_trans _ _ _ U1 U0) as U. split; [apply Un; exact U|left; exact U]. }
  2:{ exfalso. pose proof (peer_key_fun C p k k0 K K0) as <-. rewrite F in Gr.
      destruct (reachable_inv C _ (service_reachable_graph C _ L (N1 node))) as (sx & Es & I). rewrite Es in Gr.
      rewrite (step_none C sx _ I) in Gr by (split; [exact Kv|exact Bm]). cbn [sem] in Gr. discriminate Gr. }
  pose proof (peer_key_fun C p k k' K K') as <-.
  match type of E with context [aq_import_trust C net node ?o ?oi ?x p now st0] => destruct (aq_import_trust C net node o oi x p now st0) as [r2 st2] eqn:E2 end.
  apply import_trust_step in E2; try assumption; [|apply N0|split; [exact Be|exact Bi]].
  pose proof (service_reachable_graph C _ L (N1 node)) as R1. apply (p_C40_set_root_exact C _ _ _ _ _ R1 Tk) in Gr. rewrite U1 in Gr.
  assert (Fin : unchanged st0 st2 -> only_at node st st2 /\ (unchanged st st2 \/ (owns net node /\ exists k, peer_key C p k /\ root_set (st node) k (N.min n 16) (st2 node)))).
  { intros U2. split; [intros m Hm; rewrite U2, O0 by exact Hm; apply U1|]. right. split; [exact Ow|]. exists k. split; [exact K|]. rewrite U2. exact Gr. }
  destruct E2 as [O2 [(-> & _)|[(t & b & z & -> & Rt & B & Hi' & Tg & Gs)|(U2 & (z & ->) & Nn)]]];
    cbn [append_error] in E; unfold sret in E; apply pair_equal_spec in E; destruct E as [E <-]; [discriminate E| |apply Fin; exact U2].
  apply Fin. rewrite F in Gs. pose proof (service_reachable_graph C _ L (N0 node)) as Rg. destruct (p_C38_add_trust_exact C _ _ _ _ Rg Tg) as [X Y].
  destruct (trust_verify_total C t b (from_secs now)) as [Vt|(z' & Vt)].
  - exfalso. destruct (Y Vt) as (w0 & d1 & w' & d2 & _ & Z & _). rewrite Z in Gs. discriminate Gs.
  - rewrite (X _ Vt) in Gs. apply pair_equal_spec in Gs. destruct Gs as [_ Gs]. intros m. destruct (list_eq_dec Byte.byte_eq_dec m node) as [->|Hm]; [symmetry; exact Gs|]. apply O2. exact Hm.
Qed.
(** With a Sig service that signs for the key the owner gets an error exactly if the clock of the node says that the trust is made
    in the future or expired, and then the key is a root without its own trust. *)
Lemma p_C135_owner_exact : forall C net src node p kp n e i now st r st', crypto_laws C -> wasm32 C = true -> network_state C st ->
  n < u32_bound -> e < u64_bound -> i < u64_bound -> now < u64_bound -> signer C net p kp -> no_faults net -> owns net node ->
  aq_add_root_trust C net src node p n e i now st = (r, st') ->
  ((i <= now /\ now <= e) /\ r = Ok []) \/
  (~ (i <= now /\ now <= e) /\ (exists x, r = Ok [x]) /\ only_at node st st' /\ root_set (st node) (kp_public C kp) (N.min n 16) (st' node)).
Proof.
  intros C net src node p kp n e i now st r st' L W N Bm Be Bi Bn Sg F Ow E.
  assert (D : (i <= now /\ now <= e) \/ ~ (i <= now /\ now <= e)) by lia. destruct D as [D|D].
  { left. split; [exact D|]. destruct D as [D1 D2]. exact (p_C90_add_root_trust_completes C net src node p kp n e i now st r st' L W N Bm Be Bi Bn Sg F Ow D1 D2 E). }
  right. split; [exact D|]. pose proof E as Eall. unfold aq_add_root_trust, sbind in E.
  pose proof (proj1 (proj2 Sg)) as K. pose proof (peer_key_valid C p _ L K) as Kv.
  destruct (sign_trust_good C net p kp _ e i L W Sg Kv) as (s & G & A). set (k := kp_public C kp) in *.
  destruct (aq_issue_trust C net src p p e i st) as [r1 st1] eqn:E1. apply issue_trust_step in E1. destruct E1 as [U1 E1].
  destruct E1 as [(k' & s' & K' & G' & ->)|[(k' & K' & G' & ->)|(Nk & _)]]; [| |exfalso; exact (Nk k K)];
    pose proof (peer_key_fun C p k k' K K') as <-; rewrite G in G'; [|discriminate G']. injection G' as <-. cbn [fst snd bang] in E.
  pose proof (network_unchanged C _ _ U1 N) as N1.
  destruct (aq_set_root C net src node p n st1) as [r0 st0] eqn:E0.
  pose proof E0 as E0'. unfold aq_set_root in E0'. apply call_network with (C := C) in E0'; [|exact Bm|exact N1]. destruct E0' as [N0 _].
  apply set_root_step in E0; try assumption; [|apply N1].
  destruct E0 as (O0 & resp & -> & [(Su & _ & k2 & K2 & Tk & Gr)|(Su & (x & Ex) & [(_ & Nk)|(k0 & y & K0 & _ & Gr)])]); rewrite Su in E.
  2:{ exfalso. exact (Nk Ow k K). }
  2:{ exfalso. pose proof (peer_key_fun C p k k0 K K0) as <-. rewrite F in Gr.
      destruct (reachable_inv C _ (service_reachable_graph C _ L (N1 node))) as (sx & Es & I). rewrite Es in Gr.
      rewrite (step_none C sx _ I) in Gr by (split; [exact Kv|exact Bm]). cbn [sem] in Gr. discriminate Gr. }
  pose proof (peer_key_fun C p k k2 K K2) as <-.
  match type of E with context [aq_import_trust C net node ?o ?oi ?x p now st0] => destruct (aq_import_trust C net node o oi x p now st0) as [r2 st2] eqn:E2 end.
  assert (Ty : dto_trust_typed (dto_of_trust C (mk_trust k (from_secs e) (sig_from_bytes (pk_fmt k) s) (from_secs i)))) by (split; assumption).
  apply import_trust_step in E2; try assumption; [|apply N0].
  pose proof (service_reachable_graph C _ L (N1 node)) as R1. apply (p_C40_set_root_exact C _ _ _ _ _ R1 Tk) in Gr. rewrite U1 in Gr.
  assert (Fin : unchanged st0 st2 -> only_at node st st2 /\ root_set (st node) k (N.min n 16) (st2 node)).
  { intros U2. split; [intros m Hm; rewrite U2, O0 by exact Hm; apply U1|]. rewrite U2. exact Gr. }
  destruct E2 as [O2 [(-> & t & b & w & Rt & B & Hi' & Tg & Gs)|[(t & b & x & -> & Rt & B & Hi' & Tg & Gs)|(U2 & (x & ->) & Nn)]]];
    cbn [append_error] in E; unfold sret in E; apply pair_equal_spec in E; destruct E as [<- <-].
  - exfalso. pose proof (made_trust_back _ _ _ _ _ _ L W Kv Rt) as ->. cbn [dto_of_trust dt_issued_at issued_at secs from_secs] in Hi'.
    apply graph_add_ok in Gs; [|apply (service_reachable_graph C _ L (N0 node))|exact Tg]. destruct Gs as (_ & Ex & _). cbn [expires_at] in Ex.
    apply D. split; [exact Hi'|]. destruct (N.le_gt_cases now e) as [Z|Z]; [exact Z|]. exfalso. apply Ex. left. exact Z.
  - split; [eexists; reflexivity|]. apply Fin. rewrite F in Gs. pose proof (service_reachable_graph C _ L (N0 node)) as Rg. destruct (p_C38_add_trust_exact C _ _ _ _ Rg Tg) as [X Y].
    destruct (trust_verify_total C t b (from_secs now)) as [Vt|(z' & Vt)].
    + exfalso. destruct (Y Vt) as (w0 & d1 & w' & d2 & _ & Z & _). rewrite Z in Gs. discriminate Gs.
    + rewrite (X _ Vt) in Gs. apply pair_equal_spec in Gs. destruct Gs as [_ Gs]. intros m. destruct (list_eq_dec Byte.byte_eq_dec m node) as [->|Hm]; [symmetry; exact Gs|]. apply O2. exact Hm.
  - split; [eexists; reflexivity|]. apply Fin. exact U2.
Qed.
(** The owner, with the clock of the relay ahead. *)
Example e_C135_hypotheses : owns (toy_net owner_peer) host_peer /\ no_faults (toy_net owner_peer) /\ signer (toy true) (toy_net owner_peer) (pid 3) (toy_kp 3) /\
  told (aq_add_root_trust (toy true) (toy_net owner_peer) typed_in host_peer (pid 3) 4 800 7 6 toy_stores) = Some [AE_service (Some SVE_InvalidTimestamp)].
Proof.
  split; [reflexivity|]. split; [intros n c; reflexivity|]. split; [exact (toy_signer owner_peer (pid 3) (toy_key 3) (pid_key 3) eq_refl)|]. vm_compute. reflexivity.
Qed.

(** ** C136 *)
(** [get_weight_from] for two peer ids with keys: it answers as the graph of the node does if the issuer is said to come from the
    clock of the node; else it is refused and nothing changes. *)
Lemma p_C136_get_weight_from : forall C net src node p k q b now st r st', crypto_laws C -> wasm32 C = true -> network_state C st -> now < u64_bound ->
  peer_key C p k -> peer_key C q b -> aq_get_weight_from C net src node p q now st = (r, st') ->
  ((exists ts, src 1%nat = mk_tetraplet node (str "peer") (str "timestamp_sec") :: ts) /\
     answers_as C net node (S_get_weight_from p q now) (G_weight_from k b (from_secs now)) st st' r) \/
  ((forall ts, src 1%nat <> mk_tetraplet node (str "peer") (str "timestamp_sec") :: ts) /\
     r = Ok (mk_response false (Some SVE_InvalidTimestampTetraplet) (P_weight 0 [])) /\ unchanged st st').
Proof.
  intros C net src node p k q b now st r st' L W N Bn K B E.
  assert (D : (exists ts, src 1%nat = mk_tetraplet node (str "peer") (str "timestamp_sec") :: ts) \/ (forall ts, src 1%nat <> mk_tetraplet node (str "peer") (str "timestamp_sec") :: ts)).
  { destruct (src 1%nat) as [|[x y z] ts]; [right; discriminate|].
    destruct (list_eq_dec Byte.byte_eq_dec x node) as [->|H]; [|right; intros u Z; injection Z; intros; congruence].
    destruct (list_eq_dec Byte.byte_eq_dec y (str "peer")) as [->|H]; [|right; intros u Z; injection Z; intros; congruence].
    destruct (list_eq_dec Byte.byte_eq_dec z (str "timestamp_sec")) as [->|H]; [|right; intros u Z; injection Z; intros; congruence].
    left. exists ts. reflexivity. }
  destruct D as [(ts & D)|D]; [left|right].
  - split; [exists ts; exact D|]. eapply p_C98_get_weight_from_answers_partial; eassumption.
  - split; [exact D|]. eapply p_C98_get_weight_from_refused; eassumption.
Qed.
Example e_C136_both : option_map reply (told (aq_get_weight_from (toy true) (toy_net stranger_peer) (fun _ => clock_of host_peer) host_peer (pid 2) (pid 1) 6 toy_stores)) =
    Some (P_weight 16 (pid 2)) /\
  option_map reply (told (aq_get_weight_from (toy true) (toy_net stranger_peer) typed_in host_peer (pid 2) (pid 1) 6 toy_stores)) = Some (P_weight 0 []).
Proof. split; vm_compute; reflexivity. Qed.

(** ** C137 *)
(** The relay stores a revocation of the client. If the client's computation runs, then the relay has a chain to the node with the
    client in it, in which the client trusts the node itself or the revoker does not stand before the client. *)
Lemma p_C137_revoked_runs : forall C net o node k b v now st st', crypto_laws C -> wasm32 C = true -> network_state C st -> now < u64_bound -> no_faults net ->
  peer_key C node k -> peer_key C (initiator net) b -> stored_revocation (st (relay net)) v -> rev_pk v = b ->
  trusted_computation C net o node now st = (Ok ran, st') ->
  exists c n, root_chain (st' (relay net)) k c /\ key_at c n b /\
    ((exists t, stored_trust (st' (relay net)) b t /\ issued_for t = k) \/ forall i, key_at c i (revoked_by v) -> ~ (i < n)%nat).
Proof.
  intros C net o node k b v now st st' L W N Bn NF Hk Hb Sv Ev E.
  destruct (do_compute C net o node k b now st (Ok ran) st' L W N Bn NF Hk Hb E) as (_ & [Cr Cs] & [[_ X]|[Z _]]); [|discriminate Z].
  destruct X as (c & Rc & Q & n & Kn). exists c, n. split; [exact Rc|]. split; [exact Kn|].
  assert (Sv' : stored_revocation (st' (relay net)) v) by (apply (Cs (RRev v)); split; [exact Sv|intros []]).
  destruct (Nat.eq_dec (n + 2) (length c)) as [D|D].
  - left. destruct Rc as (_ & (t & Ht & Et) & _ & Rs & _). destruct Kn as (g & Hg & <-). unfold at_pos in *.
    replace (length c - 1)%nat with (S n) in Ht by lia. exists t. split; [exact (Rs n g t Hg Ht)|exact Et].
  - right. intros i Ki Lt. apply D. apply (Q i n). split; [exact Lt|]. exists v. split; [exact Sv'|]. split; [exact Ki|]. rewrite Ev. exact Kn.
Qed.
(** So a revoked client is refused on every node it does not trust itself, if every chain that leads over the client leads over the
    revoker first. *)
Lemma p_C137_revoked_refused : forall C net o node k b v now st r st', crypto_laws C -> wasm32 C = true -> network_state C st -> now < u64_bound -> no_faults net ->
  peer_key C node k -> peer_key C (initiator net) b -> stored_revocation (st (relay net)) v -> rev_pk v = b ->
  (forall t, stored_trust (st' (relay net)) b t -> issued_for t <> k) ->
  (forall c n, root_chain (st' (relay net)) k c -> key_at c n b -> exists i, (i < n)%nat /\ key_at c i (revoked_by v)) ->
  trusted_computation C net o node now st = (r, st') -> r = Ok refused.
Proof.
  intros C net o node k b v now st r st' L W N Bn NF Hk Hb Sv Ev Nt Over E.
  destruct (do_compute C net o node k b now st r st' L W N Bn NF Hk Hb E) as (_ & _ & [[-> X]|[-> _]]); [|reflexivity]. exfalso.
  destruct (p_C137_revoked_runs C net o node k b v now st st' L W N Bn NF Hk Hb Sv Ev E) as (c & n & Rc & Kn & [(t & St & Et)|D]).
  - exact (Nt t St Et).
  - destruct (Over c n Rc Kn) as (i & Lt & Ki). exact (D i Ki Lt).
Qed.
(** Key 1, the only root, has revoked client 3. The client's computations run on node 4, which it trusts, and not on node 3. *)
Definition revoked_client_stores : stores := snd (aq_revoke (toy true) (toy_net (pid 1)) typed_in (pid 6) (pid 1) (pid 3) 7 8 delegation_stores).
Example e_C137_hypotheses : network_state (toy true) revoked_client_stores /\ no_faults (toy_net (pid 3)) /\
  (exists v, stored_revocation (revoked_client_stores (relay (toy_net (pid 3)))) v /\ rev_pk v = toy_key 3 /\ revoked_by v = toy_key 1) /\
  fst (trusted_computation (toy true) (toy_net (pid 3)) [from_script] (pid 4) 9 revoked_client_stores) = Ok ran /\
  fst (trusted_computation (toy true) (toy_net (pid 3)) [from_script] (pid 3) 9 revoked_client_stores) = Ok refused.
Proof.
  split.
  - unfold revoked_client_stores. destruct (aq_revoke (toy true) (toy_net (pid 1)) typed_in (pid 6) (pid 1) (pid 3) 7 8 delegation_stores) as [r st1] eqn:E.
    assert (Sg : signer (toy true) (toy_net (pid 1)) (initiator (toy_net (pid 1))) (toy_kp 1)) by exact (toy_signer (pid 1) (pid 1) (toy_key 1) (pid_key 1) eq_refl).
    apply (do_revoke (toy true) (toy_net (pid 1)) typed_in (toy_kp 1) (pid 3) (toy_key 3) 7 8 delegation_stores r st1); try reflexivity; try assumption;
      [apply toy_laws|exact delegation_ok|intros n c; reflexivity|apply pid_key|discriminate].
  - split; [intros n c; reflexivity|]. split; [|split; vm_compute; reflexivity].
    exists (toy_rev 1 3 7). split; [|split; reflexivity]. vm_compute. intuition discriminate.
Qed.
