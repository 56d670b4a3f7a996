(** Scripts that run at once leave what some sequence of uses leaves. *)
From Coq Require Import List NArith ZArith Bool Lia Arith.
From Verif Require Import Base Text Keys Trust Certificate Relation Storage Graph Service Spec ServiceSpec Aqua AquaSpec Sched SchedSpec.
From Verif Require Import BaseFacts KeysFacts ServiceFacts AquaFacts ServiceThms AquaTrace SchedFacts.
Import ListNotations.
Open Scope N_scope.

(** * The shape of the scripts *)
Section Shape.
Variable C : crypto.
Variable net : network.

(** Every call fits the types and the script never gets stuck. *)
Inductive sound : steps answer -> Prop :=
| so_done a : sound (Done a)
| so_clock n k : (forall t, t < u64_bound -> sound (k t)) -> sound (Clock n k)
| so_sign p m k : (forall s, sound (k s)) -> sound (Sign p m k)
| so_local n args c k : local_call c = true -> (forall r, computes C net n args c r -> sound (k r)) -> sound (Ask n args c k)
| so_call n args c k : local_call c = false -> service_typed c -> (forall s t, c <> S_insert_cert_raw s t) -> (forall r, sound (k r)) -> sound (Ask n args c k).
(** The last request is the only one that may touch a store. *)
Inductive single : steps answer -> Prop :=
| si_done a : single (Done a)
| si_clock n k : (forall t, single (k t)) -> single (Clock n k)
| si_sign p m k : (forall s, single (k s)) -> single (Sign p m k)
| si_local n args c k : local_call c = true -> (forall r, single (k r)) -> single (Ask n args c k)
| si_last n args c k : (forall r, exists a, k r = Done a) -> single (Ask n args c k).
(** The clocks the script asks, in order. *)
Inductive asks : steps answer -> list text -> Prop :=
| as_done a l : asks (Done a) l
| as_clock n k l : (forall t, asks (k t) l) -> asks (Clock n k) (n :: l)
| as_sign p m k l : (forall s, asks (k s) l) -> asks (Sign p m k) l
| as_ask n args c k l : (forall r, asks (k r) l) -> asks (Ask n args c k) l.

Lemma leads_single : forall t ts sgs r, leads C net t ts sgs r -> single t -> single r.
Proof.
  intros t ts sgs r H. induction H; intros Hs; [exact Hs| | |].
  - apply IHleads. inversion Hs; auto.
  - apply IHleads. inversion Hs; auto.
  - apply IHleads. inversion Hs as [| | |? ? ? ? _ Hk|? ? ? ? Hk]; [auto|]. destruct (Hk x) as [a ->]. constructor.
Qed.

Definition clock_nodes (q : request) : list text :=
  match q with
  | Q_set_root _ _ _ => []
  | Q_issue_trust _ _ _ | Q_issue_revocation _ _ => [relay net]
  | Q_add_trust node _ _ _ | Q_add_root_trust node _ _ _ | Q_revoke node _ _ => [relay net; node]
  | Q_import_trust node _ _ | Q_verify_trust node _ _ | Q_get_weight node _ | Q_get_weight_from node _ _ | Q_import_revocation node _
  | Q_get_host_certs_from node _ | Q_get_all_certs node _ | Q_get_all_certs_from node _ _ | Q_get_host_certs node | Q_insert_cert node _
  | Q_is_fluence_peer node => [node]
  end.

Lemma computes_trust : forall n args p e i s r, e < u64_bound -> i < u64_bound ->
  computes C net n args (S_issue_trust p e i s) r -> dto_trust_typed (trust_in r).
Proof.
  intros n args p e i s r He Hi [_ H]. specialize (H empty_db None). rewrite service_plan in H. cbn [plan] in H.
  destruct (extract_cases C p) as [(k & X & K)|(x & X)]; rewrite X in H; cbn [bind carry_out] in H; injection H as <-.
  - unfold trust_in. cbn [reply]. split; cbn; assumption.
  - unfold trust_in. cbn [reply empty_payload]. split; reflexivity.
Qed.
Lemma computes_revocation : forall n args q p i s r, i < u64_bound ->
  computes C net n args (S_issue_revocation q p i s) r -> dr_revoked_at (revocation_in r) < u64_bound.
Proof.
  intros n args q p i s r Hi [_ H]. specialize (H empty_db None). rewrite service_plan in H. cbn [plan] in H.
  destruct (extract_cases C p) as [(k & X & K)|(x & X)]; destruct (extract_cases C q) as [(k' & X' & K')|(x' & X')];
    rewrite ?X, ?X' in H; cbn [bind carry_out] in H; rewrite ?X, ?X' in H; cbn [bind carry_out] in H; injection H as <-;
    unfold revocation_in; cbn [reply empty_payload]; first [exact Hi|reflexivity].
Qed.
End Shape.

Ltac open_script := cbn [script_of];
  unfold sc_add_trust, sc_add_root_trust, sc_set_root, sc_revoke, sc_issue_trust, sc_issue_revocation, sc_import_trust, sc_import_revocation, sc_verify_trust, sc_get_weight,
    sc_get_weight_from, sc_is_fluence_peer, sc_get_host_certs_from, sc_get_all_certs, sc_get_all_certs_from, sc_get_host_certs, sc_insert_cert, clock, ask, sign;
  cbn [tbind].
Ltac split_tree := match goal with
  | |- context [if ?b then _ else _] => destruct b eqn:?
  | |- context [match ?s with Some _ => _ | None => _ end] => destruct s
  | |- context [append_error [] ?e] => destruct e
  end; cbn [append_error tbind fst snd first].

Lemma script_asks : forall net src q, asks (script_of net src q) (clock_nodes net q).
Proof.
  intros net src q. destruct q; open_script; cbn [clock_nodes];
    repeat first [ apply as_done | apply as_clock; intros ?; cbn [tbind] | apply as_sign; intros ?; cbn [tbind] | apply as_ask; intros ?; cbn [tbind]
                 | split_tree ].
Qed.
Lemma script_single : forall net src q, ~ is_add_root q -> single (script_of net src q).
Proof.
  intros net src q Hq. destruct q; try solve [exfalso; apply Hq; repeat eexists; reflexivity]; open_script;
    repeat first [ apply si_done | apply si_clock; intros ?; cbn [tbind] | apply si_sign; intros ?; cbn [tbind]
                 | apply si_local; [reflexivity|]; intros ?; cbn [tbind] 
                 | solve [apply si_last; intros ?; eexists; reflexivity] | split_tree ].
Qed.
Lemma script_sound : forall C net src q, api_typed (alone q 0 0) -> sound C net (script_of net src q).
Proof.
  intros C net src q T. destruct q; destruct T as [_ T]; cbn [alone] in T; open_script;
    repeat first [ apply so_done | apply so_clock; intros ? ?; cbn [tbind] | apply so_sign; intros ?; cbn [tbind]
                 | apply so_local; [reflexivity|]; intros ? ?; cbn [tbind]
                 | apply so_call; [reflexivity| |discriminate|]; [cbn [service_typed]|intros ?; cbn [tbind]] | split_tree ];
    try exact T; try assumption; try exact I.
  - split; assumption.
  - split; [|assumption]. destruct T. eapply computes_trust; [| |eassumption]; assumption.
  - apply T.
  - split; [|assumption]. destruct T as (_ & T & _). eapply computes_trust; [| |eassumption]; assumption.
  - split; assumption.
  - split; [|assumption]. eapply computes_revocation; [|eassumption]; assumption.
  - split; assumption.
Qed.

(** [add_root_trust] up to its [set_root] is [add_trust] up to its last request. *)
Lemma root_shape : forall C net src node p n e ts sgs n' args c k, local_call c = false ->
  leads C net (script_of net src (Q_add_root_trust node p n e)) ts sgs (Ask n' args c k) ->
  n' = node /\ args = [src 0%nat; src 1%nat] /\ c = S_set_root p n /\
  exists rest, leads C net (script_of net src (Q_add_trust node p p e)) ts sgs rest /\ single rest /\ (forall a, rest <> Done a) /\
    forall r, k r = if success r then rest else Done (N_errors [error_in r]).
Proof.
  intros C net src node p n e ts sgs n' args c k Hc H. revert H. open_script. intros H.
  inversion H as [|? ? t ts1 ? ? H1| |]; subst; clear H. inversion H1 as [|? ? ? ? ? ? H2|? ? ? ? ? ? ? H2|? ? ? ? r1 ? ? ? P1 H2]; subst; clear H1.
  { discriminate Hc. }
  destruct (success r1) eqn:S1; cbn [tbind fst snd first] in H2; [|inversion H2].
  inversion H2 as [| |? ? ? sg ? sgs1 ? H3|]; subst; clear H2.
  destruct sg as [sg|]; cbn [tbind fst snd first] in H3; [|inversion H3].
  inversion H3 as [|? ? ? ? ? ? H4|? ? ? ? ? ? ? H4|? ? ? ? r2 ? ? ? P2 H4]; subst; clear H3.
  { discriminate Hc. }
  destruct (success r2) eqn:S2; cbn [tbind fst snd first] in H4; [|inversion H4].
  inversion H4 as [|? ? ? ? ? ? H5|? ? ? ? ? ? ? H5|? ? ? ? r3 ? ? ? P3 H5]; subst; clear H4.
  2:{ destruct P3 as [P3 _]. discriminate P3. }
  split; [reflexivity|]. split; [reflexivity|]. split; [reflexivity|].
  eexists. split.
  { apply leads_clock. cbn [tbind]. eapply leads_ask; [exact P1|]. cbn [tbind]. rewrite S1. cbn [tbind]. apply leads_sign. cbn [tbind].
    eapply leads_ask; [exact P2|]. cbn [tbind]. rewrite S2. cbn [tbind fst snd first]. apply leads_nil. }
  split.
  { apply si_clock. intros t0. cbn [tbind]. apply si_last. intros r. eexists. reflexivity. }
  split; [discriminate|]. intros r. destruct (success r); reflexivity.
Qed.

(** * What a script that ends is worth *)
Lemma times_exist : forall clocks evs net q full, Forall2 (said clocks evs) (clock_nodes net q) full ->
  exists i now, full = clock_times q i now /\ said clocks evs (relay net) i /\ (forall node, request_node q = Some node -> said clocks evs node now).
Proof.
  intros clocks evs net q full H. assert (Z : forall n, said clocks evs n (clocks n)) by (intros n; left; reflexivity).
  destruct q; cbn [clock_nodes] in H;
    repeat match goal with H : Forall2 _ (_ :: _) _ |- _ => inversion H; subst; clear H | H : Forall2 _ [] _ |- _ => inversion H; subst; clear H end;
    unfold request_node; cbn [alone target clock_times].
  all: match goal with
       | |- exists i now, [?a; ?b] = _ /\ _ => exists a, b
       | |- exists i now, [?a] = [i] /\ _ => exists a, 0
       | |- exists i now, [?a] = [now] /\ _ => exists (clocks (relay net)), a
       | |- exists i now, [] = _ /\ _ /\ (forall node, Some ?nd = _ -> _) => exists (clocks (relay net)), (clocks nd)
       end.
  all: split; [reflexivity|]; split; [first [assumption|apply Z]|]; intros nd E; first [discriminate E|injection E as <-; first [assumption|apply Z]].
Qed.

Section Finish.
Variable C : crypto.
Variable net : network.
Variable src : nat -> origin.

Lemma finish_pure : forall q i now ts ts' sgs fu x st, clock_times q i now = ts ++ ts' -> leads C net (script_of net src q) ts sgs (Done x) ->
  reply_of C (as_met net (hd None sgs) fu) src (alone q i now) st = Ok x /\
  unchanged st (run C (as_met net (hd None sgs) fu) src (alone q i now) st).
Proof.
  intros q i now ts ts' sgs fu x st E H. pose proof (link C net src sgs fu q i now st) as L. rewrite E in L.
  destruct (play_leads C net _ _ _ _ _ ts' [] fu st H) as [P1 P2]. rewrite app_nil_r in P1, P2. rewrite L in P1, P2. cbn [play fst snd] in P1, P2. auto.
Qed.
Lemma finish_call : forall q i now ts ts' sgs fu n args c k r x st d, clock_times q i now = ts ++ ts' ->
  leads C net (script_of net src q) ts sgs (Ask n args c k) -> service_step C (st n) (params net n args, c, fu) = (Ok r, d) -> k r = Done x ->
  reply_of C (as_met net (hd None sgs) fu) src (alone q i now) st = Ok x /\
  unchanged (put st n d) (run C (as_met net (hd None sgs) fu) src (alone q i now) st).
Proof.
  intros q i now ts ts' sgs fu n args c k r x st d E H Hs Hk. pose proof (link C net src sgs fu q i now st) as L. rewrite E in L.
  destruct (play_leads C net _ _ _ _ _ ts' [] fu st H) as [P1 P2]. rewrite app_nil_r in P1, P2. rewrite L in P1, P2. cbn [play fst snd] in P1, P2.
  unfold call_on in P1, P2. cbn [as_met initiator creator_on fault] in P1, P2. unfold params in Hs. rewrite Hs, Hk in P1, P2. cbn [play fst snd] in P1, P2. auto.
Qed.
End Finish.
Lemma run_ext : forall C sg fu net src a st st', unchanged st st' ->
  reply_of C (as_met net sg fu) src a st = reply_of C (as_met net sg fu) src a st' /\
  unchanged (run C (as_met net sg fu) src a st) (run C (as_met net sg fu) src a st').
Proof.
  intros C sg fu net src a st st' H.
  assert (E : exists q i now, a = alone q i now).
  { destruct a.
    - exists (Q_set_root node p n), 0, 0. reflexivity.
    - exists (Q_issue_trust issuer p e), i, 0. reflexivity.
    - exists (Q_import_trust node x issuer), 0, now. reflexivity.
    - exists (Q_add_trust node issuer p e), i, now. reflexivity.
    - exists (Q_add_root_trust node p n e), i, now. reflexivity.
    - exists (Q_verify_trust node x issuer), 0, now. reflexivity.
    - exists (Q_get_weight node p), 0, now. reflexivity.
    - exists (Q_get_weight_from node p issuer), 0, now. reflexivity.
    - exists (Q_issue_revocation q p), i, 0. reflexivity.
    - exists (Q_import_revocation node x), 0, now. reflexivity.
    - exists (Q_revoke node q p), i, now. reflexivity.
    - exists (Q_get_host_certs_from node issuer), 0, now. reflexivity.
    - exists (Q_get_all_certs node p), 0, now. reflexivity.
    - exists (Q_get_all_certs_from node p issuer), 0, now. reflexivity.
    - exists (Q_get_host_certs node), 0, now. reflexivity.
    - exists (Q_insert_cert node c), 0, now. reflexivity.
    - exists (Q_is_fluence_peer node), 0, now. reflexivity. }
  destruct E as (q & i & now & ->).
  pose proof (link C net src [sg] fu q i now st) as L1. pose proof (link C net src [sg] fu q i now st') as L2. cbn [hd] in L1, L2.
  pose proof (play_ext C net _ (script_of net src q) (clock_times q i now) [sg] fu st st' H) as P. rewrite L1, L2 in P. exact P.
Qed.

(** * The invariant of schedules *)
Lemma run_all_app : forall C us vs st, run_all C (us ++ vs) st = run_all C vs (run_all C us st).
Proof. intros C us vs st. unfold run_all. apply fold_left_app. Qed.
Lemma replies_app : forall C us vs st, replies C (us ++ vs) st = replies C us st ++ replies C vs (run_all C (map en_use us) st).
Proof.
  intros C us. induction us as [|[j p [[net src] a]] us IH]; intros vs st; [reflexivity|]. cbn [app replies map en_use]. rewrite IH. reflexivity.
Qed.
Lemma replies_to_app : forall j l m, replies_to j (l ++ m) = replies_to j l ++ replies_to j m.
Proof. intros j l m. unfold replies_to. rewrite filter_app, map_app. reflexivity. Qed.
Lemma replies_to_none : forall C us st j, Forall (fun en => en_task en <> j) us -> replies_to j (replies C us st) = [].
Proof.
  intros C us. induction us as [|[i p [[net src] a]] us IH]; intros st j H; [reflexivity|]. inversion H as [|? ? H1 H2]; subst. cbn [en_task] in H1.
  cbn [replies]. unfold replies_to. cbn [filter fst]. rewrite (proj2 (Nat.eqb_neq i j) H1). apply IH. exact H2.
Qed.
Lemma nth_replace_same : forall A (l : list A) j x y, nth_error l j = Some y -> nth_error (replace j x l) j = Some x.
Proof. intros A l. induction l as [|z l IH]; intros [|j] x y H; try discriminate H; cbn in *; [reflexivity|]. eapply IH. exact H. Qed.
Lemma nth_replace_other : forall A (l : list A) j x i, i <> j -> nth_error (replace j x l) i = nth_error l i.
Proof.
  intros A l. induction l as [|z l IH]; intros [|j] x [|i] H; try reflexivity; cbn.
  - congruence.
  - apply IH. congruence.
Qed.
Lemma replace_same : forall A (l : list A) j x, nth_error l j = Some x -> replace j x l = l.
Proof. intros A l. induction l as [|z l IH]; intros [|j] x H; try discriminate H; cbn in *; [congruence|]. f_equal. apply IH. exact H. Qed.

Definition same_use (tk tk' : task) : Prop := tk_net tk' = tk_net tk /\ tk_src tk' = tk_src tk /\ tk_request tk' = tk_request tk.
Definition grown (l l' : list task) : Prop := forall j tk, nth_error l j = Some tk -> exists tk', nth_error l' j = Some tk' /\ same_use tk tk'.
Lemma grown_refl : forall l, grown l l.
Proof. intros l j tk H. exists tk. repeat split. exact H. Qed.
Lemma grown_app : forall l m, grown l (l ++ m).
Proof.
  intros l m j tk H. exists tk. split; [|repeat split]. rewrite nth_error_app1; [exact H|]. apply nth_error_Some. congruence.
Qed.
Lemma grown_replace : forall l j tk tk', nth_error l j = Some tk -> same_use tk tk' -> grown l (replace j tk' l).
Proof.
  intros l j tk tk' H Hs i x Hi. destruct (Nat.eq_dec i j) as [->|D].
  - exists tk'. rewrite H in Hi. injection Hi as <-. split; [eapply nth_replace_same; exact H|exact Hs].
  - exists x. rewrite nth_replace_other by exact D. repeat split. exact Hi.
Qed.
Lemma said_mono : forall clocks evs e n t, said clocks evs n t -> said clocks (evs ++ [e]) n t.
Proof. intros clocks evs e n t [H|H]; [left; exact H|right; apply in_or_app; left; exact H]. Qed.
Lemma entry_mono : forall clocks evs e l l' en, grown l l' -> entry_of clocks evs l en -> entry_of clocks (evs ++ [e]) l' en.
Proof.
  intros clocks evs e l l' en G (tk & q & i & now & sg & fu & H1 & H2 & H3 & H4 & H5). destruct (G _ _ H1) as (tk' & G1 & G2 & G3 & G4).
  exists tk', q, i, now, sg, fu. split; [exact G1|]. split; [congruence|]. split; [congruence|]. split; [rewrite G2; apply said_mono; exact H4|].
  intros node Hn. apply said_mono. apply H5. exact Hn.
Qed.

Section Inv.
Variable C : crypto.
Variable st0 : stores.
Variable clocks0 : text -> N.
Hypothesis L : crypto_laws C.

(** A running script: it made no use yet, or only the [set_root] of [add_root_trust]. *)
Definition running (tk : task) (l : list (part * result Empty_set answer)) : Prop :=
  (leads C (tk_net tk) (script_of (tk_net tk) (tk_src tk) (tk_request tk)) (tk_times tk) (tk_signatures tk) (tk_rest tk) /\ l = []) \/
  (exists node p n e r, tk_request tk = Q_add_root_trust node p n e /\ success r = true /\ l = [(P_root, Ok (N_response r))] /\
     leads C (tk_net tk) (script_of (tk_net tk) (tk_src tk) (Q_add_trust node p p e)) (tk_times tk) (tk_signatures tk) (tk_rest tk) /\ single (tk_rest tk)).
Definition clocked (evs : schedule) (tk : task) : Prop :=
  exists read left, clock_nodes (tk_net tk) (tk_request tk) = read ++ left /\ Forall2 (said clocks0 evs) read (tk_times tk) /\ asks (tk_rest tk) left.
Definition task_inv (evs : schedule) (tk : task) (l : list (part * result Empty_set answer)) : Prop :=
  sound C (tk_net tk) (tk_rest tk) /\ clocked evs tk /\
  match returned tk with Some _ => settled tk l | None => running tk l end.
Definition inv (evs : schedule) (s : system) (us : entries) : Prop :=
  network_state C (sy_stores s) /\
  (forall n, sy_clock s n < u64_bound /\ said clocks0 evs n (sy_clock s n)) /\
  unchanged (run_all C (map en_use us) st0) (sy_stores s) /\
  Forall (entry_of clocks0 evs (sy_tasks s)) us /\
  forall j tk, nth_error (sy_tasks s) j = Some tk -> task_inv evs tk (replies_to j (replies C us st0)).

Lemma clocked_mono : forall evs e tk, clocked evs tk -> clocked (evs ++ [e]) tk.
Proof.
  intros evs e tk (read & left & H1 & H2 & H3). exists read, left. split; [exact H1|]. split; [|exact H3].
  clear H1. induction H2; constructor; [apply said_mono; assumption|assumption].
Qed.
Lemma task_inv_mono : forall evs e tk l, task_inv evs tk l -> task_inv (evs ++ [e]) tk l.
Proof. intros evs e tk l (H1 & H2 & H3). split; [exact H1|]. split; [apply clocked_mono; exact H2|exact H3]. Qed.
Lemma entries_index : forall evs s us, Forall (entry_of clocks0 evs (sy_tasks s)) us -> Forall (fun en => (en_task en < length (sy_tasks s))%nat) us.
Proof.
  intros evs s us H. eapply Forall_impl; [|exact H]. intros en (tk & _ & _ & _ & _ & _ & H1 & _). apply nth_error_Some. congruence.
Qed.

Lemma inv_start : forall evs s us net src q, inv evs s us -> api_typed (alone q 0 0) ->
  inv (evs ++ [E_start net src q]) (happen C s (E_start net src q)) us.
Proof.
  intros evs s us net src q (H1 & H2 & H3 & H4 & H5) T. unfold inv. cbn [happen sy_stores sy_clock sy_tasks].
  split; [exact H1|]. split; [intros n; split; [apply H2|apply said_mono; apply H2]|]. split; [exact H3|].
  split; [eapply Forall_impl; [|exact H4]; intros en; apply entry_mono; apply grown_app|].
  intros j tk Hj. destruct (Nat.lt_ge_cases j (length (sy_tasks s))) as [Hl|Hl].
  - rewrite nth_error_app1 in Hj by exact Hl. apply task_inv_mono. apply H5. exact Hj.
  - rewrite nth_error_app2 in Hj by exact Hl. destruct (j - length (sy_tasks s))%nat as [|m] eqn:Ed; [|destruct m; discriminate Hj].
    injection Hj as <-. assert (j = length (sy_tasks s)) as -> by lia.
    rewrite replies_to_none.
    2:{ eapply Forall_impl; [|eapply entries_index; exact H4]. intros en Hn. cbn in Hn. lia. }
    split; [cbn [tk_net tk_rest]; apply script_sound; exact T|]. split.
    + exists [], (clock_nodes net q). cbn [tk_net tk_request tk_times tk_rest app]. split; [reflexivity|]. split; [constructor|apply script_asks].
    + assert (Er : returned (mk_task net src q (script_of net src q) [] []) = None) by (destruct q; reflexivity).
      rewrite Er. left. cbn [tk_net tk_src tk_request tk_times tk_signatures tk_rest]. split; [apply leads_nil|reflexivity].
Qed.
Lemma inv_tick : forall evs s us node t, inv evs s us -> t < u64_bound -> inv (evs ++ [E_tick node t]) (happen C s (E_tick node t)) us.
Proof.
  intros evs s us node t (H1 & H2 & H3 & H4 & H5) T. unfold inv. cbn [happen sy_stores sy_clock sy_tasks].
  split; [exact H1|]. split.
  { intros n. destruct (bytes_eqb node n) eqn:B; [|split; [apply H2|apply said_mono; apply H2]]. split; [exact T|].
    apply bytes_eqb_eq in B. subst n. right. apply in_or_app. right. left. reflexivity. }
  split; [exact H3|]. split; [eapply Forall_impl; [|exact H4]; intros en; apply entry_mono; apply grown_refl|].
  intros j tk Hj. apply task_inv_mono. apply H5. exact Hj.
Qed.

(** A step of script [j], worth no use or one. *)
Lemma inv_move : forall evs s us j sg fu tk tk' st', inv evs s us -> nth_error (sy_tasks s) j = Some tk -> same_use tk tk' ->
  task_step C (sy_stores s) (sy_clock s) tk sg fu = (tk', st') -> network_state C st' -> unchanged (sy_stores s) st' ->
  task_inv (evs ++ [E_step j sg fu]) tk' (replies_to j (replies C us st0)) ->
  inv (evs ++ [E_step j sg fu]) (happen C s (E_step j sg fu)) us.
Proof.
  intros evs s us j sg fu tk tk' st' (H1 & H2 & H3 & H4 & H5) Hj Hs Hst N U T. unfold inv. cbn [happen]. rewrite Hj, Hst. cbn [sy_stores sy_clock sy_tasks].
  split; [exact N|]. split; [intros n; split; [apply H2|apply said_mono; apply H2]|]. split; [eapply unchanged_trans; eassumption|].
  split; [eapply Forall_impl; [|exact H4]; intros en; apply entry_mono; eapply grown_replace; eassumption|].
  intros i x Hi. destruct (Nat.eq_dec i j) as [->|D].
  - rewrite (nth_replace_same _ _ _ _ _ Hj) in Hi. injection Hi as <-. exact T.
  - rewrite nth_replace_other in Hi by exact D. apply task_inv_mono. apply H5. exact Hi.
Qed.
Lemma inv_use : forall evs s us j sg fu tk tk' st' p q i now sg' fu', inv evs s us -> nth_error (sy_tasks s) j = Some tk -> same_use tk tk' ->
  task_step C (sy_stores s) (sy_clock s) tk sg fu = (tk', st') -> network_state C st' ->
  part_of (tk_request tk) p = Some q -> said clocks0 evs (relay (tk_net tk)) i -> (forall node, request_node q = Some node -> said clocks0 evs node now) ->
  unchanged (run C (as_met (tk_net tk) sg' fu') (tk_src tk) (alone q i now) (sy_stores s)) st' ->
  task_inv (evs ++ [E_step j sg fu]) tk'
    (replies_to j (replies C us st0) ++ [(p, reply_of C (as_met (tk_net tk) sg' fu') (tk_src tk) (alone q i now) (sy_stores s))]) ->
  inv (evs ++ [E_step j sg fu]) (happen C s (E_step j sg fu)) (us ++ [mk_entry j p (as_met (tk_net tk) sg' fu', tk_src tk, alone q i now)]).
Proof.
  intros evs s us j sg fu tk tk' st' p q i now sg' fu' (H1 & H2 & H3 & H4 & H5) Hj Hs Hst N Hp Hi Hn U T. unfold inv. cbn [happen]. rewrite Hj, Hst.
  cbn [sy_stores sy_clock sy_tasks].
  destruct (run_ext C sg' fu' (tk_net tk) (tk_src tk) (alone q i now) _ _ H3) as [E1 E2].
  assert (G : grown (sy_tasks s) (replace j tk' (sy_tasks s))) by (eapply grown_replace; eassumption).
  split; [exact N|]. split; [intros n; split; [apply H2|apply said_mono; apply H2]|].
  split; [rewrite map_app, run_all_app; eapply unchanged_trans; [exact E2|exact U]|]. split.
  { apply Forall_app. split; [eapply Forall_impl; [|exact H4]; intros en; apply entry_mono; exact G|]. constructor; [|constructor].
    apply (entry_mono clocks0 evs _ _ _ _ G). exists tk, q, i, now, sg', fu'. cbn [en_task en_part en_use]. auto. }
  intros x y Hx. rewrite replies_app, replies_to_app. cbn [replies]. unfold replies_to at 2. cbn [filter fst]. destruct (Nat.eq_dec x j) as [->|D].
  - rewrite Nat.eqb_refl. cbn [map snd]. rewrite (nth_replace_same _ _ _ _ _ Hj) in Hx. injection Hx as <-. rewrite E1. exact T.
  - rewrite (proj2 (Nat.eqb_neq j x)) by congruence. cbn [map snd]. rewrite app_nil_r. rewrite nth_replace_other in Hx by exact D.
    apply task_inv_mono. apply H5. exact Hx.
Qed.

(** An event is worth no use, or one use of the script that makes a step. *)
Definition worth (e : event) (l : entries) : Prop := l = [] \/ exists en sg fu, l = [en] /\ e = E_step (en_task en) sg fu.
Definition go (tk : task) (rest : steps answer) (ts : list N) (sgs : list (option bytes)) : task :=
  mk_task (tk_net tk) (tk_src tk) (tk_request tk) rest ts sgs.
Lemma times_of_task : forall evs tk q, clocked evs tk -> clock_nodes (tk_net tk) q = clock_nodes (tk_net tk) (tk_request tk) ->
  exists i now ts', clock_times q i now = tk_times tk ++ ts' /\ said clocks0 evs (relay (tk_net tk)) i /\
    (forall node, request_node q = Some node -> said clocks0 evs node now).
Proof.
  intros evs tk q (read & left & H1 & H2 & H3) E.
  destruct (times_exist clocks0 evs (tk_net tk) q (tk_times tk ++ map clocks0 left)) as (i & now & F1 & F2 & F3).
  - rewrite E, H1. apply Forall2_app; [exact H2|]. clear. induction left; constructor; [left; reflexivity|exact IHleft].
  - exists i, now, (map clocks0 left). auto.
Qed.

(** A step that touches no store. *)
Lemma inv_pure : forall evs s us j sg fu tk rest ts sgs st', inv evs s us -> nth_error (sy_tasks s) j = Some tk ->
  task_step C (sy_stores s) (sy_clock s) tk sg fu = (go tk rest ts sgs, st') -> unchanged (sy_stores s) st' ->
  returned tk = None -> sound C (tk_net tk) rest -> clocked evs (go tk rest ts sgs) ->
  (forall t, leads C (tk_net tk) t (tk_times tk) (tk_signatures tk) (tk_rest tk) -> leads C (tk_net tk) t ts sgs rest) ->
  (single (tk_rest tk) -> single rest) ->
  exists l, inv (evs ++ [E_step j sg fu]) (happen C s (E_step j sg fu)) (us ++ l) /\ worth (E_step j sg fu) l.
Proof.
  intros evs s us j sg fu tk rest ts sgs st' I Hj Hst U R So Cl Ld Si. pose proof I as (H1 & _ & _ & _ & H5).
  assert (N : network_state C st') by (eapply network_unchanged; eassumption).
  assert (Sm : same_use tk (go tk rest ts sgs)) by (repeat split).
  specialize (H5 j tk Hj). destruct H5 as (_ & _ & H5). rewrite R in H5.
  destruct (returned (go tk rest ts sgs)) as [x|] eqn:R'.
  2:{ exists []. rewrite app_nil_r. split; [|left; reflexivity]. eapply inv_move; try eassumption. split; [exact So|]. split; [apply clocked_mono; exact Cl|]. rewrite R'.
      destruct H5 as [(Hl & E)|(node & p & n & e & r & Eq & Sr & E & Hl & Hs)].
      - left. split; [apply Ld; exact Hl|exact E].
      - right. exists node, p, n, e, r. split; [exact Eq|]. split; [exact Sr|]. split; [exact E|]. split; [apply Ld; exact Hl|apply Si; exact Hs]. }
  assert (Erest : rest = Done x).
  { unfold returned, go in R'. cbn [tk_rest] in R'. destruct rest; try discriminate R'. injection R' as ->. reflexivity. }
  destruct H5 as [(Hl & E)|(node & p & n & e & r & Eq & Sr & E & Hl & Hs)].
  - destruct (times_of_task evs (go tk rest ts sgs) (tk_request tk) Cl eq_refl) as (i & now & ts' & Et & Hi & Hn). cbn [go tk_times tk_net] in Et, Hi.
    apply Ld in Hl. rewrite Erest in Hl. destruct (finish_pure C (tk_net tk) (tk_src tk) (tk_request tk) i now ts ts' sgs None x (sy_stores s) Et Hl) as [F1 F2].
    exists [mk_entry j P_whole (as_met (tk_net tk) (hd None sgs) None, tk_src tk, alone (tk_request tk) i now)].
    split; [|right; eexists; exists sg, fu; split; reflexivity].
    eapply inv_use; try eassumption; [reflexivity| |].
    + intros m. rewrite U, F2. reflexivity.
    + split; [exact So|]. split; [apply clocked_mono; exact Cl|]. rewrite R'. unfold settled. rewrite R'. left. rewrite E, F1. reflexivity.
  - assert (Ec : clock_nodes (tk_net tk) (Q_add_trust node p p e) = clock_nodes (tk_net tk) (tk_request tk)) by (rewrite Eq; reflexivity).
    destruct (times_of_task evs (go tk rest ts sgs) (Q_add_trust node p p e) Cl Ec) as (i & now & ts' & Et & Hi & Hn). cbn [go tk_times tk_net] in Et, Hi.
    apply Ld in Hl. rewrite Erest in Hl. destruct (finish_pure C (tk_net tk) (tk_src tk) (Q_add_trust node p p e) i now ts ts' sgs None x (sy_stores s) Et Hl) as [F1 F2].
    exists [mk_entry j P_trust (as_met (tk_net tk) (hd None sgs) None, tk_src tk, alone (Q_add_trust node p p e) i now)].
    split; [|right; eexists; exists sg, fu; split; reflexivity].
    eapply inv_use; try eassumption; [rewrite Eq; reflexivity| |].
    + intros m. rewrite U, F2. reflexivity.
    + split; [exact So|]. split; [apply clocked_mono; exact Cl|]. rewrite R'. unfold settled. rewrite R'. right. split; [exists node, p, n, e; exact Eq|].
      right. exists r. split; [exact Sr|]. rewrite E, F1. reflexivity.
Qed.

Lemma returned_none : forall tk, returned tk = None -> sound C (tk_net tk) (tk_rest tk) -> match tk_rest tk with Done _ | Stuck => False | _ => True end.
Proof. intros tk R So. unfold returned in R. destruct (tk_rest tk); try exact I; [discriminate R|inversion So]. Qed.

Lemma inv_call : forall evs s us j sg fu tk n args c k, inv evs s us -> nth_error (sy_tasks s) j = Some tk -> tk_rest tk = Ask n args c k ->
  local_call c = false -> exists l, inv (evs ++ [E_step j sg fu]) (happen C s (E_step j sg fu)) (us ++ l) /\ worth (E_step j sg fu) l.
Proof.
  intros evs s us j sg fu tk n args c k I Hj Er Hc. pose proof I as (H1 & _ & _ & _ & H5). specialize (H5 j tk Hj). destruct H5 as (So & Cl & H5).
  assert (R : returned tk = None) by (unfold returned; rewrite Er; reflexivity). rewrite R in H5.
  assert (Q : service_typed c /\ (forall s0 t0, c <> S_insert_cert_raw s0 t0) /\ forall r, sound C (tk_net tk) (k r)).
  { rewrite Er in So. inversion So as [| | |? ? ? ? Hc' _|? ? ? ? _ T1 T2 T3]; subst; [congruence|auto]. }
  destruct Q as (Tc & Tr & Sk).
  destruct (service_step C (sy_stores s n) (params (tk_net tk) n args, c, fu)) as [y d] eqn:Es.
  destruct (p_C65_calls_respond C _ _ _ _ _ _ L (H1 n) Tc Es) as [(r & ->)|(s0 & t0 & E & _)]; [|exfalso; eapply Tr; exact E].
  assert (N : network_state C (put (sy_stores s) n d)).
  { intros m. unfold put. destruct (bytes_eqb n m) eqn:B; [|apply H1].
    replace d with (snd (service_step C (sy_stores s n) (params (tk_net tk) n args, c, fu))) by (rewrite Es; reflexivity).
    apply service_reachable_step; [exact Tc|apply H1]. }
  assert (Hst : task_step C (sy_stores s) (sy_clock s) tk sg fu = (go tk (k r) (tk_times tk) (tk_signatures tk), put (sy_stores s) n d)).
  { unfold task_step. rewrite Er. unfold params in Es. rewrite Es. reflexivity. }
  assert (Sm : same_use tk (go tk (k r) (tk_times tk) (tk_signatures tk))) by (repeat split).
  assert (Cl' : clocked evs (go tk (k r) (tk_times tk) (tk_signatures tk))).
  { destruct Cl as (read & left & C1 & C2 & C3). exists read, left. split; [exact C1|]. split; [exact C2|]. rewrite Er in C3. inversion C3; subst. cbn [go tk_rest]. auto. }
  destruct H5 as [(Hl & E)|(node & p & m & e & r0 & Eq & Sr & E & Hl & Hs)].
  2:{ (* the add_trust of add_root_trust *)
      assert (Ek : exists x, k r = Done x).
      { rewrite Er in Hs. inversion Hs as [| | |? ? ? ? Hc' _|? ? ? ? Hk]; subst; [congruence|apply Hk]. }
      destruct Ek as [x Ek]. assert (Ec : clock_nodes (tk_net tk) (Q_add_trust node p p e) = clock_nodes (tk_net tk) (tk_request tk)) by (rewrite Eq; reflexivity).
      destruct (times_of_task evs tk (Q_add_trust node p p e) Cl Ec) as (i & now & ts' & Et & Hi & Hn). rewrite Er in Hl.
      destruct (finish_call C (tk_net tk) (tk_src tk) _ i now _ ts' _ fu n args c k r x (sy_stores s) d Et Hl Es Ek) as [F1 F2].
      exists [mk_entry j P_trust (as_met (tk_net tk) (hd None (tk_signatures tk)) fu, tk_src tk, alone (Q_add_trust node p p e) i now)].
    split; [|right; eexists; exists sg, fu; split; reflexivity].
      eapply inv_use; try eassumption; [rewrite Eq; reflexivity|intros z; rewrite F2; reflexivity|].
      split; [apply Sk|]. split; [apply clocked_mono; exact Cl'|]. unfold settled, returned. cbn [go tk_rest tk_request]. rewrite Ek. right.
      split; [exists node, p, m, e; exact Eq|]. right. exists r0. split; [exact Sr|]. rewrite E, F1. reflexivity. }
  assert (D : is_add_root (tk_request tk) \/ ~ is_add_root (tk_request tk)).
  { destruct (tk_request tk); try (right; intros (? & ? & ? & ? & X); discriminate X). left. repeat eexists. }
  destruct D as [(node & p & m & e & Eq)|D].
  - (* the set_root of add_root_trust *)
    rewrite Er in Hl. rewrite Eq in Hl. destruct (root_shape C (tk_net tk) (tk_src tk) node p m e _ _ n args c k Hc Hl) as (-> & -> & -> & rest & Lr & Si & Nd & Ek).
    exists [mk_entry j P_root (as_met (tk_net tk) None fu, tk_src tk, alone (Q_set_root node p m) (clocks0 (relay (tk_net tk))) (clocks0 node))].
    split; [|right; eexists; exists sg, fu; split; reflexivity].
    assert (F : aq_set_root C (as_met (tk_net tk) None fu) (tk_src tk) node p m (sy_stores s) = (Ok r, put (sy_stores s) node d)).
    { unfold aq_set_root, call_on. cbn [as_met initiator creator_on fault]. unfold params in Es. rewrite Es. reflexivity. }
    eapply inv_use; try eassumption.
    + rewrite Eq. reflexivity.
    + left. reflexivity.
    + intros nd X. injection X as <-. left. reflexivity.
    + cbn [alone run]. rewrite F. intros z. reflexivity.
    + cbn [alone reply_of]. rewrite F. cbn [fst rmap]. rewrite E. cbn [app]. split; [apply Sk|]. split; [apply clocked_mono; exact Cl'|].
      unfold returned, settled, running. cbn [go tk_rest tk_net tk_src tk_request tk_times tk_signatures]. unfold returned. cbn [go tk_rest].
      rewrite (Ek r). destruct (success r) eqn:Sr.
      * destruct rest as [x| |n0 k0|p0 m0 k0|n0 a0 c0 k0]; [exfalso; eapply Nd; reflexivity| | | |];
          (right; exists node, p, m, e, r; auto).
      * right. split; [exists node, p, m, e; exact Eq|]. left. exists r. auto.
  - assert (Hs : single (tk_rest tk)) by (eapply leads_single; [exact Hl|apply script_single; exact D]).
    assert (Ek : exists x, k r = Done x).
    { rewrite Er in Hs. inversion Hs as [| | |? ? ? ? Hc' _|? ? ? ? Hk]; subst; [congruence|apply Hk]. }
    destruct Ek as [x Ek]. destruct (times_of_task evs tk (tk_request tk) Cl eq_refl) as (i & now & ts' & Et & Hi & Hn). rewrite Er in Hl.
    destruct (finish_call C (tk_net tk) (tk_src tk) _ i now _ ts' _ fu n args c k r x (sy_stores s) d Et Hl Es Ek) as [F1 F2].
    exists [mk_entry j P_whole (as_met (tk_net tk) (hd None (tk_signatures tk)) fu, tk_src tk, alone (tk_request tk) i now)].
    split; [|right; eexists; exists sg, fu; split; reflexivity].
    eapply inv_use; try eassumption; [reflexivity|intros z; rewrite F2; reflexivity|].
    split; [apply Sk|]. split; [apply clocked_mono; exact Cl'|]. unfold settled, returned. cbn [go tk_rest tk_request]. rewrite Ek. left. rewrite E, F1. reflexivity.
Qed.

Lemma inv_step : forall evs s us e, inv evs s us -> event_typed e -> exists l, inv (evs ++ [e]) (happen C s e) (us ++ l) /\ worth e l.
Proof.
  intros evs s us e I T. destruct e as [net src q|j sg fu|node t].
  - exists []. rewrite app_nil_r. split; [|left; reflexivity]. apply inv_start; assumption.
  - destruct (nth_error (sy_tasks s) j) as [tk|] eqn:Hj.
    2:{ exists []. rewrite app_nil_r. split; [|left; reflexivity]. destruct I as (H1 & H2 & H3 & H4 & H5). unfold inv. cbn [happen]. rewrite Hj. split; [exact H1|].
        split; [intros n; split; [apply H2|apply said_mono; apply H2]|]. split; [exact H3|].
        split; [eapply Forall_impl; [|exact H4]; intros en; apply entry_mono; apply grown_refl|]. intros i x Hi. apply task_inv_mono. apply H5. exact Hi. }
    pose proof I as (H1 & H2 & _ & _ & H5). pose proof (H5 j tk Hj) as (So & Cl & _).
    destruct (tk_rest tk) as [x| |n k|p m k|n args c k] eqn:Er.
    + exists []. rewrite app_nil_r. split; [|left; reflexivity]. eapply inv_move with (tk := tk) (tk' := tk) (st' := sy_stores s); try eassumption; [repeat split|unfold task_step; rewrite Er; reflexivity|intros n; reflexivity|].
      apply task_inv_mono. apply H5. exact Hj.
    + inversion So.
    + (* clock *) eapply inv_pure with (rest := k (sy_clock s n)) (ts := tk_times tk ++ [sy_clock s n]) (sgs := tk_signatures tk); try eassumption.
      * unfold task_step. rewrite Er. reflexivity.
      * intros m. reflexivity.
      * unfold returned. rewrite Er. reflexivity.
      * inversion So; subst. match goal with H : forall t, t < u64_bound -> _ |- _ => apply H end. apply H2.
      * destruct Cl as (read & left & C1 & C2 & C3). rewrite Er in C3. inversion C3 as [|? ? l Hk| |]; subst. exists (read ++ [n]), l.
        cbn [go tk_net tk_request tk_times tk_rest]. split; [rewrite <- app_assoc; exact C1|]. split; [|apply Hk]. apply Forall2_app; [exact C2|]. constructor; [apply H2|constructor].
      * intros t Hl. rewrite Er in Hl. eapply leads_clock_last. exact Hl.
      * intros Hs. rewrite Er in Hs. inversion Hs; subst. auto.
    + (* sign *) eapply inv_pure with (rest := k sg) (ts := tk_times tk) (sgs := tk_signatures tk ++ [sg]); try eassumption.
      * unfold task_step. rewrite Er. reflexivity.
      * intros z. reflexivity.
      * unfold returned. rewrite Er. reflexivity.
      * inversion So; subst. auto.
      * destruct Cl as (read & left & C1 & C2 & C3). rewrite Er in C3. inversion C3; subst. exists read, left. cbn [go tk_net tk_request tk_times tk_rest]. auto.
      * intros t Hl. rewrite Er in Hl. eapply leads_sign_last. exact Hl.
      * intros Hs. rewrite Er in Hs. inversion Hs; subst. auto.
    + destruct (local_call c) eqn:Hc; [|eapply inv_call; eassumption].
      destruct (local_computes C (tk_net tk) n args c Hc) as [r Hr].
      eapply inv_pure with (rest := k r) (ts := tk_times tk) (sgs := tk_signatures tk) (st' := put (sy_stores s) n (sy_stores s n)); try eassumption.
      * unfold task_step. rewrite Er. destruct Hr as [_ Hr]. unfold params in Hr. rewrite Hr. reflexivity.
      * apply put_unchanged. reflexivity.
      * unfold returned. rewrite Er. reflexivity.
      * inversion So as [| | |? ? ? ? _ Hk|? ? ? ? Hc' _ _ _]; subst; [apply Hk; exact Hr|congruence].
      * destruct Cl as (read & left & C1 & C2 & C3). rewrite Er in C3. inversion C3; subst. exists read, left. cbn [go tk_net tk_request tk_times tk_rest]. auto.
      * intros t Hl. rewrite Er in Hl. eapply leads_ask_last; eassumption.
      * intros Hs. rewrite Er in Hs. inversion Hs as [| | |? ? ? ? _ Hk|? ? ? ? Hk]; subst; [apply Hk|]. destruct (Hk r) as [a ->]. constructor.
  - exists []. rewrite app_nil_r. split; [|left; reflexivity]. apply inv_tick; assumption.
Qed.

Lemma inv_idle : network_state C st0 -> (forall n, clocks0 n < u64_bound) -> inv [] (idle st0 clocks0) [].
Proof.
  intros N T. split; [exact N|]. split; [intros n; split; [apply T|left; reflexivity]|]. split; [intros n; reflexivity|]. split; [constructor|].
  intros [|j] tk H; discriminate H.
Qed.
Lemma inv_explains : forall evs us, inv evs (happens C (idle st0 clocks0) evs) us -> explains C st0 clocks0 evs us.
Proof.
  intros evs us (H1 & H2 & H3 & H4 & H5). split; [intros n; apply H3|]. split; [exact H4|].
  intros j tk Hj. destruct (H5 j tk Hj) as (_ & _ & H). unfold settled. destruct (returned tk) eqn:R.
  - unfold settled in H. rewrite R in H. exact H.
  - destruct H as [(_ & E)|(node & p & n & e & r & Eq & Sr & E & _)]; [left; exact E|right]. split; [exists node, p, n, e; exact Eq|]. exists r. auto.
Qed.
Lemma inv_all : forall evs, network_state C st0 -> schedule_typed clocks0 evs ->
  exists order : nat -> entries, order 0%nat = [] /\
    (forall m, order (S m) = order m \/ exists en sg fu, order (S m) = order m ++ [en] /\ nth_error evs m = Some (E_step (en_task en) sg fu)) /\
    forall m, (m <= length evs)%nat -> inv (firstn m evs) (happens C (idle st0 clocks0) (firstn m evs)) (order m).
Proof.
  intros evs N [Tc T]. induction evs as [|e evs IH] using rev_ind.
  - exists (fun _ => []). split; [reflexivity|]. split; [intros m; left; reflexivity|]. intros m H. assert (m = 0%nat) as -> by (cbn in H; lia). apply inv_idle; assumption.
  - apply Forall_app in T. destruct T as [T1 T2]. inversion T2 as [|? ? Te _]; subst. destruct (IH T1) as (order & O0 & O1 & O2).
    destruct (inv_step evs _ _ e (eq_ind _ (fun z => inv z (happens C (idle st0 clocks0) z) _) (O2 (length evs) (le_n _)) _ (firstn_all evs)) Te) as (l & Hl & Wl).
    exists (fun m => if (m <=? length evs)%nat then order m else order (length evs) ++ l). split; [exact O0|]. split.
    + intros m. destruct (Nat.leb_spec (S m) (length evs)) as [A|A].
      * rewrite (proj2 (Nat.leb_le m (length evs))) by lia. destruct (O1 m) as [E|(en & sg & fu & E & Ev)]; [left; exact E|right]. exists en, sg, fu. split; [exact E|].
        rewrite nth_error_app1 by lia. exact Ev.
      * destruct (Nat.leb_spec m (length evs)) as [B|B]; [|left; reflexivity].
        assert (m = length evs) as -> by lia. destruct Wl as [->|(en & sg & fu & -> & ->)]; [left; apply app_nil_r|right]. exists en, sg, fu. split; [reflexivity|].
        rewrite nth_error_app2, Nat.sub_diag by lia. reflexivity.
    + intros m Hm. rewrite app_length in Hm. cbn [length] in Hm. destruct (Nat.leb_spec m (length evs)) as [B|B].
      * rewrite firstn_app. replace (m - length evs)%nat with 0%nat by lia. cbn [firstn]. rewrite app_nil_r. apply O2. exact B.
      * rewrite firstn_all2 by (rewrite app_length; cbn; lia). unfold happens at 1. rewrite fold_left_app. cbn [fold_left]. exact Hl.
Qed.
End Inv.
