(** The properties of scripts that run at once. *)
From Coq Require Import List NArith ZArith Bool Lia Arith.
From Verif Require Import Base Text Keys Trust Certificate Relation Storage Graph Service Spec ServiceSpec Aqua AquaSpec Sched SchedSpec.
From Verif Require Import BaseFacts KeysFacts PathFacts SpecFacts GraphFacts StateFacts GraphThms ServiceFacts AquaFacts ServiceThms AquaThms AquaTrace SchedFacts SchedSim.
Import ListNotations.
Open Scope N_scope.

(** ** C113 *)
(** However the steps of any number of scripts are mixed, the stores and the answers are at every moment those of a sequence of
    uses made alone, one after the other. The sequence grows by one use at a time, at a step of the script the use is of. A
    script that has not ended is not in it; only [add_root_trust] is in it as two uses. *)
Lemma p_C113_mixed_is_one_after_the_other : forall C st clocks evs, crypto_laws C -> network_state C st -> schedule_typed clocks evs ->
  exists order : nat -> entries, order 0%nat = [] /\
    (forall m, order (S m) = order m \/ exists en sg fu, order (S m) = order m ++ [en] /\ nth_error evs m = Some (E_step (en_task en) sg fu)) /\
    forall m, (m <= length evs)%nat -> explains C st clocks (firstn m evs) (order m).
Proof.
  intros C st clocks evs L N T. destruct (inv_all C st clocks L evs N T) as (order & O0 & O1 & O2). exists order. split; [exact O0|]. split; [exact O1|].
  intros m Hm. apply (inv_explains C st clocks). apply O2. exact Hm.
Qed.
Lemma happens_app : forall C s a b, happens C s (a ++ b) = happens C (happens C s a) b.
Proof. intros C s a b. unfold happens. apply fold_left_app. Qed.
Lemma inv_more : forall C st clocks evs us evs', crypto_laws C -> inv C st clocks evs (happens C (idle st clocks) evs) us -> Forall event_typed evs' ->
  exists l, inv C st clocks (evs ++ evs') (happens C (idle st clocks) (evs ++ evs')) (us ++ l).
Proof.
  intros C st clocks evs us evs' L I T. induction evs' as [|e evs' IH] using rev_ind; [exists []; rewrite !app_nil_r; exact I|].
  apply Forall_app in T. destruct T as [T1 T2]. inversion T2 as [|? ? Te _]; subst. destruct (IH T1) as [l Hl].
  destruct (inv_step C st clocks L _ _ _ e Hl Te) as (l' & Hl' & _). exists (l ++ l'). rewrite !app_assoc, happens_app. cbn [happens fold_left] in *.
  rewrite <- app_assoc in Hl'. rewrite <- app_assoc. exact Hl'.
Qed.
Lemma inv_now : forall C st clocks evs, crypto_laws C -> network_state C st -> schedule_typed clocks evs ->
  exists us, inv C st clocks evs (happens C (idle st clocks) evs) us.
Proof.
  intros C st clocks evs L N T. destruct (inv_all C st clocks L evs N T) as (order & _ & _ & O2). exists (order (length evs)).
  specialize (O2 (length evs) (le_n _)). rewrite firstn_all in O2. exact O2.
Qed.

(** ** C114 *)
Inductive within : nat -> steps answer -> Prop :=
| wi_done m a : within m (Done a)
| wi_clock m n k : (forall t, within m (k t)) -> within (S m) (Clock n k)
| wi_sign m p b k : (forall s, within m (k s)) -> within (S m) (Sign p b k)
| wi_ask m n args c k : (forall r, within m (k r)) -> within (S m) (Ask n args c k).
Lemma script_within : forall net src q, within (requests_of q) (script_of net src q).
Proof.
  intros net src q. destruct q; open_script; cbn [requests_of];
    repeat first [ apply wi_done | apply wi_clock; intros ?; cbn [tbind] | apply wi_sign; intros ?; cbn [tbind] | apply wi_ask; intros ?; cbn [tbind] | split_tree ].
Qed.
Lemma within_more : forall m m' t, within m t -> (m <= m')%nat -> within m' t.
Proof.
  intros m m' t H. revert m'. induction H; intros m' Hm; [constructor| | |]; (destruct m' as [|m']; [lia|]); constructor; intros x; match goal with H : forall _ _, _ -> _ |- _ => apply H end; lia.
Qed.
Lemma inv_sound : forall C st clocks evs us j tk, inv C st clocks evs (happens C (idle st clocks) evs) us ->
  nth_error (sy_tasks (happens C (idle st clocks) evs)) j = Some tk -> sound C (tk_net tk) (tk_rest tk).
Proof. intros C st clocks evs us j tk (_ & _ & _ & _ & H) Hj. apply (H j tk Hj). Qed.

(** No script gets stuck, whatever the others do. *)
Lemma p_C114_never_stuck : forall C st clocks evs j tk, crypto_laws C -> network_state C st -> schedule_typed clocks evs ->
  nth_error (sy_tasks (happens C (idle st clocks) evs)) j = Some tk -> ~ stuck tk.
Proof.
  intros C st clocks evs j tk L N T Hj Hs. destruct (inv_now C st clocks evs L N T) as [us I]. pose proof (inv_sound _ _ _ _ _ _ _ I Hj) as So.
  unfold stuck in Hs. rewrite Hs in So. inversion So.
Qed.
Lemma within_step : forall C st clocks tk sg fu tk' st' m, sound C (tk_net tk) (tk_rest tk) -> within m (tk_rest tk) ->
  task_step C st clocks tk sg fu = (tk', st') -> ~ stuck tk' -> within (m - 1) (tk_rest tk').
Proof.
  intros C st clocks tk sg fu tk' st' m So W E Ns. unfold task_step in E. destruct (tk_rest tk) as [x| |n k|p b k|n args c k] eqn:Er.
  - injection E as <- _. rewrite Er. constructor.
  - inversion So.
  - injection E as <- _. cbn [tk_rest]. inversion W; subst. replace (S m0 - 1)%nat with m0 by lia. auto.
  - injection E as <- _. cbn [tk_rest]. inversion W; subst. replace (S m0 - 1)%nat with m0 by lia. auto.
  - inversion W; subst. replace (S m0 - 1)%nat with m0 by lia. destruct (service_step C _ _) as [[r|e| |] d]; injection E as <- _; cbn [tk_rest]; [auto| | |]; exfalso; apply Ns; reflexivity.
Qed.
Lemma step_other : forall C s e i tk, nth_error (sy_tasks s) i = Some tk -> is_step i e = false -> nth_error (sy_tasks (happen C s e)) i = Some tk.
Proof.
  intros C s e i tk Hi He. destruct e as [net src q|j sg fu|n t]; cbn [happen sy_tasks].
  - rewrite nth_error_app1; [exact Hi|]. apply nth_error_Some. congruence.
  - cbn [is_step] in He. apply Nat.eqb_neq in He. destruct (nth_error (sy_tasks s) j) as [tk0|] eqn:Hj; [|exact Hi].
    destruct (task_step C _ _ tk0 sg fu) as [tk' st']. cbn [sy_tasks]. rewrite nth_replace_other by congruence. exact Hi.
  - exact Hi.
Qed.
Lemma step_same : forall C s i sg fu tk, nth_error (sy_tasks s) i = Some tk ->
  nth_error (sy_tasks (happen C s (E_step i sg fu))) i = Some (fst (task_step C (sy_stores s) (sy_clock s) tk sg fu)).
Proof.
  intros C s i sg fu tk Hi. cbn [happen]. rewrite Hi. destruct (task_step C _ _ tk sg fu) as [tk' st']. cbn [sy_tasks fst]. eapply nth_replace_same. exact Hi.
Qed.
Lemma task_from : forall C st clocks evs j tk, nth_error (sy_tasks (happens C (idle st clocks) evs)) j = Some tk -> In (E_start (tk_net tk) (tk_src tk) (tk_request tk)) evs.
Proof.
  intros C st clocks evs. induction evs as [|e evs IH] using rev_ind; intros j tk Hj; [destruct j; discriminate Hj|].
  rewrite happens_app in Hj. cbn [happens fold_left] in Hj. apply in_or_app. destruct e as [net src q|i sg fu|n t]; cbn [happen sy_tasks] in Hj.
  - destruct (Nat.lt_ge_cases j (length (sy_tasks (happens C (idle st clocks) evs)))) as [Hl|Hl].
    + rewrite nth_error_app1 in Hj by exact Hl. left. eapply IH. exact Hj.
    + rewrite nth_error_app2 in Hj by exact Hl. right. destruct (j - _)%nat as [|m]; [|destruct m; discriminate Hj]. injection Hj as <-. left. reflexivity.
  - left. fold (happens C (idle st clocks) evs) in Hj. destruct (nth_error (sy_tasks (happens C (idle st clocks) evs)) i) as [tk0|] eqn:Hi; [|eapply IH; exact Hj].
    destruct (task_step C _ _ tk0 sg fu) as [tk' st'] eqn:E. cbn [sy_tasks] in Hj. destruct (Nat.eq_dec j i) as [->|D].
    + rewrite (nth_replace_same _ _ _ _ _ Hi) in Hj. injection Hj as <-. specialize (IH i tk0 Hi).
      unfold task_step in E. destruct (tk_rest tk0); try (injection E as <- _; exact IH). destruct (service_step C _ _) as [[r|e| |] d]; injection E as <- _; exact IH.
    + rewrite nth_replace_other in Hj by exact D. eapply IH. exact Hj.
  - left. eapply IH. exact Hj.
Qed.
Lemma within_now : forall C st clocks evs j tk, crypto_laws C -> network_state C st -> schedule_typed clocks evs ->
  nth_error (sy_tasks (happens C (idle st clocks) evs)) j = Some tk -> within (requests_of (tk_request tk)) (tk_rest tk).
Proof.
  intros C st clocks evs. induction evs as [|e evs IH] using rev_ind; intros j tk L N T Hj; [destruct j; discriminate Hj|].
  destruct T as [Tc T]. pose proof T as T'. apply Forall_app in T. destruct T as [T1 T2].
  pose proof (p_C114_never_stuck C st clocks (evs ++ [e]) j tk L N (conj Tc T') Hj) as Ns.
  rewrite happens_app in Hj. cbn [happens fold_left] in Hj. destruct e as [net src q|i sg fu|n t]; cbn [happen sy_tasks] in Hj.
  - destruct (Nat.lt_ge_cases j (length (sy_tasks (happens C (idle st clocks) evs)))) as [Hl|Hl].
    + rewrite nth_error_app1 in Hj by exact Hl. eapply IH; try eassumption. split; assumption.
    + rewrite nth_error_app2 in Hj by exact Hl. destruct (j - _)%nat as [|m]; [|destruct m; discriminate Hj]. injection Hj as <-. apply script_within.
  - fold (happens C (idle st clocks) evs) in Hj. destruct (nth_error (sy_tasks (happens C (idle st clocks) evs)) i) as [tk0|] eqn:Hi; [|eapply IH; try eassumption; split; assumption].
    destruct (task_step C _ _ tk0 sg fu) as [tk' st'] eqn:E. cbn [sy_tasks] in Hj. destruct (Nat.eq_dec j i) as [->|D].
    + rewrite (nth_replace_same _ _ _ _ _ Hi) in Hj. injection Hj as <-. pose proof (IH i tk0 L N (conj Tc T1) Hi) as W.
      destruct (inv_now C st clocks evs L N (conj Tc T1)) as [us I]. pose proof (within_step C _ _ _ _ _ _ _ _ (inv_sound _ _ _ _ _ _ _ I Hi) W E Ns) as W'.
      assert (Eq : tk_request tk' = tk_request tk0).
      { unfold task_step in E. destruct (tk_rest tk0); try (injection E as <- _; reflexivity). destruct (service_step C _ _) as [[r|e| |] d]; injection E as <- _; reflexivity. }
      rewrite Eq. eapply within_more; [exact W'|lia].
    + rewrite nth_replace_other in Hj by exact D. eapply IH; try eassumption. split; assumption.
  - eapply IH; try eassumption. split; assumption.
Qed.
(** Every script returns after at most seven requests of its own (fewer for most functions), whatever the others do in between. *)
Lemma p_C114_every_script_returns : forall C st clocks evs evs' j tk, crypto_laws C -> network_state C st -> schedule_typed clocks (evs ++ evs') ->
  nth_error (sy_tasks (happens C (idle st clocks) evs)) j = Some tk -> (requests_of (tk_request tk) <= own_steps j evs')%nat ->
  exists tk' x, nth_error (sy_tasks (happens C (idle st clocks) (evs ++ evs'))) j = Some tk' /\ tk_request tk' = tk_request tk /\ returned tk' = Some x.
Proof.
  intros C st clocks evs evs' j tk L N T Hj Hs.
  assert (G : forall evs', schedule_typed clocks (evs ++ evs') -> exists tk', nth_error (sy_tasks (happens C (idle st clocks) (evs ++ evs'))) j = Some tk' /\
    tk_request tk' = tk_request tk /\ within (requests_of (tk_request tk) - own_steps j evs') (tk_rest tk')).
  { clear evs' T Hs. intros evs'. induction evs' as [|e evs' IH] using rev_ind; intros T.
    - rewrite app_nil_r in *. exists tk. split; [exact Hj|]. split; [reflexivity|]. unfold own_steps. cbn [filter length]. rewrite Nat.sub_0_r.
      eapply within_now; eassumption.
    - rewrite app_assoc in T. assert (T1 : schedule_typed clocks (evs ++ evs')) by (destruct T as [Tc T]; apply Forall_app in T; split; [exact Tc|apply T]).
      destruct (IH T1) as (tk1 & H1 & H2 & H3). rewrite app_assoc, happens_app. cbn [happens fold_left]. fold (happens C (idle st clocks) (evs ++ evs')).
      destruct (is_step j e) eqn:Ej.
      + destruct e as [| i sg fu |]; try discriminate Ej. cbn [is_step] in Ej. apply Nat.eqb_eq in Ej. subst i.
        pose proof (step_same C _ j sg fu tk1 H1) as Hn. destruct (task_step C _ _ tk1 sg fu) as [tk2 st2] eqn:E. cbn [fst] in Hn. exists tk2. split; [exact Hn|]. split.
        { rewrite <- H2. unfold task_step in E. destruct (tk_rest tk1); try (injection E as <- _; reflexivity). destruct (service_step C _ _) as [[r|e| |] d]; injection E as <- _; reflexivity. }
        assert (Ns : ~ stuck tk2).
        { eapply (p_C114_never_stuck C st clocks ((evs ++ evs') ++ [E_step j sg fu]) j); try eassumption. rewrite happens_app. exact Hn. }
        destruct (inv_now C st clocks (evs ++ evs') L N T1) as [us I].
        pose proof (within_step C _ _ _ _ _ _ _ _ (inv_sound _ _ _ _ _ _ _ I H1) H3 E Ns) as W. eapply within_more; [exact W|].
        unfold own_steps. rewrite filter_app, app_length. cbn [filter]. rewrite (proj2 (Nat.eqb_eq j j) eq_refl : is_step j (E_step j sg fu) = true). cbn [length]. lia.
      + exists tk1. split; [apply step_other; assumption|]. split; [exact H2|]. unfold own_steps. rewrite filter_app, app_length. cbn [filter]. rewrite Ej. cbn [length].
        rewrite Nat.add_0_r. exact H3. }
  destruct (G evs' T) as (tk' & H1 & H2 & H3). replace (requests_of (tk_request tk) - own_steps j evs')%nat with 0%nat in H3 by lia.
  exists tk'. unfold returned. inversion H3 as [m a Ea Eb| | |]; exists a; auto.
Qed.

(** ** C115 *)
(** A script that has not returned has left nothing, and no other script can tell that it was started: without its steps all
    stores and all other scripts are the same. Except [add_root_trust]. *)
Definition alike (j : nat) (s s' : system) : Prop :=
  unchanged (sy_stores s) (sy_stores s') /\ sy_clock s' = sy_clock s /\ length (sy_tasks s') = length (sy_tasks s) /\
  forall i, i <> j -> nth_error (sy_tasks s') i = nth_error (sy_tasks s) i.
Lemma length_replace : forall A (l : list A) j x, length (replace j x l) = length l.
Proof. intros A l. induction l as [|y l IH]; intros [|j] x; cbn; auto. Qed.
Lemma task_step_ext : forall C st st' clocks tk sg fu, unchanged st st' ->
  fst (task_step C st' clocks tk sg fu) = fst (task_step C st clocks tk sg fu) /\
  unchanged (snd (task_step C st clocks tk sg fu)) (snd (task_step C st' clocks tk sg fu)).
Proof.
  intros C st st' clocks tk sg fu U. unfold task_step. destruct (tk_rest tk) as [x| |n k|p b k|n args c k]; cbn [fst snd]; try (split; [reflexivity|exact U]).
  rewrite (U n). destruct (service_step C (st n) _) as [[r|e| |] d]; cbn [fst snd]; (split; [reflexivity|apply put_ext; exact U]).
Qed.
Lemma alike_other : forall C j s s' e, alike j s s' -> is_step j e = false -> alike j (happen C s e) (happen C s' e).
Proof.
  intros C j s s' e (A1 & A2 & A3 & A4) He. destruct e as [net src q|i sg fu|n t].
  - cbn [happen]. split; [exact A1|]. split; [exact A2|]. cbn [sy_tasks]. split; [rewrite !app_length, A3; reflexivity|]. intros i Hi.
    destruct (Nat.lt_ge_cases i (length (sy_tasks s))) as [Hl|Hl].
    + rewrite !nth_error_app1 by (rewrite ?A3; exact Hl). apply A4. exact Hi.
    + rewrite !nth_error_app2 by (rewrite ?A3; exact Hl). rewrite A3. reflexivity.
  - cbn [is_step] in He. apply Nat.eqb_neq in He. cbn [happen]. rewrite (A4 i He), A2. destruct (nth_error (sy_tasks s) i) as [tk|] eqn:Hi; [|repeat split; assumption].
    destruct (task_step_ext C (sy_stores s) (sy_stores s') (sy_clock s) tk sg fu A1) as [E1 E2].
    destruct (task_step C (sy_stores s) (sy_clock s) tk sg fu) as [tk1 st1], (task_step C (sy_stores s') (sy_clock s) tk sg fu) as [tk2 st2]. cbn [fst snd] in E1, E2. subst tk2.
    split; [exact E2|]. split; [reflexivity|]. cbn [sy_tasks]. rewrite !length_replace. split; [exact A3|]. intros x Hx. destruct (Nat.eq_dec x i) as [->|D].
    + rewrite (nth_replace_same _ _ _ _ _ Hi). rewrite <- (A4 i He) in Hi. rewrite (nth_replace_same _ _ _ _ _ Hi). reflexivity.
    + rewrite !nth_replace_other by exact D. apply A4. exact Hx.
  - cbn [happen]. split; [exact A1|]. cbn [sy_clock sy_tasks]. rewrite A2. auto.
Qed.
(** A script that has returned stays so. *)
Lemma returned_stays : forall C s e j tk x, nth_error (sy_tasks s) j = Some tk -> returned tk = Some x -> nth_error (sy_tasks (happen C s e)) j = Some tk.
Proof.
  intros C s e j tk x Hj R. destruct (is_step j e) eqn:E; [|apply step_other; assumption]. destruct e as [|i sg fu|]; try discriminate E.
  cbn [is_step] in E. apply Nat.eqb_eq in E. subst i. rewrite (step_same C s j sg fu tk Hj). unfold task_step. unfold returned in R. destruct (tk_rest tk) eqn:Er; try discriminate R. reflexivity.
Qed.
Lemma p_C115_unfinished_leaves_nothing : forall C st clocks evs j tk, crypto_laws C -> network_state C st -> schedule_typed clocks evs ->
  let s := happens C (idle st clocks) evs in let s' := happens C (idle st clocks) (without j evs) in
  nth_error (sy_tasks s) j = Some tk -> returned tk = None -> ~ is_add_root (tk_request tk) ->
  (forall n, sy_stores s' n = sy_stores s n) /\ (forall i, i <> j -> nth_error (sy_tasks s') i = nth_error (sy_tasks s) i).
Proof.
  intros C st clocks evs j tk0 L N T s s' Hj0 R0 D0. subst s s'.
  assert (G : forall evs, schedule_typed clocks evs ->
    (forall tk, nth_error (sy_tasks (happens C (idle st clocks) evs)) j = Some tk -> returned tk = None /\ ~ is_add_root (tk_request tk)) ->
    alike j (happens C (idle st clocks) evs) (happens C (idle st clocks) (without j evs))).
  { clear evs tk0 T Hj0 R0 D0. intros evs. induction evs as [|e evs IH] using rev_ind; intros T H; [repeat split|].
    assert (T1 : schedule_typed clocks evs) by (destruct T as [Tc T]; apply Forall_app in T; split; [exact Tc|apply T]).
    assert (H1 : forall tk, nth_error (sy_tasks (happens C (idle st clocks) evs)) j = Some tk -> returned tk = None /\ ~ is_add_root (tk_request tk)).
    { intros tk Hj. rewrite happens_app in H. cbn [happens fold_left] in H. fold (happens C (idle st clocks) evs) in H. destruct (returned tk) as [x|] eqn:R.
      - destruct (H tk (returned_stays C _ e j tk x Hj R)) as [Z _]. congruence.
      - split; [reflexivity|]. destruct (is_step j e) eqn:E; [|apply (H tk (step_other C _ e j tk Hj E))].
        destruct e as [|i sg fu|]; try discriminate E. cbn [is_step] in E. apply Nat.eqb_eq in E. subst i. destruct (H _ (step_same C _ j sg fu tk Hj)) as [_ Z].
        intros A. apply Z. unfold task_step. destruct (tk_rest tk); try exact A. destruct (service_step C _ _) as [[r|e| |] d]; exact A. }
    specialize (IH T1 H1). unfold without in *. rewrite filter_app, !happens_app. cbn [filter]. destruct (is_step j e) eqn:E; cbn [negb].
    2:{ cbn [happens fold_left] in *. apply alike_other; assumption. }
    destruct e as [|i sg fu|]; try discriminate E. cbn [is_step] in E. apply Nat.eqb_eq in E. subst i. cbn [happens fold_left] in *.
    fold (happens C (idle st clocks) evs) in *. set (s := happens C (idle st clocks) evs) in *. set (s' := happens C (idle st clocks) (filter (fun e => negb (is_step j e)) evs)) in *.
    destruct (nth_error (sy_tasks s) j) as [tk|] eqn:Hj.
    2:{ cbn [happen]. rewrite Hj. exact IH. }
    destruct (H1 tk eq_refl) as [R D]. rewrite happens_app in H. cbn [happens fold_left] in H. fold (happens C (idle st clocks) evs) in H. fold s in H.
    destruct (H _ (step_same C s j sg fu tk Hj)) as [R' _].
    assert (U : unchanged (sy_stores s) (snd (task_step C (sy_stores s) (sy_clock s) tk sg fu))).
    { destruct (inv_now C st clocks evs L N T1) as [us I]. fold s in I. pose proof I as (_ & _ & _ & _ & I5). destruct (I5 j tk Hj) as (So & _ & I6). rewrite R in I6.
      destruct I6 as [(Hl & _)|(node & p & n & e & r & Eq & _)]; [|exfalso; apply D; exists node, p, n, e; exact Eq].
      assert (Hs : single (tk_rest tk)) by (eapply leads_single; [exact Hl|apply script_single; exact D]).
      unfold task_step in *. destruct (tk_rest tk) as [x| |n k|p b k|n args c k] eqn:Er; try (intros z; reflexivity).
      inversion Hs as [| | |? ? ? ? Hc Hk|? ? ? ? Hk]; subst.
      - destruct (local_computes C (tk_net tk) n args c Hc) as [r [_ Hr]]. unfold params in Hr. rewrite Hr. cbn [snd]. apply put_unchanged. reflexivity.
      - destruct (service_step C (sy_stores s n) _) as [[r|e| |] d] eqn:Es; cbn [fst] in R'.
        + exfalso. unfold returned in R'. cbn [tk_rest] in R'. destruct (Hk r) as [a Ea]. rewrite Ea in R'. discriminate R'.
        + destruct e.
        + exfalso. eapply (p_C114_never_stuck C st clocks (evs ++ [E_step j sg fu]) j); [exact L|exact N|exact T| |].
          * rewrite happens_app. cbn [happens fold_left]. fold (happens C (idle st clocks) evs). fold s. rewrite (step_same C s j sg fu tk Hj). unfold task_step. rewrite Er, Es. reflexivity.
          * reflexivity.
        + exfalso. eapply (p_C114_never_stuck C st clocks (evs ++ [E_step j sg fu]) j); [exact L|exact N|exact T| |].
          * rewrite happens_app. cbn [happens fold_left]. fold (happens C (idle st clocks) evs). fold s. rewrite (step_same C s j sg fu tk Hj). unfold task_step. rewrite Er, Es. reflexivity.
          * reflexivity. }
    destruct IH as (A1 & A2 & A3 & A4). cbn [happen]. rewrite Hj. destruct (task_step C (sy_stores s) (sy_clock s) tk sg fu) as [tk' st'] eqn:Et. cbn [snd] in U.
    split; [cbn [sy_stores]; intros z; rewrite A1, U; reflexivity|]. split; [exact A2|]. cbn [sy_tasks]. rewrite length_replace. split; [exact A3|].
    intros i Hi. rewrite nth_replace_other by exact Hi. apply A4. exact Hi. }
  destruct (G evs T) as (G1 & _ & _ & G4).
  - intros tk Hj. rewrite Hj0 in Hj. injection Hj as <-. auto.
  - split; [exact G1|exact G4].
Qed.

(** * From sequences of uses to schedules *)
Lemma entry_typed : forall C st clocks evs en, schedule_typed clocks evs -> entry_of clocks evs (sy_tasks (happens C (idle st clocks) evs)) en -> api_typed (snd (en_use en)).
Proof.
  intros C st clocks evs en [Tc T] (tk & q & i & now & sg & fu & H1 & H2 & H3 & H4 & H5). rewrite H3. cbn [snd].
  assert (B : forall n t, said clocks evs n t -> t < u64_bound).
  { intros n t [->|H]; [apply Tc|]. rewrite Forall_forall in T. exact (T _ H). }
  apply B in H4. assert (Hn : forall node, request_node q = Some node -> now < u64_bound) by (intros node Hn; eapply B; apply H5; exact Hn).
  apply task_from in H1. rewrite Forall_forall in T. specialize (T _ H1). cbn [event_typed] in T. clear H1 H3 H5 B Tc.
  assert (Tq : api_typed (alone q 0 0)).
  { destruct (en_part en); cbn [part_of] in H2; [injection H2 as <-; exact T| |]; destruct (tk_request tk) as [| | | |node p n e| | | | | | | | | | | |]; try discriminate H2;
      injection H2 as <-; destruct T as [_ T]; cbn [alone] in *; (split; [intros z Z; try discriminate Z; injection Z as <-; reflexivity|]).
    - apply T.
    - destruct T as (_ & T & _). split; [exact T|reflexivity]. }
  clear T. unfold request_node in Hn.
  destruct q; destruct Tq as [_ Tq]; cbn [alone target] in *; (split; [intros z Z; cbn [node_time] in Z; try discriminate Z; injection Z as <-; eapply Hn; reflexivity|]);
    try exact Tq; try assumption; try (destruct Tq; split; assumption).
  destruct Tq as (T1 & T2 & _). auto.
Qed.
Lemma entries_typed : forall C st clocks evs us, schedule_typed clocks evs -> Forall (entry_of clocks evs (sy_tasks (happens C (idle st clocks) evs))) us -> uses_typed (map en_use us).
Proof.
  intros C st clocks evs us T H. unfold uses_typed. rewrite Forall_map. eapply Forall_impl; [|exact H]. intros en. apply entry_typed. exact T.
Qed.
Lemma entry_started : forall C st clocks evs en, entry_of clocks evs (sy_tasks (happens C (idle st clocks) evs)) en ->
  exists net src q0 q i now sg fu, In (E_start net src q0) evs /\ part_of q0 (en_part en) = Some q /\ en_use en = (as_met net sg fu, src, alone q i now) /\
    said clocks evs (relay net) i /\ (forall node, request_node q = Some node -> said clocks evs node now).
Proof.
  intros C st clocks evs en (tk & q & i & now & sg & fu & H1 & H2 & H3 & H4 & H5). apply task_from in H1.
  exists (tk_net tk), (tk_src tk), (tk_request tk), q, i, now, sg, fu. auto.
Qed.
Lemma target_alone : forall q i now, target (alone q i now) = request_node q.
Proof. intros q i now. destruct q; reflexivity. Qed.
Lemma root_of_alone : forall q i now, root_of (alone q i now) = root_of (alone q 0 0).
Proof. intros q i now. destruct q; reflexivity. Qed.
Lemma part_node : forall q0 p q, part_of q0 p = Some q -> request_node q = request_node q0.
Proof. intros q0 p q H. destruct p; cbn [part_of] in H; [congruence| |]; destruct q0; try discriminate H; injection H as <-; reflexivity. Qed.
Lemma part_root : forall q0 p q x, part_of q0 p = Some q -> root_of (alone q 0 0) = Some x -> root_of (alone q0 0 0) = Some x.
Proof. intros q0 p q x H R. destruct p; cbn [part_of] in H; [congruence| |]; destruct q0; try discriminate H; injection H as <-; first [exact R|discriminate R]. Qed.

(** ** C116 *)
(** What an unfinished [add_root_trust] has done is nothing or its [set_root]. *)
Lemma replies_parts : forall C us st j, map fst (replies_to j (replies C us st)) = map en_part (filter (fun en => Nat.eqb (en_task en) j) us).
Proof.
  intros C us. induction us as [|[i p [[net src] a]] us IH]; intros st j; [reflexivity|]. cbn [replies]. unfold replies_to. cbn [filter fst en_task].
  destruct (Nat.eqb i j); cbn [map snd fst en_part]; [f_equal|]; apply IH.
Qed.
Lemma p_C116_at_most_its_root_partial : forall C st clocks evs j tk, crypto_laws C -> network_state C st -> schedule_typed clocks evs ->
  nth_error (sy_tasks (happens C (idle st clocks) evs)) j = Some tk -> returned tk = None ->
  exists us, explains C st clocks evs us /\ forall en, In en us -> en_task en = j -> en_part en = P_root.
Proof.
  intros C st clocks evs j tk L N T Hj R. destruct (inv_now C st clocks evs L N T) as [us I]. pose proof (inv_explains C st clocks evs us I) as X.
  exists us. split; [exact X|]. destruct X as (_ & _ & X). specialize (X j tk Hj). unfold settled in X. rewrite R in X. intros en Hin Ht.
  pose proof (replies_parts C us st j) as P. assert (Hp : In (en_part en) (map en_part (filter (fun en => Nat.eqb (en_task en) j) us))).
  { apply in_map. apply filter_In. split; [exact Hin|]. apply Nat.eqb_eq. exact Ht. }
  rewrite <- P in Hp. destruct X as [X|(_ & r & _ & X)]; rewrite X in Hp; cbn [map fst] in Hp; [destruct Hp|]. destruct Hp as [Hp|[]]. congruence.
Qed.

(** ** C117 *)
(** However scripts are mixed and whichever never end, every root of a node was asked for by the owner of its service. *)
Lemma run_all_same : forall C st clocks evs us, inv C st clocks evs (happens C (idle st clocks) evs) us -> forall n,
  sy_stores (happens C (idle st clocks) evs) n = run_all C (map en_use us) st n.
Proof. intros C st clocks evs us (_ & _ & H & _) n. apply H. Qed.
Lemma p_C117_roots_by_owners : forall C clocks evs n k m, crypto_laws C -> schedule_typed clocks evs ->
  root_max_len (sy_stores (happens C (idle empty_network clocks) evs) n) k m ->
  exists net src q p l, In (E_start net src q) evs /\ request_node q = Some n /\ owns net n /\ root_of (alone q 0 0) = Some (p, l) /\ peer_key C p k /\ m = N.min l 16.
Proof.
  intros C clocks evs n k m L T H. destruct (inv_now C empty_network clocks evs L (empty_state_ok C) T) as [us I].
  rewrite (run_all_same _ _ _ _ _ I) in H. pose proof I as (_ & _ & _ & He & _).
  destruct (p_C94_every_root_is_the_owners C _ n k m L (entries_typed _ _ _ _ _ T He) H) as (net & src & a & p & l & Hin & Ht & Ho & Hr & Hk & Hm).
  apply in_map_iff in Hin. destruct Hin as (en & Eu & Hin). rewrite Forall_forall in He. destruct (entry_started C _ _ _ _ (He en Hin)) as (net0 & src0 & q0 & q & i & now & sg & fu & S1 & S2 & S3 & _).
  rewrite Eu in S3. injection S3 as -> -> ->. rewrite target_alone in Ht. rewrite root_of_alone in Hr.
  exists net0, src0, q0, p, l. split; [exact S1|]. split; [rewrite <- (part_node _ _ _ S2); exact Ht|]. split; [exact Ho|]. split; [eapply part_root; eassumption|]. auto.
Qed.

(** A root is never removed and never changed, by no script of anyone. *)
Lemma history_keeps_roots : forall C es d k m, crypto_laws C -> service_reachable C d -> service_events_typed es ->
  root_max_len d k m -> root_max_len (service_history C d es) k m.
Proof.
  intros C es d k m L R. induction es as [|[[cp c] fu] es IH] using rev_ind; intros T H; [exact H|].
  apply Forall_app in T. destruct T as [T1 T2]. inversion T2 as [|? ? Tc _]; subst. cbn [fst snd] in Tc. specialize (IH T1 H).
  unfold service_history. rewrite fold_left_app. cbn [fold_left]. fold (service_history C d es).
  destruct (service_step C (service_history C d es) (cp, c, fu)) as [r d'] eqn:E. cbn [snd].
  destruct (p_C41_only_the_owner_sets_roots C _ cp c fu r d' L (history_reachable C d es R T1) Tc E) as [X|(p & n & k' & -> & O & K & (_ & _ & X))].
  - unfold root_max_len in *. rewrite X. exact IH.
  - apply X. left. exact IH.
Qed.
Lemma uses_keep_roots : forall C us st n k m, crypto_laws C -> uses_typed us -> network_state C st -> root_max_len (st n) k m -> root_max_len (run_all C us st n) k m.
Proof.
  intros C us. induction us as [|[[net src] a] us IH]; intros st n k m L T N H; [exact H|]. inversion T as [|? ? T1 T2]; subst. cbn [snd] in T1.
  unfold run_all. cbn [fold_left fst snd]. fold (run_all C us (run C net src a st)). apply IH; [exact L|exact T2|apply p_C94_one_node; assumption|].
  destruct (target a) as [node|] eqn:E.
  - destruct (script_traced C net src a node st T1 E) as (es & F & Hn & O). destruct (bytes_eqb n node) eqn:B.
    + apply bytes_eqb_eq in B. subst n. rewrite Hn. apply history_keeps_roots; [exact L|apply N|eapply traced_typed; exact F|exact H].
    + rewrite O; [exact H|]. intros ->. rewrite bytes_eqb_refl in B. discriminate B.
  - rewrite (issuing_unchanged C net src a st E n). exact H.
Qed.
Lemma p_C117_roots_stay : forall C st clocks evs evs' n k m, crypto_laws C -> network_state C st -> schedule_typed clocks (evs ++ evs') ->
  root_max_len (sy_stores (happens C (idle st clocks) evs) n) k m -> root_max_len (sy_stores (happens C (idle st clocks) (evs ++ evs')) n) k m.
Proof.
  intros C st clocks evs evs' n k m L N T H. pose proof T as [Tc Te]. apply Forall_app in Te. destruct Te as [T1 T2].
  destruct (inv_now C st clocks evs L N (conj Tc T1)) as [us I]. destruct (inv_more C st clocks evs us evs' L I T2) as [l I'].
  pose proof I' as (_ & _ & _ & He & _). apply Forall_app in He. destruct He as [He1 He2].
  rewrite (run_all_same _ _ _ _ _ I) in H. rewrite (run_all_same _ _ _ _ _ I'), map_app, run_all_app. apply uses_keep_roots; [exact L| | |exact H].
  - eapply entries_typed; eassumption.
  - apply uses_state; [eapply entries_typed; eassumption|exact N].
Qed.

(** ** C118 *)
(** A relation leaves a node only when a clock of the node said a time at which it is expired, or for a newer one of the same
    keys that a script brought. *)
Lemma uses_leave : forall C us st n x, crypto_laws C -> wasm32 C = true -> uses_typed us -> network_state C st -> stored (st n) x ->
  stored (run_all C us st n) x \/ exists net src a, In (net, src, a) us /\ target a = Some n /\
    ((exists now, node_time a = Some now /\ db_expired (from_secs now) x) \/ exists y, brings C a y /\ same_keys x y /\ before (rel_issued_at x) (rel_issued_at y)).
Proof.
  intros C us. induction us as [|[[net src] a] us IH]; intros st n x L W T N Sx; [left; exact Sx|]. inversion T as [|? ? T1 T2]; subst. cbn [snd] in T1.
  unfold run_all. cbn [fold_left fst snd]. fold (run_all C us (run C net src a st)).
  destruct (p_C95_what_leaves C net src a st n x L W T1 N Sx) as [S1|(Ht & H)].
  - destruct (IH (run C net src a st) n x L W T2) as [S2|(net' & src' & a' & Hin & Hr)]; [apply p_C94_one_node; assumption|exact S1|left; exact S2|].
    right. exists net', src', a'. split; [right; exact Hin|exact Hr].
  - right. exists net, src, a. split; [left; reflexivity|]. split; [exact Ht|exact H].
Qed.
Lemma node_time_node : forall q i now t, node_time (alone q i now) = Some t -> t = now.
Proof. intros q i now t H. destruct q; cbn [alone node_time] in H; congruence. Qed.
Lemma part_brings : forall C q0 p q i now y, part_of q0 p = Some q -> brings C (alone q i now) y -> brings C (alone q0 i now) y.
Proof.
  intros C q0 p q i now y H [Sg B]. destruct p; cbn [part_of] in H; [injection H as ->; split; assumption| |]; destruct q0; try discriminate H; injection H as <-;
    cbn [alone] in B; destruct y as [u|v]; try contradiction. split; [exact Sg|]. destruct B as (k & K1 & K2 & B). pose proof (peer_key_fun C _ _ _ K1 K2) as ->. split; assumption.
Qed.
Lemma entries_say : forall C st clocks evs us n net src a, Forall (entry_of clocks evs (sy_tasks (happens C (idle st clocks) evs))) us ->
  In (net, src, a) (map en_use us) -> target a = Some n ->
  (forall now, node_time a = Some now -> said clocks evs n now) /\ (forall y, brings C a y -> brought C clocks evs n y) /\
  (forall c now, a = A_insert_cert n c now -> exists net0 src0, In (E_start net0 src0 (Q_insert_cert n c)) evs).
Proof.
  intros C st clocks evs us n net src a He Hin Ht. apply in_map_iff in Hin. destruct Hin as (en & Eu & Hin). rewrite Forall_forall in He.
  destruct (entry_started C _ _ _ _ (He en Hin)) as (net0 & src0 & q0 & q & i & now0 & sg & fu & S1 & S2 & S3 & S4 & S5). rewrite Eu in S3. injection S3 as -> -> ->.
  rewrite target_alone in Ht. split; [|split].
  - intros now Hn. apply node_time_node in Hn. subst now0. apply S5. exact Ht.
  - intros y B. exists net0, src0, q0, i, now0. split; [exact S1|]. split; [rewrite <- (part_node _ _ _ S2); exact Ht|]. split; [exact S4|]. split; [apply S5; exact Ht|].
    eapply part_brings; eassumption.
  - intros c now E. destruct q; try discriminate E. injection E as -> -> ->. exists net0, src0.
    destruct (en_part en); cbn [part_of] in S2; [injection S2 as ->; exact S1| |]; destruct q0; discriminate S2.
Qed.
Lemma p_C118_what_leaves : forall C st clocks evs evs' n x, crypto_laws C -> wasm32 C = true -> network_state C st -> schedule_typed clocks (evs ++ evs') ->
  stored (sy_stores (happens C (idle st clocks) evs) n) x ->
  stored (sy_stores (happens C (idle st clocks) (evs ++ evs')) n) x \/
  (exists now, said clocks (evs ++ evs') n now /\ db_expired (from_secs now) x) \/
  (exists y, brought C clocks (evs ++ evs') n y /\ same_keys x y /\ before (rel_issued_at x) (rel_issued_at y)).
Proof.
  intros C st clocks evs evs' n x L W N T Sx. pose proof T as [Tc Te]. apply Forall_app in Te. destruct Te as [T1 T2].
  destruct (inv_now C st clocks evs L N (conj Tc T1)) as [us I]. destruct (inv_more C st clocks evs us evs' L I T2) as [l I'].
  pose proof I' as (_ & _ & _ & He & _). apply Forall_app in He. destruct He as [He1 He2].
  rewrite (run_all_same _ _ _ _ _ I) in Sx. rewrite (run_all_same _ _ _ _ _ I'), map_app, run_all_app.
  destruct (uses_leave C (map en_use l) (run_all C (map en_use us) st) n x L W) as [H|(net & src & a & Hin & Ht & H)].
  - eapply entries_typed; eassumption.
  - apply uses_state; [eapply entries_typed; eassumption|exact N].
  - exact Sx.
  - left. exact H.
  - right. destruct (entries_say C st clocks _ l n net src a He2 Hin Ht) as (E1 & E2 & _).
    destruct H as [(now & Hn & Hx)|(y & B & Hy)]; [left; exists now; auto|right; exists y; auto].
Qed.
(** A relation that arrives was brought by a script: it is signed by the key it names and, unless it came in a certificate, was not
    made after a time the clock of the node said. *)
Lemma uses_arrive : forall C us st n x, crypto_laws C -> wasm32 C = true -> uses_typed us -> network_state C st -> stored (run_all C us st n) x ->
  stored (st n) x \/ exists net src a, In (net, src, a) us /\ target a = Some n /\ brings C a x /\
    ((exists c now, a = A_insert_cert n c now) \/ exists now, node_time a = Some now /\ secs (rel_issued_at x) <= now).
Proof.
  intros C us. induction us as [|[[net src] a] us IH]; intros st n x L W T N Sx; [left; exact Sx|]. inversion T as [|? ? T1 T2]; subst. cbn [snd] in T1.
  unfold run_all in Sx. cbn [fold_left fst snd] in Sx. fold (run_all C us (run C net src a st)) in Sx.
  destruct (IH _ n x L W T2 (proj1 (p_C94_one_node C net src a st T1 N)) Sx) as [S1|(net' & src' & a' & Hin & Hr)].
  - destruct (p_C95_what_arrives C net src a st n x L W T1 N S1) as [S2|(Ht & B & Hr)]; [left; exact S2|]. right.
    exists net, src, a. split; [left; reflexivity|]. split; [exact Ht|]. split; [exact B|].
    destruct a; try (right; exact Hr). left. cbn [target] in Ht. injection Ht as ->. exists c, now. reflexivity.
  - right. exists net', src', a'. split; [right; exact Hin|exact Hr].
Qed.
Lemma p_C118_what_arrives : forall C st clocks evs n x, crypto_laws C -> wasm32 C = true -> network_state C st -> schedule_typed clocks evs ->
  stored (sy_stores (happens C (idle st clocks) evs) n) x ->
  stored (st n) x \/
  (brought C clocks evs n x /\
    ((exists net src c, In (E_start net src (Q_insert_cert n c)) evs) \/ exists now, said clocks evs n now /\ secs (rel_issued_at x) <= now)).
Proof.
  intros C st clocks evs n x L W N T Sx. destruct (inv_now C st clocks evs L N T) as [us I]. pose proof I as (_ & _ & _ & He & _).
  rewrite (run_all_same _ _ _ _ _ I) in Sx. destruct (uses_arrive C _ _ n x L W (entries_typed _ _ _ _ _ T He) N Sx) as [H|(net & src & a & Hin & Ht & B & H)]; [left; exact H|].
  right. destruct (entries_say C st clocks _ us n net src a He Hin Ht) as (E1 & E2 & E3). split; [apply E2; exact B|].
  destruct H as [(c & now & Ea)|(now & Hn & Hx)]; [left|right; exists now; auto]. destruct (E3 c now Ea) as (net0 & src0 & H). exists net0, src0, c. exact H.
Qed.

(** ** C119 *)
(** What a script that returned without error did lasts, whatever the others do before and after. *)
Lemma whole_entry : forall C us st j x, replies_to j (replies C us st) = [(P_whole, Ok x)] ->
  exists us1 us2 net src a, us = us1 ++ mk_entry j P_whole (net, src, a) :: us2 /\ reply_of C net src a (run_all C (map en_use us1) st) = Ok x.
Proof.
  intros C us. induction us as [|[i p [[net src] a]] us IH]; intros st j x H; [discriminate H|]. cbn [replies] in H. unfold replies_to in H. cbn [filter fst] in H.
  destruct (Nat.eqb i j) eqn:E.
  - cbn [map snd] in H. injection H as -> H _. apply Nat.eqb_eq in E. subst i. exists [], us, net, src, a. split; [reflexivity|exact H].
  - destruct (IH _ j x H) as (us1 & us2 & net' & src' & a' & -> & Hr). exists (mk_entry i p (net, src, a) :: us1), us2, net', src', a'. split; [reflexivity|]. exact Hr.
Qed.
Lemma moment : forall evs (order : nat -> entries), order 0%nat = [] ->
  (forall m, order (S m) = order m \/ exists en sg fu, order (S m) = order m ++ [en] /\ nth_error evs m = Some (E_step (en_task en) sg fu)) ->
  forall M us1 en us2, order M = us1 ++ en :: us2 -> exists m sg fu, (m < M)%nat /\ order m = us1 /\ order (S m) = us1 ++ [en] /\ nth_error evs m = Some (E_step (en_task en) sg fu).
Proof.
  intros evs order O0 O1 M. induction M as [|M IH]; intros us1 en us2 E; [rewrite O0 in E; destruct us1; discriminate E|].
  destruct (O1 M) as [Es|(en' & sg & fu & Es & Ev)].
  - rewrite Es in E. destruct (IH us1 en us2 E) as (m & sg & fu & Hm & Hr). exists m, sg, fu. split; [lia|exact Hr].
  - rewrite Es in E. destruct us2 as [|z us2 _] using rev_ind.
    + apply app_inj_tail in E. destruct E as [E ->]. exists M, sg, fu. split; [lia|]. split; [exact E|]. split; [rewrite Es, E; reflexivity|exact Ev].
    + rewrite app_comm_cons, app_assoc in E. apply app_inj_tail in E. destruct E as [E _]. destruct (IH us1 en us2 E) as (m & sg' & fu' & Hm & Hr). exists m, sg', fu'. split; [lia|exact Hr].
Qed.
(** The moment at which a script that returned made its use. *)
Lemma returned_use : forall C st clocks evs j tk x, crypto_laws C -> network_state C st -> schedule_typed clocks evs ->
  nth_error (sy_tasks (happens C (idle st clocks) evs)) j = Some tk -> returned tk = Some x -> ~ is_add_root (tk_request tk) ->
  exists m i now sg fu us1 us2, (m < length evs)%nat /\ said clocks evs (relay (tk_net tk)) i /\ (forall node, request_node (tk_request tk) = Some node -> said clocks evs node now) /\
    let a := alone (tk_request tk) i now in let net := as_met (tk_net tk) sg fu in let st1 := run_all C (map en_use us1) st in
    (forall n, sy_stores (happens C (idle st clocks) (firstn m evs)) n = st1 n) /\ network_state C st1 /\
    reply_of C net (tk_src tk) a st1 = Ok x /\ api_typed a /\
    inv C st clocks evs (happens C (idle st clocks) evs) (us1 ++ mk_entry j P_whole (net, tk_src tk, a) :: us2).
Proof.
  intros C st clocks evs j tk x L N T Hj R D. destruct (inv_all C st clocks L evs N T) as (order & O0 & O1 & O2).
  pose proof (O2 (length evs) (le_n _)) as I. rewrite firstn_all in I. pose proof (inv_explains C st clocks evs _ I) as (_ & He & X). specialize (X j tk Hj).
  unfold settled in X. rewrite R in X. destruct X as [X|(A & _)]; [|contradiction]. apply whole_entry in X. destruct X as (us1 & us2 & net & src & a & E & Hr).
  destruct (moment evs order O0 O1 (length evs) us1 _ us2 E) as (m & sg0 & fu0 & Hm & Em & _ & _).
  rewrite E in He, I. pose proof He as He'. apply Forall_app in He'. destruct He' as [He1 He2]. inversion He2 as [|? ? Hen _]; subst. pose proof Hen as Hen'.
  destruct Hen as (tk' & q & i & now & sg & fu & H1 & H2 & H3 & H4 & H5). cbn [en_task en_part en_use part_of] in *. rewrite Hj in H1. injection H1 as <-. injection H2 as <-. injection H3 as -> -> ->.
  exists m, i, now, sg, fu, (order m), us2. split; [exact Hm|]. split; [exact H4|]. split; [exact H5|]. cbn zeta. split; [intros n; apply (run_all_same _ _ _ _ _ (O2 m (Nat.lt_le_incl _ _ Hm)))|].
  split; [apply uses_state; [eapply entries_typed; eassumption|exact N]|]. split; [exact Hr|]. split; [apply entry_typed in Hen'; [exact Hen'|exact T]|exact I].
Qed.
Lemma relation_eq_dec : forall x y : relation, {x = y} + {x <> y}.
Proof.
  assert (Db : forall a b : bytes, {a = b} + {a <> b}) by (apply list_eq_dec; apply Coq.Strings.Byte.byte_eq_dec).
  assert (Df : forall a b : key_format, {a = b} + {a <> b}) by decide equality.
  assert (Dk : forall a b : public_key, {a = b} + {a <> b}) by decide equality.
  assert (Ds : forall a b : signature, {a = b} + {a <> b}) by decide equality.
  assert (Dd : forall a b : duration, {a = b} + {a <> b}) by (decide equality; apply N.eq_dec).
  assert (Dt : forall a b : trust, {a = b} + {a <> b}) by decide equality.
  assert (Da : forall a b : auth, {a = b} + {a <> b}) by decide equality.
  assert (Dr : forall a b : revocation, {a = b} + {a <> b}) by decide equality.
  decide equality.
Qed.
Lemma before_irrefl : forall a, ~ before a a.
Proof. intros a. unfold before. lia. Qed.
Lemma before_trans : forall a b c, before a b -> before b c -> before a c.
Proof. intros a b c. unfold before. lia. Qed.
Lemma lasts_on : forall C st clocks evs j us1 net src a us2 evs' n x, crypto_laws C -> wasm32 C = true -> network_state C st ->
  inv C st clocks evs (happens C (idle st clocks) evs) (us1 ++ mk_entry j P_whole (net, src, a) :: us2) -> schedule_typed clocks (evs ++ evs') ->
  (forall y, stored (run C net src a (run_all C (map en_use us1) st) n) y -> same_keys x y -> y <> x -> ~ before (rel_issued_at y) (rel_issued_at x)) ->
  (exists y, stored (run C net src a (run_all C (map en_use us1) st) n) y /\ same_keys x y) ->
  lasts C st clocks (evs ++ evs') n x.
Proof.
  intros C st clocks evs j us1 net src a us2 evs' n x L W N I T H (z & Hz & Kz). pose proof T as [Tc Te]. apply Forall_app in Te. destruct Te as [T1 T2].
  destruct (inv_more C st clocks evs _ evs' L I T2) as [l I']. pose proof I' as (_ & _ & _ & He & _). rewrite <- app_assoc in He. cbn [app] in He.
  apply Forall_app in He. destruct He as [He1 He2]. inversion He2 as [|? ? He3 He4]; subst.
  unfold lasts. rewrite (run_all_same _ _ _ _ _ I'), <- app_assoc. cbn [app]. rewrite map_app, run_all_app. cbn [map en_use]. unfold run_all at 1. cbn [fold_left fst snd].
  fold (run_all C (map en_use (us2 ++ l)) (run C net src a (run_all C (map en_use us1) st))).
  set (st1 := run_all C (map en_use us1) st) in *.
  assert (N1 : network_state C st1) by (apply uses_state; [eapply entries_typed; eassumption|exact N]).
  assert (N2 : network_state C (run C net src a st1)) by (apply p_C94_one_node; [exact (entry_typed _ _ _ _ _ T He3)|exact N1]).
  destruct (relation_eq_dec z x) as [->|D].
  - destruct (uses_leave C (map en_use (us2 ++ l)) (run C net src a st1) n x L W (entries_typed _ _ _ _ _ T He4) N2 Hz) as [Hs|(net' & src' & a' & Hin & Ht & Hr)]; [left; exact Hs|].
    destruct (entries_say C st clocks _ _ n net' src' a' He4 Hin Ht) as (E1 & E2 & _). right. destruct Hr as [(now & Hn & Hx)|(y & By & Ky & Lt)].
    + left. exists now. auto.
    + right. exists y. split; [right; apply E2; exact By|]. split; [exact Ky|]. split; [intros ->; revert Lt; apply before_irrefl|]. intros B. eapply before_irrefl. eapply before_trans; eassumption.
  - right. right. exists z. split; [|split; [exact Kz|]; split; [exact D|apply H; assumption]].
    assert (He5 : Forall (entry_of clocks (evs ++ evs') (sy_tasks (happens C (idle st clocks) (evs ++ evs')))) (us1 ++ [mk_entry j P_whole (net, src, a)]))
      by (apply Forall_app; split; [exact He1|constructor; [exact He3|constructor]]).
    destruct (uses_arrive C (map en_use (us1 ++ [mk_entry j P_whole (net, src, a)])) st n z L W (entries_typed _ _ _ _ _ T He5) N) as [Hs|(net' & src' & a' & Hin & Ht & B & _)].
    + rewrite map_app, run_all_app. exact Hz.
    + left. exact Hs.
    + right. apply (entries_say C st clocks _ _ n net' src' a' He5 Hin Ht). exact B.
Qed.
(** After an import the pair of keys has a relation that is not older. *)
Lemma imported_pair : forall C d x d', crypto_laws C -> service_reachable C d -> imported d x d' -> whole x = x ->
  (exists y, stored d' y /\ same_keys x y) /\ forall y, stored d' y -> same_keys x y -> y <> x -> ~ before (rel_issued_at y) (rel_issued_at x).
Proof.
  intros C d x d' L R [_ H] W. split.
  - pose proof (service_reachable_graph C d L R) as Rg. apply reachable_inv in Rg. destruct Rg as (s & Es & I).
    assert (Dk : (exists z, stored d z /\ same_keys x z) \/ forall z, stored d z -> ~ same_keys x z).
    { assert (G : forall l, (exists z, In z l /\ same_keys x z) \/ forall z, In z l -> ~ same_keys x z).
      { induction l as [|z l IH]; [right; intros z []|].
        destruct (pk_eqb (rel_issued_for x) (rel_issued_for z) && pk_eqb (rel_issued_by x) (rel_issued_by z)) eqn:E.
        - left. exists z. split; [left; reflexivity|]. apply andb_true_iff in E. destruct E as [E1 E2]. apply pk_eqb_eq in E1, E2. split; assumption.
        - destruct IH as [(w & Hw & Kw)|IH]; [left; exists w; split; [right; exact Hw|exact Kw]|]. right. intros w [->|Hw]; [|apply IH; exact Hw].
          intros [K1 K2]. rewrite K1, K2 in E. rewrite !(proj2 (pk_eqb_eq _ _) eq_refl) in E. discriminate E. }
      destruct (G (rels s)) as [(z & Hz & Kz)|G'].
      - left. exists z. split; [|exact Kz]. rewrite Es. apply (stored_in C); [apply I|exact Hz].
      - right. intros z Hz. apply G'. rewrite Es in Hz. apply (stored_in C) in Hz; [exact Hz|apply I]. }
    destruct Dk as [(z & Hz & Kz)|Dk].
    + destruct (before_dec (rel_issued_at z) (rel_issued_at x)) as [B|B].
      * exists x. split; [|split; reflexivity]. apply H. right. right. split; [symmetry; exact W|]. intros z' Hz' Kz'.
        assert (z' = z) as ->; [|exact B]. rewrite Es in Hz, Hz'. apply (stored_in C) in Hz, Hz'; try apply I.
        eapply pair_unique; [apply I|exact Hz'|exact Hz| |]; destruct Kz as [K1 K2], Kz' as [K1' K2']; congruence.
      * exists z. split; [|exact Kz]. apply H. right. left. auto.
    + exists x. split; [|split; reflexivity]. apply H. right. right. split; [symmetry; exact W|]. intros z' Hz' Kz'. exfalso. eapply Dk; eassumption.
  - intros y Hy Ky D. apply H in Hy. destruct Hy as [(Hk & _)|[(_ & _ & Hb)|(Hy & _)]]; [contradiction|exact Hb|congruence].
Qed.
Lemma p_C119_add_trust_lasts : forall C st clocks evs j tk node issuer p e, crypto_laws C -> wasm32 C = true -> network_state C st -> schedule_typed clocks evs ->
  nth_error (sy_tasks (happens C (idle st clocks) evs)) j = Some tk -> tk_request tk = Q_add_trust node issuer p e -> returned tk = Some (N_errors []) ->
  exists b k i now t w m d1, peer_key C issuer b /\ peer_key C p k /\ trust_asked C b k e i t /\ said clocks evs (relay (tk_net tk)) i /\ said clocks evs node now /\
    i <= now /\ now <= e /\ (m < length evs)%nat /\
    graph_step C (sy_stores (happens C (idle st clocks) (firstn m evs)) node) (G_weight b (from_secs now), None) = (Ok (GR_weight w), d1) /\
    ((w = 0 \/ (w = 1 /\ b <> k)) \/
     forall evs', schedule_typed clocks (evs ++ evs') ->
       lasts C st clocks (evs ++ evs') node (RAuth (mk_auth t b))).
Proof.
  intros C st clocks evs j tk node issuer p e L W N T Hj Eq R.
  destruct (returned_use C st clocks evs j tk _ L N T Hj R) as (m & i & now & sg & fu & us1 & us2 & Hm & Hi & Hn & Hs & N1 & Hr & Ta & I).
  { rewrite Eq. intros (? & ? & ? & ? & X). discriminate X. }
  rewrite Eq in *. cbn [alone] in Hr, Ta, I. set (st1 := run_all C (map en_use us1) st) in *. set (net := as_met (tk_net tk) sg fu) in *.
  destruct (aq_add_trust C net (tk_src tk) node issuer p e i now st1) as [r st2] eqn:E. cbn [reply_of] in Hr. rewrite E in Hr. cbn [fst] in Hr.
  destruct r as [x| | |]; try discriminate Hr. injection Hr as ->. destruct Ta as [Ta1 [Te Ti]].
  pose proof (Ta1 now eq_refl) as Tn. pose proof E as E'. apply p_C89_add_trust_done in E'; try assumption.
  destruct E' as (_ & b & k & t & w & d1 & K1 & K2 & A & L1 & L2 & G & Co & D). exists b, k, i, now, t, w, m, d1.
  split; [exact K1|]. split; [exact K2|]. split; [exact A|]. split; [exact Hi|]. split; [apply Hn; reflexivity|]. split; [exact L1|]. split; [exact L2|]. split; [exact Hm|].
  split; [rewrite Hs; exact G|]. destruct D as [(Hw & _)|(Hw & Im)]; [left; exact Hw|right]. intros evs' T'.
  assert (Wh : whole (RAuth (mk_auth t b)) = RAuth (mk_auth t b)).
  { destruct A as (A1 & A2 & A3 & _). destruct t as [f x sg0 y]. cbn [expires_at issued_at issued_for] in *. subst. reflexivity. }
  assert (Rd : service_reachable C d1).
  { assert (N2 : network_state C (run C net (tk_src tk) (A_get_weight node issuer now) st1)).
    { apply p_C94_one_node; [|exact N1]. split; [intros z Z; injection Z as <-; exact Tn|exact Logic.I]. }
    specialize (N2 node). destruct (aq_get_weight C (as_met net None None) (tk_src tk) node issuer now st1) as [r3 st3] eqn:E3.
    assert (N3 : network_state C st3).
    { replace st3 with (run C (as_met net None None) (tk_src tk) (A_get_weight node issuer now) st1) by (cbn [run]; rewrite E3; reflexivity).
      apply p_C94_one_node; [|exact N1]. split; [intros z Z; injection Z as <-; exact Tn|exact Logic.I]. }
    apply (p_C92_get_weight C _ _ _ _ b) in E3; try assumption.
    destruct E3 as [_ [(x & pp & G3 & _)|(er & G3 & _)]]; cbn [fault as_met] in G3; rewrite G in G3; [|discriminate G3]. injection G3 as _ ->. apply N3. }
  destruct (imported_pair C d1 _ _ L Rd Im Wh) as [P1 P2].
  eapply lasts_on; [exact L|exact W|exact N|exact I|exact T'| |]; cbn [run]; fold st1; rewrite E; cbn [snd].
  - exact P2.
  - exact P1.
Qed.
Lemma p_C119_revoke_lasts : forall C st clocks evs j tk node q p, crypto_laws C -> wasm32 C = true -> network_state C st -> schedule_typed clocks evs ->
  nth_error (sy_tasks (happens C (idle st clocks) evs)) j = Some tk -> tk_request tk = Q_revoke node q p -> returned tk = Some (N_errors []) ->
  exists b k i now v, peer_key C q b /\ peer_key C p k /\ revocation_asked C b k i v /\ said clocks evs (relay (tk_net tk)) i /\ said clocks evs node now /\ i <= now /\
    forall evs', schedule_typed clocks (evs ++ evs') ->
      stored_revocation (sy_stores (happens C (idle st clocks) (evs ++ evs')) node) v \/
      exists y, (stored (st node) y \/ brought C clocks (evs ++ evs') node y) /\ same_keys (RRev v) y /\ y <> RRev v /\ ~ before (rel_issued_at y) (revoked_at v).
Proof.
  intros C st clocks evs j tk node q p L W N T Hj Eq R.
  destruct (returned_use C st clocks evs j tk _ L N T Hj R) as (m & i & now & sg & fu & us1 & us2 & Hm & Hi & Hn & Hs & N1 & Hr & Ta & I).
  { rewrite Eq. intros (? & ? & ? & ? & X). discriminate X. }
  rewrite Eq in *. cbn [alone] in Hr, Ta, I. set (st1 := run_all C (map en_use us1) st) in *. set (net := as_met (tk_net tk) sg fu) in *.
  destruct (aq_revoke C net (tk_src tk) node q p i now st1) as [r st2] eqn:E. cbn [reply_of] in Hr. rewrite E in Hr. cbn [fst] in Hr.
  destruct r as [x| | |]; try discriminate Hr. injection Hr as ->. destruct Ta as [Ta1 Ti].
  pose proof (Ta1 now eq_refl) as Tn. pose proof E as E'. apply p_C91_revoke_done in E'; try assumption.
  destruct E' as (_ & b & k & v & K1 & K2 & A & L1 & Im). exists b, k, i, now, v.
  split; [exact K1|]. split; [exact K2|]. split; [exact A|]. split; [exact Hi|]. split; [apply Hn; reflexivity|]. split; [exact L1|]. intros evs' T'.
  assert (Wh : whole (RRev v) = RRev v).
  { destruct A as (A1 & A2 & A3 & _). destruct v as [f x y z]. cbn [revoked_at rev_pk revoked_by] in *. subst. reflexivity. }
  destruct (imported_pair C _ _ _ L (N1 node) Im Wh) as [P1 P2].
  assert (La : lasts C st clocks (evs ++ evs') node (RRev v)).
  { eapply lasts_on; [exact L|exact W|exact N|exact I|exact T'| |]; cbn [run]; fold st1; rewrite E; cbn [snd]; [exact P2|exact P1]. }
  destruct La as [La|[(now' & _ & [])|La]]; [left; exact La|right; exact La].
Qed.
