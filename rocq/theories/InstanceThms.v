(** The properties of the running service in their final form. PropsInstance.v restates them. *)
From Coq Require Import List NArith ZArith Bool Lia.
From Verif Require Import Base BaseFacts Text Keys KeysFacts Trust Certificate Relation Storage Graph Service Spec ServiceSpec ServiceFacts ServiceThms
  Instance InstanceSpec Toy ToyFacts Witness ServiceWitness.
Import ListNotations.
Open Scope N_scope.

Lemma history_snoc : forall C rn m evs ev, machine_history C rn m (evs ++ [ev]) = snd (machine_step C rn (machine_history C rn m evs) ev).
Proof. intros. unfold machine_history. rewrite fold_left_app. reflexivity. Qed.
Lemma history_app : forall C rn m h1 h2, machine_history C rn m (h1 ++ h2) = machine_history C rn (machine_history C rn m h1) h2.
Proof. intros. unfold machine_history. apply fold_left_app. Qed.
Lemma stored_with : forall d, db_of (with_db d) = d.
Proof. intros [a b]. reflexivity. Qed.
Lemma stored_create : forall f, db_of (create_relations f) = db_of f /\ db_of (create_roots f) = db_of f.
Proof. intros [a b]. split; reflexivity. Qed.
Lemma stored_start : forall f k, db_of (snd (start f k)) = db_of f.
Proof.
  intros [a b] k. destruct k as [[|[|[|k]]]|]; reflexivity.
Qed.
Lemma enters_exact : forall cp c, enters_graph cp c = true <-> graph_use cp c.
Proof.
  intros cp c. unfold graph_use. destruct c; cbn [enters_graph local_call]; split; intros H; try discriminate H; try reflexivity; try (destruct H; discriminate);
    try (split; [reflexivity|intros q n E; discriminate E]).
  - split; [reflexivity|]. intros q n E. symmetry. apply bytes_eqb_eq. exact H.
  - destruct H as [_ H]. apply bytes_eqb_eq. symmetry. apply (H _ _ eq_refl).
Qed.

(** What one call does to the node. *)
Lemma call_cases : forall C rn m e o, service_reachable C (db_of (m_file m)) -> crypto_laws C -> service_typed (snd (fst e)) -> forall a m', machine_call C rn m e o = (a, m') ->
  (m_process m = None /\ a = None /\ m' = m) \/
  (exists p, m_process m = Some p /\
    ((exists resp d', a = Some (Ok resp) /\ service_step C (db_of (m_file m)) e = (Ok resp, d') /\ m_file m' = with_db d' /\
        (exists p', m_process m' = Some p' /\ p_borrowed p' = p_borrowed p) /\ (graph_use (fst (fst e)) (snd (fst e)) -> p_borrowed p = false))
     \/ (a = Some Panic /\ db_of (m_file m') = db_of (m_file m) /\ graph_use (fst (fst e)) (snd (fst e)) /\
         (exists p', m_process m' = Some p' /\
           ((p_open p = false /\ o = false /\ (rn = false -> p' = p)) \/ (p_borrowed p = true /\ (rn = false -> p_borrowed p' = true)) \/
            (p_borrowed p = false /\ (exists s ts, snd (fst e) = S_insert_cert_raw s ts /\ cert_from_str C s = Panic) /\ (rn = false -> p_borrowed p' = true))) /\
           (rn = true -> p_borrowed p' = false))))).
Proof.
  intros C rn m [[cp c] fu] o R L T a m' H. unfold machine_call in H. destruct (m_process m) as [p|] eqn:P; [|injection H as <- <-; left; auto].
  right. exists p. split; [reflexivity|]. cbn [fst snd] in *. unfold process_call in H.
  destruct (enters_graph cp c) eqn:G.
  - apply enters_exact in G. destruct (negb (p_open p) && negb o) eqn:O.
    + injection H as <- <-. right. split; [reflexivity|]. split; [apply stored_with|]. split; [exact G|]. eexists. split; [reflexivity|].
      split; [left|intros ->; reflexivity]. apply andb_true_iff in O. destruct O as [O1 O2]. destruct (p_open p); [discriminate O1|]. destruct o; [discriminate O2|].
      split; [reflexivity|]. split; [reflexivity|]. intros ->. reflexivity.
    + destruct (p_borrowed p) eqn:B.
      * injection H as <- <-. right. split; [reflexivity|]. split; [apply stored_with|]. split; [exact G|]. eexists. split; [reflexivity|].
        split; [right; left|intros ->; reflexivity]. split; [reflexivity|]. intros ->. reflexivity.
      * destruct (service_step C (db_of (m_file m)) (cp, c, fu)) as [r d'] eqn:S.
        destruct (p_C65_calls_respond C _ cp c fu r d' L R T S) as [[resp ->]|(s & ts & -> & X & -> & ->)].
        -- injection H as <- <-. left. exists resp, d'. split; [reflexivity|]. split; [reflexivity|]. split; [reflexivity|]. split; [|intros _; reflexivity].
           eexists. split; [reflexivity|]. reflexivity.
        -- injection H as <- <-. right. split; [reflexivity|]. split; [apply stored_with|]. split; [exact G|]. eexists. split; [reflexivity|].
           split; [right; right|intros ->; reflexivity]. split; [reflexivity|]. split; [eauto|]. intros ->. reflexivity.
  - destruct (service_step C (db_of (m_file m)) (cp, c, fu)) as [r d'] eqn:S.
    destruct (p_C65_calls_respond C _ cp c fu r d' L R T S) as [[resp ->]|(s & ts & -> & X & -> & ->)]; [|discriminate G].
    injection H as <- <-. left. exists resp, d'. split; [reflexivity|]. split; [reflexivity|]. split; [reflexivity|]. split; [eexists; split; reflexivity|].
    intros U. apply enters_exact in U. congruence.
Qed.
Lemma step_reach : forall C d e, service_reachable C d -> service_typed (snd (fst e)) -> service_reachable C (snd (service_step C d e)).
Proof.
  intros C d e (es & T & <-) Te. exists (es ++ [e]). split; [apply Forall_app; split; [exact T|constructor; [exact Te|constructor]]|].
  unfold service_history. rewrite fold_left_app. reflexivity.
Qed.
Lemma call_reach : forall C rn m e o, crypto_laws C -> service_reachable C (db_of (m_file m)) -> service_typed (snd (fst e)) ->
  service_reachable C (db_of (m_file (snd (machine_call C rn m e o)))).
Proof.
  intros C rn m e o L R T. destruct (machine_call C rn m e o) as [a m'] eqn:H. cbn [snd].
  destruct (call_cases C rn m e o R L T a m' H) as [(_ & _ & ->)|(p & _ & [(resp & d' & _ & S & F & _)|(_ & F & _)])]; [exact R| |rewrite F; exact R].
  rewrite F, stored_with. pose proof (step_reach C _ e R T) as X. rewrite S in X. exact X.
Qed.
Lemma event_reach : forall C rn m ev, crypto_laws C -> service_reachable C (db_of (m_file m)) -> machine_typed ev ->
  service_reachable C (db_of (m_file (snd (machine_step C rn m ev)))).
Proof.
  intros C rn m ev L R T. destruct ev as [k| |e o|e o]; cbn [machine_step].
  - pose proof (stored_start (m_file m) k) as X. destruct (start (m_file m) k) as [[x|x| |] f]; cbn [snd] in *; cbn [m_file]; rewrite X; exact R.
  - exact R.
  - apply call_reach; assumption.
  - cbn [snd m_file]. apply call_reach; assumption.
Qed.
Lemma empty_reach : forall C, service_reachable C (db_of (m_file new_machine)).
Proof. intros C. exists []. split; [constructor|reflexivity]. Qed.
Lemma history_reach : forall C rn evs m, crypto_laws C -> service_reachable C (db_of (m_file m)) -> Forall machine_typed evs ->
  service_reachable C (db_of (m_file (machine_history C rn m evs))).
Proof.
  intros C rn evs. induction evs as [|ev evs IH] using rev_ind; intros m L R T; [exact R|]. rewrite history_snoc. apply Forall_app in T. destruct T as [T1 T2].
  inversion T2; subst. apply event_reach; [exact L|apply IH; assumption|assumption].
Qed.

(** ** C104 *)
(** Over any life of the node the store is one that some history of service calls leaves: *)
Lemma p_C104_stores : forall C rn m, crypto_laws C -> machine_reachable C rn m -> service_reachable C (db_of (m_file m)).
Proof. intros C rn m L (evs & T & ->). apply history_reach; [exact L|apply empty_reach|exact T]. Qed.
(** starts, stops and traps change no row, *)
Lemma p_C104_starts_keep : forall C rn m ev, (forall e o, ev <> E_call e o /\ ev <> E_kill e o) ->
  db_of (m_file (snd (machine_step C rn m ev))) = db_of (m_file m).
Proof.
  intros C rn m ev H. destruct ev as [k| |e o|e o]; cbn [machine_step].
  - pose proof (stored_start (m_file m) k) as X. destruct (start (m_file m) k) as [[x|x| |] f]; exact X.
  - reflexivity.
  - destruct (H e o) as [X _]. contradiction.
  - destruct (H e o) as [_ X]. contradiction.
Qed.
Lemma p_C104_traps_keep : forall C rn m e o m', crypto_laws C -> machine_reachable C rn m -> service_typed (snd (fst e)) ->
  machine_step C rn m (E_call e o) = (Some Panic, m') -> db_of (m_file m') = db_of (m_file m).
Proof.
  intros C rn m e o m' L R T H. cbn [machine_step] in H.
  destruct (call_cases C rn m e o (p_C104_stores C rn m L R) L T _ _ H) as [(_ & X & _)|(p & _ & [(resp & d' & X & _)|(_ & F & _)])]; [discriminate X|discriminate X|exact F].
Qed.
(** a service that runs has both tables, *)
Lemma p_C104_running_has_tables : forall C rn m, machine_reachable C rn m -> running m ->
  exists d, m_file m = with_db d.
Proof.
  intros C rn m (evs & T & ->). clear T. induction evs as [|ev evs IH] using rev_ind; intros P; [exfalso; apply P; reflexivity|].
  rewrite history_snoc in *. set (m := machine_history C rn new_machine evs) in *. destruct ev as [k| |e o|e o]; cbn [machine_step] in *.
  - destruct k as [[|[|[|k]]]|]; cbn in P |- *; try (exfalso; apply P; reflexivity); exists (db_of (m_file m)); reflexivity.
  - exfalso. apply P. reflexivity.
  - unfold machine_call in *. destruct (m_process m) as [p|] eqn:E; [|apply IH; exact P]. destruct (process_call C p (db_of (m_file m)) e o) as [[r p'] d'].
    exists d'. reflexivity.
  - exfalso. apply P. reflexivity.
Qed.
(** and its answers and effects are those of the service on the store. *)
Lemma p_C104_answers : forall C rn m e o resp m', crypto_laws C -> machine_reachable C rn m -> service_typed (snd (fst e)) ->
  machine_step C rn m (E_call e o) = (Some (Ok resp), m') -> service_step C (db_of (m_file m)) e = (Ok resp, db_of (m_file m')).
Proof.
  intros C rn m e o resp m' L R T H. cbn [machine_step] in H.
  destruct (call_cases C rn m e o (p_C104_stores C rn m L R) L T _ _ H) as [(_ & X & _)|(p & _ & [(resp' & d' & X & E & F & _)|(X & _)])]; [discriminate X| |discriminate X].
  injection X as ->. rewrite F, stored_with. exact E.
Qed.
(** A call cut short by a crash leaves what some call with a failing statement leaves. *)
Lemma p_C104_crash : forall C rn m e o, crypto_laws C -> machine_reachable C rn m -> service_typed (snd (fst e)) ->
  db_of (m_file (snd (machine_step C rn m (E_kill e o)))) = db_of (m_file m) \/
  db_of (m_file (snd (machine_step C rn m (E_kill e o)))) = snd (service_step C (db_of (m_file m)) e).
Proof.
  intros C rn m e o L R T. cbn [machine_step snd m_file]. destruct (machine_call C rn m e o) as [a m'] eqn:H.
  destruct (call_cases C rn m e o (p_C104_stores C rn m L R) L T _ _ H) as [(_ & _ & ->)|(p & _ & [(resp & d' & _ & E & F & _)|(_ & F & _)])]; cbn [snd];
    [left; reflexivity|right; rewrite F, stored_with, E; reflexivity|left; exact F].
Qed.

(** ** C102 *)
(** After one call with a text that makes the certificate parser panic, every later use of the graph traps until the
    service is started again; the store stays as it was. *)
Lemma p_C102_disabled : forall C m cp s ts fu m' evs e o', crypto_laws C -> machine_reachable C false m -> running m ->
  cert_from_str C s = Panic -> m' = snd (machine_step C false m (E_call (cp, S_insert_cert_raw s ts, fu) true)) ->
  Forall is_call evs -> Forall machine_typed evs -> service_typed (snd (fst e)) -> graph_use (fst (fst e)) (snd (fst e)) ->
  fst (machine_step C false (machine_history C false m' evs) (E_call e o')) = Some Panic /\
  db_of (m_file (machine_history C false m' evs)) = db_of (m_file m).
Proof.
  intros C m cp s ts fu m' evs e o' L R P X -> Hc Ht Te G. pose proof (p_C104_stores C false m L R) as RS.
  set (m1 := snd (machine_step C false m (E_call (cp, S_insert_cert_raw s ts, fu) true))).
  assert (A : db_of (m_file m1) = db_of (m_file m) /\ exists p, m_process m1 = Some p /\ p_open p = true /\ p_borrowed p = true).
  { subst m1. cbn [machine_step]. unfold machine_call. destruct (m_process m) as [p|] eqn:PE; [|exfalso; exact (P PE)].
    unfold process_call. cbn [enters_graph]. rewrite andb_false_r. destruct (p_borrowed p).
    - cbn [snd m_file m_process]. split; [apply stored_with|]. eexists. split; [reflexivity|auto].
    - destruct (service_step C (db_of (m_file m)) (cp, S_insert_cert_raw s ts, fu)) as [r d'] eqn:S.
      assert (r = Panic /\ d' = db_of (m_file m)) as [-> ->].
      { cbn in S. unfold api_insert_cert_raw, into, mbind, lift in S. rewrite X in S. cbn in S. injection S as <- <-. auto. }
      cbn [snd m_file m_process]. split; [apply stored_with|]. eexists. split; [reflexivity|auto]. }
  assert (B : forall evs, Forall is_call evs -> Forall machine_typed evs ->
     db_of (m_file (machine_history C false m1 evs)) = db_of (m_file m) /\ service_reachable C (db_of (m_file (machine_history C false m1 evs))) /\
     exists p, m_process (machine_history C false m1 evs) = Some p /\ p_open p = true /\ p_borrowed p = true \/ False).
  { clear - L RS A. induction evs as [|ev evs IH] using rev_ind; intros Hc Ht.
    - cbn. split; [apply A|]. split; [rewrite (proj1 A); exact RS|]. destruct A as [_ (p & A)]. exists p. left. exact A.
    - apply Forall_app in Hc, Ht. destruct Hc as [Hc Hc2], Ht as [Ht Ht2]. inversion Hc2; subst. inversion Ht2; subst.
      destruct (IH Hc Ht) as (I1 & I2 & p & [(I3 & I4 & I5)|[]]). rewrite history_snoc. set (m2 := machine_history C false m1 evs) in *.
      destruct ev as [k| |e o|e o]; try contradiction. cbn [machine_step]. unfold machine_call. rewrite I3. destruct e as [[cq c] fv]. unfold process_call.
      rewrite I4, I5. cbn [negb andb]. destruct (enters_graph cq c) eqn:G.
      + cbn [snd m_file m_process]. rewrite stored_with. split; [exact I1|]. split; [exact I2|]. eexists. left. split; [reflexivity|auto].
      + destruct (service_step C (db_of (m_file m2)) (cq, c, fv)) as [r d'] eqn:S.
        assert (D : d' = db_of (m_file m2)).
        { cbn [machine_typed snd fst] in *. destruct (p_C65_calls_respond C _ cq c fv r d' L I2 ltac:(assumption) S) as [[resp ->]|(s' & ts' & -> & _ & _ & ->)]; [|discriminate G].
          destruct (p_C66_other_calls C _ cq c fv resp d' S) as [(g & Q & Ad)|[-> _]]; [|reflexivity]. exfalso. destruct c; cbn in G; try discriminate G; try contradiction Q.
          cbn in Ad. rewrite Ad, bytes_eqb_refl in G. discriminate G. }
        subst d'. destruct r as [resp|x| |]; cbn [snd m_file m_process]; rewrite stored_with; (split; [exact I1|]); (split; [exact I2|]); exists p; left; auto. }
  destruct (B evs Hc Ht) as (B1 & B2 & p & [(B3 & B4 & B5)|[]]). split; [|exact B1]. cbn [machine_step]. unfold machine_call. rewrite B3.
  destruct e as [[cp' c'] fu']. unfold process_call. rewrite B4, B5. cbn [negb andb]. apply enters_exact in G. cbn [fst snd] in G. rewrite G. reflexivity.
Qed.

(** ** C103 *)
Lemma borrowed_exact : forall C evs, crypto_laws C -> Forall machine_typed evs -> Forall opens evs -> forall p,
  m_process (machine_history C false new_machine evs) = Some p -> p_borrowed p = true <-> poisoned C false new_machine evs.
Proof.
  intros C evs L. induction evs as [|ev evs IH] using rev_ind; intros T O p H; [discriminate H|].
  apply Forall_app in T, O. destruct T as [T T2], O as [O O2]. inversion T2; subst. inversion O2; subst. rewrite history_snoc in H.
  pose proof (history_reach C false evs new_machine L (empty_reach C) T) as R.
  set (m := machine_history C false new_machine evs) in *. destruct ev as [k| |e o|e o]; cbn [machine_step] in H.
  - split.
    + destruct (start (m_file m) k) as [[x|x| |] f]; cbn in H; try discriminate H. injection H as <-. discriminate.
    + intros (h1 & cp & s & ts & fu & o & h2 & E & _ & _ & F). exfalso. destruct h2 as [|x h2] using rev_ind.
      * apply app_inj_tail in E. destruct E as [_ E]. discriminate E.
      * clear IHh2. rewrite app_comm_cons, app_assoc in E. apply app_inj_tail in E. destruct E as [_ <-]. apply Forall_app in F. destruct F as [_ F]. inversion F; subst. contradiction.
  - discriminate H.
  - destruct (machine_call C false m e o) as [a m'] eqn:Hm. cbn [snd] in H. cbn [machine_typed opens] in *.
    assert (Snoc : forall q, m_process m = Some q -> (poisoned C false new_machine (evs ++ [E_call e o]) <->
              poisoned C false new_machine evs \/ exists s ts, snd (fst e) = S_insert_cert_raw s ts /\ cert_from_str C s = Panic)).
    { intros q Hq. split.
      - intros (h1 & cp & s & ts & fu & o' & h2 & E & P & X & F). destruct h2 as [|x h2 _] using rev_ind.
        + apply app_inj_tail in E. destruct E as [_ E]. injection E as E _. right. exists s, ts. rewrite E. split; [reflexivity|exact X].
        + rewrite app_comm_cons, app_assoc in E. apply app_inj_tail in E. destruct E as [E _]. apply Forall_app in F. destruct F as [F _].
          left. exists h1, cp, s, ts, fu, o', h2. auto.
      - intros [(h1 & cp & s & ts & fu & o' & h2 & -> & P & X & F)|(s & ts & E & X)].
        + exists h1, cp, s, ts, fu, o', (h2 ++ [E_call e o]). split; [rewrite <- app_assoc; reflexivity|]. split; [exact P|]. split; [exact X|].
          apply Forall_app. split; [exact F|constructor; [exact I|constructor]].
        + destruct e as [[cp c] fu]. cbn in E. subst c. exists evs, cp, s, ts, fu, o, []. split; [reflexivity|]. split; [|split; [exact X|constructor]].
          unfold running. fold m. rewrite Hq. discriminate. }
    destruct (call_cases C false m e o R L ltac:(assumption) a m' Hm) as [(N & _ & ->)|(q & Q & D)]; [rewrite N in H; discriminate H|].
    rewrite (Snoc q Q). specialize (IH T O q Q). destruct D as [(resp & d' & _ & S & _ & (p' & Hp & B) & G)|(_ & _ & G & p' & Hp & D & _)].
    + rewrite Hp in H. injection H as ->. rewrite B, IH. split; [auto|]. intros [X|(s & ts & E & X)]; [exact X|]. exfalso.
      destruct e as [[cp c] fu]. cbn in E. subst c. cbn in S. unfold api_insert_cert_raw, into, mbind, lift in S. rewrite X in S. discriminate S.
    + rewrite Hp in H. injection H as ->. destruct D as [(_ & E & _)|[(B & B')|(B & E & B')]]; [congruence| |].
      * rewrite (B' eq_refl). split; [intros _; left; apply IH; exact B|reflexivity].
      * rewrite (B' eq_refl). split; [intros _; right; exact E|reflexivity].
  - discriminate H.
Qed.
(** When the database opens, a use of the graph traps exactly if the service has been given such a text since it
    was started, in this call or an earlier one; every other call is answered. *)
Lemma p_C103_answers_exactly : forall C evs e a, crypto_laws C -> Forall machine_typed (evs ++ [E_call e true]) -> Forall opens evs ->
  running (machine_history C false new_machine evs) ->
  fst (machine_step C false (machine_history C false new_machine evs) (E_call e true)) = a ->
  (a = Some Panic /\ graph_use (fst (fst e)) (snd (fst e)) /\ poisoned C false new_machine (evs ++ [E_call e true])) \/
  (exists resp, a = Some (Ok resp) /\ ~ (graph_use (fst (fst e)) (snd (fst e)) /\ poisoned C false new_machine (evs ++ [E_call e true]))).
Proof.
  intros C evs e a L T O P A. apply Forall_app in T. destruct T as [T T2]. inversion T2; subst. cbn [machine_typed] in *.
  pose proof (history_reach C false evs new_machine L (empty_reach C) T) as R. assert (O' : Forall opens (evs ++ [E_call e true])) by (apply Forall_app; split; [exact O|constructor; [reflexivity|constructor]]).
  assert (T' : Forall machine_typed (evs ++ [E_call e true])) by (apply Forall_app; split; assumption).
  pose proof (borrowed_exact C _ L T' O') as B. rewrite history_snoc in B. pose proof (borrowed_exact C _ L T O) as B0.
  set (m := machine_history C false new_machine evs) in *. cbn [machine_step] in *. destruct (machine_call C false m e true) as [a m'] eqn:Hm. cbn [fst snd] in *.
  destruct (call_cases C false m e true R L ltac:(assumption) a m' Hm) as [(N & _)|(q & Q & [(resp & d' & -> & S & _ & (p' & Hp & Bp) & G)|(-> & _ & G & p' & Hp & D & _)])].
  - exfalso. apply P. exact N.
  - right. exists resp. split; [reflexivity|]. intros [U X]. apply (B p' Hp) in X. rewrite Bp, (G U) in X. discriminate X.
  - left. split; [reflexivity|]. split; [exact G|]. apply (B p' Hp). destruct D as [(_ & E & _)|[(_ & B')|(_ & _ & B')]]; [discriminate E|apply B'; reflexivity|apply B'; reflexivity].
Qed.
Lemma opened_snoc : forall C evs e o q, m_process (machine_history C false new_machine evs) = Some q ->
  (opened C false new_machine (evs ++ [E_call e o]) <-> opened C false new_machine evs \/ (o = true /\ graph_use (fst (fst e)) (snd (fst e)))).
Proof.
  intros C evs e o q Hq. split.
  - intros (h1 & e' & h2 & E & P & G & F). destruct h2 as [|x h2 _] using rev_ind.
    + apply app_inj_tail in E. destruct E as [_ E]. injection E as -> ->. right. split; [reflexivity|exact G].
    + rewrite app_comm_cons, app_assoc in E. apply app_inj_tail in E. destruct E as [E _]. apply Forall_app in F. destruct F as [F _].
      left. exists h1, e', h2. auto.
  - intros [(h1 & e' & h2 & -> & P & G & F)|[-> G]].
    + exists h1, e', (h2 ++ [E_call e o]). split; [rewrite <- app_assoc; reflexivity|]. split; [exact P|]. split; [exact G|].
      apply Forall_app. split; [exact F|constructor; [exact I|constructor]].
    + exists evs, e, []. split; [reflexivity|]. split; [unfold running; rewrite Hq; discriminate|]. split; [exact G|constructor].
Qed.
Lemma poisoned_open_snoc : forall C evs e o q, m_process (machine_history C false new_machine evs) = Some q ->
  (poisoned_open C false new_machine (evs ++ [E_call e o]) <->
   poisoned_open C false new_machine evs \/ ((exists s ts, snd (fst e) = S_insert_cert_raw s ts /\ cert_from_str C s = Panic) /\ opened C false new_machine (evs ++ [E_call e o]))).
Proof.
  intros C evs e o q Hq. split.
  - intros (h1 & cp & s & ts & fu & o' & h2 & E & P & U & X & F). destruct h2 as [|x h2 _] using rev_ind.
    + apply app_inj_tail in E. destruct E as [-> E]. injection E as -> ->. right. split; [exists s, ts; auto|exact U].
    + rewrite app_comm_cons, app_assoc in E. apply app_inj_tail in E. destruct E as [E _]. apply Forall_app in F. destruct F as [F _].
      left. exists h1, cp, s, ts, fu, o', h2. auto.
  - intros [(h1 & cp & s & ts & fu & o' & h2 & -> & P & U & X & F)|((s & ts & E & X) & U)].
    + exists h1, cp, s, ts, fu, o', (h2 ++ [E_call e o]). split; [rewrite <- app_assoc; reflexivity|]. split; [exact P|]. split; [exact U|]. split; [exact X|].
      apply Forall_app. split; [exact F|constructor; [exact I|constructor]].
    + destruct e as [[cp c] fu]. cbn in E. subst c. exists evs, cp, s, ts, fu, o, []. split; [reflexivity|]. split; [unfold running; rewrite Hq; discriminate|].
      split; [exact U|]. split; [exact X|constructor].
Qed.
Lemma since_start : forall C evs k, ~ opened C false new_machine (evs ++ [E_start k]) /\ ~ poisoned_open C false new_machine (evs ++ [E_start k]).
Proof.
  intros C evs k. split.
  - intros (h1 & e & h2 & E & _ & _ & F). destruct h2 as [|x h2 _] using rev_ind; [apply app_inj_tail in E; destruct E as [_ E]; discriminate E|].
    rewrite app_comm_cons, app_assoc in E. apply app_inj_tail in E. destruct E as [_ <-]. apply Forall_app in F. destruct F as [_ F]. inversion F; subst. contradiction.
  - intros (h1 & cp & s & ts & fu & o & h2 & E & _ & _ & _ & F). destruct h2 as [|x h2 _] using rev_ind; [apply app_inj_tail in E; destruct E as [_ E]; discriminate E|].
    rewrite app_comm_cons, app_assoc in E. apply app_inj_tail in E. destruct E as [_ <-]. apply Forall_app in F. destruct F as [_ F]. inversion F; subst. contradiction.
Qed.
(** One call, seen from the instance. *)
Lemma call_process : forall C m p e o, service_reachable C (db_of (m_file m)) -> crypto_laws C -> service_typed (snd (fst e)) -> m_process m = Some p ->
  let bad := exists s ts, snd (fst e) = S_insert_cert_raw s ts /\ cert_from_str C s = Panic in
  let G := graph_use (fst (fst e)) (snd (fst e)) in
  (~ G /\ m_process (snd (machine_call C false m e o)) = Some p /\ exists resp, fst (machine_call C false m e o) = Some (Ok resp)) \/
  (G /\ p_open p = false /\ o = false /\ m_process (snd (machine_call C false m e o)) = Some p /\ fst (machine_call C false m e o) = Some Panic) \/
  (G /\ (p_open p = true \/ o = true) /\ exists p', m_process (snd (machine_call C false m e o)) = Some p' /\ p_open p' = true /\
    ((p_borrowed p' = true /\ (p_borrowed p = true \/ bad) /\ fst (machine_call C false m e o) = Some Panic) \/
     (p_borrowed p' = false /\ p_borrowed p = false /\ ~ bad /\ exists resp, fst (machine_call C false m e o) = Some (Ok resp)))).
Proof.
  intros C m p [[cp c] fu] o R L T P bad G. unfold machine_call. rewrite P. cbn [fst snd] in *. unfold process_call.
  destruct (enters_graph cp c) eqn:U.
  - apply enters_exact in U. right. destruct (negb (p_open p) && negb o) eqn:O.
    + apply andb_true_iff in O. destruct O as [O1 O2]. left. split; [exact U|]. destruct (p_open p); [discriminate O1|]. destruct o; [discriminate O2|]. auto.
    + right. split; [exact U|]. split; [apply andb_false_iff in O; destruct O as [O|O]; apply negb_false_iff in O; auto|].
      destruct (p_borrowed p) eqn:B; [eexists; split; [reflexivity|]; split; [reflexivity|]; left; auto|].
      destruct (service_step C (db_of (m_file m)) (cp, c, fu)) as [r d'] eqn:S.
      destruct (p_C65_calls_respond C _ cp c fu r d' L R T S) as [[resp ->]|(s & ts & -> & X & -> & ->)].
      * eexists. split; [reflexivity|]. split; [reflexivity|]. right. split; [reflexivity|]. split; [reflexivity|]. split; [|eexists; reflexivity].
        intros (s & ts & -> & X). cbn in S. unfold api_insert_cert_raw, into, mbind, lift in S. rewrite X in S. discriminate S.
      * eexists. split; [reflexivity|]. split; [reflexivity|]. left. split; [reflexivity|]. split; [|reflexivity]. right. exists s, ts. auto.
  - left. split; [intros X; apply enters_exact in X; congruence|].
    destruct (service_step C (db_of (m_file m)) (cp, c, fu)) as [r d'] eqn:S.
    destruct (p_C65_calls_respond C _ cp c fu r d' L R T S) as [[resp ->]|(s & ts & -> & X & -> & ->)]; [|discriminate U].
    split; [reflexivity|]. eexists. reflexivity.
Qed.
Lemma process_exact : forall C evs, crypto_laws C -> Forall machine_typed evs -> forall p, m_process (machine_history C false new_machine evs) = Some p ->
  (p_open p = true <-> opened C false new_machine evs) /\ (p_borrowed p = true <-> poisoned_open C false new_machine evs).
Proof.
  intros C evs L. induction evs as [|ev evs IH] using rev_ind; intros T p H; [discriminate H|].
  apply Forall_app in T. destruct T as [T T2]. inversion T2; subst. rewrite history_snoc in H.
  pose proof (history_reach C false evs new_machine L (empty_reach C) T) as R.
  set (m := machine_history C false new_machine evs) in *. destruct ev as [k| |e o|e o]; cbn [machine_step] in H; try discriminate H.
  - destruct (since_start C evs k) as [X Y]. destruct (start (m_file m) k) as [[x|x| |] f]; cbn in H; try discriminate H. injection H as <-. cbn [p_open p_borrowed].
    split; split; intros Z; try discriminate Z; exfalso; auto.
  - destruct (m_process m) as [q|] eqn:Q; [|unfold machine_call in H; rewrite Q in H; cbn in H; congruence].
    cbn [machine_typed] in *. specialize (IH T q eq_refl). rewrite (poisoned_open_snoc C evs e o q Q), (opened_snoc C evs e o q Q). destruct IH as [I1 I2].
    destruct (call_process C m q e o R L ltac:(assumption) Q) as [(G & Hp & _)|[(G & O1 & O2 & Hp & _)|(G & O & p' & Hp & O1 & D)]]; rewrite Hp in H; injection H as <-.
    + rewrite <- I1, <- I2. split; [split; [auto|intros [X|[_ X]]; [exact X|contradiction]]|]. split; [auto|].
      intros [X|((s & ts & E & _) & _)]; [exact X|]. exfalso. apply G. destruct e as [[cp c] fu]. cbn in E |- *. subst c. split; [reflexivity|intros; discriminate].
    + rewrite <- I1, <- I2. split; [split; [auto|intros [X|[X _]]; [exact X|congruence]]|]. split; [auto|].
      intros [X|(_ & [X|[X _]])]; [exact X|congruence|congruence].
    + rewrite <- I1, <- I2. split; [rewrite O1; split; [intros _; destruct O as [O|O]; auto|reflexivity]|].
      destruct D as [(B & D & _)|(B & B' & D & _)].
      * rewrite B. split; [|reflexivity]. intros _. destruct D as [D|D]; [left; exact D|right]. split; [exact D|]. destruct O as [O|O]; auto.
      * rewrite B, B'. split; [discriminate|]. intros [X|[X _]]; [discriminate X|contradiction].
Qed.
(** Whether or not the database can be opened: a use of the graph traps exactly if the database has not been opened since the start, or such a
    text came when it was open. *)
Lemma p_C103_open_or_not : forall C evs e o a, crypto_laws C -> Forall machine_typed (evs ++ [E_call e o]) -> running (machine_history C false new_machine evs) ->
  fst (machine_step C false (machine_history C false new_machine evs) (E_call e o)) = a ->
  let traps := graph_use (fst (fst e)) (snd (fst e)) /\
    (~ opened C false new_machine (evs ++ [E_call e o]) \/ poisoned_open C false new_machine (evs ++ [E_call e o])) in
  (a = Some Panic /\ traps) \/ (exists resp, a = Some (Ok resp) /\ ~ traps).
Proof.
  intros C evs e o a L T P A traps. subst traps. pose proof (process_exact C _ L T) as X. apply Forall_app in T. destruct T as [T T2]. inversion T2; subst.
  pose proof (history_reach C false evs new_machine L (empty_reach C) T) as R. rewrite history_snoc in X. cbn [machine_step machine_typed] in *.
  pose proof (process_exact C _ L T) as X0. set (m := machine_history C false new_machine evs) in *. unfold running in P. destruct (m_process m) as [q|] eqn:Q; [|contradiction].
  destruct (X0 q eq_refl) as [Xo Xb].
  destruct (call_process C m q e o R L ltac:(assumption) Q) as [(G & Hp & resp & Hr)|[(G & O1 & O2 & Hp & Hr)|(G & O & p' & Hp & O1 & D)]]; destruct (X _ Hp) as [Yo Yb].
  - right. exists resp. split; [exact Hr|]. intros [U _]. contradiction.
  - left. split; [exact Hr|]. split; [exact G|]. left. rewrite <- Yo. congruence.
  - destruct D as [(B & D & Hr)|(B & B' & D & resp & Hr)].
    + left. split; [exact Hr|]. split; [exact G|]. right. apply Yb. exact B.
    + right. exists resp. split; [exact Hr|]. intros [_ [U|U]]; [apply U, Yo; exact O1|]. apply Yb in U. congruence.
Qed.
(** A start without a failure makes any node, whatever happened before, run again. *)
Lemma p_C103_start_runs : forall C rn m, running (snd (machine_step C rn m (E_start None))).
Proof. intros C rn m. discriminate. Qed.
(** On a node that replaces an instance after a trap, only a call with such a text traps. *)
Lemma renewed_free : forall C evs, crypto_laws C -> Forall machine_typed evs -> forall p, m_process (machine_history C true new_machine evs) = Some p -> p_borrowed p = false.
Proof.
  intros C evs L. induction evs as [|ev evs IH] using rev_ind; intros T p H; [discriminate H|].
  apply Forall_app in T. destruct T as [T T2]. inversion T2; subst. rewrite history_snoc in H.
  pose proof (history_reach C true evs new_machine L (empty_reach C) T) as R. set (m := machine_history C true new_machine evs) in *.
  destruct ev as [k| |e o|e o]; cbn [machine_step] in H; try discriminate H.
  - destruct (start (m_file m) k) as [[x|x| |] f]; cbn in H; try discriminate H. injection H as <-. reflexivity.
  - destruct (machine_call C true m e o) as [a m'] eqn:Hm. cbn [snd] in H. cbn [machine_typed] in *.
    destruct (call_cases C true m e o R L ltac:(assumption) a m' Hm) as [(N & _ & ->)|(q & Q & [(resp & d' & _ & _ & _ & (p' & Hp & B) & _)|(_ & _ & _ & p' & Hp & _ & B)])].
    + rewrite N in H. discriminate H.
    + rewrite Hp in H. injection H as ->. rewrite B. apply IH; assumption.
    + rewrite Hp in H. injection H as ->. apply B. reflexivity.
Qed.
Lemma p_C103_renewed_answers : forall C m e m' a, crypto_laws C -> machine_reachable C true m -> running m -> service_typed (snd (fst e)) ->
  machine_step C true m (E_call e true) = (a, m') ->
  (exists resp, a = Some (Ok resp)) \/ (a = Some Panic /\ exists s ts, snd (fst e) = S_insert_cert_raw s ts /\ cert_from_str C s = Panic).
Proof.
  intros C m e m' a L R P T H. pose proof (p_C104_stores C true m L R) as RS. cbn [machine_step] in H.
  destruct (call_cases C true m e true RS L T a m' H) as [(N & _)|(q & Q & [(resp & d' & -> & _)|(-> & _ & G & p' & Hp & D & _)])].
  - exfalso. apply P. exact N.
  - left. eauto.
  - right. split; [reflexivity|]. destruct R as (evs & Te & ->). pose proof (renewed_free C evs L Te q Q) as B.
    destruct D as [(_ & E & _)|[(B' & _)|(_ & E & _)]]; [discriminate E|congruence|exact E].
Qed.

(** ** Examples *)
(** A started node, and a caller who is not the owner disables it. *)
Definition started : machine := machine_history (toy true) false new_machine [E_start None].
Lemma p_C102_one_call_disables_refuted : exists C m cp m', crypto_laws C /\ machine_reachable C false m /\ running m /\ init_peer_id cp <> service_creator_peer_id cp /\
  snd (machine_step C false m (E_call (cp, S_insert_cert_raw [] 5, None) true)) = m' /\
  forall evs e, Forall is_call evs -> Forall machine_typed evs -> service_typed (snd (fst e)) -> graph_use (fst (fst e)) (snd (fst e)) ->
    fst (machine_step C false (machine_history C false m' evs) (E_call e true)) = Some Panic.
Proof.
  exists (toy true), started, (mk_params [x61] [x62] [x63] []), (snd (machine_step (toy true) false started (E_call (mk_params [x61] [x62] [x63] [], S_insert_cert_raw [] 5, None) true))).
  assert (R : machine_reachable (toy true) false started) by (exists [E_start None]; split; [constructor; [exact I|constructor]|reflexivity]).
  split; [apply toy_laws|]. split; [exact R|]. split; [discriminate|]. split; [discriminate|]. split; [reflexivity|].
  intros evs e Hc Ht Te G. apply (p_C102_disabled (toy true) started (mk_params [x61] [x62] [x63] []) [] 5 None _ evs e true); try assumption; try reflexivity; [apply toy_laws|discriminate].
Qed.
(** A start that fails at the second table, a second start, a call, a crash and a start: the root set in between is there. *)
Example e_C104_life : let m := machine_history (toy true) false new_machine
    [E_start (Some 2%nat); E_start None; E_call (owner_call, S_set_root (pid 1) 5, None) true; E_kill (owner_call, S_set_root (pid 2) 4, Some 0%nat) true; E_start None] in
  running m /\ length (tbl_roots (db_of (m_file m))) = 1%nat.
Proof. vm_compute. split; [discriminate|reflexivity]. Qed.
(** The computing calls still answer. *)
Example e_C103_computing : exists resp, fst (machine_step (toy true) false (snd (machine_step (toy true) false started (E_call (owner_call, S_insert_cert_raw [] 5, None) true)))
    (E_call (owner_call, S_get_trust_bytes (pid 2) 9 5, None) true)) = Some (Ok resp) /\ success resp = true.
Proof. eexists. split; [vm_compute; reflexivity|reflexivity]. Qed.
(** The first use of the graph comes when the database cannot be opened, and traps; the same call is answered afterwards, and the next also if the
    database could not be opened any more. *)
Example e_C103_first_use : let c := E_call (owner_call, S_set_root (pid 1) 5, None) in let m := machine_history (toy true) false new_machine in
  fst (machine_step (toy true) false (m [E_start None]) (c false)) = Some Panic /\ ~ opened (toy true) false new_machine [E_start None; c false] /\
  (exists resp, fst (machine_step (toy true) false (m [E_start None; c false]) (c true)) = Some (Ok resp)) /\ opened (toy true) false new_machine [E_start None; c false; c true] /\
  (exists resp, fst (machine_step (toy true) false (m [E_start None; c false; c true]) (c false)) = Some (Ok resp)).
Proof.
  cbv zeta. split; [vm_compute; reflexivity|]. split.
  { intros H. assert (Q : exists q, m_process (machine_history (toy true) false new_machine [E_start None]) = Some q) by (eexists; reflexivity). destruct Q as [q Q].
    apply (opened_snoc (toy true) [E_start None] _ _ q Q) in H. destruct H as [H|[H _]]; [|discriminate H]. exact (proj1 (since_start (toy true) [] None) H). }
  split; [eexists; vm_compute; reflexivity|]. split; [|eexists; vm_compute; reflexivity].
  exists [E_start None; E_call (owner_call, S_set_root (pid 1) 5, None) false], (owner_call, S_set_root (pid 1) 5, None), [].
  split; [reflexivity|]. split; [unfold running; vm_compute; discriminate|]. split; [|constructor]. split; [reflexivity|]. intros; reflexivity.
Qed.
