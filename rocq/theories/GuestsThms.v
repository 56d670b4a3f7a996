(** What guests cannot do, however their scripts are mixed with others. *)
From Coq Require Import List NArith ZArith Bool Lia Permutation.
From Verif Require Import Base BaseFacts Text TextFacts Keys KeysFacts Trust TrustFacts Certificate Relation Storage StorageFacts Graph PathFacts Service Spec SpecFacts
  GraphFacts StateFacts HistFacts Toy ToyFacts Witness GraphThms ServiceSpec ServiceFacts ServiceThms ServiceWitness Aqua AquaSpec AquaFacts AquaThms AquaTrace
  Sched SchedSpec SchedFacts SchedSim SchedThms InfluenceSpec InfluenceThms VisitorSpec VisitorThms GuestsSpec.
Import ListNotations.
Open Scope N_scope.

Lemma genuine_signed : forall C g x, genuine C g x -> signed_relation C x.
Proof. intros C g [a|v] H; [exact (proj1 H)|exact H]. Qed.

Section Guests.
Variables (C : crypto) (P : relation -> Prop) (st0 : stores) (clocks : text -> N) (evs : schedule) (n : text) (now : duration).
Hypothesis L : crypto_laws C.
Hypothesis W : wasm32 C = true.
Hypothesis G : guests C P st0 clocks evs n now.

Lemma uses_visit : forall us st, Forall (entry_of clocks evs (sy_tasks (happens C (idle st0 clocks) evs))) us ->
  uses_typed (map en_use us) ->
  exists es, run_all C (map en_use us) st n = service_history C (st n) es /\ service_events_typed es /\ visits C P (st0 n) now es.
Proof.
  destruct G as (G1 & G2 & G3).
  induction us as [|en us IH]; intros st F T.
  - exists []. split; [reflexivity|]. split; [constructor|]. intros cp c fu [].
  - inversion F as [|? ? F1 F2]; subst. cbn [map] in T. inversion T as [|? ? T1 T2]; subst.
    destruct (entry_started C _ _ _ _ F1) as (net0 & src0 & q0 & q & i & now0 & sg & fu & S1 & S2 & S3 & S4 & S5).
    assert (T1' : api_typed (alone q i now0)) by (rewrite S3 in T1; exact T1).
    set (u := as_met net0 sg fu) in *. set (a := alone q i now0) in *.
    assert (E1 : exists es1, run C u src0 a st n = service_history C (st n) es1 /\ service_events_typed es1 /\ visits C P (st0 n) now es1).
    { destruct (target a) as [node|] eqn:Ta.
      - destruct (script_traced C u src0 a node st T1' Ta) as (es1 & X1 & X2 & X3).
        destruct (bytes_eq_dec n node) as [->|Nn].
        + exists es1. split; [exact X2|]. split; [exact (traced_typed C u a node es1 X1)|].
          assert (Rn : request_node q = Some node) by (unfold a in Ta; rewrite target_alone in Ta; exact Ta).
          assert (Rn0 : request_node q0 = Some node) by (rewrite <- (part_node _ _ _ S2); exact Rn).
          intros cp c fu' Hin. rewrite Forall_forall in X1. destruct (X1 _ Hin) as (Y1 & Y2 & Y3 & Y4 & Y5 & Y6 & Y7). split; [|split].
          * intros p m ->. rewrite Y1, Y2. intros Ow. pose proof (Y5 p m eq_refl) as Ro.
            assert (Z : root_of (alone q0 0 0) = None) by (apply (G1 net0 src0 q0 S1 Rn0); exact Ow).
            assert (Ro' : root_of (alone q 0 0) = Some (p, m)) by (unfold a in Ro; destruct q; exact Ro).
            rewrite (part_root _ _ _ _ S2 Ro') in Z. discriminate Z.
          * intros ts j Gt _. destruct (Y4 ts j Gt) as [Nt _]. apply node_time_node in Nt. subst ts. apply G2, S5, Rn.
          * intros g x Rq Of Ge. apply G3. exists net0, src0, q0, i, now0. split; [exact S1|]. split; [exact Rn0|]. split; [exact S4|].
            split; [apply S5; exact Rn|]. eapply part_brings; [exact S2|]. apply (Y7 L W g x Rq Of). exact (genuine_signed C g x Ge).
        + exists []. split; [apply X3; exact Nn|]. split; [constructor|]. intros cp c fu' [].
      - exists []. split; [apply issuing_unchanged; exact Ta|]. split; [constructor|]. intros cp c fu' []. }
    destruct E1 as (es1 & A1 & A2 & A3).
    destruct (IH (run C u src0 a st) F2 T2) as (es2 & B1 & B2 & B3).
    exists (es1 ++ es2). split; [|split].
    + cbn [map]. unfold run_all. cbn [fold_left]. rewrite S3. cbn [fst snd]. fold (run_all C (map en_use us) (run C u src0 a st)). rewrite B1, A1.
      unfold service_history. rewrite fold_left_app. reflexivity.
    + apply Forall_app. split; assumption.
    + intros cp c fu' Hin. apply in_app_or in Hin. destruct Hin as [H|H]; [exact (A3 cp c fu' H)|exact (B3 cp c fu' H)].
Qed.

Lemma guests_visit : network_state C st0 -> schedule_typed clocks evs ->
  exists es, sy_stores (happens C (idle st0 clocks) evs) n = service_history C (st0 n) es /\ service_events_typed es /\ visits C P (st0 n) now es.
Proof.
  intros N T. destruct (inv_now C st0 clocks evs L N T) as [us I]. pose proof I as (_ & _ & _ & He & _).
  rewrite (run_all_same _ _ _ _ _ I). apply uses_visit; [exact He|]. eapply entries_typed; eassumption.
Qed.
End Guests.

(** The service calls of the questions. *)
Definition question (c : service_call) (t : N) : Prop :=
  match c with
  | S_get_all_certs _ ts | S_get_all_certs_from _ _ ts | S_get_host_certs ts | S_get_host_certs_from _ ts | S_get_weight _ ts | S_get_weight_from _ _ ts => ts = t
  | _ => False
  end.
Lemma question_about : forall C cp c t g, question c t -> requests C cp c g -> exists pk, about pk (from_secs t) g.
Proof.
  intros C cp c t g Q R. destruct c; try contradiction; cbn [question] in Q; subst; destruct g; cbn [requests] in R; try contradiction;
    repeat match goal with H : _ /\ _ |- _ => destruct H end; subst; eexists; unfold about; eauto.
Qed.
Lemma same_question : forall C d d2 cp c t, question c t ->
  (forall pk g, requests C cp c g -> admitted cp c -> about pk (from_secs t) g ->
    same_response (fst (service_step C d (cp, c, None))) (fst (service_step C d2 (cp, c, None)))) ->
  same_response (fst (service_step C d (cp, c, None))) (fst (service_step C d2 (cp, c, None))).
Proof.
  intros C d d2 cp c t Q H. destruct (plan C cp c) as [[g|a]|e| |] eqn:Pl.
  - pose proof (plan_requests C cp c g Pl) as R. destruct (question_about C cp c t g Q R) as [pk A]. exact (H pk g R (plan_admitted C cp c g Pl) A).
  - rewrite !service_plan, Pl. apply same_response_refl.
  - rewrite !service_plan, Pl. apply same_response_refl.
  - rewrite !service_plan, Pl. apply same_response_refl.
  - rewrite !service_plan, Pl. apply same_response_refl.
Qed.

Lemma labelled_true : forall cs b, In b (flat_map labelled cs) -> b = true.
Proof.
  intros cs b H. apply in_flat_map in H. destruct H as (c & _ & H). unfold labelled in H. destruct c as [|a1 [|a2 [|a3 [|a4 c]]]]; try contradiction.
  destruct (bytes_eqb _ _); [|contradiction]. destruct (bytes_eqb _ _); [|contradiction]. destruct H as [<-|[]]. reflexivity.
Qed.
Lemma all_true : forall l, (forall b, In b l -> b = true) -> l = repeat true (length l).
Proof. induction l as [|b l IH]; intros H; [reflexivity|]. cbn. rewrite (H b (or_introl eq_refl)). f_equal. apply IH. intros x Hx. apply H. right. exact Hx. Qed.
Lemma labels_same : forall cs cs', Permutation cs cs' -> flat_map labelled cs = flat_map labelled cs'.
Proof.
  intros cs cs' Pm. rewrite (all_true (flat_map labelled cs)) by apply labelled_true. rewrite (all_true (flat_map labelled cs')) by apply labelled_true.
  f_equal. apply Permutation_length. apply Permutation_flat_map. exact Pm.
Qed.

Lemma same_reply_of : forall C net sg src n t a st st', questions_at n t a ->
  (forall cp c, question c t -> same_response (fst (service_step C (st n) (cp, c, None))) (fst (service_step C (st' n) (cp, c, None)))) ->
  same_told (reply_of C (as_met net sg None) src a st) (reply_of C (as_met net sg None) src a st').
Proof.
  intros C net sg src n t a st st' A H.
  assert (R : forall args c, question c t -> same_told (rmap N_response (fst (call_on C (as_met net sg None) n args c st))) (rmap N_response (fst (call_on C (as_met net sg None) n args c st')))).
  { intros args c Q. unfold call_on. cbn [as_met initiator creator_on fault]. pose proof (H (mk_params (initiator net) (creator_on net n) n args) c Q) as S.
    destruct (service_step C (st n) _) as [r d], (service_step C (st' n) _) as [r' d']. cbn [fst] in *.
    destruct r as [r|e0| |], r' as [r'|e1| |]; try (destruct e0); try (destruct e1); cbn [rmap same_told]; try exact S; try reflexivity;
      cbn [same_response] in S; try (destruct r as [? ? []]); try (destruct r' as [? ? []]); discriminate S. }
  destruct A as [(p & ->)|[(p & i & ->)|[(p & ->)|[(p & i & ->)|[-> | [(i & ->) | ->]]]]]]; cbn [reply_of]; try (apply R; reflexivity).
  unfold is_fluence_peer, aq_get_host_certs_from, sbind.
  pose proof (R [literal (as_met net sg None); clock_of n] (S_get_host_certs_from label_peer_id t) eq_refl) as S.
  destruct (call_on C (as_met net sg None) n _ _ st) as [r s1], (call_on C (as_met net sg None) n _ _ st') as [r' s2]. cbn [fst] in S.
  destruct r as [r|e0| |], r' as [r'|e1| |]; try (destruct e0); try (destruct e1); cbn [rmap same_told] in S; try discriminate S; try reflexivity.
  cbn [sret fst rmap same_told]. f_equal. f_equal.
  destruct r as [s e p], r' as [s' e' p']. cbn [same_response] in S. unfold error_in, certs_in. cbn [success error reply] in *.
  destruct p; try (injection S as <- <- <-; reflexivity). destruct p'; try discriminate S.
  destruct S as (<- & <- & Pm). rewrite (labels_same _ _ Pm). reflexivity.
Qed.

(** ** C185 *)
(** Scripts that bring to a node nothing signed by keys with a path of trusts from a root of that node, but what it has or has newer, change no
    answer of the node, however they are mixed with each other. *)
Lemma p_C185_guests : forall C st clocks evs n t net sg src a, crypto_laws C -> wasm32 C = true -> network_state C st -> schedule_typed clocks evs ->
  guests C (fun x => ~ linked (st n) (from_secs t) (rel_issued_by x)) st clocks evs n (from_secs t) ->
  let st' := sy_stores (happens C (idle st clocks) evs) in small (st n) -> small (st' n) -> api_typed a -> questions_at n t a ->
  same_told (reply_of C (as_met net sg None) src a st) (reply_of C (as_met net sg None) src a st').
Proof.
  intros C st clocks evs n t net sg src a L W N T G st' Sm Sm2 Ta A.
  destruct (guests_visit C _ st clocks evs n _ L W G N T) as (es & E & Te & V). fold st' in E.
  assert (Tt : t < u64_bound).
  { destruct Ta as [Ta _]. destruct A as [(p & ->)|[(p & i & ->)|[(p & ->)|[(p & i & ->)|[-> | [(i & ->) | ->]]]]]]; apply Ta; reflexivity. }
  apply (same_reply_of C net sg src n t a st st' A). intros cp c Q. apply (same_question C _ _ cp c t Q). intros pk g R Ad Ab.
  rewrite E in *. apply (p_C157_visitors C (st n) es (from_secs t) pk cp c g L (N n) Te V Sm Sm2); [|exact R|exact Ad|exact Ab].
  destruct c; try contradiction; cbn [question] in Q; subst; exact Tt.
Qed.

(** ** C186 *)
(** Scripts that bring to a node only what one key has signed, or what the node has or has newer, do not change the weight of that key there. *)
Lemma p_C186_own_weight : forall C st clocks evs n t net sg src p pk, crypto_laws C -> wasm32 C = true -> network_state C st -> schedule_typed clocks evs ->
  peer_key C p pk -> guests C (fun x => rel_issued_by x = pk) st clocks evs n (from_secs t) ->
  let st' := sy_stores (happens C (idle st clocks) evs) in small (st n) -> small (st' n) -> t < u64_bound ->
  reply_of C (as_met net sg None) src (A_get_weight n p t) st' = reply_of C (as_met net sg None) src (A_get_weight n p t) st.
Proof.
  intros C st clocks evs n t net sg src p pk L W N T Pk G st' Sm Sm2 Tt.
  destruct (guests_visit C _ st clocks evs n _ L W G N T) as (es & E & Te & V). fold st' in E.
  cbn [reply_of]. unfold aq_get_weight, call_on. cbn [as_met initiator creator_on fault]. f_equal. rewrite E in *.
  pose proof (p_C158_own_weight C (st n) es pk (mk_params (initiator net) (creator_on net n) n [src 0%nat; clock_of n]) p t L (N n) Te V Sm Sm2 Tt Pk) as X.
  destruct (service_step C (service_history C (st n) es) _) as [r d], (service_step C (st n) _) as [r' d']. exact X.
Qed.
