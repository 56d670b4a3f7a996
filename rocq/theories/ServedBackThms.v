(** Taking a revocation back and replacing a key through the service, and what the service's answers depend on: C202, C203, C206. *)
From Coq Require Import List NArith ZArith Bool Lia ZifyBool ZifyNat ZifyN Permutation.
From Verif Require Import Base BaseFacts Text TextFacts Keys KeysFacts Trust TrustFacts Certificate CertFacts Relation
  Storage StorageFacts Graph Service Spec SpecFacts GraphFacts StateFacts ServiceSpec ServiceFacts ServiceThms ServiceWitness
  Toy ToyFacts MachineSpec ServiceMachine ServiceMachineThms ScanSpec ScanServiceThms InfluenceSpec ServedSpec ServedThms BackSpec RotateSpec ServedBackSpec.
From Verif Require MoreThms MoreTrustThms CopyThms VisitorThms BackThms RotateThms.
Import ListNotations.
Open Scope N_scope.

Lemma asked_unfailing : forall C es, unfailing es -> asked_all C es = no_failures (map fst (asked_all C es)).
Proof.
  intros C es U. unfold no_failures. rewrite map_map. rewrite <- (map_id (asked_all C es)) at 1. apply map_ext_in. intros [g fu] H. apply asked_all_one in H.
  destruct H as (cp & c & H & _). rewrite (U cp c fu H). reflexivity.
Qed.
(** A response is made from the answer of the graph alone. *)
Lemma response_alike : forall C d d' cp c, (forall g, plan C cp c = Ok (inl g) -> same_answer (fst (graph_step C d (g, None))) (fst (graph_step C d' (g, None)))) ->
  same_told (fst (service_step C d (cp, c, None))) (fst (service_step C d' (cp, c, None))).
Proof.
  intros C d d' cp c H. rewrite !service_plan. destruct (plan C cp c) as [[g|a]|e| |]; cbn [carry_out fst]; try apply same_told_refl.
  specialize (H g eq_refl). destruct (graph_step C d (g, None)) as [r d1]. destruct (graph_step C d' (g, None)) as [r' d1']. cbn [fst] in H.
  destruct r as [x|e| |], r' as [y|e'| |]; try (cbn [same_answer] in H; try destruct x; discriminate H); try (destruct y; discriminate H); cbn [fst].
  - apply told_alike. exact H.
  - cbn in H. injection H as ->. apply same_told_refl.
  - reflexivity.
  - reflexivity.
Qed.

(** ** C206 *)
(** What the service responds, now and after any further calls by anyone, depends only on the relations and roots it holds. *)
Lemma p_C206_contents : forall C d d' es cp c, crypto_laws C -> service_reachable C d -> service_reachable C d' -> same_contents d d' ->
  service_events_typed es -> unfailing es -> service_typed c ->
  same_told (fst (service_step C (service_history C d es) (cp, c, None))) (fst (service_step C (service_history C d' es) (cp, c, None))) /\
  same_contents (service_history C d es) (service_history C d' es).
Proof.
  intros C d d' es cp c L R R' S Te U Tc. pose proof (service_reachable_graph C d L R) as Rg. pose proof (service_reachable_graph C d' L R') as Rg'.
  pose proof (asked_all_typed C es L Te) as Tg.
  assert (Tm : Forall (call_typed C) (map fst (asked_all C es))) by (rewrite Forall_map; exact Tg).
  rewrite !service_history_db. rewrite (asked_unfailing C es U). split.
  - apply response_alike. intros g P. apply (MoreThms.p_C86_answers_depend_on_contents C d d' _ g Rg Rg' S Tm).
    apply (requests_typed C cp c g L Tc). apply plan_requests. exact P.
  - apply (MoreThms.p_C86_answers_depend_on_contents C d d' (map fst (asked_all C es)) (G_add [] (from_secs 0)) Rg Rg' S Tm).
    split; [constructor|apply from_secs_wf; reflexivity].
Qed.

(** ** C202 *)
(** Through the service: the response to the new trust is the one without all that was said before; if it is a weight that is not zero, the store holds what
    it would hold, and all later responses are alike. *)
Lemma p_C202_service : forall C d es r t i b cp ts, crypto_laws C -> service_reachable C d -> service_events_typed es ->
  s_only_offers C (between b (issued_for t)) (from_secs ts) es -> s_last_word C d es t b -> s_few d es ->
  trust_record C r t -> peer_key C i b -> host_time cp 2 -> dto_trust_typed r -> dt_issued_at r <= ts < u64_bound ->
  let anew := (cp, S_add_trust r i ts, None) in
  fst (service_step C (service_history C d es) anew) = fst (service_step C d anew) /\
  forall w, fst (service_step C d anew) = Ok (mk_response true None (P_added w)) -> w <> 0 ->
    forall later cp' c, service_events_typed later -> unfailing later -> service_typed c ->
      same_told (fst (service_step C (service_history C d (es ++ anew :: later)) (cp', c, None))) (fst (service_step C (service_history C d (anew :: later)) (cp', c, None))) /\
      same_contents (service_history C d (es ++ anew :: later)) (service_history C d (anew :: later)).
Proof.
  intros C d es r t i b cp ts L R Te Oo Lw F Tr Pk Ht Tt [Bt Bs] anew.
  pose proof (service_reachable_graph C d L R) as Rg. pose proof (asked_all_typed C es L Te) as Tg. pose proof (asked_few C d es F) as Fg.
  assert (Rq : requests C cp (S_add_trust r i ts) (G_add_trust t b (from_secs ts))) by (split; [exact Tr|split; [exact Pk|reflexivity]]).
  assert (Ad : admitted cp (S_add_trust r i ts)) by (split; [exact Ht|exact Bt]).
  assert (Tc : call_typed C (G_add_trust t b (from_secs ts))) by (apply (requests_typed C cp (S_add_trust r i ts) _ L); [split; [exact Tt|exact Bs]|exact Rq]).
  pose proof (plan_complete C cp _ _ Rq Ad) as P.
  assert (Sm : small d) by (unfold few in Fg; unfold small; lia).
  assert (Sm2 : small (graph_history C d (asked_all C es))) by (apply MoreTrustThms.few_small with (es := []); apply CopyThms.few_after; assumption).
  destruct (BackThms.p_C202_taken_back C d (asked_all C es) t b (from_secs ts) Rg Tg) as [E1 E2]; try assumption.
  { intros g fu H. apply asked_all_one in H. destruct H as (cp' & c' & H & Rq' & Ad'). exact (Oo cp' c' fu g H Ad' Rq'). }
  { intros z [H|(g & fu & H & O)] B; [apply Lw; [left; exact H|exact B]|]. apply asked_all_one in H. destruct H as (cp' & c' & H & Rq' & Ad').
    apply Lw; [right; exists cp', c', fu, g; auto|exact B]. }
  assert (Es : fst (service_step C (service_history C d es) anew) = fst (service_step C d anew)).
  { unfold anew. rewrite !service_plan, P, service_history_db. cbn [carry_out].
    destruct (graph_step C (graph_history C d (asked_all C es)) (G_add_trust t b (from_secs ts), None)) as [x d1]. destruct (graph_step C d (G_add_trust t b (from_secs ts), None)) as [y d2].
    cbn [fst] in E1. subst x. destruct y; reflexivity. }
  split; [exact Es|]. intros w Ew Nz later cp' c Tl U Tc'.
  assert (Sc : same_contents (snd (service_step C (service_history C d es) anew)) (snd (service_step C d anew))).
  { unfold anew in *. rewrite service_plan, P in Ew |- *. rewrite service_plan, P, service_history_db. cbn [carry_out] in Ew |- *. cbv zeta in E2.
    assert (X : exists w', fst (graph_step C d (G_add_trust t b (from_secs ts), None)) = Ok (GR_weight w') /\ w' = w).
    { destruct (graph_step C d (G_add_trust t b (from_secs ts), None)) as [[x|e| |] d2]; try discriminate Ew. cbn [fst] in Ew |- *. injection Ew as Ew. destruct x; try discriminate Ew. injection Ew as ->. eauto. }
    destruct X as (w' & X & ->). specialize (E2 w X Nz).
    destruct (graph_step C (graph_history C d (asked_all C es)) (G_add_trust t b (from_secs ts), None)) as [x d1]. destruct (graph_step C d (G_add_trust t b (from_secs ts), None)) as [y d2].
    cbn [fst snd] in *. subst y x. exact E2. }
  assert (Ha : service_typed (S_add_trust r i ts)) by (split; assumption).
  assert (H1 : service_history C d (es ++ anew :: later) = service_history C (snd (service_step C (service_history C d es) anew)) later) by (unfold service_history; rewrite fold_left_app; reflexivity).
  rewrite H1. change (service_history C d (anew :: later)) with (service_history C (snd (service_step C d anew)) later).
  apply p_C206_contents; try assumption.
  - assert (X : service_reachable C (service_history C d (es ++ [anew]))) by (apply service_history_reachable; [exact R|apply Forall_app; split; [exact Te|constructor; [exact Ha|constructor]]]).
    unfold service_history in X. rewrite fold_left_app in X. exact X.
  - apply (service_history_reachable C d [anew] R). constructor; [exact Ha|constructor].
Qed.

(** ** C203 *)
Lemma gifts_asked : forall C gs ts, Forall2 (good_gift C) gs ts -> asked_all C (give_calls gs) = no_failures (giving ts).
Proof.
  intros C gs ts H. induction H as [|[[[cp r] i] s] [[t b] u] gs ts (H1 & H2 & H3 & H4 & H5 & H6) H IH]; [reflexivity|]. cbn [fst snd] in *. subst u.
  unfold asked_all, give_calls in *. cbn [map flat_map fst snd]. rewrite (asked_admitted C cp (S_add_trust r i s) None (G_add_trust t b (from_secs s))), IH; [reflexivity| |].
  - split; [exact H4|split; [exact H5|reflexivity]].
  - split; [exact H1|apply H2].
Qed.
Lemma gifts_typed : forall C gs ts, Forall2 (good_gift C) gs ts -> service_events_typed (give_calls gs).
Proof.
  intros C gs ts H. induction H as [|[[[cp r] i] s] y gs ts (H1 & H2 & H3 & _) H IH]; [constructor|]. cbn [fst snd] in *. constructor; [|exact IH]. cbn. split; [exact H3|apply H2].
Qed.
Lemma gifts_answers : forall C gs ts d, Forall2 (good_gift C) gs ts -> gifts_taken C d gs -> all_taken C d ts.
Proof.
  intros C gs ts d H. revert d. induction H as [|[[[cp r] i] s] [[t b] u] gs ts (H1 & H2 & H3 & H4 & H5 & H6) H IH]; intros d Q; [constructor|]. cbn [fst snd] in *. subst u.
  unfold gifts_taken, give_calls in Q. cbn [map responses fst snd] in Q.
  assert (P : plan C cp (S_add_trust r i s) = Ok (inl (G_add_trust t b (from_secs s)))) by (apply plan_complete; [split; [exact H4|split; [exact H5|reflexivity]]|split; [exact H1|apply H2]]).
  rewrite service_plan, P in Q. cbn [carry_out] in Q. unfold all_taken, giving, no_failures. cbn [map answers fst snd].
  destruct (graph_step C d (G_add_trust t b (from_secs s), None)) as [x d1]. 
  destruct x as [x|e| |]; cbn [fst snd] in Q |- *; inversion Q as [|z zs (w & Ew & Nz) Q']; subst; try discriminate Ew.
  constructor; [|apply IH; exact Q']. injection Ew as Ew. destruct x; try discriminate Ew. injection Ew as ->. exists w. auto.
Qed.
Lemma revokes_asked : forall C rs vs, Forall2 (good_revocation C) rs vs -> asked_all C (revoke_calls rs) = no_failures (map G_revoke vs).
Proof.
  intros C rs vs Hr. induction Hr as [|[[cp r] ts] v rs vs (H1 & H2 & H3 & _) Hr IH]; [reflexivity|]. cbn [fst snd] in *. unfold asked_all, revoke_calls in *. cbn [map flat_map fst snd].
  rewrite (asked_admitted C cp (S_revoke r ts) None (G_revoke v) H3 (conj H1 (proj1 H2))), IH. reflexivity.
Qed.
(** Through the service: when those who trust the old key hand the new one the records of their trusts, and it those of its own, and then the old one is revoked, whoever had
    a weight is told at least that weight, and of each certificate there is one in which the new key stands for the old. *)
Lemma p_C203_service : forall C d gs ts rs vs old new cp now p p' pk pk', crypto_laws C -> wasm32 C = true -> service_reachable C d ->
  Forall2 (good_gift C) gs ts -> Forall2 (good_revocation C) rs vs -> old <> new -> ~ is_root d old -> unknown d new ->
  for_the_new old new (from_secs now) ts -> hands_over d (from_secs now) old new ts -> gifts_taken C d gs -> (forall v, In v vs -> rev_pk v = old) ->
  s_few d (give_calls gs ++ revoke_calls rs) -> peer_key C p pk -> peer_key C p' pk' -> host_time cp 1 -> now < i64_bound -> stands_for old new pk pk' ->
  let d' := service_history C d (give_calls gs ++ revoke_calls rs) in
  (exists w w', fst (service_step C d (cp, S_get_weight p now, None)) = Ok (mk_response true None (P_weight w p)) /\
     fst (service_step C d' (cp, S_get_weight p' now, None)) = Ok (mk_response true None (P_weight w' p')) /\ w <= w') /\
  (exists cs cs', fst (service_step C d (cp, S_get_all_certs p now, None)) = Ok (mk_response true None (P_certs cs)) /\
     fst (service_step C d' (cp, S_get_all_certs p' now, None)) = Ok (mk_response true None (P_certs cs')) /\
     forall c, In c cs -> exists c', In c' cs' /\
       Forall2 (fun x x' => exists k k', peer_key C (dt_issued_for x) k /\ peer_key C (dt_issued_for x') k' /\ stands_for old new k k') c c').
Proof.
  intros C d gs ts rs vs old new cp now p p' pk pk' L W R Hg Hr Ap Nr Un Fn Ho At Rv F K K' Ht Hn Sp d'.
  pose proof (service_reachable_graph C d L R) as Rg.
  assert (Ea : asked_all C (give_calls gs ++ revoke_calls rs) = rotation ts vs).
  { rewrite asked_all_app, (gifts_asked C gs ts Hg), (revokes_asked C rs vs Hr). unfold rotation, no_failures. rewrite map_app. reflexivity. }
  assert (Tr : service_events_typed (revoke_calls rs)).
  { clear - Hr. induction Hr as [|[[cp r] ts] v rs vs (H1 & H2 & H3 & _) Hr IH]; [constructor|]. constructor; [|exact IH]. cbn in *. lia. }
  assert (Te : service_events_typed (give_calls gs ++ revoke_calls rs)) by (apply Forall_app; split; [apply gifts_typed with (ts := ts) (C := C); exact Hg|exact Tr]).
  pose proof (asked_all_typed C _ L Te) as Tg. rewrite Ea in Tg.
  assert (Rd : service_reachable C d') by (apply service_history_reachable; assumption).
  assert (Ed : d' = graph_history C d (rotation ts vs)) by (unfold d'; rewrite service_history_db, Ea; reflexivity).
  assert (Hu : now < u64_bound) by (revert Hn; unfold i64_bound, u64_bound; lia).
  unfold rotation, no_failures in Tg. unfold typed_history in Tg. rewrite Forall_map in Tg. apply Forall_app in Tg. destruct Tg as [Tg1 Tg2].
  destruct (RotateThms.p_C203_replaced C d ts vs old new (from_secs now) pk pk' Rg) as [(w & w' & E1 & E2 & Lw) (cs & cs' & E3 & E4 & Q)]; try assumption.
  - apply Forall_forall. intros v Hv. rewrite Forall_forall in Tg2. apply (Tg2 (G_revoke v)). apply in_map. exact Hv.
  - apply gifts_answers with (gs := gs); assumption.
  - rewrite <- Ea. apply asked_few. exact F.
  - split; [eapply peer_key_valid; eassumption|apply from_secs_wf; exact Hu].
  - eapply peer_key_valid; eassumption.
  - rewrite <- Ed in E2, E4. split.
    + exists w, w'. split; [apply weight_response with (k := pk); assumption|]. split; [apply weight_response with (k := pk'); assumption|exact Lw].
    + destruct (certs_response C d cp p pk now cs L W R Hu K Ht E3) as (r & Er & Fr). destruct (certs_response C d' cp p' pk' now cs' L W Rd Hu K' Ht E4) as (r' & Er' & Fr').
      exists r, r'. split; [exact Er|]. split; [exact Er'|]. intros c Hc.
      assert (X : exists x, In x cs /\ certificate_record C c x) by (clear - Fr Hc; induction Fr as [|a x r cs H Fr IH]; [destruct Hc|]; destruct Hc as [<-|Hc]; [exists x; split; [left; reflexivity|exact H]|]; destruct (IH Hc) as (y & I & J); exists y; split; [right; exact I|exact J]).
      destruct X as (x & Hx & Rx). destruct (Q x Hx) as (x' & Hx' & Sx).
      assert (Y : exists c', In c' r' /\ certificate_record C c' x') by (clear - Fr' Hx'; induction Fr' as [|a x r cs H Fr IH]; [destruct Hx'|]; destruct Hx' as [->|Hx]; [exists a; split; [left; reflexivity|exact H]|]; destruct (IH Hx) as (y & I & J); exists y; split; [right; exact I|exact J]).
      destruct Y as (c' & Hc' & Rx'). exists c'. split; [exact Hc'|]. clear - Rx Rx' Sx. revert c' x' Rx' Sx. induction Rx as [|a t c x Ha Rx IH]; intros c' x' Rx' Sx.
      * destruct x'; [|inversion Sx]. inversion Rx'. constructor.
      * destruct x' as [|t' x']; [inversion Sx|]. inversion Rx' as [|a' t0 c0 x0 Ha' Rx0]; subst. cbn [map] in Sx. inversion Sx as [|k k' ks ks' S0 S1]; subst.
        constructor; [|apply (IH c0 x'); assumption]. exists (issued_for t), (issued_for t'). split; [apply Ha|]. split; [apply Ha'|exact S0].
Qed.

(** Key 1 revokes key 2 twice, at seconds 50 and 80, and trusts it anew at 90. *)
Definition wavering : list service_event :=
  [(timed_call 1, S_revoke (rev_rec 1 2 50) 60, None); (timed_call 1, S_get_weight (pid 2) 70, None); (timed_call 1, S_revoke (rev_rec 1 2 80) 81, None)].
Lemma wavering_are : asked_all (toy true) wavering = [(G_revoke (toy_rev 1 2 50), None); (G_weight (toy_key 2) (from_secs 70), None); (G_revoke (toy_rev 1 2 80), None)].
Proof. vm_compute. reflexivity. Qed.
(** Key 2 is told no weight after the revocations, and 16 again when the record of the new trust has come in. *)
Example e_C202_service : service_reachable (toy true) base_store /\ service_events_typed wavering /\
  s_only_offers (toy true) (between (toy_key 1) (toy_key 2)) (from_secs 95) wavering /\ s_last_word (toy true) base_store wavering (toy_trust 1 2 2000 90) (toy_key 1) /\
  s_few base_store wavering /\ trust_record (toy true) (trust_rec 1 2 2000 90) (toy_trust 1 2 2000 90) /\ peer_key (toy true) (pid 1) (toy_key 1) /\ host_time (timed_call 2) 2 /\
  dto_trust_typed (trust_rec 1 2 2000 90) /\ dt_issued_at (trust_rec 1 2 2000 90) <= 95 /\
  fst (service_step (toy true) base_store (timed_call 2, S_add_trust (trust_rec 1 2 2000 90) (pid 1) 95, None)) = Ok (mk_response true None (P_added 16)) /\
  told_weight (service_step (toy true) (service_history (toy true) base_store wavering) (timed_call 1, S_get_weight (pid 2) 94, None)) = Some 0 /\
  told_weight (service_step (toy true) (service_history (toy true) base_store (wavering ++ [(timed_call 2, S_add_trust (trust_rec 1 2 2000 90) (pid 1) 95, None)])) (timed_call 1, S_get_weight (pid 2) 96, None)) = Some 16.
Proof.
  split; [exact base_reachable|]. split; [repeat constructor|].
  split; [|split; [|split; [vm_compute; reflexivity|split; [apply rec_trust; vm_compute; reflexivity|split; [apply pid_key|split; [apply timed_host|
    split; [repeat constructor|split; [vm_compute; discriminate|split; [vm_compute; reflexivity|split; vm_compute; reflexivity]]]]]]]]].
  - intros cp c fu g H Ad Rq. pose proof (asked_all_has (toy true) wavering cp c fu g H Rq Ad) as X. rewrite wavering_are in X.
    destruct X as [X|[X|[X|[]]]]; injection X as <- _; (split; [discriminate|]; split; [|]).
    + intros t X. discriminate X.
    + intros [a|v] Hx; [contradiction Hx|]. injection Hx as <-. split; reflexivity.
    + intros t X. injection X as <-. split; [vm_compute; discriminate|reflexivity].
    + intros [a|v] Hx; [contradiction Hx|discriminate Hx].
    + intros t X. discriminate X.
    + intros [a|v] Hx; [contradiction Hx|]. injection Hx as <-. split; reflexivity.
  - intros z [Hz|(cp & c & fu & g & H & Ad & Rq & O)] [B1 B2].
    + rewrite VisitorThms.base_state_store in Hz. apply (stored_in (toy true) _ _ VisitorThms.base_state_wf) in Hz.
      destruct Hz as [<-|[<-|[]]]; vm_compute; reflexivity.
    + pose proof (asked_all_has (toy true) wavering cp c fu g H Rq Ad) as X. rewrite wavering_are in X.
      destruct X as [X|[X|[X|[]]]]; injection X as <- _; destruct z as [a|v]; try contradiction O; try discriminate O; injection O as <-; reflexivity.
Qed.

(** Key 2 has trusted key 4. *)
Definition grown : list service_event := [(timed_call 2, S_add_trust (trust_rec 2 4 800 5) (pid 2) 6, None)].
Definition grown_store : db := service_history (toy true) base_store grown.
Lemma grown_reachable : service_reachable (toy true) grown_store.
Proof. apply service_history_reachable; [exact base_reachable|]. repeat constructor. Qed.
Definition grown_rels : list relation := VisitorThms.base_rels ++ [RAuth (mk_auth (toy_trust 2 4 800 5) (toy_key 2))].
Definition grown_state : state := mk_state grown_rels [(toy_key 1, 11)].
Lemma grown_is : grown_store = db_of grown_state.
Proof. vm_compute. reflexivity. Qed.
Lemma grown_wf : wf (toy true) grown_state.
Proof.
  split.
  - repeat constructor; vm_compute; reflexivity.
  - cbn. repeat (constructor; [intros X; repeat (destruct X as [X|X]; [discriminate X|]); exact X|]). constructor.
  - repeat constructor.
Qed.
(** Key 1 trusts key 3 in the place of key 2, key 3 trusts key 4, and key 1 revokes key 2. *)
Definition succession : list gift := [(timed_call 2, trust_rec 1 3 900 50, pid 1, 60); (timed_call 2, trust_rec 3 4 800 51, pid 3, 61)].
Definition succession_trusts : list (trust * public_key * duration) := [(toy_trust 1 3 900 50, toy_key 1, from_secs 60); (toy_trust 3 4 800 51, toy_key 3, from_secs 61)].
(** Key 4 is told 8 before and after; without the succession it would be told nothing. *)
Example e_C203_service : service_reachable (toy true) grown_store /\ Forall2 (good_gift (toy true)) succession succession_trusts /\
  Forall2 (good_revocation (toy true)) [(timed_call 1, rev_rec 1 2 70, 75)] [toy_rev 1 2 70] /\ toy_key 2 <> toy_key 3 /\ ~ is_root grown_store (toy_key 2) /\
  unknown grown_store (toy_key 3) /\ for_the_new (toy_key 2) (toy_key 3) (from_secs 80) succession_trusts /\
  hands_over grown_store (from_secs 80) (toy_key 2) (toy_key 3) succession_trusts /\ gifts_taken (toy true) grown_store succession /\
  s_few grown_store (give_calls succession ++ revoke_calls [(timed_call 1, rev_rec 1 2 70, 75)]) /\
  told_weight (service_step (toy true) grown_store (timed_call 1, S_get_weight (pid 4) 80, None)) = Some 8 /\
  told_weight (service_step (toy true) (service_history (toy true) grown_store (give_calls succession ++ revoke_calls [(timed_call 1, rev_rec 1 2 70, 75)])) (timed_call 1, S_get_weight (pid 4) 80, None)) = Some 8 /\
  told_weight (service_step (toy true) (service_history (toy true) grown_store (give_calls succession ++ revoke_calls [(timed_call 1, rev_rec 1 2 70, 75)])) (timed_call 1, S_get_weight (pid 3) 80, None)) = Some 16 /\
  told_weight (service_step (toy true) (service_history (toy true) grown_store (revoke_calls [(timed_call 1, rev_rec 1 2 70, 75)])) (timed_call 1, S_get_weight (pid 4) 80, None)) = Some 0.
Proof.
  assert (N23 : toy_key 2 <> toy_key 3) by (intros X; vm_compute in X; discriminate X).
  assert (N12 : toy_key 1 <> toy_key 2) by (intros X; vm_compute in X; discriminate X).
  assert (N42 : toy_key 4 <> toy_key 2) by (intros X; vm_compute in X; discriminate X).
  split; [exact grown_reachable|]. split; [|split; [|split; [exact N23|split; [|split; [|split; [|split; [|split; [|split; [vm_compute; reflexivity|
    split; [vm_compute; reflexivity|split; [vm_compute; reflexivity|split; vm_compute; reflexivity]]]]]]]]]]].
  - assert (P1 : peer_key (toy true) (pid 1) (toy_key 1)) by apply pid_key. assert (P3 : peer_key (toy true) (pid 3) (toy_key 3)) by apply pid_key.
    constructor; [|constructor; [|constructor]]; (split; [apply timed_host|]; split; [split; [vm_compute; discriminate|reflexivity]|]; split; [repeat constructor|];
      split; [apply rec_trust; vm_compute; reflexivity|]; split; [assumption|reflexivity]).
  - constructor; [|constructor]. split; [apply timed_host|]. split; [split; [vm_compute; discriminate|reflexivity]|]. split; [apply revocation_of_dto_ok; vm_compute; reflexivity|vm_compute; reflexivity].
  - rewrite grown_is. intros X. apply is_root_in in X. destruct X as [X|[]]. exact (N12 X).
  - rewrite grown_is. split; [intros X; apply is_root_in in X; destruct X as [X|[]]; vm_compute in X; discriminate X|].
    intros x Hx. apply (stored_in (toy true) _ _ grown_wf) in Hx. destruct Hx as [<-|[<-|[<-|[]]]]; split; intros X; vm_compute in X; discriminate X.
  - split.
    + cbn [map succession_trusts fst snd]. constructor; [|constructor; [intros []|constructor]]. intros [X|[]]. injection X as X _. vm_compute in X. discriminate X.
    + intros t b s [I|[I|[]]]; injection I as <- <- <-.
      * split; [right; reflexivity|]. split; [intros X; apply N23; symmetry; exact X|]. split; split; [vm_compute; discriminate|reflexivity|reflexivity|reflexivity].
      * split; [left; reflexivity|]. split; [exact N42|]. split; split; [vm_compute; discriminate|reflexivity|reflexivity|reflexivity].
  - intros b t [Hx _] O. rewrite grown_is in Hx. apply (stored_trust_in (toy true) _ _ _ grown_wf) in Hx. destruct Hx as [H|[H|[H|[]]]]; injection H as <- <-.
    + exfalso. destruct O as [X|X]; exact (N12 X).
    + exists (toy_trust 1 3 900 50), (toy_key 1), (from_secs 60). split; [left; reflexivity|]. split; [right; split; [exact N12|reflexivity]|left; split; reflexivity].
    + exists (toy_trust 3 4 800 51), (toy_key 3), (from_secs 61). split; [right; left; reflexivity|]. split; [left; split; reflexivity|right; split; [exact N42|reflexivity]].
  - repeat constructor; [exists 16; split; [vm_compute; reflexivity|discriminate]|exists 8; split; [vm_compute; reflexivity|discriminate]].
Qed.
(** Two stores with the same contents in another order: one is told of key 3 and then of key 4, the other the other way round. *)
Example e_C206_order : let three := (timed_call 2, S_add_trust (trust_rec 1 3 900 5) (pid 1) 6, None) in let four := (timed_call 2, S_add_trust (trust_rec 1 4 900 5) (pid 1) 6, None) in
  service_reachable (toy true) (service_history (toy true) base_store [three; four]) /\ service_reachable (toy true) (service_history (toy true) base_store [four; three]) /\
  same_contents (service_history (toy true) base_store [three; four]) (service_history (toy true) base_store [four; three]) /\
  service_history (toy true) base_store [three; four] <> service_history (toy true) base_store [four; three] /\ service_events_typed wavering /\ unfailing wavering.
Proof.
  assert (T3 : service_typed (S_add_trust (trust_rec 1 3 900 5) (pid 1) 6)) by repeat constructor.
  assert (T4 : service_typed (S_add_trust (trust_rec 1 4 900 5) (pid 1) 6)) by repeat constructor.
  split; [apply service_history_reachable; [exact base_reachable|repeat (constructor; [assumption|]); constructor]|].
  split; [apply service_history_reachable; [exact base_reachable|repeat (constructor; [assumption|]); constructor]|].
  split; [|split; [|split; [repeat constructor|]]].
  - assert (P : forall A B : db, tbl_roots A = tbl_roots B -> Permutation (tbl_relations A) (tbl_relations B) -> same_contents A B).
    { intros A B E P. split; [|unfold root_max_len; rewrite E; reflexivity].
      assert (Q : forall r, In r (tbl_relations A) <-> In r (tbl_relations B)) by (intros r; split; intros H; [exact (Permutation_in _ P H)|exact (Permutation_in _ (Permutation_sym P) H)]).
      intros [a|v]; unfold stored, stored_trust, stored_revocation; rewrite Q; reflexivity. }
    apply P; [vm_compute; reflexivity|].
    vm_compute. do 2 apply perm_skip. apply perm_swap.
  - intros X. apply (f_equal (fun d => map r_for (tbl_relations d))) in X. revert X. vm_compute. discriminate.
  - intros cp c fu [H|[H|[H|[]]]]; injection H as _ _ <-; reflexivity.
Qed.
