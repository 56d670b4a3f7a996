(** Proofs about renewed trusts and keys that are cut off, through the service. *)
From Coq Require Import List NArith ZArith Bool Lia ZifyBool ZifyNat ZifyN.
From Verif Require Import Base BaseFacts Text TextFacts Keys KeysFacts Trust TrustFacts Certificate CertFacts Relation
  Storage StorageFacts Graph Service Spec SpecFacts GraphFacts StateFacts ServiceSpec ServiceFacts ServiceThms ServiceWitness
  Toy ToyFacts MachineSpec ServiceMachine ServiceMachineThms RenewSpec CutSpec ServedSpec.
From Verif Require VisitorThms RenewThms CutThms.
Import ListNotations.
Open Scope N_scope.

Section Lift.
Variable C : crypto.
Lemma asked_admitted : forall cp c fu g, requests C cp c g -> admitted cp c -> asked C cp c fu = [(g, fu)].
Proof. intros cp c fu g H A. unfold asked. rewrite (plan_complete C cp c g H A). reflexivity. Qed.
Lemma asked_all_app : forall es es', asked_all C (es ++ es') = asked_all C es ++ asked_all C es'.
Proof. intros es es'. unfold asked_all. apply flat_map_app. Qed.
Lemma asked_all_one : forall es g fu, In (g, fu) (asked_all C es) -> exists cp c, In (cp, c, fu) es /\ requests C cp c g /\ admitted cp c.
Proof. intros es g fu H. apply asked_all_in in H. destruct H as (cp & c & H & P). exists cp, c. split; [exact H|]. split; [apply plan_requests; exact P|eapply plan_admitted; exact P]. Qed.
Lemma asked_all_has : forall es cp c fu g, In (cp, c, fu) es -> requests C cp c g -> admitted cp c -> In (g, fu) (asked_all C es).
Proof. intros es cp c fu g H R A. unfold asked_all. apply in_flat_map. exists (cp, c, fu). split; [exact H|]. cbn [fst snd]. rewrite (asked_admitted _ _ _ _ R A). left. reflexivity. Qed.
Lemma asked_all_split : forall es h g fu h', asked_all C es = h ++ (g, fu) :: h' ->
  exists earlier cp c later, es = earlier ++ (cp, c, fu) :: later /\ requests C cp c g /\ admitted cp c /\ h = asked_all C earlier.
Proof.
  induction es as [|[[cp c] fu0] es IH]; intros h g fu h' E; [destruct h; discriminate E|].
  unfold asked_all in E. cbn [flat_map fst snd] in E. fold (asked_all C es) in E. unfold asked in E.
  destruct (plan C cp c) as [[g0|a]|e| |] eqn:P.
  - destruct h as [|x h].
    + injection E as -> -> _. exists [], cp, c, es. split; [reflexivity|]. split; [apply plan_requests; exact P|]. split; [eapply plan_admitted; exact P|reflexivity].
    + injection E as <- E. destruct (IH _ _ _ _ E) as (ea & cp' & c' & la & -> & Rq & Ad & ->). exists ((cp, c, fu0) :: ea), cp', c', la.
      split; [reflexivity|]. split; [exact Rq|]. split; [exact Ad|]. unfold asked_all. cbn [flat_map fst snd]. unfold asked at 2. rewrite P. reflexivity.
  - destruct (IH _ _ _ _ E) as (ea & cp' & c' & la & -> & Rq & Ad & ->). exists ((cp, c, fu0) :: ea), cp', c', la.
    split; [reflexivity|]. split; [exact Rq|]. split; [exact Ad|]. unfold asked_all. cbn [flat_map fst snd]. unfold asked at 2. rewrite P. reflexivity.
  - destruct (IH _ _ _ _ E) as (ea & cp' & c' & la & -> & Rq & Ad & ->). exists ((cp, c, fu0) :: ea), cp', c', la.
    split; [reflexivity|]. split; [exact Rq|]. split; [exact Ad|]. unfold asked_all. cbn [flat_map fst snd]. unfold asked at 2. rewrite P. reflexivity.
  - destruct (IH _ _ _ _ E) as (ea & cp' & c' & la & -> & Rq & Ad & ->). exists ((cp, c, fu0) :: ea), cp', c', la.
    split; [reflexivity|]. split; [exact Rq|]. split; [exact Ad|]. unfold asked_all. cbn [flat_map fst snd]. unfold asked at 2. rewrite P. reflexivity.
  - destruct (IH _ _ _ _ E) as (ea & cp' & c' & la & -> & Rq & Ad & ->). exists ((cp, c, fu0) :: ea), cp', c', la.
    split; [reflexivity|]. split; [exact Rq|]. split; [exact Ad|]. unfold asked_all. cbn [flat_map fst snd]. unfold asked at 2. rewrite P. reflexivity.
Qed.
Lemma asked_few : forall d es, s_few d es -> few d (asked_all C es).
Proof.
  intros d es H. unfold s_few, few in *.
  assert (X : (list_sum (map (fun e : graph_call * option nat => offered (fst e)) (asked_all C es)) <= list_sum (map (fun e : call_params * service_call * option nat => s_offered (snd (fst e))) es))%nat); [|lia].
  clear H. induction es as [|[[cp c] fu] es IH]; [apply le_n|].
  change (asked_all C ((cp, c, fu) :: es)) with (asked C cp c fu ++ asked_all C es). rewrite map_app, list_sum_app.
  change (list_sum (map (fun e : call_params * service_call * option nat => s_offered (snd (fst e))) ((cp, c, fu) :: es))) with (s_offered c + list_sum (map (fun e : call_params * service_call * option nat => s_offered (snd (fst e))) es))%nat.
  apply Nat.add_le_mono; [|exact IH]. unfold asked. destruct (plan C cp c) as [[g|a]|e| |] eqn:P; try apply Nat.le_0_l.
  change (offered g + 0 <= s_offered c)%nat. rewrite Nat.add_0_r. apply (requests_offered C cp). apply plan_requests. exact P.
Qed.
Lemma offered_ever_back : forall d es a t, ever_offered C d (asked_all C es) a t -> s_offered_ever C d es a t.
Proof.
  intros d es a t [H|(g & fu & H & O & S)]; [left; exact H|right]. apply asked_all_one in H. destruct H as (cp & c & H & Rq & Ad). exists cp, c, fu, g. auto.
Qed.
Lemma covered_up : forall d es ks now, s_covered C d es ks now -> covered C d (asked_all C es) ks now.
Proof.
  intros d es ks now H a b O. destruct (H a b O) as (t & G & E). exists t. split; [|exact E]. destruct G as [G|(cp & r & i & ts & Hin & Ad & Tr & Pk & Sg)]; [left; exact G|].
  right. exists (from_secs ts). split; [|exact Sg]. apply (asked_all_has es cp (S_add_trust r i ts)); [exact Hin|split; [exact Tr|split; [exact Pk|reflexivity]]|exact Ad].
Qed.
(** What the service responds to the two questions. *)
Lemma weight_response : forall d cp p k ts w, peer_key C p k -> host_time cp 1 ->
  fst (graph_step C d (G_weight k (from_secs ts), None)) = Ok (GR_weight w) -> fst (service_step C d (cp, S_get_weight p ts, None)) = Ok (mk_response true None (P_weight w p)).
Proof.
  intros d cp p k ts w K Ht E. rewrite service_plan, (plan_complete C cp (S_get_weight p ts) (G_weight k (from_secs ts)) (conj K eq_refl) Ht). cbn [carry_out].
  destruct (graph_step C d (G_weight k (from_secs ts), None)) as [x d']. cbn [fst] in E. subst x. reflexivity.
Qed.
Lemma certs_response : forall d cp p k ts cs, crypto_laws C -> wasm32 C = true -> service_reachable C d -> ts < u64_bound -> peer_key C p k -> host_time cp 1 ->
  fst (graph_step C d (G_get_all_certs k (from_secs ts), None)) = Ok (GR_certs cs) ->
  exists rs, fst (service_step C d (cp, S_get_all_certs p ts, None)) = Ok (mk_response true None (P_certs rs)) /\ Forall2 (certificate_record C) rs cs.
Proof.
  intros d cp p k ts cs L W R Hs K Ht E. destruct (service_step C d (cp, S_get_all_certs p ts, None)) as [r d'] eqn:Es.
  destruct (p_C66_admitted_calls C d cp (S_get_all_certs p ts) (G_get_all_certs k (from_secs ts)) None r d' L W R Hs Ht (conj K eq_refl) Es) as [(x & y & Eg & -> & Tl)|(e & Eg & ->)];
    rewrite Eg in E; cbn [fst] in E; [|discriminate E].
  injection E as ->. destruct y; try contradiction. eexists. split; [reflexivity|exact Tl].
Qed.
Lemma service_history_reachable : forall d es, service_reachable C d -> service_events_typed es -> service_reachable C (service_history C d es).
Proof.
  intros d es (h & T & <-) Te. exists (h ++ es). split; [apply Forall_app; auto|]. unfold service_history. apply fold_left_app.
Qed.
Lemma record_key : forall r t k, trust_record C r t -> peer_key C (dt_issued_for r) k -> k = issued_for t.
Proof. intros r t k (P & _) Q. destruct P as (p & E1 & _ & E2), Q as (q & F1 & _ & F2). rewrite E1 in F1. injection F1 as <-. rewrite E2 in F2. injection F2 as ->. reflexivity. Qed.
End Lift.

(** ** C198 *)
(** As long as the records of the trusts of a chain are renewed at the service before they expire, the last peer is told the weight that
    the length of the chain gives, and a certificate with the keys of the chain. *)
Lemma p_C198_no_gap : forall C d es ks k m cp p pk ts, crypto_laws C -> wasm32 C = true -> service_reachable C d -> service_events_typed es -> s_few d es ->
  nth_error ks 0 = Some k -> nth_error ks (length ks - 1) = Some pk -> NoDup ks -> (2 <= length ks)%nat -> root_max_len d k m -> N.of_nat (length ks) <= m + 1 ->
  s_renewed_in_time C d es ks -> s_renewals_last C d es ks -> s_no_revocation_among C d es ks -> s_covered C d es ks (from_secs ts) ->
  peer_key C p pk -> host_time cp 1 -> ts < u64_bound ->
  (exists w, fst (service_step C (service_history C d es) (cp, S_get_weight p ts, None)) = Ok (mk_response true None (P_weight w p)) /\ 2 ^ (m + 1 - N.of_nat (length ks)) <= w) /\
  (exists rs, fst (service_step C (service_history C d es) (cp, S_get_all_certs p ts, None)) = Ok (mk_response true None (P_certs rs)) /\
     exists r, In r rs /\ Forall2 (fun x k' => peer_key C (dt_issued_for x) k') r ks).
Proof.
  intros C d es ks k m cp p pk ts L W R Te F H0 Hl Nd Len Rm Lm Rt Rl Nr Cv K Ht Hs.
  pose proof (service_reachable_graph C d L R) as Rg. pose proof (asked_all_typed C es L Te) as Tg.
  destruct (RenewThms.p_C195_no_gap C d (asked_all C es) ks k m pk (from_secs ts) Rg Tg (asked_few C d es F) H0 Hl Nd Len Rm Lm) as [(cs & Ec & c & Hc & Mc) (w & Ew & Lw)].
  - intros h g fu h' now E Ct. apply asked_all_split in E. destruct E as (ea & cp' & c' & la & -> & Rq & Ad & ->). apply covered_up. exact (Rt ea cp' c' fu la g now eq_refl Ad Rq Ct).
  - intros a t O E. destruct (Rl a t O (offered_ever_back C d es a t E)) as [B1 B2]. split; [exact B1|]. intros t' E'. apply B2. apply offered_ever_back. exact E'.
  - intros v [Sv|[(fu & Hv) Sg]]; apply Nr; [left; exact Sv|right]. split; [|exact Sg]. apply asked_all_one in Hv. destruct Hv as (cp' & c' & Hv & Rq & _).
    destruct c'; try contradiction Rq. exists cp', r, timestamp_sec, fu. split; [exact Hv|exact Rq].
  - apply covered_up. exact Cv.
  - split; [eapply peer_key_valid; eassumption|]. apply from_secs_wf. exact Hs.
  - rewrite <- service_history_db in Ec, Ew. split.
    + exists w. split; [apply weight_response with (k := pk); assumption|exact Lw].
    + destruct (certs_response C (service_history C d es) cp p pk ts cs L W (service_history_reachable C d es R Te) Hs K Ht Ec) as (rs & Er & Fr).
      exists rs. split; [exact Er|]. clear - Fr Hc Mc. induction Fr as [|r c0 rs cs Hr Fr IH]; [destruct Hc|]. destruct Hc as [<-|Hc].
      * exists r. split; [left; reflexivity|]. subst ks. clear - Hr. induction Hr as [|x t r c Hx Hr IH]; [constructor|]. cbn [map]. constructor; [apply Hx|exact IH].
      * destruct (IH Hc) as (r' & I & Q). exists r'. split; [right; exact I|exact Q].
Qed.

(** ** C199 *)
(** Revoked at the border through the service, a set of keys is cut off: whoever calls the service afterwards, and whatever fails, none of
    its certificates has one of them, and they weigh nothing. *)
Lemma p_C199_cut_off : forall C d rs vs es ks cp p k ts, crypto_laws C -> wasm32 C = true -> service_reachable C d -> Forall2 (good_revocation C) rs vs ->
  service_events_typed es -> s_few d (revoke_calls rs ++ es) -> s_never_roots C d es ks -> s_cut_off_by C d es vs ks ->
  peer_key C p k -> host_time cp 1 -> ts < u64_bound ->
  let d' := service_history C d (revoke_calls rs ++ es) in
  (exists cs, fst (service_step C d' (cp, S_get_all_certs p ts, None)) = Ok (mk_response true None (P_certs cs)) /\
     (forall c x k', In c cs -> In x c -> peer_key C (dt_issued_for x) k' -> ~ In k' ks) /\ (In k ks -> cs = [])) /\
  (In k ks -> fst (service_step C d' (cp, S_get_weight p ts, None)) = Ok (mk_response true None (P_weight 0 p))).
Proof.
  intros C d rs vs es ks cp p k ts L W R Hr Te F [Nr Ns] Cut K Ht Hs d'.
  pose proof (service_reachable_graph C d L R) as Rg. pose proof (asked_all_typed C es L Te) as Tg.
  assert (A : asked_all C (revoke_calls rs) = map (fun v => (G_revoke v, None)) vs).
  { clear - Hr. induction Hr as [|[[cp r] ts] v rs vs (H1 & H2 & H3 & _) Hr IH]; [reflexivity|]. cbn [fst snd] in *. unfold asked_all, revoke_calls in *. cbn [map flat_map fst snd].
    rewrite (asked_admitted C cp (S_revoke r ts) None (G_revoke v) H3 (conj H1 (proj1 H2))), IH. reflexivity. }
  assert (Ea : asked_all C (revoke_calls rs ++ es) = revoking vs (asked_all C es)) by (rewrite asked_all_app, A; reflexivity).
  assert (Tr : service_events_typed (revoke_calls rs)).
  { clear - Hr. induction Hr as [|[[cp r] ts] v rs vs (H1 & H2 & H3 & _) Hr IH]; [constructor|]. constructor; [|exact IH]. cbn in *. lia. }
  assert (Rd : service_reachable C d') by (apply service_history_reachable; [exact R|apply Forall_app; auto]).
  assert (Ed : d' = graph_history C d (revoking vs (asked_all C es))) by (unfold d'; rewrite service_history_db, Ea; reflexivity).
  destruct (CutThms.p_C197_cut_off C d vs (asked_all C es) ks k (from_secs ts) Rg) as [(cs & Ec & Cc & Nc) Ew].
  - apply Forall_forall. intros v Hv. clear - Hr Hv L. induction Hr as [|[[cp r] ts] u rs vs (H1 & H2 & H3 & _) Hr IH]; [destruct Hv|]. destruct Hv as [<-|Hv]; [|exact (IH Hv)].
    eapply revocation_record_typed; [exact L|exact H3|]. cbn in *. lia.
  - intros v Hv. clear - Hr Hv. induction Hr as [|x u rs vs (_ & _ & _ & H) Hr IH]; [destruct Hv|]. destruct Hv as [<-|Hv]; [exact H|exact (IH Hv)].
  - exact Tg.
  - rewrite <- Ea. apply asked_few. exact F.
  - split; [exact Nr|]. intros k0 n fu H. apply asked_all_one in H. destruct H as (cp' & c' & H & Rq & Ad). destruct c'; try contradiction Rq. destruct Rq as [Rq ->]. exact (Ns cp' _ _ fu k0 H Ad Rq).
  - intros b t Nb Hi O. apply Cut; [exact Nb|exact Hi|]. apply offered_ever_back. exact O.
  - split; [eapply peer_key_valid; eassumption|]. apply from_secs_wf. exact Hs.
  - rewrite <- Ed in Ec, Ew. split.
    + destruct (certs_response C d' cp p k ts cs L W Rd Hs K Ht Ec) as (rc & Er & Fr). exists rc. split; [exact Er|]. split.
      * intros r x k' Hrc Hx Px. clear - Fr Hrc Hx Px Cc. induction Fr as [|r0 c0 rc cs H0 Fr IH]; [destruct Hrc|].
        destruct Hrc as [->|Hrc]; [|apply IH; [intros c i k0 Hc; apply Cc; right; exact Hc|exact Hrc]].
        assert (Y : exists i t, nth_error c0 i = Some t /\ trust_record C x t).
        { clear - H0 Hx. induction H0 as [|a t r c Ha H0 IH]; [destruct Hx|]. destruct Hx as [<-|Hx]; [exists 0%nat, t; auto|]. destruct (IH Hx) as (i & u & E & Q). exists (S i), u. auto. }
        destruct Y as (i & t & Ei & Q). rewrite (record_key C x t k' Q Px). apply (Cc c0 i); [left; reflexivity|]. exists t. split; [exact Ei|reflexivity].
      * intros Hk. rewrite (Nc Hk) in Fr. inversion Fr. reflexivity.
    + intros Hk. apply weight_response with (k := k); auto.
Qed.

(** ** Examples *)
Notation TT := (toy true).
Definition renewals : list service_event :=
  [(timed_call 2, S_add_trust (trust_rec 1 1 3000 20) (pid 1) 600, None); (timed_call 2, S_add_trust (trust_rec 1 2 2900 21) (pid 1) 650, None);
   (script_call, S_insert_cert stranger_cert 6, None); (timed_call 1, S_revoke (rev_rec 7 2 660) 660, None); (timed_call 1, S_get_weight (pid 2) 700, Some 1%nat)].
Definition renewals_asked : list (graph_call * option nat) :=
  [(G_add_trust (toy_trust 1 1 3000 20) (toy_key 1) (from_secs 600), None); (G_add_trust (toy_trust 1 2 2900 21) (toy_key 1) (from_secs 650), None);
   (G_add [toy_trust 7 7 9000 1] (from_secs 6), None); (G_revoke (toy_rev 7 2 660), None); (G_weight (toy_key 2) (from_secs 700), Some 1%nat)].
Lemma renewals_are : asked_all TT renewals = renewals_asked.
Proof. vm_compute. reflexivity. Qed.
Lemma renewals_typed : service_events_typed renewals.
Proof. repeat constructor. Qed.
Definition chain2 : list public_key := [toy_key 1; toy_key 2].
Lemma chain2_steps : forall a b, on_chain chain2 a b -> a = toy_key 1 /\ (b = toy_key 1 \/ b = toy_key 2).
Proof.
  intros a b [[H ->]|(i & Ha & Hb)]; [injection H as <-; auto|]. destruct i as [|[|i]]; cbn in Ha, Hb; try discriminate; try (destruct i; discriminate). injection Ha as <-; injection Hb as <-; auto.
Qed.
Lemma base_trusts : forall b t, stored_trust base_store b t <-> b = toy_key 1 /\ (t = toy_trust 1 1 1000 1 \/ t = toy_trust 1 2 900 1).
Proof.
  intros b t. rewrite VisitorThms.base_state_store, (stored_trust_in TT _ b t VisitorThms.base_state_wf). split.
  - intros [H|[H|[]]]; injection H as <- <-; auto.
  - intros [-> [->| ->]]; [left|right; left]; reflexivity.
Qed.
Lemma base_revs : forall v, ~ stored_revocation base_store v.
Proof. intros v H. rewrite VisitorThms.base_state_store in H. apply (stored_rev_in TT) in H; [|exact VisitorThms.base_state_wf]. destruct H as [H|[H|[]]]; discriminate H. Qed.
Lemma rec_trust : forall b f e i, trust_of_dto TT (trust_rec b f e i) = Ok (toy_trust b f e i) -> trust_record TT (trust_rec b f e i) (toy_trust b f e i).
Proof. intros b f e i H. apply trust_of_dto_ok in H. exact H. Qed.
Definition offers5 : list (public_key * trust) :=
  [(toy_key 1, toy_trust 1 1 1000 1); (toy_key 1, toy_trust 1 2 900 1); (toy_key 1, toy_trust 1 1 3000 20); (toy_key 1, toy_trust 1 2 2900 21); (toy_key 7, toy_trust 7 7 9000 1)].
Lemma offers5_bound : forallb (fun p => secs (expires_at (snd p)) <? i64_bound) offers5 = true.
Proof. vm_compute. reflexivity. Qed.
Lemma offers5_last : forallb (fun p => forallb (fun q => implb (pk_eqb (fst p) (fst q) && pk_eqb (issued_for (snd q)) (issued_for (snd p)) && (secs (issued_at (snd p)) <=? secs (issued_at (snd q))))
  (secs (expires_at (snd p)) <=? secs (expires_at (snd q)))) offers5) offers5 = true.
Proof. vm_compute. reflexivity. Qed.
Lemma renewals_offered : forall b t, s_offered_ever TT base_store renewals b t -> In (b, t) offers5.
Proof.
  intros b t [H|(cp & c & fu & g & Hc & Ad & Rq & O & _)].
  - apply (proj1 (base_trusts b t)) in H. destruct H as [-> [->| ->]]; unfold offers5; [left; reflexivity|right; left; reflexivity].
  - pose proof (asked_all_has TT renewals cp c fu g Hc Rq Ad) as H. rewrite renewals_are in H.
    destruct H as [H|[H|[H|[H|[H|[]]]]]]; injection H as <- _; cbn [offers_trust] in O; try contradiction O; unfold offers5.
    + destruct O as [-> ->]. right. right. left. reflexivity.
    + destruct O as [-> ->]. right. right. right. left. reflexivity.
    + destruct O as [[H ->]|(i & g & Hg & Ht & ->)]; [injection H as <-; right; right; right; right; left; reflexivity|]. unfold at_pos in Ht. destruct i; discriminate Ht.
Qed.
Lemma verified_signed : forall C k t now, trust_verify C t k now = Ok tt -> signed_trust C k t.
Proof. intros C k t now V. apply trust_verify_exact in V. apply V. Qed.
Lemma renewal1_signed : signed_trust TT (toy_key 1) (toy_trust 1 1 3000 20).
Proof. apply (verified_signed TT _ _ (from_secs 600)). vm_compute. reflexivity. Qed.
Lemma renewal2_signed : signed_trust TT (toy_key 1) (toy_trust 1 2 2900 21).
Proof. apply (verified_signed TT _ _ (from_secs 600)). vm_compute. reflexivity. Qed.
(** Key 1 renews its trusts for itself and for key 2, a stranger revokes key 2 and inserts their own certificate, a query fails: at 2000, when everything that was
    stored at the beginning has expired, key 2 still weighs 16. *)
Example e_C198_renewals : service_reachable (toy true) base_store /\ service_events_typed renewals /\ s_few base_store renewals /\ root_max_len base_store (toy_key 1) 5 /\
  s_renewed_in_time (toy true) base_store renewals [toy_key 1; toy_key 2] /\ s_renewals_last (toy true) base_store renewals [toy_key 1; toy_key 2] /\
  s_no_revocation_among (toy true) base_store renewals [toy_key 1; toy_key 2] /\ s_covered (toy true) base_store renewals [toy_key 1; toy_key 2] (from_secs 2000) /\
  peer_key (toy true) (pid 2) (toy_key 2) /\ host_time (timed_call 1) 1 /\
  told_weight (service_step (toy true) base_store (timed_call 1, S_get_weight (pid 2) 2000, None)) = Some 0 /\
  told_weight (service_step (toy true) (service_history (toy true) base_store renewals) (timed_call 1, S_get_weight (pid 2) 2000, None)) = Some 16.
Proof.
  split; [exact base_reachable|]. split; [exact renewals_typed|]. split; [vm_compute; reflexivity|].
  split; [rewrite VisitorThms.base_state_store; apply root_max_len_factor; exists 11; split; [vm_compute; reflexivity|reflexivity]|].
  split; [|split; [|split; [|split; [|split; [apply pid_key|split; [apply timed_host|split; vm_compute; reflexivity]]]]]].
  - intros ea cp c fu la g now E Ad Rq Ct a b O. apply chain2_steps in O.
    assert (X : In (g, fu) renewals_asked) by (rewrite <- renewals_are; apply (asked_all_has TT renewals cp c); [rewrite E; apply in_or_app; right; left; reflexivity|exact Rq|exact Ad]).
    assert (Hn : secs now <= 700) by (repeat (destruct X as [X|X]; [injection X as <- _; first [discriminate Ct|injection Ct as <-; vm_compute; discriminate]|]); contradiction X).
    destruct O as [-> [->| ->]].
    + exists (toy_trust 1 1 1000 1). split; [left; apply base_trusts; split; [reflexivity|left; reflexivity]|]. split; [reflexivity|]. cbn [toy_trust expires_at from_secs secs]. lia.
    + exists (toy_trust 1 2 900 1). split; [left; apply base_trusts; split; [reflexivity|right; reflexivity]|]. split; [reflexivity|]. cbn [toy_trust expires_at from_secs secs]. lia.
  - intros a t _ K. apply renewals_offered in K. split.
    + pose proof (proj1 (forallb_forall _ _) offers5_bound (a, t) K) as X. apply N.ltb_lt. exact X.
    + intros t' K' E L. apply renewals_offered in K'.
      pose proof (proj1 (forallb_forall _ _) (proj1 (forallb_forall _ _) offers5_last (a, t) K) (a, t') K') as X. cbn [fst snd] in X.
      rewrite pk_eqb_refl in X. assert (Y : pk_eqb (issued_for t') (issued_for t) = true) by (apply pk_eqb_eq; exact E). rewrite Y in X.
      apply N.leb_le in L. rewrite L in X. apply N.leb_le. exact X.
  - intros v [H|[(cp & r & ts & fu & H & Rq) _]]; [contradiction (base_revs v H)|].
    assert (E : v = toy_rev 7 2 660).
    { repeat (destruct H as [H|H]; [first [discriminate H|injection H as _ <- _ _]|]); [|contradiction H]. apply revocation_of_dto_ok in Rq. vm_compute in Rq. injection Rq as <-. reflexivity. }
    subst v. intros [X _]. cbn [toy_rev revoked_by In] in X. repeat (destruct X as [X|X]; [vm_compute in X; discriminate X|]). contradiction X.
  - assert (K1 : peer_key TT (pid 1) (toy_key 1)) by apply pid_key.
    intros a b O. apply chain2_steps in O. destruct O as [-> [->| ->]].
    + exists (toy_trust 1 1 3000 20). split; [|split; reflexivity]. right. exists (timed_call 2), (trust_rec 1 1 3000 20), (pid 1), 600. split; [left; reflexivity|].
      split; [split; [apply timed_host|vm_compute; discriminate]|]. split; [apply rec_trust; vm_compute; reflexivity|]. split; [exact K1|exact renewal1_signed].
    + exists (toy_trust 1 2 2900 21). split; [|split; reflexivity]. right. exists (timed_call 2), (trust_rec 1 2 2900 21), (pid 1), 650. split; [right; left; reflexivity|].
      split; [split; [apply timed_host|vm_compute; discriminate]|]. split; [apply rec_trust; vm_compute; reflexivity|]. split; [exact K1|exact renewal2_signed].
Qed.

(** Keys 2 and 3 are in the wrong hands. *)
Definition robbers : list service_event :=
  [(timed_call 2, S_add_trust (trust_rec 2 3 3000 60) (pid 2) 61, None); (timed_call 2, S_add_trust (trust_rec 1 2 900 1) (pid 1) 62, None);
   (script_call, S_insert_cert [trust_rec 1 1 1000 1; trust_rec 1 2 900 1; trust_rec 2 3 3000 60] 63, Some 7%nat); (timed_call 1, S_revoke (rev_rec 3 1 64) 64, None);
   (script_call, S_set_root (pid 2) 5, None); (owner_call, S_set_root (pid 8) 3, None)].
Definition robbers_asked : list (graph_call * option nat) :=
  [(G_add_trust (toy_trust 2 3 3000 60) (toy_key 2) (from_secs 61), None); (G_add_trust (toy_trust 1 2 900 1) (toy_key 1) (from_secs 62), None);
   (G_add [toy_trust 1 1 1000 1; toy_trust 1 2 900 1; toy_trust 2 3 3000 60] (from_secs 63), Some 7%nat); (G_revoke (toy_rev 3 1 64), None); (G_set_root (toy_key 8) 3, None)].
Lemma robbers_are : asked_all TT robbers = robbers_asked.
Proof. vm_compute. reflexivity. Qed.
(** The root revokes key 2; key 2 trusts key 3, the old trust comes in again, alone and in a certificate, and a stranger tries to make key 2 a root. *)
Example e_C199_robbers : Forall2 (good_revocation (toy true)) [(timed_call 1, rev_rec 1 2 50, 60)] [toy_rev 1 2 50] /\ service_events_typed robbers /\
  s_few base_store (revoke_calls [(timed_call 1, rev_rec 1 2 50, 60)] ++ robbers) /\ s_never_roots (toy true) base_store robbers [toy_key 2; toy_key 3] /\
  s_cut_off_by (toy true) base_store robbers [toy_rev 1 2 50] [toy_key 2; toy_key 3] /\
  told_weight (service_step (toy true) base_store (timed_call 1, S_get_weight (pid 2) 70, None)) = Some 16 /\
  told_weight (service_step (toy true) (service_history (toy true) base_store robbers) (timed_call 1, S_get_weight (pid 3) 70, None)) = Some 8.
Proof.
  split; [constructor; [|constructor]|].
  { split; [apply timed_host|]. split; [split; [vm_compute; discriminate|reflexivity]|]. split; [apply revocation_of_dto_ok; vm_compute; reflexivity|vm_compute; reflexivity]. }
  split; [repeat constructor|]. split; [vm_compute; reflexivity|].
  assert (No : ~ In (toy_key 1) [toy_key 2; toy_key 3] /\ ~ In (toy_key 8) [toy_key 2; toy_key 3]).
  { split; cbn [In]; intros X; repeat (destruct X as [X|X]; [vm_compute in X; discriminate X|]); exact X. }
  split; [|split; [|split; vm_compute; reflexivity]].
  - split.
    + intros k Hk Hr. rewrite VisitorThms.base_state_store, is_root_in in Hr. destruct Hr as [<-|[]]. exact (proj1 No Hk).
    + intros cp p n fu k H Ad Pk. pose proof (asked_all_has TT robbers cp (S_set_root p n) fu (G_set_root k n) H (conj Pk eq_refl) Ad) as X. rewrite robbers_are in X.
      repeat (destruct X as [X|X]; [first [discriminate X|injection X as <- _ _]|]); [exact (proj2 No)|contradiction X].
  - intros b t Nb Hi H.
    assert (X : b = toy_key 1 /\ t = toy_trust 1 2 900 1 \/ In b [toy_key 2; toy_key 3] \/ issued_for t = toy_key 1).
    { destruct H as [H|(cp & c & fu & g & Hc & Ad & Rq & O & _)].
      - apply (proj1 (base_trusts b t)) in H. destruct H as [-> [->| ->]]; [right; right; reflexivity|left; auto].
      - pose proof (asked_all_has TT robbers cp c fu g Hc Rq Ad) as H. rewrite robbers_are in H.
        destruct H as [H|[H|[H|[H|[H|[]]]]]]; injection H as <- _; cbn [offers_trust] in O; try contradiction O.
        + destruct O as [_ ->]. right. left. left. reflexivity.
        + destruct O as [-> ->]. left. auto.
        + destruct O as [[H ->]|(i & g & Hg & Ht & ->)]; [injection H as <-; right; right; reflexivity|].
          unfold at_pos in Hg, Ht. destruct i as [|[|i]]; cbn [nth_error] in Hg, Ht; [| |destruct i; discriminate Ht]; injection Hg as <-; injection Ht as <-; [left; auto|right; left; left; reflexivity]. }
    destruct X as [[-> ->]|[X|X]]; [|contradiction|rewrite X in Hi; contradiction (proj1 No Hi)].
    exists (toy_rev 1 2 50). split; [left; reflexivity|]. split; [reflexivity|]. split; [reflexivity|]. vm_compute. reflexivity.
Qed.
