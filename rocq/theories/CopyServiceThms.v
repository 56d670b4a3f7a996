(** Copying the standing of keys from one node to another through the service: C178. *)
From Coq Require Import List NArith ZArith Bool Lia Permutation ZifyBool ZifyNat ZifyN.
From Verif Require Import Base BaseFacts Text Keys KeysFacts Trust TrustFacts Certificate Relation Storage StorageFacts Graph Service ServiceFacts ServiceThms
  Spec SpecFacts StateFacts GraphFacts GraphThms ServiceSpec InfluenceSpec VisitorSpec MachineSpec ServiceMachine MachineThms VisitorThms CopySpec CopyThms CopyServiceSpec Witness ServiceWitness Toy ToyFacts.
Import ListNotations.
Open Scope N_scope.

Lemma Forall2_flat : forall X Y X' Y' (R : X -> Y -> Prop) (S0 : X' -> Y' -> Prop) f g xs ys, Forall2 R xs ys ->
  (forall x y, In x xs -> In y ys -> R x y -> Forall2 S0 (f x) (g y)) -> Forall2 S0 (flat_map f xs) (flat_map g ys).
Proof.
  intros X Y X' Y' R S0 f g xs ys H. induction H as [|x y xs ys H1 H2 IH]; intros G; [constructor|]. cbn [flat_map]. apply Forall2_app.
  - apply G; [left; reflexivity|left; reflexivity|exact H1].
  - apply IH. intros a b Ia Ib. apply G; right; assumption.
Qed.
Lemma Forall2_maps : forall X Y X' Y' (R : X -> Y -> Prop) (S0 : X' -> Y' -> Prop) f g xs ys, Forall2 R xs ys ->
  (forall x y, In x xs -> In y ys -> R x y -> S0 (f x) (g y)) -> Forall2 S0 (map f xs) (map g ys).
Proof.
  intros X Y X' Y' R S0 f g xs ys H. induction H as [|x y xs ys H1 H2 IH]; intros G; [constructor|]. cbn [map]. constructor.
  - apply G; [left; reflexivity|left; reflexivity|exact H1].
  - apply IH. intros a b Ia Ib. apply G; right; assumption.
Qed.

(** The event is an admitted call that asks for [g]. *)
Definition hands (C : crypto) (e : service_event) (g : graph_call) : Prop :=
  exists cp c, e = (cp, c, None) /\ service_typed c /\ requests C cp c g /\ admitted cp c /\ s_offered c = offered g /\
    (match g with G_add _ _ | G_revoke _ => True | _ => False end).
Lemma hands_run : forall C es gs, crypto_laws C -> wasm32 C = true -> Forall2 (hands C) es gs -> forall d, service_reachable C d ->
  service_history C d es = graph_history C d (no_failures gs) /\ service_reachable C (service_history C d es) /\
  ((forall r, In r (answers C d (no_failures gs)) -> r = Ok GR_unit) -> forall r, In r (responses C d es) -> r = Ok (mk_response true None P_none)) /\
  list_sum (map (fun e => s_offered (snd (fst e))) es) = list_sum (map (fun e => offered (fst e)) (no_failures gs)).
Proof.
  intros C es gs L W H. induction H as [|e g es gs (cp & c & -> & Ty & Rq & Ad & Of & Kd) H IH]; intros d R.
  { split; [reflexivity|]. split; [exact R|]. split; [intros _ r []|reflexivity]. }
  pose proof (service_reachable_step C d cp c None Ty R) as R1. destruct (service_step C d (cp, c, None)) as [r d'] eqn:E. cbn [snd] in R1.
  destruct (IH d' R1) as (IH1 & IH2 & IH3 & IH4).
  assert (Eh : service_history C d (((cp, c, None) : service_event) :: es) = service_history C d' es) by (unfold service_history; cbn [fold_left]; rewrite E; reflexivity).
  assert (Ed : snd (graph_step C d (g, None)) = d' /\ (fst (graph_step C d (g, None)) = Ok GR_unit -> r = Ok (mk_response true None P_none))).
  { destruct (p_C66_admitted_calls C d cp c g None r d' L W R Ty Ad Rq E) as [(x & y & Eg & -> & Tl)|(e & Eg & ->)]; rewrite Eg; cbn [fst snd]; (split; [reflexivity|]).
    - intros X. injection X as ->. destruct c, y; try contradiction; reflexivity.
    - discriminate. }
  destruct Ed as [Ed Er].
  split. { rewrite Eh, IH1. unfold graph_history. cbn [no_failures map fold_left]. rewrite Ed. reflexivity. }
  split. { rewrite Eh. exact IH2. }
  split.
  - intros A r0 I. cbn [no_failures map answers responses] in A, I. rewrite E in I. cbn [fst snd] in I. rewrite Ed in A. destruct I as [<-|I].
    + apply Er. apply A. left. reflexivity.
    + apply IH3; [|exact I]. intros x J. apply A. right. exact J.
  - cbn [no_failures map list_sum fold_right fst snd] in *. unfold list_sum in *. cbn [fold_right]. rewrite Of. f_equal. exact IH4.
Qed.

Section Served.
Context (C : crypto) (d : db) (cp : call_params).
Hypothesis L : crypto_laws C.
Hypothesis W : wasm32 C = true.
Hypothesis R : service_reachable C d.
Lemma cert_records_are : forall p k asked, host_time cp 1 -> asked < u64_bound -> peer_key C p k ->
  Forall2 (certificate_record C) (cert_records C d cp asked p) (certs_told C d (from_secs asked) k).
Proof.
  intros p k asked Ht Hs K. unfold cert_records, certs_told. destruct (service_step C d (cp, S_get_all_certs p asked, None)) as [r d'] eqn:E.
  destruct (p_C66_admitted_calls C d cp (S_get_all_certs p asked) (G_get_all_certs k (from_secs asked)) None r d' L W R Hs Ht (conj K eq_refl) E) as [(x & y & Eg & -> & Tl)|(e & Eg & ->)];
    rewrite Eg; cbn [fst]; [|constructor].
  destruct x, y; try contradiction. exact Tl.
Qed.
Lemma revocation_records_are : forall p k, peer_key C p k ->
  Forall2 (revocation_record C) (revocation_records C d cp p) (revocations_told C d k).
Proof.
  intros p k K. unfold revocation_records, revocations_told. destruct (service_step C d (cp, S_export_revocations p, None)) as [r d'] eqn:E.
  destruct (p_C66_admitted_calls C d cp (S_export_revocations p) (G_get_revocations k) None r d' L W R I I K E) as [(x & y & Eg & -> & Tl)|(e & Eg & ->)];
    rewrite Eg; cbn [fst]; [|constructor].
  destruct x, y; try contradiction. exact Tl.
Qed.
End Served.

(** ** C178 *)
(** The records of a node about the peers [ps] are handed on to a node with the same roots. If no certificate is longer than its root
    allows, none has expired by the clock of the other node and no revocation is ahead of it, then all calls succeed and from then on both
    nodes respond alike to every question about these peers. *)
Lemma p_C178_handed_on : forall C dA dB cp cp' asked now ps ks, crypto_laws C -> wasm32 C = true -> service_reachable C dA -> service_reachable C dB ->
  blank_copy dA dB -> host_time cp 1 -> host_time cp' 1 -> asked < i64_bound -> now < i64_bound -> Forall2 (peer_key C) ps ks ->
  within dA (told C dA (from_secs asked) ks) -> fresh (from_secs now) (told C dA (from_secs asked) ks) -> none_ahead dA now ->
  few dA [] -> s_few dB (handing_on C dA cp cp' asked now ps) ->
  let dB' := service_history C dB (handing_on C dA cp cp' asked now ps) in
  (forall r, In r (responses C dB (handing_on C dA cp cp' asked now ps)) -> r = Ok (mk_response true None P_none)) /\
  forall k now' cq q g, In k ks -> asked <= secs now' < i64_bound -> service_typed q -> requests C cq q g -> admitted cq q -> question k now' g ->
    same_response (fst (service_step C dB' (cq, q, None))) (fst (service_step C dA (cq, q, None))).
Proof.
  intros C dA dB cp cp' asked now ps ks L W RA RB Bl Ha Hb Sa Sn Pk Wi Fr Na FA FB dB'.
  pose proof (service_reachable_graph C dA L RA) as GA. pose proof (service_reachable_graph C dB L RB) as GB.
  assert (Sa' : asked < u64_bound) by (unfold i64_bound, u64_bound in *; lia). assert (Sn' : now < u64_bound) by (unfold i64_bound, u64_bound in *; lia).
  assert (Ta : duration_wf (from_secs asked)) by (unfold duration_wf; cbn; unfold u64_bound in *; lia).
  assert (Tn : duration_wf (from_secs now)) by (unfold duration_wf; cbn; unfold u64_bound in *; lia).
  assert (Vk : forall k, In k ks -> pk_valid C k).
  { intros k Ik. clear - Pk Ik L. induction Pk as [|p k' ps ks P1 P2 IH]; [destruct Ik|]. destruct Ik as [->|Ik]; [exact (peer_key_valid C p k L P1)|exact (IH Ik)]. }
  assert (Rc : Forall2 (certificate_record C) (records C dA cp asked ps) (told C dA (from_secs asked) ks)).
  { apply (Forall2_flat _ _ _ _ (peer_key C)); [exact Pk|]. intros p k _ _ K. apply cert_records_are; assumption. }
  assert (Tt : forall c t, In c (told C dA (from_secs asked) ks) -> In t c -> exists b, stored dA (RAuth (mk_auth t b))).
  { intros c t Ic It. apply in_flat_map in Ic. destruct Ic as (k & Ik & Hc). apply (told_are C dA _ k GA FA (Vk k Ik) Ta) in Hc.
    destruct (chain_holds _ _ _ _ Hc It) as (b & Hh & _). exists b. exact Hh. }
  assert (Rt : Forall2 (peer_key C) (flat_map (map dt_issued_for) (records C dA cp asked ps)) (flat_map (map issued_for) (told C dA (from_secs asked) ks))).
  { apply (Forall2_flat _ _ _ _ (certificate_record C)); [exact Rc|]. intros r c _ _ K. apply (Forall2_maps _ _ _ _ (trust_record C)); [exact K|]. intros x y _ _ K2. apply K2. }
  assert (Rv : Forall2 (revocation_record C) (flat_map (revocation_records C dA cp) (flat_map (map dt_issued_for) (records C dA cp asked ps)))
                 (flat_map (revocations_told C dA) (flat_map (map issued_for) (told C dA (from_secs asked) ks)))).
  { apply (Forall2_flat _ _ _ _ (peer_key C)); [exact Rt|]. intros p k _ _ K. apply revocation_records_are; assumption. }
  assert (Ho : Forall2 (hands C) (handing_on C dA cp cp' asked now ps) (copying C dA (from_secs asked) (from_secs now) ks)).
  { unfold handing_on, copying. apply Forall2_app.
    - apply (Forall2_maps _ _ _ _ (certificate_record C)); [exact Rc|]. intros r c _ Ic K. exists cp', (S_insert_cert r now). split; [reflexivity|].
      split; [|split; [split; [exact K|reflexivity]|split; [exact I|split; [|exact I]]]].
      + split; [|exact Sn']. specialize (Tt c). apply Forall_forall. intros x Ix. clear - K Tt Ic Ix GA.
        assert (Ex : exists t, In t c /\ trust_record C x t).
        { clear - K Ix. induction K as [|y t r c K1 K2 IH]; [destruct Ix|]. destruct Ix as [->|Ix]; [exists t; split; [left; reflexivity|exact K1]|].
          destruct (IH Ix) as (u & Iu & Hu). exists u. split; [right; exact Iu|exact Hu]. }
        destruct Ex as (t & It & _ & E1 & E2 & _). destruct (Tt t Ic It) as (b & Hb). destruct (held_rel C dA _ GA Hb) as (_ & (_ & _ & _ & (W4 & _) & (W6 & _))).
        cbn in W4, W6. rewrite E1 in W6. rewrite E2 in W4. cbn in W4, W6. split; assumption.
      + cbn [s_offered offered]. clear - K. induction K; [reflexivity|]. cbn [length]. f_equal. exact IHK.
    - apply (Forall2_maps _ _ _ _ (revocation_record C)); [exact Rv|]. intros r v _ Iv K. exists cp', (S_revoke r now). split; [reflexivity|].
      assert (Hv : stored dA (RRev v)).
      { apply in_flat_map in Iv. destruct Iv as (k & Ik & Iv). apply in_flat_map in Ik. destruct Ik as (c & Ic & Ik). apply in_map_iff in Ik. destruct Ik as (t & <- & It).
        destruct (Tt c t Ic It) as (b & Hh). destruct (held_rel C dA _ GA Hh) as (_ & (W1 & _)). apply (revs_told_are C dA _ GA FA W1) in Iv. apply Iv. }
      destruct (held_rel C dA _ GA Hv) as (_ & (_ & _ & _ & (W4 & _) & _)). cbn in W4. pose proof (Na v Hv) as Le.
      assert (E : secs (revoked_at v) = dr_revoked_at r) by (destruct K as (_ & _ & -> & _); reflexivity). rewrite E in W4, Le.
      split; [split; assumption|]. split; [exact K|]. split; [split; assumption|]. split; [reflexivity|exact I]. }
  destruct (hands_run C _ _ L W Ho dB RB) as (H1 & H2 & H3 & H4).
  assert (FB' : few dB (no_failures (copying C dA (from_secs asked) (from_secs now) ks))) by (unfold few; unfold s_few in FB; rewrite <- H4; exact FB).
  destruct (p_C174_copied C dA dB (from_secs asked) (from_secs now) ks GA GB Bl Ta Sa Tn Sn ltac:(apply Forall_forall; exact Vk) Wi Fr FA FB') as [K1 K2].
  split; [apply H3; exact K1|].
  intros k now' cq q g Ik Ln Tq Rq Aq Q. apply (same_step C dB' dA cq q g k now' Rq Aq).
  - destruct Q; unfold about; eauto 6.
  - unfold dB'. rewrite H1. apply (K2 k now'); [exact Ik|exact Ln|exact (requests_typed C cq q g L Tq Rq)|exact Q].
Qed.

(** ** Concrete nodes *)
(** Key 1 trusts 2 and 3; 2 trusts 3 and revokes it at second 8. *)
Definition served_store : db := service_history (toy true) empty_db (service_base ++
  [(timed_call 2, S_add_trust (trust_rec 1 3 800 6) (pid 1) 7, None); (timed_call 2, S_add_trust (trust_rec 2 3 700 6) (pid 2) 7, None);
   (timed_call 1, S_revoke (rev_rec 2 3 8) 8, None)]).
Definition served_blank : db := service_history (toy true) empty_db [(owner_call, S_set_root (pid 1) 5, None)].
Definition served_calls (now : N) : list service_event := handing_on (toy true) served_store (timed_call 1) (timed_call 1) 9 now [pid 2; pid 3].
Lemma served_reachable : service_reachable (toy true) served_store /\ service_reachable (toy true) served_blank.
Proof.
  split; eexists; (split; [|reflexivity]); repeat (constructor; [cbn; repeat split; vm_compute; reflexivity|]); constructor.
Qed.
Lemma served_is_blank : blank_copy served_store served_blank.
Proof.
  split.
  - intros k l. unfold root_max_len. replace (tbl_roots served_store) with (tbl_roots served_blank) by (vm_compute; reflexivity). reflexivity.
  - intros x H. assert (E : tbl_relations served_blank = []) by (vm_compute; reflexivity).
    destruct x as [a|v]; [destruct H as (_ & _ & H)|destruct H as (_ & H)]; rewrite E in H; destruct H.
Qed.
Lemma served_peers : Forall2 (peer_key (toy true)) [pid 2; pid 3] [toy_key 2; toy_key 3].
Proof. repeat constructor; apply extract_ok; vm_compute; reflexivity. Qed.
Lemma served_timed : host_time (timed_call 1) 1.
Proof. exists from_clock, []. repeat split; vm_compute; reflexivity. Qed.
Lemma within_bool : forall d cs, forallb (fun c => match c with [] => true | t :: _ =>
    match first_row (tbl_roots d) (key_text (issued_for t)) with Some w => Z.leb (Z.of_nat (length c - 1)) (16 - w) | None => true end end) cs = true -> within d cs.
Proof.
  intros d cs H. rewrite forallb_forall in H. apply within_dec. intros c I. specialize (H c I). destruct c as [|t c]; [exact Logic.I|].
  destruct (first_row _ _); [apply Z.leb_le; exact H|exact Logic.I].
Qed.
Lemma small_i64 : forall s n, s < u64_bound -> (0 <= i64_of_u64 s)%Z -> (i64_of_u64 s <= Z.of_N n)%Z -> s <= n.
Proof.
  intros s n V F1 F2. unfold i64_of_u64 in *. apply N2Z.inj_lt in V. apply N2Z.inj_le. destruct (s <? i64_bound); [exact F2|].
  exfalso. revert V F1. clear. generalize (Z.of_N u64_bound). intros u V F1. lia.
Qed.
Lemma ahead_dec : forall C d n, reachable C d -> forallb (fun r => Z.leb 0 (r_issued_at r) && Z.leb (r_issued_at r) (Z.of_N n)) (tbl_relations d) = true -> none_ahead d n.
Proof.
  intros C d n G F v H. destruct (held_rel C d (RRev v) G H) as (_ & (_ & _ & _ & (V & _) & _)). destruct H as (_ & H). rewrite forallb_forall in F. specialize (F _ H).
  apply andb_true_iff in F. destruct F as [F1 F2]. apply Z.leb_le in F1. apply Z.leb_le in F2. exact (small_i64 _ n V F1 F2).
Qed.
Lemma served_ahead : none_ahead served_store 11.
Proof.
  apply (ahead_dec (toy true)); [apply p_C66_service_stores; [apply toy_laws|apply served_reachable]|]. vm_compute. reflexivity.
Qed.
(** A chain from key 1 to key 5, whose key 2 revokes key 4 at second 8. *)
Definition behind_store : db := service_history (toy true) empty_db (service_base ++
  [(timed_call 2, S_add_trust (trust_rec 2 3 800 6) (pid 2) 7, None); (timed_call 2, S_add_trust (trust_rec 3 4 700 6) (pid 3) 7, None);
   (timed_call 2, S_add_trust (trust_rec 4 5 700 6) (pid 4) 7, None); (timed_call 1, S_revoke (rev_rec 2 4 8) 8, None)]).
Lemma behind_reachable : service_reachable (toy true) behind_store /\ blank_copy behind_store served_blank.
Proof.
  split; [eexists; (split; [|reflexivity]); repeat (constructor; [cbn; repeat split; vm_compute; reflexivity|]); constructor|].
  split; [|apply served_is_blank]. intros k l. unfold root_max_len. replace (tbl_roots behind_store) with (tbl_roots served_blank) by (vm_compute; reflexivity). reflexivity.
Qed.
(** The condition on revocations is needed: a node whose clock is behind refuses a revocation that the first node has, and gives weight to a key
    that has none there. *)
Lemma p_C178_clock_behind : exists C dA dB cp cp' asked now p ps ks, crypto_laws C /\ wasm32 C = true /\ service_reachable C dA /\ service_reachable C dB /\
  blank_copy dA dB /\ host_time cp 1 /\ host_time cp' 1 /\ now < asked /\ Forall2 (peer_key C) (p :: ps) ks /\
  within dA (told C dA (from_secs asked) ks) /\ fresh (from_secs now) (told C dA (from_secs asked) ks) /\
  few dA [] /\ s_few dB (handing_on C dA cp cp' asked now (p :: ps)) /\
  let dB' := service_history C dB (handing_on C dA cp cp' asked now (p :: ps)) in
  fst (service_step C dA (cp, S_get_weight p asked, None)) = Ok (mk_response true None (P_weight 0 p)) /\
  fst (service_step C dB' (cp, S_get_weight p asked, None)) = Ok (mk_response true None (P_weight 4 p)).
Proof.
  exists (toy true), behind_store, served_blank, (timed_call 1), (timed_call 1), 9, 7, (pid 4), [pid 5], [toy_key 4; toy_key 5].
  split; [apply toy_laws|]. split; [reflexivity|]. split; [apply behind_reachable|]. split; [apply served_reachable|]. split; [apply behind_reachable|].
  split; [exact served_timed|]. split; [exact served_timed|]. split; [reflexivity|]. split; [repeat constructor; apply extract_ok; vm_compute; reflexivity|].
  split; [apply within_bool; vm_compute; reflexivity|].
  split; [apply fresh_dec; vm_compute; reflexivity|]. split; [vm_compute; reflexivity|]. split; [vm_compute; reflexivity|]. split; vm_compute; reflexivity.
Qed.
(** The nodes meet the conditions: three calls, of two certificates and a revocation. Key 3 has one certificate and weighs 16 on both. *)
Example e_C178_hypotheses : service_reachable (toy true) served_store /\ service_reachable (toy true) served_blank /\ blank_copy served_store served_blank /\
  host_time (timed_call 1) 1 /\ Forall2 (peer_key (toy true)) [pid 2; pid 3] [toy_key 2; toy_key 3] /\
  within served_store (told (toy true) served_store (from_secs 9) [toy_key 2; toy_key 3]) /\
  fresh (from_secs 11) (told (toy true) served_store (from_secs 9) [toy_key 2; toy_key 3]) /\ none_ahead served_store 11 /\
  few served_store [] /\ s_few served_blank (served_calls 11) /\ length (served_calls 11) = 3%nat /\
  map (fun d => told_weight (service_step (toy true) d (timed_call 1, S_get_weight (pid 3) 12, None))) [served_store; service_history (toy true) served_blank (served_calls 11)] = [Some 16; Some 16].
Proof.
  split; [apply served_reachable|]. split; [apply served_reachable|]. split; [apply served_is_blank|]. split; [exact served_timed|]. split; [exact served_peers|].
  split; [apply within_bool; vm_compute; reflexivity|].
  split; [apply fresh_dec; vm_compute; reflexivity|]. split; [exact served_ahead|].
  split; [vm_compute; reflexivity|]. split; [vm_compute; reflexivity|]. split; vm_compute; reflexivity.
Qed.
