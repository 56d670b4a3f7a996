(** A clock that was wrong for a while, at the service: C201. *)
From Coq Require Import List NArith ZArith Bool Lia ZifyBool ZifyNat ZifyN.
From Verif Require Import Base BaseFacts Text Keys KeysFacts Trust TrustFacts Certificate Relation Storage StorageFacts Graph Service ServiceFacts ServiceThms
  Spec SpecFacts StateFacts GraphFacts GraphThms ServiceSpec InfluenceSpec VisitorSpec MachineSpec ServiceMachine MachineThms VisitorThms ServedThms
  CopySpec CopyThms CopyServiceSpec CopyServiceThms JumpThms Witness ServiceWitness Toy ToyFacts JumpSpec JumpServedSpec.
Import ListNotations.
Open Scope N_scope.

Lemma questions_only : forall C es, s_only_questions es -> only_questions (asked_all C es).
Proof.
  intros C es Q. apply Forall_forall. intros [g fu] Ig. destruct (asked_all_one C es g fu Ig) as (cp & c & Ic & Rq & _).
  unfold s_only_questions in Q. rewrite Forall_forall in Q. pose proof (Q _ Ic) as B. cbn [fst snd] in B |- *.
  destruct c; try contradiction B; destruct g; try contradiction Rq; exact I.
Qed.

(** ** C201 *)
(** A node is asked questions by anyone, at any times. If the records of the certificates it told of some peers are inserted again, then,
    unless a certificate is longer than its root allows, has expired by now, or has a key revoked by a key before it, all calls succeed
    and from then on the node responds to every question about these peers as it did before. *)
Lemma p_C201_service : forall C d es cp cp' asked now ps ks, crypto_laws C -> wasm32 C = true -> service_reachable C d ->
  service_events_typed es -> s_only_questions es ->
  host_time cp 1 -> asked < i64_bound -> now < i64_bound -> Forall2 (peer_key C) ps ks ->
  within d (told C d (from_secs asked) ks) -> fresh (from_secs now) (told C d (from_secs asked) ks) -> unrevoked d (told C d (from_secs asked) ks) ->
  few d [] -> s_few (service_history C d es) (handing_back C d cp cp' asked now ps) ->
  let d1 := service_history C d es in
  let d2 := service_history C d1 (handing_back C d cp cp' asked now ps) in
  (forall r, In r (responses C d1 (handing_back C d cp cp' asked now ps)) -> r = Ok (mk_response true None P_none)) /\
  forall k now' cq q g, In k ks -> asked <= secs now' < i64_bound -> service_typed q -> requests C cq q g -> admitted cq q -> question k now' g ->
    same_response (fst (service_step C d2 (cq, q, None))) (fst (service_step C d (cq, q, None))).
Proof.
  intros C d es cp cp' asked now ps ks L W R Te Qe Ha Sa Sn Pk Wi Fr Un F F1 d1 d2.
  pose proof (service_reachable_graph C d L R) as G.
  assert (Sa' : asked < u64_bound) by (unfold i64_bound, u64_bound in *; lia). assert (Sn' : now < u64_bound) by (unfold i64_bound, u64_bound in *; lia).
  assert (Ta : duration_wf (from_secs asked)) by (unfold duration_wf; cbn; unfold u64_bound in *; lia).
  assert (Tn : duration_wf (from_secs now)) by (unfold duration_wf; cbn; unfold u64_bound in *; lia).
  assert (Vk : forall k, In k ks -> pk_valid C k).
  { intros k Ik. clear - Pk Ik L. induction Pk as [|p k' ps ks P1 P2 IH]; [destruct Ik|]. destruct Ik as [->|Ik]; [exact (peer_key_valid C p k L P1)|exact (IH Ik)]. }
  assert (Rc : Forall2 (certificate_record C) (records C d cp asked ps) (told C d (from_secs asked) ks)).
  { apply (Forall2_flat _ _ _ _ (peer_key C)); [exact Pk|]. intros p k _ _ K. apply cert_records_are; assumption. }
  assert (Tt : forall c t, In c (told C d (from_secs asked) ks) -> In t c -> exists b, stored d (RAuth (mk_auth t b))).
  { intros c t Ic It. apply in_flat_map in Ic. destruct Ic as (k & Ik & Hc). apply (told_are C d _ k G F (Vk k Ik) Ta) in Hc.
    destruct (chain_holds _ _ _ _ Hc It) as (b & Hh & _). exists b. exact Hh. }
  assert (R1 : service_reachable C d1).
  { destruct R as (es0 & T0 & E0). exists (es0 ++ es). split; [apply Forall_app; split; assumption|].
    unfold d1, service_history. rewrite fold_left_app. fold (service_history C empty_db es0). rewrite <- E0 || rewrite E0. reflexivity. }
  assert (Ho : Forall2 (hands C) (handing_back C d cp cp' asked now ps) (map (fun c => G_add c (from_secs now)) (told C d (from_secs asked) ks))).
  { apply (Forall2_maps _ _ _ _ (certificate_record C)); [exact Rc|]. intros r c _ Ic K. exists cp', (S_insert_cert r now). split; [reflexivity|].
    split; [|split; [split; [exact K|reflexivity]|split; [exact I|split; [|exact I]]]].
    - split; [|exact Sn']. specialize (Tt c). apply Forall_forall. intros x Ix. clear - K Tt Ic Ix G.
      assert (Ex : exists t, In t c /\ trust_record C x t).
      { clear - K Ix. induction K as [|y t r c K1 K2 IH]; [destruct Ix|]. destruct Ix as [->|Ix]; [exists t; split; [left; reflexivity|exact K1]|].
        destruct (IH Ix) as (u & Iu & Hu). exists u. split; [right; exact Iu|exact Hu]. }
      destruct Ex as (t & It & _ & E1 & E2 & _). destruct (Tt t Ic It) as (b & Hb). destruct (held_rel C d _ G Hb) as (_ & (_ & _ & _ & (W4 & _) & (W6 & _))).
      cbn in W4, W6. rewrite E1 in W6. rewrite E2 in W4. cbn in W4, W6. split; assumption.
    - cbn [s_offered offered]. clear - K. induction K; [reflexivity|]. cbn [length]. f_equal. exact IHK. }
  destruct (hands_run C _ _ L W Ho d1 R1) as (H1 & H2 & H3 & H4).
  assert (Ed : d1 = graph_history C d (asked_all C es)) by apply service_history_db.
  assert (F1' : few (graph_history C d (asked_all C es)) (adding_again C d (from_secs asked) (from_secs now) ks)).
  { rewrite <- Ed. unfold few, adding_again. unfold s_few in F1. fold d1 in F1. rewrite <- H4. exact F1. }
  destruct (p_C201_brought_back C d (asked_all C es) (from_secs asked) (from_secs now) ks G (asked_all_typed C es L Te) (questions_only C es Qe) Ta Sa Tn Sn
    ltac:(apply Forall_forall; exact Vk) Wi Fr Un F F1') as [K1 K2]. rewrite <- Ed in K1, K2.
  split; [apply H3; exact K1|].
  intros k now' cq q g Ik Ln Tq Rq Aq Q. apply (same_step C d2 d cq q g k now' Rq Aq).
  - destruct Q; unfold about; eauto 6.
  - unfold d2. rewrite H1. apply (K2 k now'); [exact Ik|exact Ln|exact (requests_typed C cq q g L Tq Rq)|exact Q].
Qed.

(** ** A concrete node *)
Definition jumped : list service_event := [(timed_call 1, S_get_weight (pid 9) 5000, None)].
Definition jump_back : list service_event := handing_back (toy true) behind_store (timed_call 1) (timed_call 1) 9 11 [pid 2; pid 3].
(** In a chain from key 1 to key 5, whose key 2 revoked key 4, a question at a time far ahead takes away what is told of keys 2 and 3, and two calls bring it back:
    key 3 weighs 8, then nothing, then 8. *)
Example e_C201_served : service_reachable (toy true) behind_store /\ service_events_typed jumped /\ s_only_questions jumped /\
  host_time (timed_call 1) 1 /\ Forall2 (peer_key (toy true)) [pid 2; pid 3] [toy_key 2; toy_key 3] /\
  within behind_store (told (toy true) behind_store (from_secs 9) [toy_key 2; toy_key 3]) /\
  fresh (from_secs 11) (told (toy true) behind_store (from_secs 9) [toy_key 2; toy_key 3]) /\
  unrevoked behind_store (told (toy true) behind_store (from_secs 9) [toy_key 2; toy_key 3]) /\
  few behind_store [] /\ s_few (service_history (toy true) behind_store jumped) jump_back /\ length jump_back = 2%nat /\
  map (fun d => told_weight (service_step (toy true) d (timed_call 1, S_get_weight (pid 3) 12, None)))
    [behind_store; service_history (toy true) behind_store jumped; service_history (toy true) (service_history (toy true) behind_store jumped) jump_back] = [Some 8; Some 0; Some 8].
Proof.
  assert (G : reachable (toy true) behind_store) by (apply p_C66_service_stores; [apply toy_laws|apply behind_reachable]).
  split; [apply behind_reachable|]. split; [repeat constructor|]. split; [repeat constructor|]. split; [exact served_timed|]. split; [exact served_peers|].
  split; [apply within_bool; vm_compute; reflexivity|].
  split; [apply fresh_dec; vm_compute; reflexivity|].
  split; [apply (unrevoked_dec (toy true)); [exact G|vm_compute; reflexivity| |vm_compute; reflexivity]; intros c t Ic It; vm_compute in Ic;
          repeat (destruct Ic as [<-|Ic]; [repeat (destruct It as [<-|It]; [repeat constructor|]); destruct It|]); destruct Ic|].
  split; [vm_compute; reflexivity|]. split; [vm_compute; reflexivity|]. split; vm_compute; reflexivity.
Qed.
