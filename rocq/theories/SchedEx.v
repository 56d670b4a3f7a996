(** Witnesses of the properties of scripts that run at once. *)
From Coq Require Import String List NArith ZArith Bool Lia.
From Verif Require Import Base Text Keys Trust Certificate Relation Storage Graph Service Spec ServiceSpec Aqua AquaSpec Sched SchedSpec.
From Verif Require Import BaseFacts KeysFacts ServiceFacts AquaFacts Toy ToyFacts ServiceWitness AquaThms AquaTrace AquaWitness AquaEx SchedFacts SchedSim SchedThms.
Import ListNotations.
Open Scope N_scope.

(** The Sig service of the toy: it signs with the key of the user. *)
Definition toy_signs (n : N) (m : bytes) : option bytes := Some (toy_secret n ++ m).
Definition trust_sum (for_n ex iss : N) : bytes := toy_sha (trust_metadata (toy_key for_n) (from_secs ex) (from_secs iss)).
Definition rev_sum (for_n at_ : N) : bytes := toy_sha (revocation_metadata (toy_key for_n) (from_secs at_)).
Definition step (j : nat) : event := E_step j None None.
(** All clocks say second 5. *)
Definition at_five : text -> N := fun _ => 5.
(** Two users at once: peer 1 trusts peer 4 and revokes peer 2, on the host. The steps alternate; the clock of the host goes to
    second 6 in between. *)
Definition s0 : event := E_step 0 (toy_signs 1 (trust_sum 4 800 5)) None.
Definition s1 : event := E_step 1 (toy_signs 1 (rev_sum 2 5)) None.
Definition trusting : request := Q_add_trust host_peer (pid 1) (pid 4) 800.
Definition revoking : request := Q_revoke host_peer (pid 1) (pid 2).
Definition halfway : schedule :=
  [E_start (toy_net stranger_peer) typed_in trusting; E_start (toy_net (pid 1)) typed_in revoking; s0; s1; s0; s1; s1; E_tick host_peer 6; s1; s0].
Definition mixed : schedule := halfway ++ [s1; s0; s0; s1; s0].
Definition told_by (st : stores) (evs : schedule) (j : nat) : option (request * option answer) :=
  option_map (fun tk => (tk_request tk, returned tk)) (nth_error (sy_tasks (happens (toy true) (idle st at_five) evs)) j).
Definition host_after (st : stores) (evs : schedule) : db := sy_stores (happens (toy true) (idle st at_five) evs) host_peer.

Lemma five_typed : forall evs, Forall event_typed evs -> schedule_typed at_five evs.
Proof. intros evs H. split; [intros n; reflexivity|exact H]. Qed.
Lemma step_typed : forall j s f, event_typed (E_step j s f).
Proof. intros j s f. exact I. Qed.
Lemma tick_typed : forall n t, t <? u64_bound = true -> event_typed (E_tick n t).
Proof. intros n t H. apply N.ltb_lt. exact H. Qed.
Lemma trust_typed : forall net src n q p e, e <? u64_bound = true -> event_typed (E_start net src (Q_add_trust n q p e)).
Proof. intros net src n q p e H. apply N.ltb_lt in H. split; [intros now E; injection E as <-; reflexivity|]. split; [exact H|reflexivity]. Qed.
Lemma revoke_typed : forall net src n q p, event_typed (E_start net src (Q_revoke n q p)).
Proof. intros net src n q p. split; [intros now E; injection E as <-; reflexivity|reflexivity]. Qed.
Lemma root_trust_typed : forall net src n p l e, l <? u32_bound = true -> e <? u64_bound = true -> event_typed (E_start net src (Q_add_root_trust n p l e)).
Proof.
  intros net src n p l e H H'. apply N.ltb_lt in H, H'. split; [intros now E; injection E as <-; reflexivity|]. split; [exact H|]. split; [exact H'|reflexivity].
Qed.
Lemma root_typed : forall net src n p l, l <? u32_bound = true -> event_typed (E_start net src (Q_set_root n p l)).
Proof. intros net src n p l H. apply N.ltb_lt in H. split; [intros now E; discriminate E|exact H]. Qed.
Ltac typed := apply five_typed; cbn [app];
  repeat match goal with
  | |- Forall _ (_ :: _) => apply Forall_cons
  | |- Forall _ [] => apply Forall_nil
  | |- event_typed (E_step _ _ _) => apply step_typed
  | |- event_typed (E_tick _ _) => apply tick_typed; reflexivity
  | |- event_typed (E_start _ _ (Q_add_trust _ _ _ _)) => apply trust_typed; reflexivity
  | |- event_typed (E_start _ _ (Q_revoke _ _ _)) => apply revoke_typed
  | |- event_typed (E_start _ _ (Q_add_root_trust _ _ _ _)) => apply root_trust_typed; reflexivity
  | |- event_typed (E_start _ _ (Q_set_root _ _ _)) => apply root_typed; reflexivity
  end.
Lemma mixed_typed : schedule_typed at_five mixed.
Proof. unfold mixed, halfway, s0, s1, trusting, revoking. typed. Qed.

(** ** C113 *)
Example e_C113_mixed : network_state (toy true) toy_stores /\ schedule_typed at_five mixed /\
  told_by toy_stores mixed 0 = Some (trusting, Some (N_errors [])) /\ told_by toy_stores mixed 1 = Some (revoking, Some (N_errors [])).
Proof. split; [exact toy_stores_ok|]. split; [exact mixed_typed|]. split; vm_compute; reflexivity. Qed.

(** ** C114 *)
(** The first script needs its six requests: after five it has not returned. *)
Example e_C114_six : requests_of trusting = 6%nat /\ own_steps 0 mixed = 6%nat /\ own_steps 0 (removelast mixed) = 5%nat /\
  told_by toy_stores (removelast mixed) 0 = Some (trusting, None) /\ told_by toy_stores mixed 0 = Some (trusting, Some (N_errors [])).
Proof. repeat split; vm_compute; reflexivity. Qed.

(** ** C115 *)
Example e_C115_unfinished : told_by toy_stores (removelast mixed) 0 = Some (trusting, None) /\ ~ is_add_root trusting.
Proof. split; [vm_compute; reflexivity|]. intros (? & ? & ? & ? & X). discriminate X. Qed.

(** ** C116 *)
(** The owner makes peer 3 a root and trusts it in one script, and the script stops between the two. *)
Definition rooting : request := Q_add_root_trust host_peer (pid 3) 4 800.
Definition r0 : event := E_step 0 (toy_signs 3 (trust_sum 3 800 5)) None.
Definition stopped : schedule := [E_start (toy_net owner_peer) typed_in rooting; r0; r0; r0; r0; r0].
Lemma stopped_typed : schedule_typed at_five stopped.
Proof. unfold stopped, r0, rooting. typed. Qed.
Lemma p_C116_unfinished_leaves_nothing_refuted : exists C st clocks evs j tk n k, crypto_laws C /\ wasm32 C = true /\ network_state C st /\ schedule_typed clocks evs /\
  let s := happens C (idle st clocks) evs in let s' := happens C (idle st clocks) (without j evs) in
  nth_error (sy_tasks s) j = Some tk /\ returned tk = None /\
  is_root (sy_stores s n) k /\ ~ (exists t, issued_for t = k /\ stored_trust (sy_stores s n) k t) /\ ~ is_root (sy_stores s' n) k.
Proof.
  exists (toy true), toy_stores, at_five, stopped, 0%nat.
  assert (T : told_by toy_stores stopped 0 = Some (rooting, None)) by (vm_compute; reflexivity). unfold told_by in T.
  destruct (nth_error (sy_tasks (happens (toy true) (idle toy_stores at_five) stopped)) 0) as [tk|] eqn:E; [|discriminate T]. injection T as _ R.
  exists tk, host_peer, (toy_key 3). split; [apply toy_laws|]. split; [reflexivity|]. split; [exact toy_stores_ok|]. split; [exact stopped_typed|].
  cbn zeta. split; [exact E|]. split; [exact R|]. split; [|split].
  - clear. vm_compute. right. left. reflexivity.
  - clear. apply no_trust_row. intros r Hr. vm_compute in Hr. repeat destruct Hr as [<-|Hr]; try contradiction; vm_compute; discriminate.
  - clear. intros X. vm_compute in X. repeat destruct X as [X|X]; try contradiction; discriminate X.
Qed.
Example e_C116_hypotheses : told_by toy_stores stopped 0 = Some (rooting, None).
Proof. vm_compute. reflexivity. Qed.

(** ** C117 *)
Definition owner_sets : schedule := [E_start (toy_net owner_peer) typed_in (Q_set_root host_peer (pid 3) 4); step 0].
Example e_C117_owner : schedule_typed at_five owner_sets /\ owns (toy_net owner_peer) host_peer /\ root_max_len (host_after empty_network owner_sets) (toy_key 3) 4.
Proof. split; [unfold owner_sets, step; typed|]. split; [reflexivity|]. exists 12%Z. split; [vm_compute; reflexivity|reflexivity]. Qed.
(** Another peer sets none. *)
Example e_C117_stranger : tbl_roots (host_after empty_network [E_start (toy_net stranger_peer) typed_in (Q_set_root host_peer (pid 3) 4); step 0]) = [].
Proof. vm_compute. reflexivity. Qed.

(** ** C118 *)
(** The trust of key 1 in key 2 gives way to the revocation, and the trust in key 4 arrives. *)
Example e_C118_leaves : stored (host_after toy_stores []) (RAuth (mk_auth (toy_trust 1 2 900 1) (toy_key 1))) /\
  ~ stored (host_after toy_stores mixed) (RAuth (mk_auth (toy_trust 1 2 900 1) (toy_key 1))).
Proof.
  split.
  - split; [split; reflexivity|]. split; [split; reflexivity|]. vm_compute. right. left. reflexivity.
  - intros (_ & _ & X). vm_compute in X. repeat destruct X as [X|X]; try contradiction; discriminate X.
Qed.
Example e_C118_arrives : ~ stored (toy_stores host_peer) (RAuth (mk_auth (toy_trust 1 4 800 5) (toy_key 1))) /\
  stored (host_after toy_stores mixed) (RAuth (mk_auth (toy_trust 1 4 800 5) (toy_key 1))).
Proof.
  split.
  - intros (_ & _ & X). vm_compute in X. repeat destruct X as [X|X]; try contradiction; discriminate X.
  - split; [split; reflexivity|]. split; [split; reflexivity|]. vm_compute. tauto.
Qed.

(** ** C119 *)
(** Both scripts of [mixed] end without error and what they were asked for is stored. *)
Example e_C119_hypotheses : told_by toy_stores mixed 0 = Some (trusting, Some (N_errors [])) /\ told_by toy_stores mixed 1 = Some (revoking, Some (N_errors [])) /\
  stored (host_after toy_stores mixed) (RAuth (mk_auth (toy_trust 1 4 800 5) (toy_key 1))) /\ stored_revocation (host_after toy_stores mixed) (toy_rev 1 2 5).
Proof.
  split; [vm_compute; reflexivity|]. split; [vm_compute; reflexivity|]. split; [apply e_C118_arrives|].
  split; [split; reflexivity|]. vm_compute. tauto.
Qed.
