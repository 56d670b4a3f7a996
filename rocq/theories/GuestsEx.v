(** Witnesses of what guests cannot do. *)
From Coq Require Import List NArith ZArith Bool Lia.
From Verif Require Import Base Text Keys Trust Certificate Relation Storage Graph Service Spec ServiceSpec Aqua AquaSpec Sched SchedSpec InfluenceSpec VisitorSpec GuestsSpec.
From Verif Require Import BaseFacts KeysFacts ServiceFacts AquaFacts Toy ToyFacts ServiceWitness AquaThms AquaTrace AquaWitness AquaEx SchedFacts SchedSim SchedThms SchedEx VisitorThms GuestsThms ServiceThms.
Import ListNotations.
Open Scope N_scope.

(** Peer [k] revokes peer [r] and trusts itself, in two scripts at once. *)
Definition revokes (k r : N) : request := Q_revoke host_peer (pid k) (pid r).
Definition trusts_itself (k : N) : request := Q_add_trust host_peer (pid k) (pid k) 800.
Definition by_one (k r : N) : schedule :=
  let a := E_step 0 (toy_signs k (rev_sum r 5)) None in let b := E_step 1 (toy_signs k (trust_sum k 800 5)) None in
  [E_start (toy_net stranger_peer) typed_in (revokes k r); E_start (toy_net (pid k)) typed_in (trusts_itself k); a; b; b; a; a; b; E_tick host_peer 6; b; a; b; a; a; b].

Lemma by_one_typed : forall k r, schedule_typed at_five (by_one k r).
Proof. intros k r. unfold by_one, revokes, trusts_itself. typed. Qed.
Lemma by_one_brought : forall k r y, brought (toy true) at_five (by_one k r) host_peer y -> rel_issued_by y = toy_key k.
Proof.
  intros k r y (net & src & q & i & now & Hin & _ & _ & _ & _ & B). unfold by_one in Hin. cbn [In] in Hin.
  destruct Hin as [H|[H|H]].
  - injection H as <- <- <-. unfold revokes in B. cbn [alone] in B. destruct y as [u|v]; [contradiction|]. destruct B as (b & k' & K1 & _ & (_ & K2 & _)). cbn [rel_issued_by].
    rewrite K2. exact (peer_key_fun _ _ _ _ K1 (pid_key k)).
  - injection H as <- <- <-. unfold trusts_itself in B. cbn [alone] in B. destruct y as [u|v]; [|contradiction]. destruct B as (k' & _ & K2 & _). cbn [rel_issued_by].
    exact (peer_key_fun _ _ _ _ K2 (pid_key k)).
  - exfalso. repeat (destruct H as [H|H]; [discriminate H|]). exact H.
Qed.
Definition ticks (evs : schedule) : list N := flat_map (fun e => match e with E_tick _ t => [t] | _ => [] end) evs.
Lemma ticks_in : forall n t evs, In (E_tick n t) evs -> In t (ticks evs).
Proof. intros n t evs H. apply in_flat_map. exists (E_tick n t). split; [exact H|left; reflexivity]. Qed.
Lemma by_one_guests : forall (P : relation -> Prop) k r, (forall y, rel_issued_by y = toy_key k -> P y) ->
  guests (toy true) P toy_stores at_five (by_one k r) host_peer (from_secs 6).
Proof.
  intros P k r H. split; [|split].
  - intros net src q Hin _ _. unfold by_one in Hin. cbn [In] in Hin. destruct Hin as [E|[E|E]]; [injection E as _ _ <-; reflexivity|injection E as _ _ <-; reflexivity|].
    exfalso. repeat (destruct E as [E|E]; [discriminate E|]). exact E.
  - intros t [->|Hin]; [split; vm_compute; try discriminate; reflexivity|].
    apply ticks_in in Hin. change (ticks (by_one k r)) with [6] in Hin. destruct Hin as [<-|[]]. split; vm_compute; try discriminate; reflexivity.
  - intros y B. left. apply H. exact (by_one_brought k r y B).
Qed.

(** ** C185 *)
(** A stranger revokes peer 2 and trusts itself on the host. The trust is not taken, the revocation is, and peer 2 keeps its weight. *)
Example e_C185_stranger : crypto_laws (toy true) /\ network_state (toy true) toy_stores /\ schedule_typed at_five (by_one 7 2) /\
  guests (toy true) (fun x => ~ linked (toy_stores host_peer) (from_secs 6) (rel_issued_by x)) toy_stores at_five (by_one 7 2) host_peer (from_secs 6) /\
  small (toy_stores host_peer) /\ small (host_after toy_stores (by_one 7 2)) /\ questions_at host_peer 6 (A_get_weight host_peer (pid 2) 6) /\
  stored_revocation (host_after toy_stores (by_one 7 2)) (toy_rev 7 2 5) /\
  told_by toy_stores (by_one 7 2) 0 = Some (revokes 7 2, Some (N_errors [])) /\ told_by toy_stores (by_one 7 2) 1 = Some (trusts_itself 7, Some (N_errors [])) /\
  map (fun d => told_weight (service_step (toy true) d (timed_call 1, S_get_weight (pid 2) 6, None))) [toy_stores host_peer; host_after toy_stores (by_one 7 2)] = [Some 16; Some 16].
Proof.
  split; [apply toy_laws|]. split; [exact toy_stores_ok|]. split; [apply by_one_typed|]. split.
  { apply by_one_guests. intros y -> H. change (toy_stores host_peer) with base_store in H. apply base_linked in H. destruct H as [H|H]; discriminate H. }
  split; [vm_compute; reflexivity|]. split; [vm_compute; reflexivity|]. split; [left; eexists; reflexivity|].
  split; [split; [split; vm_compute; reflexivity|]; vm_compute; repeat (first [left; reflexivity|right])|].
  repeat split; vm_compute; reflexivity.
Qed.

(** ** C186 *)
(** Peer 2 revokes the root and trusts itself; its weight stays. *)
Example e_C186_two : guests (toy true) (fun x => rel_issued_by x = toy_key 2) toy_stores at_five (by_one 2 1) host_peer (from_secs 6) /\
  peer_key (toy true) (pid 2) (toy_key 2) /\ small (host_after toy_stores (by_one 2 1)) /\
  stored_trust (host_after toy_stores (by_one 2 1)) (toy_key 2) (toy_trust 2 2 800 5) /\
  map (fun d => told_weight (service_step (toy true) d (timed_call 1, S_get_weight (pid 2) 6, None))) [toy_stores host_peer; host_after toy_stores (by_one 2 1)] = [Some 16; Some 16].
Proof.
  split; [apply by_one_guests; auto|]. split; [exact (pid_key 2)|]. split; [vm_compute; reflexivity|].
  split; [split; [split; vm_compute; reflexivity|]; split; [split; vm_compute; reflexivity|]; vm_compute; repeat (first [left; reflexivity|right])|].
  vm_compute. reflexivity.
Qed.
