(** What guests of a node cannot do with scripts. Every proof is a lemma of GuestsThms.v or GuestsEx.v. *)
From Coq Require Import List NArith ZArith Bool.
From Verif Require Import Base Text Keys Trust Certificate Relation Storage Graph Service Spec ServiceSpec Aqua AquaSpec Sched SchedSpec InfluenceSpec VisitorSpec GuestsSpec.
From Verif Require Import Toy ServiceWitness AquaWitness AquaEx SchedEx GuestsThms GuestsEx.
Import ListNotations.
Open Scope N_scope.

(** ** C185 *)
(** Scripts that bring to a node nothing signed by keys with a path of trusts from a root of that node, but what it has or has newer, change no
    answer of the node, however they are mixed with each other. *)
Theorem C185_guests : forall C st clocks evs n t net sg src a, crypto_laws C -> wasm32 C = true -> network_state C st -> schedule_typed clocks evs ->
  guests C (fun x => ~ linked (st n) (from_secs t) (rel_issued_by x)) st clocks evs n (from_secs t) ->
  let st' := sy_stores (happens C (idle st clocks) evs) in small (st n) -> small (st' n) -> api_typed a -> questions_at n t a ->
  same_told (reply_of C (as_met net sg None) src a st) (reply_of C (as_met net sg None) src a st').
Proof. exact p_C185_guests. Qed.
Print Assumptions C185_guests.

(** A stranger revokes peer 2 and trusts itself on the host. The trust is not taken, the revocation is, and peer 2 keeps its weight. *)
Example C185_example_stranger : crypto_laws (toy true) /\ network_state (toy true) toy_stores /\ schedule_typed at_five (by_one 7 2) /\
  guests (toy true) (fun x => ~ linked (toy_stores host_peer) (from_secs 6) (rel_issued_by x)) toy_stores at_five (by_one 7 2) host_peer (from_secs 6) /\
  small (toy_stores host_peer) /\ small (host_after toy_stores (by_one 7 2)) /\ questions_at host_peer 6 (A_get_weight host_peer (pid 2) 6) /\
  stored_revocation (host_after toy_stores (by_one 7 2)) (toy_rev 7 2 5) /\
  told_by toy_stores (by_one 7 2) 0 = Some (revokes 7 2, Some (N_errors [])) /\ told_by toy_stores (by_one 7 2) 1 = Some (trusts_itself 7, Some (N_errors [])) /\
  map (fun d => told_weight (service_step (toy true) d (timed_call 1, S_get_weight (pid 2) 6, None))) [toy_stores host_peer; host_after toy_stores (by_one 7 2)] = [Some 16; Some 16].
Proof. exact e_C185_stranger. Qed.

(** ** C186 *)
(** Scripts that bring to a node only what one key has signed, or what the node has or has newer, do not change the weight of that key there. *)
Theorem C186_own_weight : forall C st clocks evs n t net sg src p pk, crypto_laws C -> wasm32 C = true -> network_state C st -> schedule_typed clocks evs ->
  peer_key C p pk -> guests C (fun x => rel_issued_by x = pk) st clocks evs n (from_secs t) ->
  let st' := sy_stores (happens C (idle st clocks) evs) in small (st n) -> small (st' n) -> t < u64_bound ->
  reply_of C (as_met net sg None) src (A_get_weight n p t) st' = reply_of C (as_met net sg None) src (A_get_weight n p t) st.
Proof. exact p_C186_own_weight. Qed.
Print Assumptions C186_own_weight.

(** Peer 2 revokes the root and trusts itself; its weight stays. *)
Example C186_example_two : guests (toy true) (fun x => rel_issued_by x = toy_key 2) toy_stores at_five (by_one 2 1) host_peer (from_secs 6) /\
  peer_key (toy true) (pid 2) (toy_key 2) /\ small (host_after toy_stores (by_one 2 1)) /\
  stored_trust (host_after toy_stores (by_one 2 1)) (toy_key 2) (toy_trust 2 2 800 5) /\
  map (fun d => told_weight (service_step (toy true) d (timed_call 1, S_get_weight (pid 2) 6, None))) [toy_stores host_peer; host_after toy_stores (by_one 2 1)] = [Some 16; Some 16].
Proof. exact e_C186_two. Qed.
