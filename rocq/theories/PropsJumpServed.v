(** A clock that was wrong for a while, at the service. Every proof is a lemma of JumpServedThms.v. *)
From Coq Require Import List NArith ZArith Bool.
From Verif Require Import Base Text Keys Trust Certificate Relation Storage Graph Service Spec ServiceSpec MachineSpec InfluenceSpec VisitorSpec ServiceMachine CopyServiceSpec JumpServedSpec.
From Verif Require CopyThms VisitorThms CopyServiceThms.
From Verif Require Import Toy ServiceWitness CopyServiceThms JumpServedThms CopySpec JumpSpec.
Import ListNotations.
Open Scope N_scope.

(** ** C201 *)
(** A node is asked questions by anyone, at any times. If the records of the certificates it told of some peers are inserted again, then,
    unless a certificate is longer than its root allows, has expired by now, or has a key revoked by a key before it, all calls succeed
    and from then on the node responds to every question about these peers as it did before. *)
Theorem C201_service : forall C d es cp cp' asked now ps ks, crypto_laws C -> wasm32 C = true -> service_reachable C d ->
  service_events_typed es -> s_only_questions es ->
  host_time cp 1 -> asked < i64_bound -> now < i64_bound -> Forall2 (peer_key C) ps ks ->
  within d (told C d (from_secs asked) ks) -> fresh (from_secs now) (told C d (from_secs asked) ks) -> unrevoked d (told C d (from_secs asked) ks) ->
  few d [] -> s_few (service_history C d es) (handing_back C d cp cp' asked now ps) ->
  let d1 := service_history C d es in
  let d2 := service_history C d1 (handing_back C d cp cp' asked now ps) in
  (forall r, In r (responses C d1 (handing_back C d cp cp' asked now ps)) -> r = Ok (mk_response true None P_none)) /\
  forall k now' cq q g, In k ks -> asked <= secs now' < i64_bound -> service_typed q -> requests C cq q g -> admitted cq q -> question k now' g ->
    same_response (fst (service_step C d2 (cq, q, None))) (fst (service_step C d (cq, q, None))).
Proof. exact p_C201_service. Qed.
Print Assumptions C201_service.

(** In a chain from key 1 to key 5, whose key 2 revoked key 4, a question at a time far ahead takes away what is told of keys 2 and 3, and two calls bring it back:
    key 3 weighs 8, then nothing, then 8. *)
Example C201_example_served : service_reachable (toy true) behind_store /\ service_events_typed jumped /\ s_only_questions jumped /\
  host_time (timed_call 1) 1 /\ Forall2 (peer_key (toy true)) [pid 2; pid 3] [toy_key 2; toy_key 3] /\
  within behind_store (told (toy true) behind_store (from_secs 9) [toy_key 2; toy_key 3]) /\
  fresh (from_secs 11) (told (toy true) behind_store (from_secs 9) [toy_key 2; toy_key 3]) /\
  unrevoked behind_store (told (toy true) behind_store (from_secs 9) [toy_key 2; toy_key 3]) /\
  few behind_store [] /\ s_few (service_history (toy true) behind_store jumped) jump_back /\ length jump_back = 2%nat /\
  map (fun d => told_weight (service_step (toy true) d (timed_call 1, S_get_weight (pid 3) 12, None)))
    [behind_store; service_history (toy true) behind_store jumped; service_history (toy true) (service_history (toy true) behind_store jumped) jump_back] = [Some 8; Some 0; Some 8].
Proof. exact e_C201_served. Qed.
