(** Copying a node. Every proof is a lemma of CopyThms.v or CopyServiceThms.v. *)
From Coq Require Import List NArith ZArith Bool Permutation.
From Verif Require Import Base Text Keys Trust Certificate Relation Storage Graph Service Spec ServiceSpec VisitorSpec MachineSpec ServiceMachine CopySpec CopyServiceSpec Toy ServiceWitness CopyThms CopyServiceThms.
Import ListNotations.
Open Scope N_scope.

(** ** C174 *)
(** The roots of a store are set up in another; there the certificates of the keys [ks] are added as the first store gives them out at [now], then the
    revocations of all keys in them. If no certificate is longer than its root allows, every call succeeds, and from then on both stores
    answer every question about these keys alike. *)
Theorem C174_copied : forall C dA dB asked now ks, reachable C dA -> reachable C dB -> blank_copy dA dB ->
  duration_wf asked -> secs asked < i64_bound -> duration_wf now -> secs now < i64_bound -> Forall (pk_valid C) ks ->
  within dA (told C dA asked ks) -> fresh now (told C dA asked ks) ->
  few dA [] -> few dB (no_failures (copying C dA asked now ks)) ->
  let dB' := graph_history C dB (no_failures (copying C dA asked now ks)) in
  (forall r, In r (answers C dB (no_failures (copying C dA asked now ks))) -> r = Ok GR_unit) /\
  forall k now' q, In k ks -> secs asked <= secs now' < i64_bound -> call_typed C q -> question k now' q ->
    same_answer (fst (graph_step C dB' (q, None))) (fst (graph_step C dA (q, None))).
Proof. exact p_C174_copied. Qed.
Print Assumptions C174_copied.

(** The condition on the lengths is needed: a certificate longer than its root allows was taken on when another root vouched for a key on it, and cannot be taken on
    by the copy, although no call fails. *)
Theorem C174_longer_lost : exists C dA dB now k c, crypto_laws C /\ reachable C dA /\ reachable C dB /\ blank_copy dA dB /\
  fresh now (told C dA now [k]) /\ few dA [] /\ few dB (no_failures (copying C dA now now [k])) /\ certs_told C dA now k = [c] /\ cert_verify C c (map issued_for (firstn 1 c)) now = Ok tt /\
  (forall r, In r (answers C dB (no_failures (copying C dA now now [k]))) -> r = Ok GR_unit) /\
  certs_told C (graph_history C dB (no_failures (copying C dA now now [k]))) now k = [].
Proof. exact p_C174_longer_lost. Qed.
Print Assumptions C174_longer_lost.

(** So is the order: with the revocations first, the trust given by a revoked key is not taken on, while the first store still counts it for its direct receiver. *)
Theorem C174_order_matters : exists C dA dB now k, crypto_laws C /\ reachable C dA /\ reachable C dB /\ blank_copy dA dB /\
  within dA (told C dA now [k]) /\ fresh now (told C dA now [k]) /\ few dA [] /\ few dB (no_failures (copying C dA now now [k])) /\
  let others := flat_map (revocations_told C dA) (flat_map (map issued_for) (told C dA now [k])) in
  let revoked_first := map G_revoke others ++ map (fun c => G_add c now) (told C dA now [k]) in
  Permutation revoked_first (copying C dA now now [k]) /\
  (forall r, In r (answers C dB (no_failures revoked_first)) -> r = Ok GR_unit) /\
  length (certs_told C dA now k) = 2%nat /\ certs_told C (graph_history C dB (no_failures revoked_first)) now k = [].
Proof. exact p_C174_order_matters. Qed.
Print Assumptions C174_order_matters.

(** Keys 3 and 5 of the store with revocations can be copied: four certificates, and two revocations twice, in eight calls. *)
Example C174_example_hypotheses : reachable (toy true) copy_revoked /\ reachable (toy true) copy_blank /\ blank_copy copy_revoked copy_blank /\
  Forall (pk_valid (toy true)) [toy_key 3; toy_key 5] /\ within copy_revoked (told (toy true) copy_revoked (from_secs 8) [toy_key 3; toy_key 5]) /\
  fresh (from_secs 9) (told (toy true) copy_revoked (from_secs 8) [toy_key 3; toy_key 5]) /\
  few copy_revoked [] /\ few copy_blank (no_failures (copying (toy true) copy_revoked (from_secs 8) (from_secs 9) [toy_key 3; toy_key 5])) /\
  length (copying (toy true) copy_revoked (from_secs 8) (from_secs 9) [toy_key 3; toy_key 5]) = 8%nat /\
  length (certs_told (toy true) (graph_history (toy true) copy_blank (no_failures (copying (toy true) copy_revoked (from_secs 8) (from_secs 9) [toy_key 3; toy_key 5]))) (from_secs 8) (toy_key 5)) = 2%nat.
Proof. exact e_C174_hypotheses. Qed.

(** ** C178 *)
(** The records of a node about the peers [ps] are handed on to a node with the same roots. If no certificate is longer than its root
    allows, none has expired by the clock of the other node and no revocation is ahead of it, then all calls succeed and from then on both
    nodes respond alike to every question about these peers. *)
Theorem C178_handed_on : forall C dA dB cp cp' asked now ps ks, crypto_laws C -> wasm32 C = true -> service_reachable C dA -> service_reachable C dB ->
  blank_copy dA dB -> host_time cp 1 -> host_time cp' 1 -> asked < i64_bound -> now < i64_bound -> Forall2 (peer_key C) ps ks ->
  within dA (told C dA (from_secs asked) ks) -> fresh (from_secs now) (told C dA (from_secs asked) ks) -> none_ahead dA now ->
  few dA [] -> s_few dB (handing_on C dA cp cp' asked now ps) ->
  let dB' := service_history C dB (handing_on C dA cp cp' asked now ps) in
  (forall r, In r (responses C dB (handing_on C dA cp cp' asked now ps)) -> r = Ok (mk_response true None P_none)) /\
  forall k now' cq q g, In k ks -> asked <= secs now' < i64_bound -> service_typed q -> requests C cq q g -> admitted cq q -> question k now' g ->
    same_response (fst (service_step C dB' (cq, q, None))) (fst (service_step C dA (cq, q, None))).
Proof. exact p_C178_handed_on. Qed.
Print Assumptions C178_handed_on.

(** The condition on revocations is needed: a node whose clock is behind refuses a revocation that the first node has, and gives weight to a key
    that has none there. *)
Theorem C178_clock_behind : exists C dA dB cp cp' asked now p ps ks, crypto_laws C /\ wasm32 C = true /\ service_reachable C dA /\ service_reachable C dB /\
  blank_copy dA dB /\ host_time cp 1 /\ host_time cp' 1 /\ now < asked /\ Forall2 (peer_key C) (p :: ps) ks /\
  within dA (told C dA (from_secs asked) ks) /\ fresh (from_secs now) (told C dA (from_secs asked) ks) /\
  few dA [] /\ s_few dB (handing_on C dA cp cp' asked now (p :: ps)) /\
  let dB' := service_history C dB (handing_on C dA cp cp' asked now (p :: ps)) in
  fst (service_step C dA (cp, S_get_weight p asked, None)) = Ok (mk_response true None (P_weight 0 p)) /\
  fst (service_step C dB' (cp, S_get_weight p asked, None)) = Ok (mk_response true None (P_weight 4 p)).
Proof. exact p_C178_clock_behind. Qed.
Print Assumptions C178_clock_behind.

(** The nodes meet the conditions: three calls, of two certificates and a revocation. Key 3 has one certificate and weighs 16 on both. *)
Example C178_example_hypotheses : service_reachable (toy true) served_store /\ service_reachable (toy true) served_blank /\ blank_copy served_store served_blank /\
  host_time (timed_call 1) 1 /\ Forall2 (peer_key (toy true)) [pid 2; pid 3] [toy_key 2; toy_key 3] /\
  within served_store (told (toy true) served_store (from_secs 9) [toy_key 2; toy_key 3]) /\
  fresh (from_secs 11) (told (toy true) served_store (from_secs 9) [toy_key 2; toy_key 3]) /\ none_ahead served_store 11 /\
  few served_store [] /\ s_few served_blank (served_calls 11) /\ length (served_calls 11) = 3%nat /\
  map (fun d => told_weight (service_step (toy true) d (timed_call 1, S_get_weight (pid 3) 12, None))) [served_store; service_history (toy true) served_blank (served_calls 11)] = [Some 16; Some 16].
Proof. exact e_C178_hypotheses. Qed.
