(** Nodes that hear the same trusts. Every proof is a lemma of GossipThms.v or GossipServiceThms.v. *)
From Coq Require Import List NArith ZArith Bool Permutation.
From Verif Require Import Base Text Keys Trust Certificate Relation Storage Graph Service Spec ServiceSpec InfluenceSpec VisitorSpec MachineSpec ServiceMachine CopySpec GossipSpec GossipServiceSpec Toy ServiceWitness GossipThms CopyServiceThms GossipServiceThms.
Import ListNotations.
Open Scope N_scope.

(** ** C175 *)
(** Two nodes with the same contents hear trusts of [T], each in its own order and as often as it may be. When neither would learn anything from hearing one
    of them again, they have the same contents. *)
Theorem C175_agree : forall C d1 d2 now T h1 h2, reachable C d1 -> reachable C d2 -> same_contents d1 d2 -> duration_wf now -> secs now < i64_bound -> news C now T ->
  incl h1 T -> incl h2 T -> few d1 (no_failures (map (offer now) (h1 ++ T))) -> few d2 (no_failures (map (offer now) (h2 ++ T))) ->
  let d1' := graph_history C d1 (no_failures (map (offer now) h1)) in
  let d2' := graph_history C d2 (no_failures (map (offer now) h2)) in
  settled C d1' now T -> settled C d2' now T -> same_contents d1' d2'.
Proof. exact p_C175_agree. Qed.
Print Assumptions C175_agree.

(** After as many rounds as there are trusts nothing is learnt any more. *)
Theorem C175_settles : forall C d now T rounds, reachable C d -> duration_wf now -> secs now < i64_bound -> news C now T ->
  (forall r, In r rounds -> a_round T r) -> (length T <= length rounds)%nat -> few d (no_failures (map (offer now) (concat rounds ++ T))) ->
  settled C (graph_history C d (no_failures (map (offer now) (concat rounds)))) now T.
Proof. exact p_C175_settles. Qed.
Print Assumptions C175_settles.

(** So nodes that hear as many rounds as there are trusts agree, whatever the orders. *)
Theorem C175_rounds_agree : forall C d1 d2 now T rs1 rs2, reachable C d1 -> reachable C d2 -> same_contents d1 d2 -> duration_wf now -> secs now < i64_bound -> news C now T ->
  (forall r, In r (rs1 ++ rs2) -> a_round T r) -> (length T <= length rs1)%nat -> (length T <= length rs2)%nat ->
  few d1 (no_failures (map (offer now) (concat rs1 ++ T))) -> few d2 (no_failures (map (offer now) (concat rs2 ++ T))) ->
  same_contents (graph_history C d1 (no_failures (map (offer now) (concat rs1)))) (graph_history C d2 (no_failures (map (offer now) (concat rs2)))).
Proof. exact p_C175_rounds_agree. Qed.
Print Assumptions C175_rounds_agree.

(** The same trusts, forwards and backwards. After one round the first node knows all and the second does not. *)
Example C175_example_rounds : reachable (toy true) root_only /\ news (toy true) (from_secs 6) heard /\
  (forall r, In r (repeat heard 4 ++ repeat (rev heard) 4) -> a_round heard r) /\ (length heard <= length (repeat (rev heard) 4))%nat /\
  few root_only (no_failures (map (offer (from_secs 6)) (concat (repeat heard 4) ++ heard))) /\
  ~ same_contents (graph_history (toy true) root_only (no_failures (map (offer (from_secs 6)) heard))) (graph_history (toy true) root_only (no_failures (map (offer (from_secs 6)) (rev heard)))) /\
  settled (toy true) (graph_history (toy true) root_only (no_failures (map (offer (from_secs 6)) heard))) (from_secs 6) heard.
Proof. exact e_C175_rounds. Qed.

(** ** C176 *)
(** Nodes that hear the revocations first, in any order, and then the trusts in enough rounds, agree. *)
Theorem C176_revocations_first_partial : forall C d1 d2 now T V1 V2 rs1 rs2, reachable C d1 -> reachable C d2 -> same_contents d1 d2 -> duration_wf now -> secs now < i64_bound -> news C now T ->
  Forall (fun v => revocation_typed C v /\ signed_revocation C v) V1 -> Permutation V1 V2 -> seconds_differ (map RRev V1) ->
  (forall r, In r (rs1 ++ rs2) -> a_round T r) -> (length T <= length rs1)%nat -> (length T <= length rs2)%nat ->
  few d1 (no_failures (map G_revoke V1 ++ map (offer now) (concat rs1 ++ T))) -> few d2 (no_failures (map G_revoke V2 ++ map (offer now) (concat rs2 ++ T))) ->
  same_contents (graph_history C d1 (no_failures (map G_revoke V1 ++ map (offer now) (concat rs1)))) (graph_history C d2 (no_failures (map G_revoke V2 ++ map (offer now) (concat rs2)))).
Proof. exact p_C176_revocations_first_partial. Qed.
Print Assumptions C176_revocations_first_partial.

(** With revocations it is false: a trust given by a key that a root has revoked counts where it came before the revocation and is ignored where it came after, for good. *)
Theorem C176_agree_refuted : exists C d now T v h1 h2 k w, crypto_laws C /\ reachable C d /\ duration_wf now /\ news C now T /\ revocation_typed C v /\ signed_revocation C v /\
  Permutation h1 (map (offer now) T ++ [G_revoke v]) /\ Permutation h2 h1 /\
  let d1 := graph_history C d (no_failures h1) in let d2 := graph_history C d (no_failures h2) in
  (forall c x, In c h1 -> (stored (snd (graph_step C d1 (c, None))) x <-> stored d1 x) /\ (stored (snd (graph_step C d2 (c, None))) x <-> stored d2 x)) /\
  fst (graph_step C d1 (G_weight k now, None)) = Ok (GR_weight w) /\ 0 < w /\ fst (graph_step C d2 (G_weight k now, None)) = Ok (GR_weight 0).
Proof. exact p_C176_agree_refuted. Qed.
Print Assumptions C176_agree_refuted.

(** Two revocations in either order, then the trusts: key 3 keeps its weight, key 5 has none. *)
Example C176_example_first : let V := [toy_rev 1 4 5; toy_rev 3 5 5] in
  Forall (fun v => revocation_typed (toy true) v /\ signed_revocation (toy true) v) V /\ Permutation V (rev V) /\ seconds_differ (map RRev V) /\
  few root_only (no_failures (map G_revoke V ++ map (offer (from_secs 6)) (concat (repeat heard 4) ++ heard))) /\
  let d := graph_history (toy true) root_only (no_failures (map G_revoke V ++ map (offer (from_secs 6)) (concat (repeat heard 4)))) in
  fst (graph_step (toy true) d (G_weight (toy_key 3) (from_secs 6), None)) = Ok (GR_weight 16) /\
  fst (graph_step (toy true) d (G_weight (toy_key 5) (from_secs 6), None)) = Ok (GR_weight 0).
Proof. exact e_C176_first. Qed.

(** ** C179 *)
(** Two nodes hold the same. Their services are sent the same records in as many rounds as there are records, each in its own orders, by any senders, with its own
    clock. If nothing runs out meanwhile they hold the same afterwards, and respond alike to every question. *)
Theorem C179_rounds_agree : forall C d1 d2 lo hi ns rs1 rs2, crypto_laws C -> wasm32 C = true -> service_reachable C d1 -> service_reachable C d2 -> same_contents d1 d2 ->
  lo <= hi < i64_bound -> steady d1 lo hi -> notices C hi ns -> (forall r, In r (rs1 ++ rs2) -> posting ns lo hi r) -> (length ns <= length rs1)%nat -> (length ns <= length rs2)%nat ->
  room d1 (length (concat rs1) + length ns) -> room d2 (length (concat rs2) + length ns) ->
  let d1' := service_history C d1 (concat rs1) in let d2' := service_history C d2 (concat rs2) in
  same_contents d1' d2' /\
  forall cq q g k now, service_typed q -> requests C cq q g -> admitted cq q -> question k now g ->
    same_response (fst (service_step C d1' (cq, q, None))) (fst (service_step C d2' (cq, q, None))).
Proof. exact p_C179_rounds_agree. Qed.
Print Assumptions C179_rounds_agree.

(** One node hears them forwards at 10 and 11, the other backwards at 12 and 15. After one round they differ, after two key 4 weighs 4 for both. *)
Example C179_example_hypotheses : service_reachable (toy true) base_store /\ steady base_store 10 20 /\ notices (toy true) 20 two_notices /\
  (forall r, In r ([round_1; map (post 11) two_notices] ++ [round_2; map (post 15) (rev two_notices)]) -> posting two_notices 10 20 r) /\
  room base_store (4 + 2) /\
  map (fun es => told_weight (service_step (toy true) (service_history (toy true) base_store es) (timed_call 1, S_get_weight (pid 4) 16, None)))
    [round_1; round_2; round_1 ++ map (post 11) two_notices; round_2 ++ map (post 15) (rev two_notices)] = [Some 4; Some 0; Some 4; Some 4].
Proof. exact e_C179_hypotheses. Qed.

(** The condition that nothing runs out is needed. Key 1 trusts key 2 until 900 and key 2 trusts key 3. A node that hears of this at 899 remembers it; for one that hears of it at
    901 it does not count. When key 1 renews its trust, key 3 weighs 16 for the first and nothing for the other, though both were told the same. *)
Theorem C179_running_out : exists C d lo hi ns r1 r2 e q p, crypto_laws C /\ wasm32 C = true /\ service_reachable C d /\ lo <= hi < i64_bound /\ notices C hi ns /\ length ns = 1%nat /\
  posting ns lo hi r1 /\ posting ns lo hi r2 /\ room d 2 /\
  let d1 := service_history C d r1 in let d2 := service_history C d r2 in
  fst (service_step C (snd (service_step C d1 e)) q) = Ok (mk_response true None (P_weight 8 p)) /\
  fst (service_step C (snd (service_step C d2 e)) q) = Ok (mk_response true None (P_weight 0 p)).
Proof. exact p_C179_running_out. Qed.
Print Assumptions C179_running_out.
