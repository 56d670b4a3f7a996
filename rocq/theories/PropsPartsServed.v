(** What the service tells of the parts of a certificate. Every proof is a lemma of PartsServedThms.v. *)
From Coq Require Import List NArith ZArith Bool.
From Verif Require Import Base Text Keys Trust Certificate Relation Storage Graph Service Spec ServiceSpec.
From Verif Require Import Toy Witness GraphThms StateFacts InfluenceSpec ServiceWitness ServiceThms PartsServedThms.
Import ListNotations.
Open Scope N_scope.

(** ** C207 *)
(** At the service: the first records of a certificate that is told of a peer, up to any but the last two, are a certificate that is told of the peer of the last of them. *)
Theorem C207_service_parts : forall C d cp p ts rs x n r cp', crypto_laws C -> wasm32 C = true -> service_reachable C d -> ts < u64_bound ->
  fst (service_step C d (cp, S_get_all_certs p ts, None)) = Ok (mk_response true None (P_certs rs)) -> In x rs -> (2 <= n)%nat -> (n + 1 < length x)%nat -> nth_error x (n - 1) = Some r ->
  host_time cp' 1 -> exists rs', fst (service_step C d (cp', S_get_all_certs (dt_issued_for r) ts, None)) = Ok (mk_response true None (P_certs rs')) /\ In (firstn n x) rs'.
Proof. exact p_C207_service_parts. Qed.
Print Assumptions C207_service_parts.

(** So the peers before the direct issuer are told at least the weight that their places in the certificate give. *)
Theorem C207_service_weights : forall C d cp p ts rs x i r r0 root m cp', crypto_laws C -> wasm32 C = true -> service_reachable C d -> small d -> ts < u64_bound ->
  fst (service_step C d (cp, S_get_all_certs p ts, None)) = Ok (mk_response true None (P_certs rs)) -> In x rs -> (i + 2 < length x)%nat -> nth_error x i = Some r ->
  nth_error x 0 = Some r0 -> peer_key C (dt_issued_for r0) root -> root_max_len d root m -> host_time cp' 1 ->
  exists w, fst (service_step C d (cp', S_get_weight (dt_issued_for r) ts, None)) = Ok (mk_response true None (P_weight w (dt_issued_for r))) /\ chain_weight m i <= w.
Proof. exact p_C207_service_weights. Qed.
Print Assumptions C207_service_weights.

(** Key 2 trusts key 3 and key 3 trusts key 4; the certificate of key 4 has four records, and key 2 is told the first two. *)
Example C207_example_service_parts : service_reachable (toy true) longer_store /\ small longer_store /\ host_time (timed_call 1) 1 /\
  fst (service_step (toy true) longer_store (timed_call 1, S_get_all_certs (pid 4) 30, None)) = Ok (mk_response true None (P_certs [longer_cert])) /\
  fst (service_step (toy true) longer_store (timed_call 1, S_get_all_certs (pid 2) 30, None)) = Ok (mk_response true None (P_certs [firstn 2 longer_cert])) /\
  told_weight (service_step (toy true) longer_store (timed_call 1, S_get_weight (pid 2) 30, None)) = Some (chain_weight 5 1).
Proof. exact e_C207_service_parts. Qed.
