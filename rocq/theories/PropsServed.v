(** Renewed trusts and keys that are cut off, through the service. Every proof is a lemma of ServedThms.v. *)
From Coq Require Import List NArith ZArith Bool.
From Verif Require Import Base Text Keys Trust Certificate Relation Storage Graph Service Spec ServiceSpec MachineSpec ServiceMachine RenewSpec ServedSpec.
From Verif Require Import Toy ServiceWitness ServiceFacts ServedThms.
Import ListNotations.
Open Scope N_scope.

(** ** C198 *)
(** As long as the records of the trusts of a chain are renewed at the service before they expire, the last peer is told the weight that
    the length of the chain gives, and a certificate with the keys of the chain. *)
Theorem C198_no_gap : forall C d es ks k m cp p pk ts, crypto_laws C -> wasm32 C = true -> service_reachable C d -> service_events_typed es -> s_few d es ->
  nth_error ks 0 = Some k -> nth_error ks (length ks - 1) = Some pk -> NoDup ks -> (2 <= length ks)%nat -> root_max_len d k m -> N.of_nat (length ks) <= m + 1 ->
  s_renewed_in_time C d es ks -> s_renewals_last C d es ks -> s_no_revocation_among C d es ks -> s_covered C d es ks (from_secs ts) ->
  peer_key C p pk -> host_time cp 1 -> ts < u64_bound ->
  (exists w, fst (service_step C (service_history C d es) (cp, S_get_weight p ts, None)) = Ok (mk_response true None (P_weight w p)) /\ 2 ^ (m + 1 - N.of_nat (length ks)) <= w) /\
  (exists rs, fst (service_step C (service_history C d es) (cp, S_get_all_certs p ts, None)) = Ok (mk_response true None (P_certs rs)) /\
     exists r, In r rs /\ Forall2 (fun x k' => peer_key C (dt_issued_for x) k') r ks).
Proof. exact p_C198_no_gap. Qed.
Print Assumptions C198_no_gap.

(** Key 1 renews its trusts for itself and for key 2, a stranger revokes key 2 and inserts their own certificate, a query fails: at 2000, when everything that was
    stored at the beginning has expired, key 2 still weighs 16. *)
Example C198_example_renewals : service_reachable (toy true) base_store /\ service_events_typed renewals /\ s_few base_store renewals /\ root_max_len base_store (toy_key 1) 5 /\
  s_renewed_in_time (toy true) base_store renewals [toy_key 1; toy_key 2] /\ s_renewals_last (toy true) base_store renewals [toy_key 1; toy_key 2] /\
  s_no_revocation_among (toy true) base_store renewals [toy_key 1; toy_key 2] /\ s_covered (toy true) base_store renewals [toy_key 1; toy_key 2] (from_secs 2000) /\
  peer_key (toy true) (pid 2) (toy_key 2) /\ host_time (timed_call 1) 1 /\
  told_weight (service_step (toy true) base_store (timed_call 1, S_get_weight (pid 2) 2000, None)) = Some 0 /\
  told_weight (service_step (toy true) (service_history (toy true) base_store renewals) (timed_call 1, S_get_weight (pid 2) 2000, None)) = Some 16.
Proof. exact e_C198_renewals. Qed.

(** ** C199 *)
(** Revoked at the border through the service, a set of keys is cut off: whoever calls the service afterwards, and whatever fails, none of
    its certificates has one of them, and they weigh nothing. *)
Theorem C199_cut_off : forall C d rs vs es ks cp p k ts, crypto_laws C -> wasm32 C = true -> service_reachable C d -> Forall2 (good_revocation C) rs vs ->
  service_events_typed es -> s_few d (revoke_calls rs ++ es) -> s_never_roots C d es ks -> s_cut_off_by C d es vs ks ->
  peer_key C p k -> host_time cp 1 -> ts < u64_bound ->
  let d' := service_history C d (revoke_calls rs ++ es) in
  (exists cs, fst (service_step C d' (cp, S_get_all_certs p ts, None)) = Ok (mk_response true None (P_certs cs)) /\
     (forall c x k', In c cs -> In x c -> peer_key C (dt_issued_for x) k' -> ~ In k' ks) /\ (In k ks -> cs = [])) /\
  (In k ks -> fst (service_step C d' (cp, S_get_weight p ts, None)) = Ok (mk_response true None (P_weight 0 p))).
Proof. exact p_C199_cut_off. Qed.
Print Assumptions C199_cut_off.

(** The root revokes key 2; key 2 trusts key 3, the old trust comes in again, alone and in a certificate, and a stranger tries to make key 2 a root. *)
Example C199_example_robbers : Forall2 (good_revocation (toy true)) [(timed_call 1, rev_rec 1 2 50, 60)] [toy_rev 1 2 50] /\ service_events_typed robbers /\
  s_few base_store (revoke_calls [(timed_call 1, rev_rec 1 2 50, 60)] ++ robbers) /\ s_never_roots (toy true) base_store robbers [toy_key 2; toy_key 3] /\
  s_cut_off_by (toy true) base_store robbers [toy_rev 1 2 50] [toy_key 2; toy_key 3] /\
  told_weight (service_step (toy true) base_store (timed_call 1, S_get_weight (pid 2) 70, None)) = Some 16 /\
  told_weight (service_step (toy true) (service_history (toy true) base_store robbers) (timed_call 1, S_get_weight (pid 3) 70, None)) = Some 8.
Proof. exact e_C199_robbers. Qed.
