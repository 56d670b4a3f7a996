(** Property theorems about the service (C41, C49-C55, C65, C66). Proofs are in ServiceThms.v. *)
From Coq Require Import List NArith ZArith Bool.
From Verif Require Import Base Text Keys Trust Certificate Relation Storage Graph Service Spec ServiceSpec Toy ServiceWitness ServiceThms.
Import ListNotations.
Open Scope N_scope.

(** ** C66 *)
(** A call that the service lets through and whose texts and records describe keys, certificates,
    trusts and revocations is the corresponding call of the graph. *)
Theorem C66_admitted_calls : forall C d cp c g fu r d', crypto_laws C -> wasm32 C = true -> service_reachable C d -> service_typed c ->
  admitted cp c -> requests C cp c g -> service_step C d (cp, c, fu) = (r, d') ->
  (exists x p, graph_step C d (g, fu) = (Ok x, d') /\ r = Ok (mk_response true None p) /\ tells C c x p) \/
  (exists e, graph_step C d (g, fu) = (Err e, d') /\ r = Ok (mk_response false (Some (SVE_TGError e)) (empty_payload c))).
Proof. exact p_C66_admitted_calls. Qed.
Print Assumptions C66_admitted_calls.

(** Every other call fails and changes nothing, or is one of the functions that only compute. *)
Theorem C66_other_calls : forall C d cp c fu resp d', service_step C d (cp, c, fu) = (Ok resp, d') ->
  (exists g, requests C cp c g /\ admitted cp c) \/ (d' = d /\ (local_call c = true \/ success resp = false)).
Proof. exact p_C66_other_calls. Qed.
Print Assumptions C66_other_calls.

(** So the stores the service can leave are stores the graph can leave, and what the graph theorems
    say of reachable stores holds of the service. *)
Theorem C66_service_stores : forall C d, crypto_laws C -> service_reachable C d -> reachable C d.
Proof. exact p_C66_service_stores. Qed.
Print Assumptions C66_service_stores.

(** An admitted call with its graph call, and its answer. *)
Example C66_example_call : admitted (timed_call 1) (S_get_weight (pid 2) 6) /\
  requests (toy true) (timed_call 1) (S_get_weight (pid 2) 6) (G_weight (toy_key 2) (from_secs 6)) /\
  told_weight (service_step (toy true) base_store (timed_call 1, S_get_weight (pid 2) 6, None)) = Some 16.
Proof. exact e_C66_call. Qed.

(** ** C65 *)
(** A service call always returns a response, except [insert_cert_raw] with a text on which the
    certificate parser panics. *)
Theorem C65_calls_respond : forall C d cp c fu r d', crypto_laws C -> service_reachable C d -> service_typed c ->
  service_step C d (cp, c, fu) = (r, d') ->
  (exists resp, r = Ok resp) \/ (exists s ts, c = S_insert_cert_raw s ts /\ cert_from_str C s = Panic /\ r = Panic /\ d' = d).
Proof. exact p_C65_calls_respond. Qed.
Print Assumptions C65_calls_respond.

(** Refuted without that exception: the empty text. *)
Theorem C65_calls_respond_refuted : exists C d cp c, crypto_laws C /\ service_reachable C d /\ service_typed c /\
  service_step C d (cp, c, None) = (Panic, d).
Proof. exact p_C65_calls_respond_refuted. Qed.
Print Assumptions C65_calls_respond_refuted.

(** ** C54 *)
(** A response says success and carries no error, or says failure, gives an error and its payload
    is empty. *)
Theorem C54_failed_calls_are_empty : forall C d cp c fu resp d', service_step C d (cp, c, fu) = (Ok resp, d') ->
  (success resp = true /\ error resp = None) \/
  (success resp = false /\ (exists e, error resp = Some e) /\ reply resp = empty_payload c).
Proof. exact p_C54_failed_calls_are_empty. Qed.
Print Assumptions C54_failed_calls_are_empty.

Example C54_example_outcomes : succeeds (service_step (toy true) base_store (timed_call 1, S_get_weight (pid 2) 6, None)) = true /\
  succeeds (service_step (toy true) base_store (script_call, S_get_weight (pid 2) 6, None)) = false.
Proof. exact e_C54_outcomes. Qed.

(** ** C41 *)
(** One call: the roots stay as they are, or the creator of the service called [set_root] and the
    one key it names became a root, if it was none. *)
Theorem C41_only_the_owner_sets_roots : forall C d cp c fu r d', crypto_laws C -> service_reachable C d -> service_typed c ->
  service_step C d (cp, c, fu) = (r, d') ->
  tbl_roots d' = tbl_roots d \/
  exists p n k, c = S_set_root p n /\ init_peer_id cp = service_creator_peer_id cp /\ peer_key C p k /\ root_set d k (N.min n 16) d'.
Proof. exact p_C41_only_the_owner_sets_roots. Qed.
Print Assumptions C41_only_the_owner_sets_roots.

(** All histories: every root was set by the creator, with that length. *)
Theorem C41_every_root_is_the_owners : forall C es k m, crypto_laws C -> service_events_typed es ->
  root_max_len (service_history C empty_db es) k m ->
  exists cp p n fu, In (cp, S_set_root p n, fu) es /\ init_peer_id cp = service_creator_peer_id cp /\ peer_key C p k /\ m = N.min n 16.
Proof. exact p_C41_every_root_is_the_owners. Qed.
Print Assumptions C41_every_root_is_the_owners.

(** The stranger's attempt, the owner's success. *)
Example C41_example_calls : succeeds (service_step (toy true) base_store (script_call, S_set_root (pid 3) 5, None)) = false /\
  succeeds (service_step (toy true) base_store (owner_call, S_set_root (pid 3) 5, None)) = true.
Proof. exact e_C41_calls. Qed.

(** ** C49 *)
(** Refuted: [get_weight_from] accepts a time that does not come from the host's clock. *)
Theorem C49_times_come_from_host_refuted : exists C d cp c ts i resp d', crypto_laws C /\ wasm32 C = true /\ service_reachable C d /\
  service_typed c /\ given_time c = Some (ts, i) /\ ~ host_time cp i /\ service_step C d (cp, c, None) = (Ok resp, d') /\ success resp = true.
Proof. exact p_C49_times_come_from_host_refuted. Qed.
Print Assumptions C49_times_come_from_host_refuted.

(** And it refuses a time that does. *)
Theorem C49_host_time_accepted_refuted : exists C d cp p q ts resp d', crypto_laws C /\ wasm32 C = true /\ service_reachable C d /\
  (exists k, peer_key C p k) /\ (exists k, peer_key C q k) /\ host_time cp 2 /\
  service_step C d (cp, S_get_weight_from p q ts, None) = (Ok resp, d') /\ error resp = Some SVE_InvalidTimestampTetraplet.
Proof. exact p_C49_host_time_accepted_refuted. Qed.
Print Assumptions C49_host_time_accepted_refuted.

(** [insert_cert] accepts any time. *)
Theorem C49_insert_cert_unchecked_refuted : exists C d cp r ts resp d', crypto_laws C /\ wasm32 C = true /\ service_reachable C d /\
  service_typed (S_insert_cert r ts) /\ (forall i, ~ host_time cp i) /\ service_step C d (cp, S_insert_cert r ts, None) = (Ok resp, d') /\ success resp = true /\
  exists x, stored d' x /\ ~ stored d x.
Proof. exact p_C49_insert_cert_unchecked_refuted. Qed.
Print Assumptions C49_insert_cert_unchecked_refuted.

(** All calls but [insert_cert], [insert_cert_raw] and [get_weight_from]. *)
Theorem C49_times_come_from_host_partial : forall C d cp c fu resp d' ts i, inserts_cert c = false -> is_get_weight_from c = false ->
  given_time c = Some (ts, i) -> ~ host_time cp i ->
  service_step C d (cp, c, fu) = (Ok resp, d') -> success resp = false /\ d' = d.
Proof. exact p_C49_times_come_from_host_partial. Qed.
Print Assumptions C49_times_come_from_host_partial.

(** [get_weight_from] wants argument 1, the issuer, to come from the host's clock. *)
Theorem C49_get_weight_from_checks_issuer : forall C d cp p q ts fu resp d', ~ host_time cp 1 ->
  service_step C d (cp, S_get_weight_from p q ts, fu) = (Ok resp, d') -> success resp = false /\ d' = d.
Proof. exact p_C49_get_weight_from_checks_issuer. Qed.
Print Assumptions C49_get_weight_from_checks_issuer.

(** ** C50, C51, C63, C64 for the service *)
(** Refuted: at second 10 key 2 has weight 16; a stranger inserts their own certificate with a time
    of their choice; now key 2 has weight 0. *)
Theorem C50_strangers_cannot_erase_refuted : exists C d cp c p d', crypto_laws C /\ wasm32 C = true /\ service_reachable C d /\ service_typed c /\
  (forall i, ~ host_time cp i) /\ init_peer_id cp <> service_creator_peer_id cp /\ snd (service_step C d (cp, c, None)) = d' /\
  told_weight (service_step C d (timed_call 1, S_get_weight p 10, None)) = Some 16 /\
  told_weight (service_step C d' (timed_call 1, S_get_weight p 10, None)) = Some 0.
Proof. exact p_C50_strangers_cannot_erase_refuted. Qed.
Print Assumptions C50_strangers_cannot_erase_refuted.

(** What a service call can remove from the store: trusts expired at the time it was given, which is
    the host's unless the call is [insert_cert], [insert_cert_raw] or [get_weight_from]; and what a
    genuine newer relation between the same keys replaces. *)
Theorem C50_what_calls_remove : forall C d cp c fu r d' x, crypto_laws C -> service_reachable C d -> service_typed c ->
  service_step C d (cp, c, fu) = (r, d') -> stored d x -> ~ stored d' x ->
  (exists ts i, given_time c = Some (ts, i) /\ db_expired (from_secs ts) x /\
     (host_time cp i \/ inserts_cert c = true \/ is_get_weight_from c = true)) \/
  (exists g y, requests C cp c g /\ admitted cp c /\ offers g y /\ genuine C g y /\ same_keys x y /\ before (rel_issued_at x) (rel_issued_at y)).
Proof. exact p_C50_what_calls_remove. Qed.
Print Assumptions C50_what_calls_remove.

Example C50_example_expired : stored base_store (RAuth (mk_auth (toy_trust 1 2 900 1) (toy_key 1))) /\
  db_expired (from_secs 5000) (RAuth (mk_auth (toy_trust 1 2 900 1) (toy_key 1))).
Proof. exact e_C50_expired. Qed.

(** Refuted: at second 5 a certificate made at second 500 is stored. *)
Theorem C51_nothing_from_the_future_refuted : exists C d cp c ts i resp d' x, crypto_laws C /\ wasm32 C = true /\ service_reachable C d /\ service_typed c /\
  given_time c = Some (ts, i) /\ service_step C d (cp, c, None) = (Ok resp, d') /\ success resp = true /\
  stored d' x /\ ~ stored d x /\ ts < secs (rel_issued_at x).
Proof. exact p_C51_nothing_from_the_future_refuted. Qed.
Print Assumptions C51_nothing_from_the_future_refuted.

(** What a service call can add. *)
Theorem C51_what_calls_add : forall C d cp c fu r d' x, crypto_laws C -> service_reachable C d -> service_typed c ->
  service_step C d (cp, c, fu) = (r, d') -> stored d' x -> ~ stored d x ->
  exists g y, requests C cp c g /\ admitted cp c /\ offers g y /\ genuine C g y /\ x = whole y.
Proof. exact p_C51_what_calls_add. Qed.
Print Assumptions C51_what_calls_add.

(** All calls but [insert_cert] and [insert_cert_raw]: what they store was made no later than the
    time they were given, and that is the host's. *)
Theorem C51_nothing_from_the_future_partial : forall C d cp c fu r d' x, crypto_laws C -> service_reachable C d -> service_typed c ->
  inserts_cert c = false -> service_step C d (cp, c, fu) = (r, d') -> stored d' x -> ~ stored d x ->
  exists ts i, given_time c = Some (ts, i) /\ host_time cp i /\ secs (rel_issued_at x) <= ts.
Proof. exact p_C51_nothing_from_the_future_partial. Qed.
Print Assumptions C51_nothing_from_the_future_partial.

(** All histories without those two calls. *)
Theorem C51_nothing_from_the_future_history_partial : forall C es x, crypto_laws C -> service_events_typed es ->
  (forall cp c fu, In (cp, c, fu) es -> inserts_cert c = false) -> stored (service_history C empty_db es) x ->
  exists cp c fu ts i, In (cp, c, fu) es /\ given_time c = Some (ts, i) /\ host_time cp i /\ secs (rel_issued_at x) <= ts.
Proof. exact p_C51_nothing_from_the_future_history_partial. Qed.
Print Assumptions C51_nothing_from_the_future_history_partial.

(** A future-dated trust offered to [add_trust] is refused, a past one stored. *)
Example C51_example_add_trust : succeeds (service_step (toy true) base_store (timed_call 2, S_add_trust (trust_rec 1 3 900 500) (pid 1) 5, None)) = false /\
  succeeds (service_step (toy true) base_store (timed_call 2, S_add_trust (trust_rec 1 3 900 5) (pid 1) 5, None)) = true.
Proof. exact e_C51_add_trust. Qed.

(** ** C52 *)
Theorem C52_trust_record_roundtrip : forall C t, crypto_laws C -> trust_fits C t -> pk_fmt (issued_for t) <> Rsa ->
  trust_of_dto C (dto_of_trust C t) = Ok t.
Proof. exact p_C52_trust_record_roundtrip. Qed.
Print Assumptions C52_trust_record_roundtrip.

Theorem C52_certificate_record_roundtrip : forall C c, crypto_laws C -> (forall t, In t c -> trust_fits C t /\ pk_fmt (issued_for t) <> Rsa) ->
  cert_of_dto C (dto_of_cert C c) = Ok c.
Proof. exact p_C52_certificate_record_roundtrip. Qed.
Print Assumptions C52_certificate_record_roundtrip.

Theorem C52_revocation_record_roundtrip : forall C v, crypto_laws C -> pk_valid C (rev_pk v) -> pk_fmt (rev_pk v) <> Rsa ->
  pk_valid C (revoked_by v) -> pk_fmt (revoked_by v) <> Rsa -> sig_valid C (rev_sig v) -> whole_secs (revoked_at v) ->
  revocation_of_dto C (dto_of_revocation C v) = Ok v.
Proof. exact p_C52_revocation_record_roundtrip. Qed.
Print Assumptions C52_revocation_record_roundtrip.

(** A record is turned into a value exactly if it describes one. *)
Theorem C52_records_exact : forall C,
  (forall r t, trust_of_dto C r = Ok t <-> trust_record C r t) /\
  (forall r c, cert_of_dto C r = Ok c <-> certificate_record C r c) /\
  (forall r v, revocation_of_dto C r = Ok v <-> revocation_record C r v).
Proof. exact p_C52_records_exact. Qed.
Print Assumptions C52_records_exact.

Example C52_example_fits : trust_fits (toy true) (toy_trust 1 2 900 1) /\ pk_fmt (issued_for (toy_trust 1 2 900 1)) <> Rsa /\
  trust_fits (toy true) (mk_trust secp_key (from_secs 9) (mk_sig Secp256k1 [x30]) (from_secs 1)).
Proof. exact e_C52_fits. Qed.

(** ** C53 *)
(** [verify_trust] says exactly whether the trust is signed by the issuer and not expired. *)
Theorem C53_verify_trust_exact : forall C d cp r q ts fu d' resp,
  service_step C d (cp, S_verify_trust r q ts, fu) = (Ok resp, d') ->
  d' = d /\
  (success resp = true <-> host_time cp 2 /\ exists t k, trust_record C r t /\ peer_key C q k /\ signed_trust C k t /\ ~ before (expires_at t) (from_secs ts)).
Proof. exact p_C53_verify_trust_exact. Qed.
Print Assumptions C53_verify_trust_exact.

(** [get_trust_bytes], signing, [issue_trust], [verify_trust], [add_trust]: for all keys, whatever
    their kinds. *)
Theorem C53_trust_flow : forall C d kp p k q e i cp cp' fu, crypto_laws C -> wasm32 C = true -> kp_valid C kp ->
  peer_key C p k -> peer_key C q (kp_public C kp) -> e < u64_bound -> i < u64_bound ->
  exists m s r t,
    service_step C d (cp, S_get_trust_bytes p e i, fu) = (Ok (mk_response true None (P_bytes m)), d) /\
    kp_sign C kp m = Ok s /\
    service_step C d (cp', S_issue_trust p e i (sig_raw s), fu) = (Ok (mk_response true None (P_trust r)), d) /\
    trust_record C r t /\ issued_for t = k /\ expires_at t = from_secs e /\ issued_at t = from_secs i /\ signed_trust C (kp_public C kp) t /\
    (forall cp2 d2 fu2 ts, host_time cp2 2 -> ts <= e ->
       service_step C d2 (cp2, S_verify_trust r q ts, fu2) = (Ok (mk_response true None P_none), d2)) /\
    (forall cp2 d2 ts, service_reachable C d2 -> host_time cp2 2 -> i <= ts -> ts <= e ->
       exists w d3, service_step C d2 (cp2, S_add_trust r q ts, None) = (Ok (mk_response true None (P_added w)), d3)).
Proof. exact p_C53_trust_flow. Qed.
Print Assumptions C53_trust_flow.

(** The key pair of an Ed25519 issuer and a Secp256k1 subject meet the hypotheses. *)
Example C53_example_mixed : kp_valid (toy true) (toy_kp 1) /\ peer_key (toy true) secp_pid secp_key /\ peer_key (toy true) (pid 1) (kp_public (toy true) (toy_kp 1)).
Proof. exact e_C53_mixed. Qed.

(** The same for revocations. *)
Theorem C53_revocation_flow : forall C d kp p k q a cp cp' fu, crypto_laws C -> wasm32 C = true -> kp_valid C kp ->
  peer_key C p k -> peer_key C q (kp_public C kp) -> a < u64_bound ->
  exists m s r v,
    service_step C d (cp, S_get_revocation_bytes p a, fu) = (Ok (mk_response true None (P_bytes m)), d) /\
    kp_sign C kp m = Ok s /\
    service_step C d (cp', S_issue_revocation q p a (sig_raw s), fu) = (Ok (mk_response true None (P_revocation r)), d) /\
    revocation_record C r v /\ rev_pk v = k /\ revoked_by v = kp_public C kp /\ revoked_at v = from_secs a /\ signed_revocation C v /\
    (forall cp2 d2 ts, service_reachable C d2 -> host_time cp2 1 -> a <= ts -> ts < u64_bound ->
       exists d3, service_step C d2 (cp2, S_revoke r ts, None) = (Ok (mk_response true None P_none), d3) /\ imported d2 (RRev v) d3).
Proof. exact p_C53_revocation_flow. Qed.
Print Assumptions C53_revocation_flow.

(** ** C55 *)
(** [export_revocations] lists exactly the stored revocations of the key, once each; every one of
    them is accepted by [revoke] of any other instance of the service. *)
Theorem C55_export_revocations_exact : forall C d cp p fu resp d', crypto_laws C -> wasm32 C = true -> service_reachable C d ->
  service_step C d (cp, S_export_revocations p, fu) = (Ok resp, d') -> success resp = true ->
  d' = d /\ exists k rs vs, peer_key C p k /\ reply resp = P_revocations rs /\ Forall2 (revocation_record C) rs vs /\ NoDup vs /\
    (forall v, In v vs <-> stored_revocation d v /\ rev_pk v = k) /\
    (forall r cp2 d2 ts, In r rs -> service_reachable C d2 -> host_time cp2 1 -> dr_revoked_at r <= ts -> ts < u64_bound ->
       exists v d3, In v vs /\ revocation_record C r v /\
         service_step C d2 (cp2, S_revoke r ts, None) = (Ok (mk_response true None P_none), d3) /\ imported d2 (RRev v) d3).
Proof. exact p_C55_export_revocations_exact. Qed.
Print Assumptions C55_export_revocations_exact.

Example C55_example_export : exists v, snd (service_step (toy true) base_store (timed_call 1, S_revoke (rev_rec 1 2 4) 6, None)) = v /\
  succeeds (service_step (toy true) v (script_call, S_export_revocations (pid 2), None)) = true /\
  fst (service_step (toy true) v (script_call, S_export_revocations (pid 2), None)) = Ok (mk_response true None (P_revocations [rev_rec 1 2 4])).
Proof. exact e_C55_export. Qed.

