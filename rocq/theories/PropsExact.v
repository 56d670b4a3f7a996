(** What exactly holds where a stronger property is false. Every proof is a lemma of ExactThms.v. *)
From Coq Require Import List NArith ZArith Bool.
From Coq Require String.
Import String.StringSyntax.
From Verif Require Import Base Text Keys Trust Certificate Relation Storage Graph Service Spec Toy ToyFacts GraphFacts Witness ServiceSpec ServiceWitness Aqua AquaSpec AquaWitness AquaEx Boot BootSpec Tools ToolsSpec ToolsEx ExactThms.
Import ListNotations.
Open Scope N_scope.

(** ** C132 *)
(** The type a new trust record is given is the kind of the key the trust is for. *)
Theorem C132_trust_type : forall C d cp p e i b fu r d', service_step C d (cp, S_issue_trust p e i b, fu) = (Ok (mk_response true None (P_trust r)), d') ->
  d' = d /\ exists k, peer_key C p k /\ dt_sig_type r = fmt_text (pk_fmt k).
Proof. exact p_C132_trust_type. Qed.
Print Assumptions C132_trust_type.

(** So it is the kind of the signature exactly if the keys of the issuer and of the subject are of the same kind. *)
Theorem C132_trust_type_right : forall C d cp kp p k e i m s fu r d', peer_key C p k -> kp_sign C kp m = Ok s ->
  service_step C d (cp, S_issue_trust p e i (sig_raw s), fu) = (Ok (mk_response true None (P_trust r)), d') ->
  (dt_sig_type r = fmt_text (sig_fmt s) <-> pk_fmt k = kp_fmt kp).
Proof. exact p_C132_trust_type_right. Qed.
Print Assumptions C132_trust_type_right.

(** A new revocation record has the kind of the revoker's signature. *)
Theorem C132_revocation_type : forall C d cp kp q p a m s fu r d', peer_key C q (kp_public C kp) -> kp_sign C kp m = Ok s ->
  service_step C d (cp, S_issue_revocation q p a (sig_raw s), fu) = (Ok (mk_response true None (P_revocation r)), d') ->
  d' = d /\ dr_sig_type r = fmt_text (sig_fmt s).
Proof. exact p_C132_revocation_type. Qed.
Print Assumptions C132_revocation_type.

(** An Ed25519 key signs a trust for a Secp256k1 key: the record says [secp256k1]. *)
Theorem C132_signature_type_refuted : exists C d cp kp p k e i m s r d', crypto_laws C /\ wasm32 C = true /\ kp_valid C kp /\ peer_key C p k /\
  service_step C d (cp, S_get_trust_bytes p e i, None) = (Ok (mk_response true None (P_bytes m)), d) /\ kp_sign C kp m = Ok s /\
  service_step C d (cp, S_issue_trust p e i (sig_raw s), None) = (Ok (mk_response true None (P_trust r)), d') /\
  dt_sig_type r <> fmt_text (sig_fmt s).
Proof. exact p_C132_signature_type_refuted. Qed.
Print Assumptions C132_signature_type_refuted.

(** ** C133 *)
(** An Ed25519 or Secp256k1 pair comes back from the bytes [to_vec] makes of it and from its secret. *)
Theorem C133_pair_comes_back : forall C kp, crypto_laws C -> kp_valid C kp -> kp_fmt kp <> Rsa ->
  exists b s, kp_to_vec C kp = Ok b /\ kp_from_vec C b (kp_fmt kp) = Ok kp /\
    kp_secret_bytes kp = Some s /\ kp_from_secret_key C s (kp_fmt kp) = Ok kp.
Proof. exact p_C133_pair_comes_back. Qed.
Print Assumptions C133_pair_comes_back.

(** Reading any bytes as any kind of pair gives a pair or an error. *)
Theorem C133_no_panic : forall C b f,
  ((exists kp, kp_from_vec C b f = Ok kp) \/ (exists e, kp_from_vec C b f = Err e)) /\
  ((exists kp, kp_from_secret_key C b f = Ok kp) \/ (exists e, kp_from_secret_key C b f = Err e)).
Proof. exact p_C133_no_panic. Qed.
Print Assumptions C133_no_panic.

Example C133_example_pairs : kp_valid (toy true) (toy_kp 3) /\ kp_fmt (toy_kp 3) <> Rsa /\ kp_from_vec (toy true) [] Ed25519 = Err DE_InvalidLength /\
  kp_from_vec (toy true) [x01] Rsa = Err DE_KeypairDecodingIsNotSupported.
Proof. exact e_C133_pairs. Qed.

(** ** C134 *)
(** A certificate is added. If afterwards every trust of it is stored, or something as new from the same issuer about the same key,
    then adding it again succeeds and changes nothing. *)
Theorem C134_add_again : forall C d c now d1 d2 r, reachable C d -> call_typed C (G_add c now) ->
  (forall t, In t c -> secs now < secs (expires_at t) < i64_bound) ->
  graph_step C d (G_add c now, None) = (Ok GR_unit, d1) ->
  (forall t b, in_chain c t b -> exists y, stored d1 y /\ same_keys (RAuth (mk_auth t b)) y /\ (y = whole (RAuth (mk_auth t b)) \/ ~ before (rel_issued_at y) (issued_at t))) ->
  graph_step C d1 (G_add c now, None) = (r, d2) -> r = Ok GR_unit /\ same_contents d1 d2.
Proof. exact p_C134_add_again. Qed.
Print Assumptions C134_add_again.

(** Key R, the root, trusts A and A trusts B. The certificate is added and all of it is stored. *)
Example C134_example_stored : call_typed (toy false) (G_add stays (at_ 5)) /\ (forall t, In t stays -> 5 < secs (expires_at t) < i64_bound) /\
  graph_step (toy false) (db_of (after base)) (G_add stays (at_ 5), None) = (Ok GR_unit, db_of (after (base ++ [G_add stays (at_ 5)]))) /\
  forall t b, in_chain stays t b -> stored (db_of (after (base ++ [G_add stays (at_ 5)]))) (whole (RAuth (mk_auth t b))).
Proof. exact e_C134_stored. Qed.

(** ** C135 *)
(** Databases do not fail. An error of [add_root_trust] means that nothing was stored; at most the key became a root, and only the
    owner can bring that about. *)
Theorem C135_error_leaves : forall C net src node p n e i now st x st', crypto_laws C -> wasm32 C = true -> network_state C st -> no_faults net ->
  n < u32_bound -> e < u64_bound -> i < u64_bound -> now < u64_bound ->
  aq_add_root_trust C net src node p n e i now st = (Ok [x], st') ->
  only_at node st st' /\ (unchanged st st' \/ (owns net node /\ exists k, peer_key C p k /\ root_set (st node) k (N.min n 16) (st' node))).
Proof. exact p_C135_error_leaves. Qed.
Print Assumptions C135_error_leaves.

(** With a Sig service that signs for the key the owner gets an error exactly if the clock of the node says that the trust is made
    in the future or expired, and then the key is a root without its own trust. *)
Theorem C135_owner_exact : forall C net src node p kp n e i now st r st', crypto_laws C -> wasm32 C = true -> network_state C st ->
  n < u32_bound -> e < u64_bound -> i < u64_bound -> now < u64_bound -> signer C net p kp -> no_faults net -> owns net node ->
  aq_add_root_trust C net src node p n e i now st = (r, st') ->
  ((i <= now /\ now <= e) /\ r = Ok []) \/
  (~ (i <= now /\ now <= e) /\ (exists x, r = Ok [x]) /\ only_at node st st' /\ root_set (st node) (kp_public C kp) (N.min n 16) (st' node)).
Proof. exact p_C135_owner_exact. Qed.
Print Assumptions C135_owner_exact.

(** The owner, with the clock of the relay ahead. *)
Example C135_example_hypotheses : owns (toy_net owner_peer) host_peer /\ no_faults (toy_net owner_peer) /\ signer (toy true) (toy_net owner_peer) (pid 3) (toy_kp 3) /\
  told (aq_add_root_trust (toy true) (toy_net owner_peer) typed_in host_peer (pid 3) 4 800 7 6 toy_stores) = Some [AE_service (Some SVE_InvalidTimestamp)].
Proof. exact e_C135_hypotheses. Qed.

(** ** C136 *)
(** [get_weight_from] for two peer ids with keys: it answers as the graph of the node does if the issuer is said to come from the
    clock of the node; else it is refused and nothing changes. *)
Theorem C136_get_weight_from : forall C net src node p k q b now st r st', crypto_laws C -> wasm32 C = true -> network_state C st -> now < u64_bound ->
  peer_key C p k -> peer_key C q b -> aq_get_weight_from C net src node p q now st = (r, st') ->
  ((exists ts, src 1%nat = mk_tetraplet node (str "peer") (str "timestamp_sec") :: ts) /\
     answers_as C net node (S_get_weight_from p q now) (G_weight_from k b (from_secs now)) st st' r) \/
  ((forall ts, src 1%nat <> mk_tetraplet node (str "peer") (str "timestamp_sec") :: ts) /\
     r = Ok (mk_response false (Some SVE_InvalidTimestampTetraplet) (P_weight 0 [])) /\ unchanged st st').
Proof. exact p_C136_get_weight_from. Qed.
Print Assumptions C136_get_weight_from.

Example C136_example_both : option_map reply (told (aq_get_weight_from (toy true) (toy_net stranger_peer) (fun _ => clock_of host_peer) host_peer (pid 2) (pid 1) 6 toy_stores)) =
    Some (P_weight 16 (pid 2)) /\
  option_map reply (told (aq_get_weight_from (toy true) (toy_net stranger_peer) typed_in host_peer (pid 2) (pid 1) 6 toy_stores)) = Some (P_weight 0 []).
Proof. exact e_C136_both. Qed.

(** ** C137 *)
(** The relay stores a revocation of the client. If the client's computation runs, then the relay has a chain to the node with the
    client in it, in which the client trusts the node itself or the revoker does not stand before the client. *)
Theorem C137_revoked_runs : forall C net o node k b v now st st', crypto_laws C -> wasm32 C = true -> network_state C st -> now < u64_bound -> no_faults net ->
  peer_key C node k -> peer_key C (initiator net) b -> stored_revocation (st (relay net)) v -> rev_pk v = b ->
  trusted_computation C net o node now st = (Ok ran, st') ->
  exists c n, root_chain (st' (relay net)) k c /\ key_at c n b /\
    ((exists t, stored_trust (st' (relay net)) b t /\ issued_for t = k) \/ forall i, key_at c i (revoked_by v) -> ~ (i < n)%nat).
Proof. exact p_C137_revoked_runs. Qed.
Print Assumptions C137_revoked_runs.

(** So a revoked client is refused on every node it does not trust itself, if every chain that leads over the client leads over the
    revoker first. *)
Theorem C137_revoked_refused : forall C net o node k b v now st r st', crypto_laws C -> wasm32 C = true -> network_state C st -> now < u64_bound -> no_faults net ->
  peer_key C node k -> peer_key C (initiator net) b -> stored_revocation (st (relay net)) v -> rev_pk v = b ->
  (forall t, stored_trust (st' (relay net)) b t -> issued_for t <> k) ->
  (forall c n, root_chain (st' (relay net)) k c -> key_at c n b -> exists i, (i < n)%nat /\ key_at c i (revoked_by v)) ->
  trusted_computation C net o node now st = (r, st') -> r = Ok refused.
Proof. exact p_C137_revoked_refused. Qed.
Print Assumptions C137_revoked_refused.

(** Key 1, the only root, has revoked client 3. The client's computations run on node 4, which it trusts, and not on node 3. *)
Example C137_example_hypotheses : network_state (toy true) revoked_client_stores /\ no_faults (toy_net (pid 3)) /\
  (exists v, stored_revocation (revoked_client_stores (relay (toy_net (pid 3)))) v /\ rev_pk v = toy_key 3 /\ revoked_by v = toy_key 1) /\
  fst (trusted_computation (toy true) (toy_net (pid 3)) [from_script] (pid 4) 9 revoked_client_stores) = Ok ran /\
  fst (trusted_computation (toy true) (toy_net (pid 3)) [from_script] (pid 3) 9 revoked_client_stores) = Ok refused.
Proof. exact e_C137_hypotheses. Qed.
