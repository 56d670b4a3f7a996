(** The properties of the Aqua scripts. Every proof is a lemma of AquaThms.v, AquaTrace.v, AquaEx.v or AquaMore.v. *)
From Coq Require Import List NArith ZArith Bool.
From Coq Require String.
Import String.StringSyntax.
From Verif Require Import Base Text Keys Trust Certificate Relation Storage Graph Service Spec ServiceSpec Toy ServiceWitness
  Aqua AquaSpec AquaWitness AquaThms AquaTrace AquaEx AquaMore.
Import ListNotations.
Open Scope N_scope.

(** ** C88 *)
(** [issue_trust] changes no store and gives exactly one of a trust and an error. *)
Theorem C88_issue_trust_only_computes : forall C net src issuer p e i st r st', aq_issue_trust C net src issuer p e i st = (r, st') ->
  unchanged st st' /\ ((exists x, r = Ok ([x], [])) \/ (exists x, r = Ok ([], [x]))).
Proof. exact p_C88_issue_trust_only_computes. Qed.
Print Assumptions C88_issue_trust_only_computes.

(** It fails only if the peer id has no key or the Sig service does not sign. *)
Theorem C88_issue_trust_fails_exactly : forall C net src issuer p e i st,
  (exists x, fst (aq_issue_trust C net src issuer p e i st) = Ok ([], [x])) <->
  forall k, peer_key C p k -> sign_with net issuer (sha256 C (pk_encode k ++ le_bytes 8 e ++ le_bytes 8 i)) = None.
Proof. exact p_C88_issue_trust_fails_exactly. Qed.
Print Assumptions C88_issue_trust_fails_exactly.

(** With a Sig service that signs for the issuer, it gives a trust with the asked contents that the
    issuer's key accepts. *)
Theorem C88_issued_trust_is_genuine : forall C net src issuer kp p k e i st, crypto_laws C -> wasm32 C = true ->
  signer C net issuer kp -> peer_key C p k ->
  exists x t, fst (aq_issue_trust C net src issuer p e i st) = Ok ([x], []) /\ trust_record C x t /\ trust_asked C (kp_public C kp) k e i t.
Proof. exact p_C88_issued_trust_is_genuine. Qed.
Print Assumptions C88_issued_trust_is_genuine.

(** The same for revocations. *)
Theorem C88_issue_revocation_only_computes : forall C net src q p i st r st', aq_issue_revocation C net src q p i st = (r, st') ->
  unchanged st st' /\ ((exists x, r = Ok ([x], [])) \/ (exists x, r = Ok ([], [x]))).
Proof. exact p_C88_issue_revocation_only_computes. Qed.
Print Assumptions C88_issue_revocation_only_computes.

Theorem C88_issued_revocation_is_genuine : forall C net src q kp p k i st, crypto_laws C -> wasm32 C = true ->
  signer C net q kp -> peer_key C p k ->
  exists x v, fst (aq_issue_revocation C net src q p i st) = Ok ([x], []) /\ revocation_record C x v /\ revocation_asked C (kp_public C kp) k i v.
Proof. exact p_C88_issued_revocation_is_genuine. Qed.
Print Assumptions C88_issued_revocation_is_genuine.

(** The toy network has a Sig service for key 1 and peer id 4 has a key. *)
Example C88_example_signs : signer (toy true) (toy_net stranger_peer) (pid 1) (toy_kp 1) /\ peer_key (toy true) (pid 4) (toy_key 4) /\
  told (aq_issue_trust (toy true) (toy_net stranger_peer) typed_in (pid 1) (pid 4) 800 5 toy_stores) = Some ([trust_rec 1 4 800 5], []).
Proof. exact e_C88_signs. Qed.

Example C88_example_revokes : told (aq_issue_revocation (toy true) (toy_net stranger_peer) typed_in (pid 1) (pid 4) 5 toy_stores) = Some ([rev_rec 1 4 5], []).
Proof. exact e_C88_revokes. Qed.

(** ** C89 *)
(** No error of [add_trust] means: the issuer signed the trust, it was neither made after nor expired before the time of
    the node, and the node added it to its graph: it stored it if the issuer has weight enough. *)
Theorem C89_add_trust_done : forall C net src node issuer p e i now st st', crypto_laws C -> wasm32 C = true -> network_state C st ->
  e < u64_bound -> i < u64_bound -> now < u64_bound -> aq_add_trust C net src node issuer p e i now st = (Ok [], st') ->
  only_at node st st' /\
  exists b k t w d1, peer_key C issuer b /\ peer_key C p k /\ trust_asked C b k e i t /\ i <= now /\ now <= e /\
    graph_step C (st node) (G_weight b (from_secs now), None) = (Ok (GR_weight w), d1) /\ collected (st node) (from_secs now) d1 /\
    (((w = 0 \/ (w = 1 /\ b <> k)) /\ st' node = d1) \/
     ((0 < w /\ (w = 1 -> b = k)) /\ imported d1 (RAuth (mk_auth t b)) (st' node))).
Proof. exact p_C89_add_trust_done. Qed.
Print Assumptions C89_add_trust_done.

(** With a Sig service that signs for the issuer and databases that do not fail, exactly the clocks decide; an error leaves
    all stores as they were. *)
Theorem C89_add_trust_exact : forall C net src node issuer kp p k e i now st r st', crypto_laws C -> wasm32 C = true -> network_state C st ->
  e < u64_bound -> i < u64_bound -> now < u64_bound -> signer C net issuer kp -> no_faults net -> peer_key C p k ->
  aq_add_trust C net src node issuer p e i now st = (r, st') ->
  ((i <= now /\ now <= e) /\ r = Ok []) \/ (~ (i <= now /\ now <= e) /\ (exists x, r = Ok [x]) /\ unchanged st st').
Proof. exact p_C89_add_trust_exact. Qed.
Print Assumptions C89_add_trust_exact.

Example C89_example_hypotheses : network_state (toy true) toy_stores /\ signer (toy true) (toy_net stranger_peer) (pid 1) (toy_kp 1) /\
  no_faults (toy_net stranger_peer) /\ peer_key (toy true) (pid 4) (toy_key 4) /\
  told (aq_add_trust (toy true) (toy_net stranger_peer) typed_in host_peer (pid 1) (pid 4) 800 5 6 toy_stores) = Some [] /\
  told (aq_add_trust (toy true) (toy_net stranger_peer) typed_in host_peer (pid 1) (pid 4) 800 7 6 toy_stores) = Some [AE_service (Some SVE_InvalidTimestamp)].
Proof. exact e_C89_hypotheses. Qed.

(** ** C90 *)
(** No error of [add_root_trust] means: the user owns the service of the node, the key became a root there (if it was none)
    and its own trust, signed by it, was imported. *)
Theorem C90_add_root_trust_done : forall C net src node p n e i now st st', crypto_laws C -> wasm32 C = true -> network_state C st ->
  n < u32_bound -> e < u64_bound -> i < u64_bound -> now < u64_bound ->
  aq_add_root_trust C net src node p n e i now st = (Ok [], st') ->
  only_at node st st' /\ owns net node /\
  exists k t d1 d2, peer_key C p k /\ trust_asked C k k e i t /\ i <= now /\ now <= e /\
    root_set (st node) k (N.min n 16) d1 /\ collected d1 (from_secs now) d2 /\ imported d2 (RAuth (mk_auth t k)) (st' node).
Proof. exact p_C90_add_root_trust_done. Qed.
Print Assumptions C90_add_root_trust_done.

(** Someone else gets an error and nothing changes. *)
Theorem C90_only_the_owner : forall C net src node p n e i now st r st', crypto_laws C -> wasm32 C = true -> network_state C st ->
  n < u32_bound -> ~ owns net node -> aq_add_root_trust C net src node p n e i now st = (r, st') ->
  (exists x, r = Ok [x]) /\ unchanged st st'.
Proof. exact p_C90_only_the_owner. Qed.
Print Assumptions C90_only_the_owner.

(** The owner succeeds if the Sig service signs for the key, the databases do not fail and the clocks agree. *)
Theorem C90_add_root_trust_completes : forall C net src node p kp n e i now st r st', crypto_laws C -> wasm32 C = true -> network_state C st ->
  n < u32_bound -> e < u64_bound -> i < u64_bound -> now < u64_bound -> signer C net p kp -> no_faults net -> owns net node -> i <= now -> now <= e ->
  aq_add_root_trust C net src node p n e i now st = (r, st') -> r = Ok [].
Proof. exact p_C90_add_root_trust_completes. Qed.
Print Assumptions C90_add_root_trust_completes.

Example C90_example_hypotheses : owns (toy_net owner_peer) host_peer /\ ~ owns (toy_net stranger_peer) host_peer /\
  signer (toy true) (toy_net owner_peer) (pid 3) (toy_kp 3) /\
  told (aq_add_root_trust (toy true) (toy_net owner_peer) typed_in host_peer (pid 3) 4 800 5 6 toy_stores) = Some [] /\
  told (aq_add_root_trust (toy true) (toy_net stranger_peer) typed_in host_peer (pid 3) 4 800 5 6 toy_stores) = Some [AE_service (Some SVE_NotOwner)].
Proof. exact e_C90_hypotheses. Qed.

(** ** C91 *)
(** No error of [revoke] means that a revocation signed by the revoker was imported on the node. *)
Theorem C91_revoke_done : forall C net src node q p i now st st', crypto_laws C -> wasm32 C = true -> network_state C st ->
  i < u64_bound -> now < u64_bound -> aq_revoke C net src node q p i now st = (Ok [], st') ->
  only_at node st st' /\
  exists b k v, peer_key C q b /\ peer_key C p k /\ revocation_asked C b k i v /\ i <= now /\ imported (st node) (RRev v) (st' node).
Proof. exact p_C91_revoke_done. Qed.
Print Assumptions C91_revoke_done.

(** With a good Sig service and databases that do not fail exactly the clocks decide. *)
Theorem C91_revoke_exact : forall C net src node q kp p k i now st r st', crypto_laws C -> wasm32 C = true -> network_state C st ->
  i < u64_bound -> now < u64_bound -> signer C net q kp -> no_faults net -> peer_key C p k ->
  aq_revoke C net src node q p i now st = (r, st') ->
  (i <= now /\ r = Ok []) \/ (now < i /\ (exists x, r = Ok [x]) /\ unchanged st st').
Proof. exact p_C91_revoke_exact. Qed.
Print Assumptions C91_revoke_exact.

Example C91_example_hypotheses : signer (toy true) (toy_net stranger_peer) (pid 1) (toy_kp 1) /\
  told (aq_revoke (toy true) (toy_net stranger_peer) typed_in host_peer (pid 1) (pid 2) 5 6 toy_stores) = Some [] /\
  told (aq_revoke (toy true) (toy_net stranger_peer) typed_in host_peer (pid 1) (pid 2) 7 6 toy_stores) = Some [AE_service (Some SVE_InvalidTimestamp)].
Proof. exact e_C91_hypotheses. Qed.

(** ** C92 *)
(** The queries of the interface answer as the graph of the node at the time of the node. *)
Theorem C92_get_weight : forall C net src node p k now st r st', crypto_laws C -> wasm32 C = true -> network_state C st -> now < u64_bound ->
  peer_key C p k -> aq_get_weight C net src node p now st = (r, st') ->
  answers_as C net node (S_get_weight p now) (G_weight k (from_secs now)) st st' r.
Proof. exact p_C92_get_weight. Qed.
Print Assumptions C92_get_weight.

Theorem C92_get_all_certs : forall C net src node p k now st r st', crypto_laws C -> wasm32 C = true -> network_state C st -> now < u64_bound ->
  peer_key C p k -> aq_get_all_certs C net src node p now st = (r, st') ->
  answers_as C net node (S_get_all_certs p now) (G_get_all_certs k (from_secs now)) st st' r.
Proof. exact p_C92_get_all_certs. Qed.
Print Assumptions C92_get_all_certs.

Theorem C92_get_all_certs_from : forall C net src node p k q b now st r st', crypto_laws C -> wasm32 C = true -> network_state C st -> now < u64_bound ->
  peer_key C p k -> peer_key C q b -> aq_get_all_certs_from C net src node p q now st = (r, st') ->
  answers_as C net node (S_get_all_certs_from p q now) (G_get_all_certs_from k b (from_secs now)) st st' r.
Proof. exact p_C92_get_all_certs_from. Qed.
Print Assumptions C92_get_all_certs_from.

Theorem C92_get_host_certs : forall C net node k now st r st', crypto_laws C -> wasm32 C = true -> network_state C st -> now < u64_bound ->
  peer_key C node k -> aq_get_host_certs C net node now st = (r, st') ->
  answers_as C net node (S_get_host_certs now) (G_get_all_certs k (from_secs now)) st st' r.
Proof. exact p_C92_get_host_certs. Qed.
Print Assumptions C92_get_host_certs.

Theorem C92_get_host_certs_from : forall C net node k o q b now st r st', crypto_laws C -> wasm32 C = true -> network_state C st -> now < u64_bound ->
  peer_key C node k -> peer_key C q b -> aq_get_host_certs_from C net node o q now st = (r, st') ->
  answers_as C net node (S_get_host_certs_from q now) (G_get_all_certs_from k b (from_secs now)) st st' r.
Proof. exact p_C92_get_host_certs_from. Qed.
Print Assumptions C92_get_host_certs_from.

Theorem C92_verify_trust : forall C net src node x q now st r st', aq_verify_trust C net src node x q now st = (r, st') ->
  unchanged st st' /\ exists resp, r = Ok resp /\
  (success resp = true <-> exists t k, trust_record C x t /\ peer_key C q k /\ signed_trust C k t /\ ~ before (expires_at t) (from_secs now)).
Proof. exact p_C92_verify_trust. Qed.
Print Assumptions C92_verify_trust.

Example C92_example_asks : network_state (toy true) toy_stores /\ peer_key (toy true) (pid 2) (toy_key 2) /\
  option_map reply (told (aq_get_weight (toy true) (toy_net stranger_peer) typed_in host_peer (pid 2) 6 toy_stores)) = Some (P_weight 16 (pid 2)).
Proof. exact e_C92_asks. Qed.

(** ** C93 *)
(** labelling.aqua: a node is told to be a Fluence peer exactly if its own store vouches for its key at the time of its clock.
    Without a failure of the database there is an answer. *)
Theorem C93_is_fluence_peer_exact : forall C net node k now st r st', crypto_laws C -> wasm32 C = true -> literal_keys C -> network_state C st ->
  now < u64_bound -> peer_key C node k -> is_fluence_peer C net node now st = (r, st') ->
  only_at node st st' /\
  ((exists b, r = Ok ([b], []) /\ collected (st node) (from_secs now) (st' node) /\ (b = true <-> vouched (st' node) k)) \/
   (exists e, r = Ok ([], [e]) /\ exists c, fault net node c <> None)).
Proof. exact p_C93_is_fluence_peer_exact. Qed.
Print Assumptions C93_is_fluence_peer_exact.

(** The labelled host is a Fluence peer until second 799 and not from second 800 on; the relay is none. *)
Example C93_example_labelled : network_state (toy true) label_stores /\ literal_keys (toy true) /\ peer_key (toy true) host_peer (toy_key 9) /\
  told (is_fluence_peer (toy true) (toy_net stranger_peer) host_peer 799 label_stores) = Some ([true], []) /\
  told (is_fluence_peer (toy true) (toy_net stranger_peer) host_peer 800 label_stores) = Some ([false], []) /\
  told (is_fluence_peer (toy true) (toy_net stranger_peer) (pid 6) 5 label_stores) = Some ([false], []).
Proof. exact e_C93_labelled. Qed.

(** ** C94 *)
(** A function of the interface changes at most the store of its node, and leaves a store that a service can leave. *)
Theorem C94_one_node : forall C net src a st, api_typed a -> network_state C st ->
  network_state C (run C net src a st) /\ forall n, target a <> Some n -> run C net src a st n = st n.
Proof. exact p_C94_one_node. Qed.
Print Assumptions C94_one_node.

Theorem C94_roots_by_owner : forall C net src a st n k m, crypto_laws C -> api_typed a -> network_state C st ->
  root_max_len (run C net src a st n) k m ->
  root_max_len (st n) k m \/
  (target a = Some n /\ owns net n /\ exists p l, root_of a = Some (p, l) /\ peer_key C p k /\ m = N.min l 16).
Proof. exact p_C94_roots_by_owner. Qed.
Print Assumptions C94_roots_by_owner.

Theorem C94_every_root_is_the_owners : forall C us n k m, crypto_laws C -> uses_typed us ->
  root_max_len (run_all C us empty_network n) k m ->
  exists net src a p l, In (net, src, a) us /\ target a = Some n /\ owns net n /\ root_of a = Some (p, l) /\ peer_key C p k /\ m = N.min l 16.
Proof. exact p_C94_every_root_is_the_owners. Qed.
Print Assumptions C94_every_root_is_the_owners.

Example C94_example_uses : uses_typed labelling /\ root_max_len (label_stores host_peer) root_key 5 /\ target (A_set_root host_peer fluence_root_peer_id 5) = Some host_peer.
Proof. exact e_C94_uses. Qed.

(** ** C95 *)
Theorem C95_what_leaves : forall C net src a st n x, crypto_laws C -> wasm32 C = true -> api_typed a -> network_state C st -> stored (st n) x ->
  stored (run C net src a st n) x \/
  (target a = Some n /\
   ((exists now, node_time a = Some now /\ db_expired (from_secs now) x) \/
    (exists y, brings C a y /\ same_keys x y /\ before (rel_issued_at x) (rel_issued_at y)))).
Proof. exact p_C95_what_leaves. Qed.
Print Assumptions C95_what_leaves.

(** What a function adds is what it was asked to bring, signed by the key it names and, unless it came in a certificate, not made
    after the time of the clock of the node. *)
Theorem C95_what_arrives : forall C net src a st n x, crypto_laws C -> wasm32 C = true -> api_typed a -> network_state C st -> stored (run C net src a st n) x ->
  stored (st n) x \/
  (target a = Some n /\ brings C a x /\
   match a with
   | A_insert_cert _ _ _ => True
   | _ => exists now, node_time a = Some now /\ secs (rel_issued_at x) <= now
   end).
Proof. exact p_C95_what_arrives. Qed.
Print Assumptions C95_what_arrives.

(** Asking for a weight at second 901 removes the trust of key 2 from the store of the host. *)
Example C95_example_leaves : stored (toy_stores host_peer) (RAuth (mk_auth (toy_trust 1 2 900 1) (toy_key 1))) /\
  ~ stored (run (toy true) (toy_net stranger_peer) typed_in (A_get_weight host_peer (pid 2) 901) toy_stores host_peer) (RAuth (mk_auth (toy_trust 1 2 900 1) (toy_key 1))).
Proof. exact e_C95_leaves. Qed.

(** The owner's certificate arrives. *)
Example C95_example_arrives : ~ stored (empty_network host_peer) (RAuth (mk_auth (toy_given label_pair (toy_key 9) 800 1) label_key)) /\
  stored (label_stores host_peer) (RAuth (mk_auth (toy_given label_pair (toy_key 9) 800 1) label_key)).
Proof. exact e_C95_arrives. Qed.

(** ** C96 *)
(** No error does not mean that the trust is stored: the graph drops a trust of an issuer without weight. *)
Theorem C96_done_means_stored_refuted : exists C net src node issuer kp p k e i now st st', crypto_laws C /\ wasm32 C = true /\ network_state C st /\
  signer C net issuer kp /\ no_faults net /\ peer_key C p k /\ i <= now /\ now <= e /\
  aq_add_trust C net src node issuer p e i now st = (Ok [], st') /\ ~ exists t, issued_for t = k /\ stored_trust (st' node) (kp_public C kp) t.
Proof. exact p_C96_done_means_stored_refuted. Qed.
Print Assumptions C96_done_means_stored_refuted.

(** Nor does the script succeed whenever everyone cooperates: the clock of the relay may be ahead of the clock of the node. *)
Theorem C96_cooperation_suffices_refuted : exists C net src node issuer kp p k e i now st st' x, crypto_laws C /\ wasm32 C = true /\ network_state C st /\
  signer C net issuer kp /\ no_faults net /\ peer_key C p k /\ i < e /\ now < e /\
  aq_add_trust C net src node issuer p e i now st = (Ok [x], st').
Proof. exact p_C96_cooperation_suffices_refuted. Qed.
Print Assumptions C96_cooperation_suffices_refuted.

(** ** C97 *)
(** Not all or nothing: with the clock of the relay ahead it reports an error and yet the key is now a root. *)
Theorem C97_all_or_nothing_refuted : exists C net src node p k n e i now st st' x, crypto_laws C /\ wasm32 C = true /\ network_state C st /\
  no_faults net /\ peer_key C p k /\ aq_add_root_trust C net src node p n e i now st = (Ok [x], st') /\
  ~ is_root (st node) k /\ is_root (st' node) k.
Proof. exact p_C97_all_or_nothing_refuted. Qed.
Print Assumptions C97_all_or_nothing_refuted.

(** ** C98 *)
(** Except [get_weight_from]: the service looks at the origin of the issuer. Unless the issuer itself came from the clock of
    the node the call is refused. *)
Theorem C98_get_weight_from_refused : forall C net src node p q now st r st',
  (forall ts, src 1%nat <> mk_tetraplet node (str "peer") (str "timestamp_sec") :: ts) ->
  aq_get_weight_from C net src node p q now st = (r, st') ->
  r = Ok (mk_response false (Some SVE_InvalidTimestampTetraplet) (P_weight 0 [])) /\ unchanged st st'.
Proof. exact p_C98_get_weight_from_refused. Qed.
Print Assumptions C98_get_weight_from_refused.

Theorem C98_get_weight_from_answers_partial : forall C net src node p k q b now ts st r st', crypto_laws C -> wasm32 C = true -> network_state C st -> now < u64_bound ->
  peer_key C p k -> peer_key C q b -> src 1%nat = mk_tetraplet node (str "peer") (str "timestamp_sec") :: ts ->
  aq_get_weight_from C net src node p q now st = (r, st') ->
  answers_as C net node (S_get_weight_from p q now) (G_weight_from k b (from_secs now)) st st' r.
Proof. exact p_C98_get_weight_from_answers_partial. Qed.
Print Assumptions C98_get_weight_from_answers_partial.

(** The example of the README: weight of one peer as given by another, both literals. *)
Theorem C98_get_weight_from_answers_refuted : exists C net src node p k q b now st st', crypto_laws C /\ wasm32 C = true /\ network_state C st /\
  no_faults net /\ peer_key C p k /\ peer_key C q b /\
  aq_get_weight_from C net src node p q now st = (Ok (mk_response false (Some SVE_InvalidTimestampTetraplet) (P_weight 0 [])), st').
Proof. exact p_C98_get_weight_from_answers_refuted. Qed.
Print Assumptions C98_get_weight_from_answers_refuted.

(** It answers only if the issuer itself came from the clock of the node, which a peer id does not. *)
Example C98_example_odd_origin : option_map reply (told (aq_get_weight_from (toy true) (toy_net stranger_peer) (fun _ => clock_of host_peer) host_peer (pid 2) (pid 1) 6 toy_stores)) =
  Some (P_weight 16 (pid 2)).
Proof. exact e_C98_odd_origin. Qed.

(** ** C120 *)
(** [set_root] run by the owner for a peer id with a key does what the graph of the node does; otherwise it reports an error and
    changes nothing. *)
Theorem C120_set_root : forall C net src node p n st r st', crypto_laws C -> wasm32 C = true -> network_state C st -> n < u32_bound ->
  aq_set_root C net src node p n st = (r, st') ->
  (forall k, owns net node -> peer_key C p k -> answers_as C net node (S_set_root p n) (G_set_root k n) st st' r) /\
  (~ owns net node -> unchanged st st' /\ r = Ok (mk_response false (Some SVE_NotOwner) P_none)) /\
  (owns net node -> (forall k, ~ peer_key C p k) -> unchanged st st' /\ exists e, r = Ok (mk_response false (Some e) P_none)).
Proof. exact p_C120_set_root. Qed.
Print Assumptions C120_set_root.

(** [insert_cert] adds the given certificate at the time of the node's clock; a record that is no certificate changes nothing. *)
Theorem C120_insert_cert : forall C net src node c now st r st', crypto_laws C -> wasm32 C = true -> network_state C st -> Forall dto_trust_typed c -> now < u64_bound ->
  aq_insert_cert C net src node c now st = (r, st') ->
  (forall ch, certificate_record C c ch -> answers_as C net node (S_insert_cert c now) (G_add ch (from_secs now)) st st' r) /\
  ((forall ch, ~ certificate_record C c ch) -> unchanged st st' /\ exists e, r = Ok (mk_response false (Some e) P_none)).
Proof. exact p_C120_insert_cert. Qed.
Print Assumptions C120_insert_cert.

(** [import_trust] adds the given trust of the given issuer if it was not made after the time of the node's clock; otherwise, and if
    the records are none, it reports an error and changes nothing. *)
Theorem C120_import_trust : forall C net node o oi x issuer now st r st', crypto_laws C -> wasm32 C = true -> network_state C st -> dto_trust_typed x -> now < u64_bound ->
  aq_import_trust C net node o oi x issuer now st = (r, st') ->
  (forall t b, trust_record C x t -> peer_key C issuer b -> dt_issued_at x <= now ->
    only_at node st st' /\
    ((r = Ok [] /\ exists w, graph_step C (st node) (G_add_trust t b (from_secs now), None) = (Ok (GR_weight w), st' node)) \/
     (exists e, r = Ok [AE_service (Some (SVE_TGError e))] /\ graph_step C (st node) (G_add_trust t b (from_secs now), fault net node (S_add_trust x issuer now)) = (Err e, st' node)))) /\
  (~ (dt_issued_at x <= now /\ (exists t, trust_record C x t) /\ exists b, peer_key C issuer b) -> unchanged st st' /\ exists e, r = Ok [AE_service (Some e)]).
Proof. exact p_C120_import_trust. Qed.
Print Assumptions C120_import_trust.

(** The same for [import_revocation]. *)
Theorem C120_import_revocation : forall C net node o x now st r st', crypto_laws C -> wasm32 C = true -> network_state C st -> dr_revoked_at x < u64_bound -> now < u64_bound ->
  aq_import_revocation C net node o x now st = (r, st') ->
  (forall v, revocation_record C x v -> dr_revoked_at x <= now ->
    only_at node st st' /\
    ((r = Ok [] /\ graph_step C (st node) (G_revoke v, None) = (Ok GR_unit, st' node)) \/
     (exists e, r = Ok [AE_service (Some (SVE_TGError e))] /\ graph_step C (st node) (G_revoke v, fault net node (S_revoke x now)) = (Err e, st' node)))) /\
  (~ (dr_revoked_at x <= now /\ exists v, revocation_record C x v) -> unchanged st st' /\ exists e, r = Ok [AE_service (Some e)]).
Proof. exact p_C120_import_revocation. Qed.
Print Assumptions C120_import_revocation.

(** All four succeed on the toy network; the stranger may not set a root, and a trust of second 7 is refused at second 6. *)
Example C120_example_succeed : network_state (toy true) toy_stores /\ owns (toy_net owner_peer) host_peer /\ ~ owns (toy_net stranger_peer) host_peer /\
  option_map success (told (aq_set_root (toy true) (toy_net owner_peer) typed_in host_peer (pid 3) 4 toy_stores)) = Some true /\
  option_map success (told (aq_set_root (toy true) (toy_net stranger_peer) typed_in host_peer (pid 3) 4 toy_stores)) = Some false /\
  option_map success (told (aq_insert_cert (toy true) (toy_net stranger_peer) typed_in host_peer [trust_rec 1 1 900 2; trust_rec 1 4 800 3] 6 toy_stores)) = Some true /\
  told (aq_import_trust (toy true) (toy_net stranger_peer) host_peer [from_script] [from_script] (trust_rec 1 4 800 5) (pid 1) 6 toy_stores) = Some [] /\
  told (aq_import_trust (toy true) (toy_net stranger_peer) host_peer [from_script] [from_script] (trust_rec 1 4 800 7) (pid 1) 6 toy_stores) = Some [AE_service (Some SVE_InvalidTimestamp)] /\
  told (aq_import_revocation (toy true) (toy_net stranger_peer) host_peer [from_script] (rev_rec 1 2 5) 6 toy_stores) = Some [].
Proof. exact e_C120_succeed. Qed.
