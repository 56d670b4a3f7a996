(** Property theorems about the graph (C23-C40, C42-C48, C55, C62). Proofs are in GraphThms.v. *)
From Coq Require Import List NArith ZArith Bool Permutation.
From Verif Require Import Base Text Keys Trust Certificate Relation Storage Graph Spec Toy Witness GraphThms.
From Verif Require Import GraphFacts ImportFacts.
Import ListNotations.
Open Scope N_scope.

(** ** C23 *)
(** Every call on every store a history leaves gives an answer of its kind or an error: the search
    for certificates always ends and nothing panics. *)
Theorem C23_calls_answer : forall C d c fu r d', reachable C d -> call_typed C c ->
  graph_step C d (c, fu) = (r, d') -> (exists x, r = Ok x /\ reply_of c x) \/ (exists e, r = Err e).
Proof. exact p_C23_calls_answer. Qed.
Print Assumptions C23_calls_answer.

(** Without database failures, queries succeed. *)
Theorem C23_queries_succeed : forall C d c, reachable C d -> call_typed C c -> is_query c ->
  exists x d', graph_step C d (c, None) = (Ok x, d') /\ reply_of c x.
Proof. exact p_C23_queries_succeed. Qed.
Print Assumptions C23_queries_succeed.

(** A store with a chain of three trusts below a root and a revocation. *)
Example C23_example_store : reachable (toy false) (db_of (after long)) /\
  graph_step (toy false) (db_of (after long)) (G_get_all_certs (toy_key D) (at_ 10), None)
  = (Ok (GR_certs [long_cert]), db_of (after (long ++ [G_get_all_certs (toy_key D) (at_ 10)]))).
Proof. exact e_C23_store. Qed.

(** ** C24 *)
(** [get_all_certs] first drops the expired trusts, then returns exactly the chains from a root to
    the key, except those in which a key revoked one that comes later, other than the direct issuer
    of the last key. *)
Theorem C24_certificates_exact : forall C d pk now fu cs d', reachable C d -> call_typed C (G_get_all_certs pk now) ->
  graph_step C d (G_get_all_certs pk now, fu) = (Ok (GR_certs cs), d') ->
  collected d now d' /\
  forall c, In c cs <-> root_chain d' pk c /\ forall i j, revokes_at d' c i j -> direct_issuer_pos c j.
Proof. exact p_C24_certificates_exact. Qed.
Print Assumptions C24_certificates_exact.

(** ** C25 *)
(** Refuted: R revoked B, yet the chain R, A, B, D is returned for D. *)
Theorem C25_revoked_key_excluded_refuted : exists C d pk now cs d' c i j, crypto_laws C /\ reachable C d /\
  graph_step C d (G_get_all_certs pk now, None) = (Ok (GR_certs cs), d') /\ In c cs /\ revokes_at d' c i j.
Proof. exact p_C25_revoked_key_excluded_refuted. Qed.
Print Assumptions C25_revoked_key_excluded_refuted.

(** What does hold: the only revoked key a returned chain may contain below its revoker is the
    direct issuer of the last key. *)
Theorem C25_revoked_key_excluded_partial : forall C d pk now fu cs d' c i j, reachable C d -> call_typed C (G_get_all_certs pk now) ->
  graph_step C d (G_get_all_certs pk now, fu) = (Ok (GR_certs cs), d') -> In c cs -> revokes_at d' c i j ->
  direct_issuer_pos c j.
Proof. exact p_C25_revoked_key_excluded_partial. Qed.
Print Assumptions C25_revoked_key_excluded_partial.

(** In particular no certificate returned for a revoked key contains its revoker above it. *)
Theorem C25_revoked_target_has_no_chain : forall C d v now fu cs d' c i, reachable C d ->
  call_typed C (G_get_all_certs (rev_pk v) now) -> stored_revocation d v ->
  graph_step C d (G_get_all_certs (rev_pk v) now, fu) = (Ok (GR_certs cs), d') -> In c cs ->
  (S i < length c)%nat -> ~ key_at c i (revoked_by v).
Proof. exact p_C25_revoked_target_has_no_chain. Qed.
Print Assumptions C25_revoked_target_has_no_chain.

(** The same store: R revoked B and no certificate is returned for B. *)
Example C25_example_target : stored_revocation (db_of (after long)) (toy_rev R B 9) /\
  fst (graph_step (toy false) (db_of (after long)) (G_get_all_certs (toy_key B) (at_ 10), None)) = Ok (GR_certs []).
Proof. exact e_C25_target. Qed.

(** ** C26 *)
(** Below 2^63 seconds, every returned certificate passes verification at that time against the
    configured roots. *)
Theorem C26_returned_certificates_verify : forall C d pk now fu cs d' c rks, reachable C d -> call_typed C (G_get_all_certs pk now) ->
  graph_step C d (G_get_all_certs pk now, fu) = (Ok (GR_certs cs), d') -> In c cs ->
  secs now < i64_bound -> (forall k, is_root d k -> In k rks) ->
  cert_verify C c rks now = Ok tt.
Proof. exact p_C26_returned_certificates_verify. Qed.
Print Assumptions C26_returned_certificates_verify.

(** The same for [get_all_certs_from]. *)
Theorem C26_returned_certificates_from_verify : forall C d pk iss now fu cs d' c rks, reachable C d ->
  call_typed C (G_get_all_certs_from pk iss now) ->
  graph_step C d (G_get_all_certs_from pk iss now, fu) = (Ok (GR_certs cs), d') -> In c cs ->
  secs now < i64_bound -> (forall k, is_root d k -> In k rks) ->
  cert_verify C c rks now = Ok tt.
Proof. exact p_C26_returned_certificates_from_verify. Qed.
Print Assumptions C26_returned_certificates_from_verify.

Example C26_example_verifies : cert_verify (toy false) long_cert [toy_key R] (at_ 10) = Ok tt.
Proof. exact e_C26_verifies. Qed.

(** ** C27 *)
(** Refuted: at 2^63 seconds a certificate that expired long ago is returned and has weight. *)
Theorem C27_expired_never_counts_refuted : exists C d pk now cs d' c t w d'', crypto_laws C /\ reachable C d /\
  call_typed C (G_get_all_certs pk now) /\
  graph_step C d (G_get_all_certs pk now, None) = (Ok (GR_certs cs), d') /\ In c cs /\ In t c /\ before (expires_at t) now /\
  (forall rks, cert_verify C c rks now <> Ok tt) /\
  graph_step C d (G_weight pk now, None) = (Ok (GR_weight w), d'') /\ w <> 0.
Proof. exact p_C27_expired_never_counts_refuted. Qed.
Print Assumptions C27_expired_never_counts_refuted.

(** Below 2^63 seconds it holds: every trust of a returned certificate expires after now, so none
    counts for the weight, which is computed from these certificates (C35). *)
Theorem C27_expired_never_counts_partial : forall C d pk now fu cs d' c t, reachable C d -> call_typed C (G_get_all_certs pk now) ->
  graph_step C d (G_get_all_certs pk now, fu) = (Ok (GR_certs cs), d') -> In c cs -> In t c ->
  secs now < i64_bound -> before now (expires_at t).
Proof. exact p_C27_expired_never_counts_partial. Qed.
Print Assumptions C27_expired_never_counts_partial.

(** ** C28 *)
(** Refuted: a root trust that expires at u64::MAX, as issue_root makes it, is dropped by the next
    query. *)
Theorem C28_unexpired_trust_kept_refuted : exists C d b t q now, crypto_laws C /\ reachable C d /\ stored_trust d b t /\
  call_typed C q /\ is_query q /\ call_time q = Some now /\ before now (expires_at t) /\
  ~ stored_trust (snd (graph_step C d (q, None))) b t.
Proof. exact p_C28_unexpired_trust_kept_refuted. Qed.
Print Assumptions C28_unexpired_trust_kept_refuted.

(** With an expiry below 2^63 seconds a stored trust stays through any calls made at times before
    its expiry, whatever fails, as long as no strictly newer relation of the same keys is offered. *)
Theorem C28_unexpired_trust_kept_partial : forall C d b t es, reachable C d -> stored_trust d b t -> secs (expires_at t) < i64_bound ->
  typed_history C es ->
  (forall c fu now, In (c, fu) es -> call_time c = Some now -> secs now < secs (expires_at t)) ->
  (forall c fu y, In (c, fu) es -> offers c y -> same_keys (RAuth (mk_auth t b)) y -> ~ before (issued_at t) (rel_issued_at y)) ->
  stored_trust (graph_history C d es) b t.
Proof. exact p_C28_unexpired_trust_kept_partial. Qed.
Print Assumptions C28_unexpired_trust_kept_partial.

Example C28_example_kept : stored_trust (db_of (after short)) (toy_key R) (toy_trust R A 900 50).
Proof. exact e_C28_kept. Qed.

(** ** C29 *)
(** After any history, with failures anywhere, every stored trust carries a signature its issuer's
    key accepts and every stored revocation one its revoker's key accepts. *)
Theorem C29_stored_is_authentic : forall C d, reachable C d ->
  (forall b t, stored_trust d b t -> signed_trust C b t) /\ (forall v, stored_revocation d v -> signed_revocation C v).
Proof. exact p_C29_stored_is_authentic. Qed.
Print Assumptions C29_stored_is_authentic.

Example C29_example_store : reachable (toy false) (db_of (after long)) /\
  stored_trust (db_of (after long)) (toy_key B) (toy_trust B D 700 1) /\ stored_revocation (db_of (after long)) (toy_rev R B 9).
Proof. exact e_C29_store. Qed.

(** ** C30 *)
(** At most one relation is stored for an issuer and a key. *)
Theorem C30_one_relation_per_pair : forall C d x y, reachable C d -> stored d x -> stored d y -> same_keys x y -> x = y.
Proof. exact p_C30_one_relation_per_pair. Qed.
Print Assumptions C30_one_relation_per_pair.

(** Revoking imports the revocation if its signature is good, and otherwise fails and changes
    nothing. *)
Theorem C30_revoke_imports : forall C d v, reachable C d -> revocation_typed C v ->
  (signed_revocation C v -> exists d', graph_step C d (G_revoke v, None) = (Ok GR_unit, d') /\ imported d (RRev v) d') /\
  (~ signed_revocation C v -> exists e, graph_step C d (G_revoke v, None) = (Err (GE_RevokeCheck e), d)).
Proof. exact p_C30_revoke_imports. Qed.
Print Assumptions C30_revoke_imports.

Example C30_example_signed : signed_revocation (toy false) (toy_rev R B 9) /\
  ~ signed_revocation (toy false) (mk_rev (toy_key B) (at_ 9) (toy_key A) (rev_sig (toy_rev R B 9))).
Proof. exact e_C30_signed. Qed.

Theorem C30_import : forall C d x, reachable C d -> relation_typed C x -> imported d x (import C d x).
Proof. exact p_C30_import. Qed.
Print Assumptions C30_import.

(** A newer revocation replaces the trust, an older one does not. *)
Example C30_example_newer : stored (import (toy false) (db_of (after short)) (RRev (toy_rev R A 80))) (RRev (toy_rev R A 80)) /\
  ~ stored (import (toy false) (db_of (after short)) (RRev (toy_rev R A 40))) (RRev (toy_rev R A 40)).
Proof. exact e_C30_newer. Qed.

(** ** C31, C62 *)
(** Refuted: a trust and a revocation of the same keys at different times of one second. The one
    imported last stays. *)
Theorem C31_import_order_refuted : exists C xs ys, crypto_laws C /\ Permutation xs ys /\ Forall (relation_typed C) xs /\
  (forall x y, In x xs -> In y xs -> same_keys x y -> rel_issued_at x = rel_issued_at y -> x = y) /\
  exists x, stored (import_all C empty_db xs) x /\ ~ stored (import_all C empty_db ys) x.
Proof. exact p_C31_import_order_refuted. Qed.
Print Assumptions C31_import_order_refuted.

(** When relations of the same keys differ in the second they were made, any order of import leaves
    the same relations stored. *)
Theorem C31_import_order_partial : forall C d xs ys, reachable C d -> Forall (relation_typed C) xs -> Permutation xs ys -> seconds_differ xs ->
  forall x, stored (import_all C d xs) x <-> stored (import_all C d ys) x.
Proof. exact p_C31_import_order_partial. Qed.
Print Assumptions C31_import_order_partial.

Example C31_example_differ : seconds_differ [RAuth (mk_auth (toy_trust R A 900 5) (toy_key R)); RRev (toy_rev R A 6)].
Proof. exact e_C31_differ. Qed.

(** ** C32 *)
(** A stored revocation stays through any calls at any times, whatever fails, as long as no strictly
    newer relation of the same keys is offered. *)
Theorem C32_revocations_never_expire : forall C d v es, reachable C d -> stored_revocation d v -> typed_history C es ->
  (forall c fu y, In (c, fu) es -> offers c y -> same_keys (RRev v) y -> ~ before (revoked_at v) (rel_issued_at y)) ->
  stored_revocation (graph_history C d es) v.
Proof. exact p_C32_revocations_never_expire. Qed.
Print Assumptions C32_revocations_never_expire.

(** Adding the revoked trust again and asking a million seconds later. *)
Example C32_example_kept : stored_revocation (db_of (after new_revoke)) (toy_rev R A 80) /\ typed_history (toy false) again /\
  (forall c fu y, In (c, fu) again -> offers c y -> same_keys (RRev (toy_rev R A 80)) y -> ~ before (revoked_at (toy_rev R A 80)) (rel_issued_at y)).
Proof. exact e_C32_kept. Qed.

(** ** C33 *)
(** Refuted: revoking with a time before the stored trust's reports success and does nothing. *)
Theorem C33_revoke_takes_effect_refuted : exists C d v d1 now cs d' c i, crypto_laws C /\ reachable C d /\ revocation_typed C v /\
  graph_step C d (G_revoke v, None) = (Ok GR_unit, d1) /\ before (revoked_at v) now /\
  graph_step C d1 (G_get_all_certs (rev_pk v) now, None) = (Ok (GR_certs cs), d') /\ In c cs /\
  key_at c i (revoked_by v) /\ key_at c (S i) (rev_pk v).
Proof. exact p_C33_revoke_takes_effect_refuted. Qed.
Print Assumptions C33_revoke_takes_effect_refuted.

(** If everything stored for the two keys is older than the revocation, a successful revoke takes
    effect: at any later time, until a strictly newer relation of the two keys is offered, no
    returned certificate, for whatever key, contains the revoked key right below the revoker. *)
Theorem C33_revoke_takes_effect_partial : forall C d v fu d1 es pk now fu' cs d' c i, reachable C d -> revocation_typed C v ->
  (forall z, stored d z -> same_keys (RRev v) z -> before (rel_issued_at z) (revoked_at v)) ->
  graph_step C d (G_revoke v, fu) = (Ok GR_unit, d1) ->
  typed_history C es ->
  (forall c fu y, In (c, fu) es -> offers c y -> same_keys (RRev v) y -> ~ before (from_secs (secs (revoked_at v))) (rel_issued_at y)) ->
  call_typed C (G_get_all_certs pk now) ->
  graph_step C (graph_history C d1 es) (G_get_all_certs pk now, fu') = (Ok (GR_certs cs), d') -> In c cs ->
  ~ (key_at c i (revoked_by v) /\ key_at c (S i) (rev_pk v)).
Proof. exact p_C33_revoke_takes_effect_partial. Qed.
Print Assumptions C33_revoke_takes_effect_partial.

Example C33_example_hypotheses : signed_revocation (toy false) (toy_rev R A 80) /\
  forall z, stored (db_of (after short)) z -> same_keys (RRev (toy_rev R A 80)) z -> before (rel_issued_at z) (revoked_at (toy_rev R A 80)).
Proof. exact e_C33_hypotheses. Qed.

Example C33_example_newer : fst (graph_step (toy false) (db_of (after new_revoke)) (G_get_all_certs (toy_key A) (at_ 90), None)) = Ok (GR_certs []).
Proof. exact e_C33_newer. Qed.

(** ** C34 *)
(** Refuted: a trust made at 50 is revoked at 80, a new trust at 100 expires at 150 and is
    collected; the trust of 50 can then be added again. *)
Theorem C34_no_replay_refuted : exists C d1 v t es d2 now cs d' c, crypto_laws C /\ reachable C d1 /\
  stored_revocation d1 v /\ before (issued_at t) (revoked_at v) /\ typed_history C es /\
  graph_history C d1 es = d2 /\
  (forall fu, ~ In (G_add_trust t (revoked_by v) now, fu) es) /\
  graph_step C (snd (graph_step C d2 (G_add_trust t (revoked_by v) now, None))) (G_get_all_certs (rev_pk v) now, None) = (Ok (GR_certs cs), d') /\
  In c cs /\ In t c.
Proof. exact p_C34_no_replay_refuted. Qed.
Print Assumptions C34_no_replay_refuted.

(** While the revocation is stored, that is until a strictly newer relation of the two keys is
    offered, no trust of the two keys is stored, so importing the revoked trust again has no effect. *)
Theorem C34_no_replay_partial : forall C d v es, reachable C d -> stored_revocation d v -> typed_history C es ->
  (forall c fu y, In (c, fu) es -> offers c y -> same_keys (RRev v) y -> ~ before (revoked_at v) (rel_issued_at y)) ->
  forall t, issued_for t = rev_pk v -> ~ stored_trust (graph_history C d es) (revoked_by v) t.
Proof. exact p_C34_no_replay_partial. Qed.
Print Assumptions C34_no_replay_partial.

(** ** C35 *)
(** The weight of a key is the greatest of its root weight and of the weights of its certificates,
    and 0 if it has neither. *)
Theorem C35_weight_is_best_chain : forall C d pk now fu fu' cs w d1 d2, reachable C d -> call_typed C (G_weight pk now) -> small d ->
  graph_step C d (G_get_all_certs pk now, fu) = (Ok (GR_certs cs), d1) ->
  graph_step C d (G_weight pk now, fu') = (Ok (GR_weight w), d2) ->
  d1 = d2 /\ greatest (key_weight d cs pk) w /\ (w = 0 <-> ~ is_root d pk /\ cs = []).
Proof. exact p_C35_weight_is_best_chain. Qed.
Print Assumptions C35_weight_is_best_chain.

Example C35_example_weight : small (db_of (after short)) /\
  fst (graph_step (toy false) (db_of (after short)) (G_weight (toy_key A) (at_ 10), None)) = Ok (GR_weight (chain_weight 5 1)).
Proof. exact e_C35_weight. Qed.

(** ** C36 *)
(** Every weight any call reports is 0 or a power of two not above 2^16. *)
Theorem C36_weights_are_powers : forall C d c fu w d', reachable C d -> call_typed C c ->
  graph_step C d (c, fu) = (Ok (GR_weight w), d') -> two_power w.
Proof. exact p_C36_weights_are_powers. Qed.
Print Assumptions C36_weights_are_powers.

Example C36_example_weight : fst (graph_step (toy false) (db_of (after two_ways)) (G_weight_from (toy_key B) (toy_key A) (at_ 10), None)) = Ok (GR_weight 8).
Proof. exact e_C36_weight. Qed.

(** ** C37 *)
(** Refuted: the only root has max_chain_len 2, the only certificate of D has three trusts after the
    root trust, and D has weight 1. *)
Theorem C37_max_chain_len_bounds_refuted : exists C d pk now cs d1 d2 w m, crypto_laws C /\ reachable C d /\
  (forall k n, root_max_len d k n -> n <= m) /\ ~ is_root d pk /\
  graph_step C d (G_get_all_certs pk now, None) = (Ok (GR_certs cs), d1) /\
  (forall c, In c cs -> m < N.of_nat (length c - 1)) /\
  graph_step C d (G_weight pk now, None) = (Ok (GR_weight w), d2) /\ w <> 0.
Proof. exact p_C37_max_chain_len_bounds_refuted. Qed.
Print Assumptions C37_max_chain_len_bounds_refuted.

(** What does hold: a key all of whose certificates have at least the maximum number of trusts
    after the root trust has weight at most 1. *)
Theorem C37_max_chain_len_bounds_partial : forall C d pk now fu fu' cs d1 d2 w m, reachable C d -> call_typed C (G_weight pk now) -> small d ->
  (forall k n, root_max_len d k n -> n <= m) -> ~ is_root d pk ->
  graph_step C d (G_get_all_certs pk now, fu) = (Ok (GR_certs cs), d1) ->
  (forall c, In c cs -> m <= N.of_nat (length c - 1)) ->
  graph_step C d (G_weight pk now, fu') = (Ok (GR_weight w), d2) -> w <= 1.
Proof. exact p_C37_max_chain_len_bounds_partial. Qed.
Print Assumptions C37_max_chain_len_bounds_partial.

Example C37_example_hypotheses : small (db_of (after too_long)) /\ (forall k n, root_max_len (db_of (after too_long)) k n -> n <= 2) /\
  ~ is_root (db_of (after too_long)) (toy_key D) /\ 2 <= N.of_nat (length long_cert - 1) /\
  fst (graph_step (toy false) (db_of (after too_long)) (G_get_all_certs (toy_key D) (at_ 30), None)) = Ok (GR_certs [long_cert]).
Proof. exact e_C37_hypotheses. Qed.

(** ** C38 *)
(** [add_trust] fails and changes nothing if the trust is expired or badly signed. Otherwise it
    reports the weight of the issuer for a self-signed trust and half of it for any other; if that
    is 0 it only collects expired trusts, as the query for the weight does, else it also imports the
    trust. *)
Theorem C38_add_trust_exact : forall C d t b now, reachable C d -> call_typed C (G_add_trust t b now) ->
  (forall e, trust_verify C t b now = Err e -> graph_step C d (G_add_trust t b now, None) = (Err (GE_TrustVerification e), d)) /\
  (trust_verify C t b now = Ok tt ->
   exists w d1 w' d', graph_step C d (G_weight b now, None) = (Ok (GR_weight w), d1) /\
     graph_step C d (G_add_trust t b now, None) = (Ok (GR_weight w'), d') /\
     ((b = issued_for t /\ w' = w) \/ (b <> issued_for t /\ w' = w / 2)) /\
     (w' = 0 -> d' = d1) /\ (w' <> 0 -> imported d1 (RAuth (mk_auth t b)) d')).
Proof. exact p_C38_add_trust_exact. Qed.
Print Assumptions C38_add_trust_exact.

Example C38_example_good : trust_verify (toy false) (toy_trust R A 900 50) (toy_key R) (at_ 900) = Ok tt /\
  (exists e, trust_verify (toy false) (toy_trust R A 900 50) (toy_key B) (at_ 900) = Err e).
Proof. exact e_C38_good. Qed.

(** So a key whose weight is at most 1 cannot pass trust on. *)
Theorem C37_weight_one_cannot_issue : forall C d t b now w d1, reachable C d -> call_typed C (G_add_trust t b now) ->
  graph_step C d (G_weight b now, None) = (Ok (GR_weight w), d1) -> w <= 1 -> b <> issued_for t ->
  trust_verify C t b now = Ok tt ->
  graph_step C d (G_add_trust t b now, None) = (Ok (GR_weight 0), d1).
Proof. exact p_C37_weight_one_cannot_issue. Qed.
Print Assumptions C37_weight_one_cannot_issue.

(** ** C39 *)
(** Refuted: the root's own trust is not stored, so the key gets no weight. *)
Theorem C39_reported_weight_is_real_refuted : exists C d t b now w d' w' d'', crypto_laws C /\ reachable C d /\
  call_typed C (G_add_trust t b now) /\
  graph_step C d (G_add_trust t b now, None) = (Ok (GR_weight w), d') /\
  graph_step C d' (G_weight (issued_for t) now, None) = (Ok (GR_weight w'), d'') /\ w' < w.
Proof. exact p_C39_reported_weight_is_real_refuted. Qed.
Print Assumptions C39_reported_weight_is_real_refuted.

(** It is real if the issuer, if it is a root, has its own trust stored and unexpired, the added
    trust expires after now and below 2^63 seconds, nothing as new is stored for the two keys, and no
    other revocation is stored between keys of which each is the new key, the issuer, or on one
    certificate of the issuer. *)
Theorem C39_reported_weight_is_real_partial : forall C d t b now w d' w' d'', reachable C d -> call_typed C (G_add_trust t b now) -> small d ->
  graph_step C d (G_add_trust t b now, None) = (Ok (GR_weight w), d') ->
  graph_step C d' (G_weight (issued_for t) now, None) = (Ok (GR_weight w'), d'') ->
  (forall cs d1 c v, graph_step C d (G_get_all_certs b now, None) = (Ok (GR_certs cs), d1) -> c = [] \/ In c cs ->
     stored_revocation d v -> ~ same_keys (RAuth (mk_auth t b)) (RRev v) ->
     In (revoked_by v) (issued_for t :: b :: map issued_for c) -> In (rev_pk v) (issued_for t :: b :: map issued_for c) -> False) ->
  (is_root d b -> exists u, issued_for u = b /\ stored_trust d b u /\ secs now < secs (expires_at u) < i64_bound) ->
  secs now < secs (expires_at t) < i64_bound ->
  (forall z, stored d z -> same_keys (RAuth (mk_auth t b)) z -> before (rel_issued_at z) (issued_at t)) ->
  w <= w'.
Proof. exact p_C39_reported_weight_is_real_partial. Qed.
Print Assumptions C39_reported_weight_is_real_partial.

(** The store has the root's own trust, an older revocation of A and a revocation between other
    keys; the root gives A a trust. *)
Example C39_example_hypotheses : small (db_of (after revoked_first)) /\
  (forall cs d1 c v, graph_step (toy false) (db_of (after revoked_first)) (G_get_all_certs (toy_key R) (at_ 5), None) = (Ok (GR_certs cs), d1) ->
     c = [] \/ In c cs -> stored_revocation (db_of (after revoked_first)) v ->
     ~ same_keys (RAuth (mk_auth (toy_trust R A 900 50) (toy_key R))) (RRev v) ->
     In (revoked_by v) (toy_key A :: toy_key R :: map issued_for c) -> In (rev_pk v) (toy_key A :: toy_key R :: map issued_for c) -> False) /\
  (exists u, issued_for u = toy_key R /\ stored_trust (db_of (after revoked_first)) (toy_key R) u /\ 5 < secs (expires_at u) < i64_bound) /\
  (forall z, stored (db_of (after revoked_first)) z -> same_keys (RAuth (mk_auth (toy_trust R A 900 50) (toy_key R))) z -> before (rel_issued_at z) (at_ 50)) /\
  fst (graph_step (toy false) (db_of (after revoked_first)) (G_add_trust (toy_trust R A 900 50) (toy_key R) (at_ 5), None)) = Ok (GR_weight 16).
Proof. exact e_C39_hypotheses. Qed.

(** ** C40 *)
(** Refuted: setting a root again changes nothing. *)
Theorem C40_set_root_updates_refuted : exists C d k n d1 m, crypto_laws C /\ reachable C d /\ call_typed C (G_set_root k n) /\
  graph_step C d (G_set_root k n, None) = (Ok GR_unit, d1) /\ root_max_len d1 k m /\ m <> N.min n 16.
Proof. exact p_C40_set_root_updates_refuted. Qed.
Print Assumptions C40_set_root_updates_refuted.

(** [set_root] makes a key a root with the given length, at most 16, if it was no root before; the
    first setting of a key stays. No other root and no relation changes. *)
Theorem C40_set_root_exact : forall C d k n fu d', reachable C d -> call_typed C (G_set_root k n) ->
  graph_step C d (G_set_root k n, fu) = (Ok GR_unit, d') -> root_set d k (N.min n 16) d'.
Proof. exact p_C40_set_root_exact. Qed.
Print Assumptions C40_set_root_exact.

(** Lengths above 16 count as 16. *)
Example C40_example_set : graph_step (toy false) (db_of (after root_only)) (G_set_root (toy_key A) 100, None)
  = (Ok GR_unit, db_of (after (root_only ++ [G_set_root (toy_key A) 100]))) /\
  root_max_len (db_of (after (root_only ++ [G_set_root (toy_key A) 100]))) (toy_key A) 16.
Proof. exact e_C40_set. Qed.

(** ** C42 *)
(** Refuted: the third trust is bad, [add] fails, the first two are stored. *)
Theorem C42_add_all_or_nothing_refuted : exists C d c now e d' t, crypto_laws C /\ reachable C d /\ call_typed C (G_add c now) /\
  graph_step C d (G_add c now, None) = (Err e, d') /\ (forall b u, ~ stored_trust d b u) /\ In t c /\ stored_trust d' (issued_for t) t.
Proof. exact p_C42_add_all_or_nothing_refuted. Qed.
Print Assumptions C42_add_all_or_nothing_refuted.

(** Exactly: [add] of an empty chain fails; otherwise it behaves as adding the trusts one by one. If all
    are good it succeeds, else it stops at the first bad one, names its defect, and what the trusts
    before it did stays. *)
Theorem C42_add_stepwise : forall C d c now t0, reachable C d -> call_typed C (G_add c now) -> at_pos c 0 t0 ->
  let calls := map (fun x => (x, None)) (chain_calls c (issued_for t0) now) in
  ((forall i, (i < length c)%nat -> good_at C c now i) /\
   graph_step C d (G_add c now, None) = (Ok GR_unit, graph_history C d calls)) \/
  (exists n t k e, at_pos c n t /\ key_at c (n - 1) k /\ trust_defect C k t now e /\
   (forall i, (i < n)%nat -> good_at C c now i) /\
   graph_step C d (G_add c now, None) = (Err (GE_TrustVerification e), graph_history C d (firstn n calls))).
Proof. exact p_C42_add_stepwise. Qed.
Print Assumptions C42_add_stepwise.

Example C42_example_bad : call_typed (toy false) (G_add bad_chain (at_ 5)) /\
  trust_defect (toy false) (toy_key A) (toy_trust R B 900 1) (at_ 5) (TE_SignatureError VE_Ed25519).
Proof. exact e_C42_bad. Qed.

Theorem C42_add_empty : forall C d now, reachable C d -> duration_wf now -> graph_step C d (G_add [] now, None) = (Err GE_EmptyChain, d).
Proof. exact p_C42_add_empty. Qed.
Print Assumptions C42_add_empty.

(** ** C43 *)
(** Refuted: a certificate made by issue_root for a configured root is accepted and has no effect. *)
Theorem C43_added_certificate_counts_refuted : exists C kp pk ex iss c d now d1 d', crypto_laws C /\ kp_valid C kp /\
  cert_issue_root C kp pk ex iss = Ok c /\ reachable C d /\ is_root d (kp_public C kp) /\ (forall x, ~ stored d x) /\
  call_typed C (G_add c now) /\ before now ex /\ cert_verify C c [kp_public C kp] now = Ok tt /\
  graph_step C d (G_add c now, None) = (Ok GR_unit, d1) /\
  graph_step C d1 (G_get_all_certs pk now, None) = (Ok (GR_certs []), d').
Proof. exact p_C43_added_certificate_counts_refuted. Qed.
Print Assumptions C43_added_certificate_counts_refuted.

(** A good certificate takes effect if its expiries are after now and below 2^63 seconds, its keys are
    distinct, it has at most max_chain_len trusts after the root trust, nothing as new but itself is stored
    for its pairs of keys and no revocation between its keys is stored: [add] succeeds and at any
    time before the expiries the certificate, with times in whole seconds, is returned for its last
    key. *)
Theorem C43_added_certificate_counts_partial : forall C d c now m k0 pk, reachable C d -> call_typed C (G_add c now) ->
  (2 <= length c)%nat -> N.of_nat (length c - 1) <= m ->
  key_at c 0 k0 -> root_max_len d k0 m -> key_at c (length c - 1) pk ->
  NoDup (map issued_for c) ->
  (forall i, (i < length c)%nat -> good_at C c now i) ->
  (forall t, In t c -> secs now < secs (expires_at t) < i64_bound) ->
  (forall t b z, offers_trust (G_add c now) t b -> stored d z -> same_keys (RAuth (mk_auth t b)) z ->
     before (rel_issued_at z) (issued_at t) \/ z = whole (RAuth (mk_auth t b))) ->
  (forall v, stored_revocation d v -> In (revoked_by v) (map issued_for c) -> In (rev_pk v) (map issued_for c) -> False) ->
  exists d1, graph_step C d (G_add c now, None) = (Ok GR_unit, d1) /\
  forall now' fu cs d', duration_wf now' -> (forall t, In t c -> secs now' < secs (expires_at t)) ->
    graph_step C d1 (G_get_all_certs pk now', fu) = (Ok (GR_certs cs), d') -> In (map whole_trust c) cs.
Proof. exact p_C43_added_certificate_counts_partial. Qed.
Print Assumptions C43_added_certificate_counts_partial.

Example C43_example_hypotheses : root_max_len (db_of (after root_only)) (toy_key R) 5 /\ call_typed (toy false) (G_add way2 (at_ 5)) /\
  NoDup (map issued_for way2) /\ (forall i, (i < length way2)%nat -> good_at (toy false) way2 (at_ 5) i) /\
  (forall t, In t way2 -> secs (at_ 5) < secs (expires_at t) < i64_bound) /\ (forall x, ~ stored (db_of (after root_only)) x).
Proof. exact e_C43_hypotheses. Qed.

(** ** C44 *)
(** Queries at times not after the one of a query, below 2^63 seconds, and failing anywhere, do not
    change its answer. *)
Theorem C44_queries_are_stable : forall C d es q, reachable C d -> typed_history C es -> Forall (fun e => is_query (fst e)) es ->
  call_typed C q -> is_query q ->
  (forall c fu a b, In (c, fu) es -> call_time c = Some a -> call_time q = Some b -> in_order a b) ->
  fst (graph_step C (graph_history C d es) (q, None)) = fst (graph_step C d (q, None)).
Proof. exact p_C44_queries_are_stable. Qed.
Print Assumptions C44_queries_are_stable.

Example C44_example_queries : let es := [(G_weight (toy_key A) (at_ 8), Some 1%nat); (G_get_all_certs (toy_key B) (at_ 10), None); (G_get_revocations (toy_key B), None)] in
  typed_history (toy false) es /\ Forall (fun e => is_query (fst e)) es /\
  (forall c fu a b, In (c, fu) es -> call_time c = Some a -> call_time (G_get_all_certs (toy_key B) (at_ 10)) = Some b -> in_order a b) /\
  fst (graph_step (toy false) (db_of (after two_ways)) (G_get_all_certs (toy_key B) (at_ 10), None)) = Ok (GR_certs [way1; way2]).
Proof. exact e_C44_queries. Qed.

(** ** C45 *)
(** Certificates returned at a later time are among those returned earlier, and weights do not
    grow. *)
Theorem C45_certificates_shrink : forall C d pk a b fu fu' cs cs' d1 d2, reachable C d ->
  call_typed C (G_get_all_certs pk a) -> call_typed C (G_get_all_certs pk b) -> in_order a b ->
  graph_step C d (G_get_all_certs pk a, fu) = (Ok (GR_certs cs), d1) ->
  graph_step C d (G_get_all_certs pk b, fu') = (Ok (GR_certs cs'), d2) -> incl cs' cs.
Proof. exact p_C45_certificates_shrink. Qed.
Print Assumptions C45_certificates_shrink.

Theorem C45_weights_shrink : forall C d pk a b fu fu' w w' d1 d2, reachable C d ->
  call_typed C (G_weight pk a) -> call_typed C (G_weight pk b) -> in_order a b ->
  graph_step C d (G_weight pk a, fu) = (Ok (GR_weight w), d1) ->
  graph_step C d (G_weight pk b, fu') = (Ok (GR_weight w'), d2) -> w' <= w.
Proof. exact p_C45_weights_shrink. Qed.
Print Assumptions C45_weights_shrink.

(** R -> B expires at 700. *)
Example C45_example_shrinks : in_order (at_ 10) (at_ 700) /\
  fst (graph_step (toy false) (db_of (after two_ways)) (G_get_all_certs (toy_key B) (at_ 10), None)) = Ok (GR_certs [way1; way2]) /\
  fst (graph_step (toy false) (db_of (after two_ways)) (G_get_all_certs (toy_key B) (at_ 700), None)) = Ok (GR_certs [way2]) /\
  fst (graph_step (toy false) (db_of (after two_ways)) (G_weight (toy_key B) (at_ 10), None)) = Ok (GR_weight 16) /\
  fst (graph_step (toy false) (db_of (after two_ways)) (G_weight (toy_key B) (at_ 700), None)) = Ok (GR_weight 8).
Proof. exact e_C45_shrinks. Qed.

(** ** C46 *)
(** [get_all_certs_from] returns the certificates of [get_all_certs] that contain the issuer's key
    at some position. *)
Theorem C46_from_is_filter : forall C d pk i now fu fu' cs cs' d1 d2, reachable C d -> call_typed C (G_get_all_certs_from pk i now) ->
  graph_step C d (G_get_all_certs pk now, fu) = (Ok (GR_certs cs), d1) ->
  graph_step C d (G_get_all_certs_from pk i now, fu') = (Ok (GR_certs cs'), d2) ->
  forall c, In c cs' <-> In c cs /\ exists n, key_at c n i.
Proof. exact p_C46_from_is_filter. Qed.
Print Assumptions C46_from_is_filter.

(** Refuted for the README's reading, "contains a trust issued by i": asked for certificates of A
    issued by A it returns one in which A issued nothing. *)
Theorem C46_from_issued_by_refuted : exists C d pk now cs d' c, crypto_laws C /\ reachable C d /\
  graph_step C d (G_get_all_certs_from pk pk now, None) = (Ok (GR_certs cs), d') /\ In c cs /\
  forall n, (S n < length c)%nat -> ~ key_at c n pk.
Proof. exact p_C46_from_issued_by_refuted. Qed.
Print Assumptions C46_from_issued_by_refuted.

(** For an issuer other than the key itself it is the README's reading. *)
Theorem C46_from_issued_by_partial : forall C d pk i now fu fu' cs cs' d1 d2, reachable C d -> call_typed C (G_get_all_certs_from pk i now) ->
  pk <> i ->
  graph_step C d (G_get_all_certs pk now, fu) = (Ok (GR_certs cs), d1) ->
  graph_step C d (G_get_all_certs_from pk i now, fu') = (Ok (GR_certs cs'), d2) ->
  forall c, In c cs' <-> In c cs /\ exists n, (S n < length c)%nat /\ key_at c n i.
Proof. exact p_C46_from_issued_by_partial. Qed.
Print Assumptions C46_from_issued_by_partial.

Example C46_example_from : toy_key B <> toy_key A /\
  fst (graph_step (toy false) (db_of (after two_ways)) (G_get_all_certs (toy_key B) (at_ 10), None)) = Ok (GR_certs [way1; way2]) /\
  fst (graph_step (toy false) (db_of (after two_ways)) (G_get_all_certs_from (toy_key B) (toy_key A) (at_ 10), None)) = Ok (GR_certs [way2]).
Proof. exact e_C46_from. Qed.

(** [weight_from] is the greatest weight of these certificates and never above [weight]. *)
Theorem C46_weight_from_exact : forall C d pk i now fu fu' cs w d1 d2, reachable C d -> call_typed C (G_get_all_certs_from pk i now) -> small d ->
  graph_step C d (G_get_all_certs_from pk i now, fu) = (Ok (GR_certs cs), d1) ->
  graph_step C d (G_weight_from pk i now, fu') = (Ok (GR_weight w), d2) ->
  greatest (fun v => exists c, In c cs /\ cert_weight d c v) w.
Proof. exact p_C46_weight_from_exact. Qed.
Print Assumptions C46_weight_from_exact.

Theorem C46_weight_from_bounded : forall C d pk i now fu fu' w w' d1 d2, reachable C d -> call_typed C (G_weight_from pk i now) ->
  graph_step C d (G_weight pk now, fu) = (Ok (GR_weight w), d1) ->
  graph_step C d (G_weight_from pk i now, fu') = (Ok (GR_weight w'), d2) -> w' <= w.
Proof. exact p_C46_weight_from_bounded. Qed.
Print Assumptions C46_weight_from_bounded.

(** ** C47 *)
(** Returned certificates are ordered by length and contain no duplicates. *)
Theorem C47_certificates_ordered : forall C d pk now fu cs d', reachable C d -> call_typed C (G_get_all_certs pk now) ->
  graph_step C d (G_get_all_certs pk now, fu) = (Ok (GR_certs cs), d') ->
  NoDup cs /\
  forall i j a b, (i < j)%nat -> nth_error cs i = Some a -> nth_error cs j = Some b -> (length a <= length b)%nat.
Proof. exact p_C47_certificates_ordered. Qed.
Print Assumptions C47_certificates_ordered.

Example C47_example_two : fst (graph_step (toy false) (db_of (after two_ways)) (G_get_all_certs (toy_key B) (at_ 10), None)) = Ok (GR_certs [way1; way2]).
Proof. exact e_C47_two. Qed.

(** ** C48 *)
(** For every call there is a list of effects (collections of expired trusts at the time of the
    call, imports of relations the call offers, a new root) that it makes when nothing fails. If the
    database fails at any statement, the call either had finished, or it reports a storage error and
    the store is what a prefix of these effects leaves. *)
Theorem C48_failures_are_safe : forall C d c, reachable C d -> call_typed C c -> exists es,
  Forall (effect_allowed c) es /\
  effects_on d es (snd (graph_step C d (c, None))) /\
  forall fu r d', graph_step C d (c, fu) = (r, d') ->
    (r, d') = graph_step C d (c, None) \/
    (r = Err (GE_InternalStorage SE_SQLite) /\ exists k, effects_on d (firstn k es) d').
Proof. exact p_C48_failures_are_safe. Qed.
Print Assumptions C48_failures_are_safe.

(** The store is still one that calls can leave, so all the other properties hold for it. *)
Theorem C48_still_reachable : forall C d c fu, reachable C d -> call_typed C c -> reachable C (snd (graph_step C d (c, fu))).
Proof. exact p_C48_still_reachable. Qed.
Print Assumptions C48_still_reachable.

(** A failure at the third statement of an [add_trust]. *)
Example C48_example_failure : fst (graph_step (toy false) (db_of (after root_only)) (G_add_trust (toy_trust R R 1000 1) (toy_key R) (at_ 5), Some 2%nat))
  = Err (GE_InternalStorage SE_SQLite).
Proof. exact e_C48_failure. Qed.

(** ** C55, graph part *)
(** [get_revocations] returns exactly the stored revocations of the key, once each, and changes
    nothing. *)
Theorem C55_get_revocations_exact : forall C d pk fu vs d', reachable C d -> call_typed C (G_get_revocations pk) ->
  graph_step C d (G_get_revocations pk, fu) = (Ok (GR_revs vs), d') ->
  d' = d /\ NoDup vs /\ forall v, In v vs <-> stored_revocation d v /\ rev_pk v = pk.
Proof. exact p_C55_get_revocations_exact. Qed.
Print Assumptions C55_get_revocations_exact.

Example C55_example_revs : fst (graph_step (toy false) (db_of (after long)) (G_get_revocations (toy_key B), None)) = Ok (GR_revs [toy_rev R B 9]).
Proof. exact e_C55_revs. Qed.

