(** Further property theorems: C62-C64, C86-C87 about the graph (proofs in MoreThms.v), and the exact
    or conditional forms of properties that are refuted as first stated (C67-C85). *)
From Coq Require Import List NArith ZArith Bool Permutation.
From Coq Require Import Strings.Byte.
From Verif Require Import Base Text Keys Trust Certificate Relation Storage Graph Service Spec ServiceSpec Toy Witness GraphFacts.
From Verif Require Import TextFacts KeysFacts TrustFacts CertFacts GraphThms MoreThms PropsKeys PropsTrust PropsCert PropsGraph PropsService.
Import ListNotations.
Open Scope N_scope.

(** ** C62 *)
(** Relations that differ in the second they were made, whenever they are of the same keys, may be
    imported in any order: the stores then hold the same, and whatever calls follow are answered
    alike. *)
Theorem C62_import_order : forall C d xs ys, reachable C d -> Forall (relation_typed C) xs -> Permutation xs ys -> seconds_differ xs ->
  same_contents (import_all C d xs) (import_all C d ys) /\
  forall cs c, Forall (call_typed C) cs -> call_typed C c ->
    same_answer (answer_after C (import_all C d xs) cs c) (answer_after C (import_all C d ys) cs c).
Proof. exact p_C62_import_order. Qed.
Print Assumptions C62_import_order.

(** A trust, a later revocation of it and another trust, on top of the root's own trust. *)
Example C62_example_relations : reachable (toy false) (db_of (after base)) /\ Forall (relation_typed (toy false)) three /\ seconds_differ three /\
  Permutation three (rev three) /\
  answer_after (toy false) (import_all (toy false) (db_of (after base)) three) [] (G_weight (toy_key B) (at_ 10)) = Ok (GR_weight 16) /\
  answer_after (toy false) (import_all (toy false) (db_of (after base)) three) [] (G_weight (toy_key A) (at_ 10)) = Ok (GR_weight 0).
Proof. exact e_C62_relations. Qed.

(** ** C86 *)
(** What a store answers, now and after any further calls, depends only on the relations and roots
    it holds, not on the calls that brought them. *)
Theorem C86_answers_depend_on_contents : forall C d d' cs c, reachable C d -> reachable C d' -> same_contents d d' ->
  Forall (call_typed C) cs -> call_typed C c ->
  same_answer (answer_after C d cs c) (answer_after C d' cs c) /\
  same_contents (graph_history C d (no_failures cs)) (graph_history C d' (no_failures cs)).
Proof. exact p_C86_answers_depend_on_contents. Qed.
Print Assumptions C86_answers_depend_on_contents.

(** Two trusts added in either order: different tables with the same contents. *)
Example C86_example_two_orders : db_of (after one_way) <> db_of (after other_way) /\ reachable (toy false) (db_of (after one_way)) /\
  reachable (toy false) (db_of (after other_way)) /\ same_contents (db_of (after one_way)) (db_of (after other_way)).
Proof. exact e_C86_two_orders. Qed.

(** ** C63 *)
(** A stored relation was stored before, or a call of the history offered it with a good signature
    and, for a trust, before its expiry; it is stored with its times cut to whole seconds. *)
Theorem C63_stored_was_offered : forall C d es x, reachable C d -> typed_history C es -> stored (graph_history C d es) x ->
  stored d x \/ exists c fu y, In (c, fu) es /\ offers c y /\ genuine C c y /\ x = whole y.
Proof. exact p_C63_stored_was_offered. Qed.
Print Assumptions C63_stored_was_offered.

(** The trust for B arrived with one of the calls. *)
Example C63_example_arrived : stored (db_of (after one_way)) (RAuth (mk_auth (toy_trust R B 900 5) (toy_key R))) /\
  genuine (toy false) (G_add_trust (toy_trust R B 900 5) (toy_key R) (at_ 6)) (RAuth (mk_auth (toy_trust R B 900 5) (toy_key R))).
Proof. exact e_C63_arrived. Qed.

(** ** C64 *)
(** A relation leaves the store only when a call comes with a time at or after its expiry, or when a
    call offers a strictly newer relation of the same keys with a good signature. *)
Theorem C64_why_relations_leave : forall C d es x, reachable C d -> typed_history C es -> stored d x ->
  stored (graph_history C d es) x \/ exists c fu, In (c, fu) es /\
    ((exists now, call_time c = Some now /\ db_expired now x) \/
     (exists y, offers c y /\ genuine C c y /\ same_keys x y /\ before (rel_issued_at x) (rel_issued_at y))).
Proof. exact p_C64_why_relations_leave. Qed.
Print Assumptions C64_why_relations_leave.

(** A trust is stored, the newer revocation takes its place. *)
Example C64_example_replaced : stored (db_of (after short)) (RAuth (mk_auth (toy_trust R A 900 50) (toy_key R))) /\
  ~ stored (graph_history (toy false) (db_of (after short)) [(G_revoke (toy_rev R A 80), None)]) (RAuth (mk_auth (toy_trust R A 900 50) (toy_key R))).
Proof. exact e_C64_replaced. Qed.

(** ** C87 *)
(** Revoking again changes nothing. *)
Theorem C87_revoke_again : forall C d v d1 d2 r, reachable C d -> revocation_typed C v ->
  graph_step C d (G_revoke v, None) = (Ok GR_unit, d1) -> graph_step C d1 (G_revoke v, None) = (r, d2) ->
  r = Ok GR_unit /\ same_contents d1 d2.
Proof. exact p_C87_revoke_again. Qed.
Print Assumptions C87_revoke_again.

(** So does setting a root again, with whatever length. *)
Theorem C87_set_root_again : forall C d pk n n' d1 d2 r, reachable C d -> pk_valid C pk -> n < u32_bound -> n' < u32_bound ->
  graph_step C d (G_set_root pk n, None) = (Ok GR_unit, d1) -> graph_step C d1 (G_set_root pk n', None) = (r, d2) ->
  r = Ok GR_unit /\ same_contents d1 d2.
Proof. exact p_C87_set_root_again. Qed.
Print Assumptions C87_set_root_again.

(** So does adding a trust again that has not expired, below 2^63 seconds. *)
Theorem C87_add_trust_again : forall C d t b now w d1 d2 r, reachable C d -> call_typed C (G_add_trust t b now) ->
  secs now < secs (expires_at t) < i64_bound ->
  graph_step C d (G_add_trust t b now, None) = (Ok (GR_weight w), d1) -> graph_step C d1 (G_add_trust t b now, None) = (r, d2) ->
  (exists w', r = Ok (GR_weight w')) /\ same_contents d1 d2.
Proof. exact p_C87_add_trust_again. Qed.
Print Assumptions C87_add_trust_again.

(** Refuted for certificates: a certificate whose last trust gives its first issuer a weight stores
    more when it is added again. *)
Theorem C87_add_again_refuted : exists C d c now d1 d2 x, crypto_laws C /\ reachable C d /\ call_typed C (G_add c now) /\
  (forall t, In t c -> secs now < secs (expires_at t) < i64_bound) /\
  graph_step C d (G_add c now, None) = (Ok GR_unit, d1) /\ graph_step C d1 (G_add c now, None) = (Ok GR_unit, d2) /\
  ~ stored d1 x /\ stored d2 x.
Proof. exact p_C87_add_again_refuted. Qed.
Print Assumptions C87_add_again_refuted.

(** A trust of the root, added twice. *)
Example C87_example_twice : call_typed (toy false) (G_add_trust (toy_trust R A 900 50) (toy_key R) (at_ 5)) /\ 5 < 900 < i64_bound /\
  answer_after (toy false) (db_of (after base)) [] (G_add_trust (toy_trust R A 900 50) (toy_key R) (at_ 5)) = Ok (GR_weight 16) /\
  answer_after (toy false) (db_of (after short)) [] (G_revoke (toy_rev R A 80)) = Ok GR_unit.
Proof. exact e_C87_twice. Qed.

(** ** C67 *)
(** A returned certificate contains a key below a key that revoked it only as the direct issuer of the
    last key. Example: C25_example_* in PropsGraph.v. *)
Theorem C67_revoked_only_as_direct_issuer : forall C d pk now fu cs d' c i j, reachable C d -> call_typed C (G_get_all_certs pk now) ->
  graph_step C d (G_get_all_certs pk now, fu) = (Ok (GR_certs cs), d') -> In c cs -> revokes_at d' c i j ->
  direct_issuer_pos c j.
Proof. exact C25_revoked_key_excluded_partial. Qed.
Print Assumptions C67_revoked_only_as_direct_issuer.

(** ** C68 *)
(** At a time below 2^63 seconds every trust of a returned certificate expires later. *)
Theorem C68_expired_never_counts : forall C d pk now fu cs d' c t, reachable C d -> call_typed C (G_get_all_certs pk now) ->
  graph_step C d (G_get_all_certs pk now, fu) = (Ok (GR_certs cs), d') -> In c cs -> In t c ->
  secs now < i64_bound -> before now (expires_at t).
Proof. exact C27_expired_never_counts_partial. Qed.
Print Assumptions C68_expired_never_counts.

(** ** C69 *)
(** A stored trust that expires below 2^63 seconds stays until its expiry or a newer relation. *)
Theorem C69_unexpired_trust_kept : forall C d b t es, reachable C d -> stored_trust d b t -> secs (expires_at t) < i64_bound ->
  typed_history C es ->
  (forall c fu now, In (c, fu) es -> call_time c = Some now -> secs now < secs (expires_at t)) ->
  (forall c fu y, In (c, fu) es -> offers c y -> same_keys (RAuth (mk_auth t b)) y -> ~ before (issued_at t) (rel_issued_at y)) ->
  stored_trust (graph_history C d es) b t.
Proof. exact C28_unexpired_trust_kept_partial. Qed.
Print Assumptions C69_unexpired_trust_kept.

(** ** C70 *)
(** A revocation newer than what is stored for its keys takes effect until a newer relation comes. *)
Theorem C70_newer_revocation_takes_effect : forall C d v fu d1 es pk now fu' cs d' c i, reachable C d -> revocation_typed C v ->
  (forall z, stored d z -> same_keys (RRev v) z -> before (rel_issued_at z) (revoked_at v)) ->
  graph_step C d (G_revoke v, fu) = (Ok GR_unit, d1) ->
  typed_history C es ->
  (forall c fu y, In (c, fu) es -> offers c y -> same_keys (RRev v) y -> ~ before (from_secs (secs (revoked_at v))) (rel_issued_at y)) ->
  call_typed C (G_get_all_certs pk now) ->
  graph_step C (graph_history C d1 es) (G_get_all_certs pk now, fu') = (Ok (GR_certs cs), d') -> In c cs ->
  ~ (key_at c i (revoked_by v) /\ key_at c (S i) (rev_pk v)).
Proof. exact C33_revoke_takes_effect_partial. Qed.
Print Assumptions C70_newer_revocation_takes_effect.

(** ** C71 *)
(** While a revocation is stored no trust of its keys gets stored, unless made later. *)
Theorem C71_no_replay_while_stored : forall C d v es, reachable C d -> stored_revocation d v -> typed_history C es ->
  (forall c fu y, In (c, fu) es -> offers c y -> same_keys (RRev v) y -> ~ before (revoked_at v) (rel_issued_at y)) ->
  forall t, issued_for t = rev_pk v -> ~ stored_trust (graph_history C d es) (revoked_by v) t.
Proof. exact C34_no_replay_partial. Qed.
Print Assumptions C71_no_replay_while_stored.

(** ** C72 *)
(** Chains of the maximum length or more give a weight of at most 1; and see C37_weight_one_cannot_issue. *)
Theorem C72_long_chains_weigh_at_most_one : forall C d pk now fu fu' cs d1 d2 w m, reachable C d -> call_typed C (G_weight pk now) -> small d ->
  (forall k n, root_max_len d k n -> n <= m) -> ~ is_root d pk ->
  graph_step C d (G_get_all_certs pk now, fu) = (Ok (GR_certs cs), d1) ->
  (forall c, In c cs -> m <= N.of_nat (length c - 1)) ->
  graph_step C d (G_weight pk now, fu') = (Ok (GR_weight w), d2) -> w <= 1.
Proof. exact C37_max_chain_len_bounds_partial. Qed.
Print Assumptions C72_long_chains_weigh_at_most_one.

(** ** C75 *)
(** A good certificate that meets nothing as new but its own trusts and no revocation in the store counts after it was added. *)
Theorem C75_added_certificate_counts : forall C d c now m k0 pk, reachable C d -> call_typed C (G_add c now) ->
  (2 <= length c)%nat -> N.of_nat (length c - 1) <= m ->
  key_at c 0 k0 -> root_max_len d k0 m -> key_at c (length c - 1) pk ->
  NoDup (map issued_for c) ->
  (forall i, (i < length c)%nat -> good_at C c now i) ->
  (forall t, In t c -> secs now < secs (expires_at t) < i64_bound) ->
  (forall t b z, offers_trust (G_add c now) t b -> stored d z -> same_keys (RAuth (mk_auth t b)) z ->
     before (rel_issued_at z) (issued_at t) \/ z = whole (RAuth (mk_auth t b))) ->
  (forall v, stored_revocation d v -> In (revoked_by v) (map issued_for c) -> In (rev_pk v) (map issued_for c) -> False) ->
  exists d1, graph_step C d (G_add c now, None) = (Ok GR_unit, d1) /\
  forall now' fu cs d', duration_wf now' -> (forall t, In t c -> secs now' < secs (expires_at t)) ->
    graph_step C d1 (G_get_all_certs pk now', fu) = (Ok (GR_certs cs), d') -> In (map whole_trust c) cs.
Proof. exact C43_added_certificate_counts_partial. Qed.
Print Assumptions C75_added_certificate_counts.

(** ** C76 *)
(** When the weight that adding a trust reports is a lower bound of the weight of the key. *)
Theorem C76_reported_weight_is_real : forall C d t b now w d' w' d'', reachable C d -> call_typed C (G_add_trust t b now) -> small d ->
  graph_step C d (G_add_trust t b now, None) = (Ok (GR_weight w), d') ->
  graph_step C d' (G_weight (issued_for t) now, None) = (Ok (GR_weight w'), d'') ->
  (forall cs d1 c v, graph_step C d (G_get_all_certs b now, None) = (Ok (GR_certs cs), d1) -> c = [] \/ In c cs ->
     stored_revocation d v -> ~ same_keys (RAuth (mk_auth t b)) (RRev v) ->
     In (revoked_by v) (issued_for t :: b :: map issued_for c) -> In (rev_pk v) (issued_for t :: b :: map issued_for c) -> False) ->
  (is_root d b -> exists u, issued_for u = b /\ stored_trust d b u /\ secs now < secs (expires_at u) < i64_bound) ->
  secs now < secs (expires_at t) < i64_bound ->
  (forall z, stored d z -> same_keys (RAuth (mk_auth t b)) z -> before (rel_issued_at z) (issued_at t)) ->
  w <= w'.
Proof. exact C39_reported_weight_is_real_partial. Qed.
Print Assumptions C76_reported_weight_is_real.

(** ** C77 *)
(** For another key as the issuer, the certificates from it are those with a trust it issued. *)
Theorem C77_from_another_issuer : forall C d pk i now fu fu' cs cs' d1 d2, reachable C d -> call_typed C (G_get_all_certs_from pk i now) ->
  pk <> i ->
  graph_step C d (G_get_all_certs pk now, fu) = (Ok (GR_certs cs), d1) ->
  graph_step C d (G_get_all_certs_from pk i now, fu') = (Ok (GR_certs cs'), d2) ->
  forall c, In c cs' <-> In c cs /\ exists n, (S n < length c)%nat /\ key_at c n i.
Proof. exact C46_from_issued_by_partial. Qed.
Print Assumptions C77_from_another_issuer.

(** ** C78 *)
(** Exactly which trusts survive encoding and decoding. *)
Theorem C78_trust_encoding_exact : forall C t, trust_decode C (trust_encode t) = Ok t <->
  trust_fits C t /\ len (pk_encode (issued_for t)) < 256 /\ len (sig_encode (trust_sig t)) < 256.
Proof. exact C05_trust_decode_encode_partial. Qed.
Print Assumptions C78_trust_encoding_exact.

(** Exactly which certificates do. *)
Theorem C78_certificate_encoding_exact : forall C c, cert_decode C (cert_encode c) = Ok c <->
  (forall t, In t c -> trust_fits C t /\ len (trust_encode t) < 256) /\ (2 <= length c <= 255)%nat.
Proof. exact C20_certificate_decode_encode_partial. Qed.
Print Assumptions C78_certificate_encoding_exact.

(** ** C79 *)
(** What is signed for a revocation of a key that is not RSA is never what is signed for a trust. *)
Theorem C79_domains_separate : forall C k e i k' a, pk_valid C k' -> pk_fmt k' <> Rsa ->
  trust_metadata k e i <> revocation_metadata k' a.
Proof. exact C12_domains_separate_partial. Qed.
Print Assumptions C79_domains_separate.

(** ** C80 *)
(** A certificate extended with a given trust verifies exactly when that trust does. *)
Theorem C80_issue_with_trust_verifies : forall C pk t c cur c' roots now,
  cert_issue_with_trust C pk t c cur = Ok c' -> cert_verify C c roots now = Ok tt ->
  (cert_verify C c' roots now = Ok tt <-> trust_verify C t pk now = Ok tt).
Proof. exact C19_issue_with_trust_verifies_partial. Qed.
Print Assumptions C80_issue_with_trust_verifies.

(** ** C81 *)
(** Calls other than [insert_cert], [insert_cert_raw] and [get_weight_from] refuse times that are not the host's. *)
Theorem C81_times_come_from_host : forall C d cp c fu resp d' ts i, inserts_cert c = false -> is_get_weight_from c = false ->
  given_time c = Some (ts, i) -> ~ host_time cp i ->
  service_step C d (cp, c, fu) = (Ok resp, d') -> success resp = false /\ d' = d.
Proof. exact C49_times_come_from_host_partial. Qed.
Print Assumptions C81_times_come_from_host.

(** ** C83 *)
(** Without [insert_cert] and [insert_cert_raw] nothing stored was made after the host's time it was stored at. *)
Theorem C83_nothing_from_the_future : forall C es x, crypto_laws C -> service_events_typed es ->
  (forall cp c fu, In (cp, c, fu) es -> inserts_cert c = false) -> stored (service_history C empty_db es) x ->
  exists cp c fu ts i, In (cp, c, fu) es /\ given_time c = Some (ts, i) /\ host_time cp i /\ secs (rel_issued_at x) <= ts.
Proof. exact C51_nothing_from_the_future_history_partial. Qed.
Print Assumptions C83_nothing_from_the_future.

(** ** C84 *)
(** What each kind of key checks: two kinds ask their scheme, secp256k1 asks only whether the
    signature parses. *)
Theorem C84_verify_exact : forall C k m s, pk_verify C k m s = Ok tt <->
  (pk_fmt k <> Secp256k1 /\ scheme_accepts C k m (sig_raw s)) \/
  (pk_fmt k = Secp256k1 /\ len (sha256 C m) = 32 /\ secp_der C (sig_raw s) = true).
Proof. exact verify_all_exact. Qed.
Print Assumptions C84_verify_exact.

(** ** C85 *)
(** The inputs on which the parsers panic, exactly: trusts, *)
Theorem C85_trust_decode_panics_exactly : forall C b, trust_decode C b = Panic <->
  (exists r, b = x00 :: r)
  \/ (exists lp pkb r pk, b = lp :: pkb ++ x00 :: r /\ len pkb = N_of_u8 lp /\ pk_decode C pkb = Ok pk)
  \/ (exists lp pkb ls sgb r pk sg, b = lp :: pkb ++ ls :: sgb ++ r /\ len pkb = N_of_u8 lp /\ len sgb = N_of_u8 ls
        /\ pk_decode C pkb = Ok pk /\ sig_decode C sgb = Ok sg /\ 16 < len r).
Proof. exact C06_trust_decode_total_refuted. Qed.
Print Assumptions C85_trust_decode_panics_exactly.

(** certificates, *)
Theorem C85_certificate_decode_panics_exactly : forall C b, cert_decode C b = Panic <->
  exists hdr n ts l sl post, b = hdr ++ n :: flat_map enc1 ts ++ l :: sl ++ post /\ len hdr = 6 /\ 2 <= N_of_u8 n /\
    N.of_nat (length ts) < N_of_u8 n /\ (forall t, In t ts -> trust_fits C t /\ len (trust_encode t) < 256) /\
    len sl = N_of_u8 l /\ trust_decode C sl = Panic.
Proof. exact C22_certificate_decode_total_refuted. Qed.
Print Assumptions C85_certificate_decode_panics_exactly.

(** certificates as text, *)
Theorem C85_certificate_text_panics_exactly : forall C s, cert_from_str C s = Panic <->
  (length (lines s) < 2)%nat \/
  exists f v k pre a b c d post, lines s = f :: v :: pre ++ a :: b :: c :: d :: post /\
    Nat.modulo (length (lines s) - 2) 4 = 0%nat /\ length pre = (4 * k)%nat /\
    (forall j, (j < k)%nat -> exists a b c d t, firstn 4 (skipn (4 * j) pre) = [a; b; c; d] /\ trust_from_strings C a b c d = Ok t) /\
    (a = [] \/ ((exists p, pk_from_str C a = Ok p) /\ b = [])).
Proof. exact C22_certificate_from_str_total_refuted. Qed.
Print Assumptions C85_certificate_text_panics_exactly.

(** keys, *)
Theorem C85_key_decode_panics_exactly : forall C b, pk_decode C b = Panic <-> b = [].
Proof. exact C57_key_decode_total_refuted. Qed.
Print Assumptions C85_key_decode_panics_exactly.

(** keys as text, *)
Theorem C85_key_text_panics_exactly : forall C s, pk_from_str C s = Panic <-> s = [].
Proof. exact C57_key_text_total_refuted. Qed.
Print Assumptions C85_key_text_panics_exactly.

(** signatures. *)
Theorem C85_signature_decode_panics_exactly : forall C b, sig_decode C b = Panic <-> b = [].
Proof. exact C57_signature_decode_total_refuted. Qed.
Print Assumptions C85_signature_decode_panics_exactly.

