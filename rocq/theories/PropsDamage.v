(** Databases that hold anything. Every proof is a lemma of DamageThms.v. *)
From Coq Require Import List NArith ZArith Bool.
From Verif Require Import Base Text Keys Trust Certificate Relation Storage Graph Service Spec ServiceSpec MachineSpec ServiceWitness DamageSpec Toy DamageThms.
Import ListNotations.
Open Scope N_scope.

(** ** C169 *)
(** If no row lacks its issuer or signature and no root its key, no call panics or hangs, whatever else is in the database and at
    whichever statement it fails. No call leaves such a row or root. *)
Theorem C169_no_panic_partial : forall C d c fu r d', no_blanks d -> graph_step C d (c, fu) = (r, d') ->
  ((exists x, r = Ok x) \/ (exists e, r = Err e)) /\ no_blanks d'.
Proof. exact p_C169_no_panic_partial. Qed.
Print Assumptions C169_no_panic_partial.

(** Through the service: every call responds, except [insert_cert_raw] with a text on which the parser of certificates panics. *)
Theorem C169_service_responds_partial : forall C d cp c fu r d', no_blanks d -> service_step C d (cp, c, fu) = (r, d') ->
  ((exists resp, r = Ok resp) \/ (exists s ts, c = S_insert_cert_raw s ts /\ cert_from_str C s = Panic /\ r = Panic /\ d' = d)) /\ no_blanks d'.
Proof. exact p_C169_service_responds_partial. Qed.
Print Assumptions C169_service_responds_partial.

(** Every store the library leaves is of this kind. *)
Theorem C169_reachable : forall C d, reachable C d -> no_blanks d.
Proof. exact p_C169_reachable. Qed.
Print Assumptions C169_reachable.

(** It is false for all contents: a row without signature makes the questions about its key panic, a row without issuer too, and a root
    without key makes the questions about all keys panic. *)
Theorem C169_no_panic_refuted : exists C d1 d2 d3, crypto_laws C /\
  fst (graph_step C d1 (G_get_all_certs (toy_key 3) (from_secs 6), None)) = Panic /\
  fst (graph_step C d2 (G_weight (toy_key 3) (from_secs 6), None)) = Panic /\
  fst (graph_step C d3 (G_weight (toy_key 2) (from_secs 6), None)) = Panic /\
  length (tbl_relations d1) = 3%nat /\ length (tbl_relations d2) = 3%nat /\ length (tbl_roots d3) = 2%nat.
Proof. exact p_C169_no_panic_refuted. Qed.
Print Assumptions C169_no_panic_refuted.

(** Calls on a store with an unreadable row: errors and answers, no panics. *)
Example C169_example_unreadable : no_blanks (hurt [unread13] []) /\
  fst (graph_step (toy true) (hurt [unread13] []) (G_get_all_certs (toy_key 3) (from_secs 6), None)) = Ok (GR_certs []).
Proof. exact e_C169_unreadable. Qed.

(** ** C170 *)
(** Rows that cannot be read, or are neither trusts nor revocations, do not count: every history of calls gets the answers it gets without
    them, if none of the calls offers a relation of the two keys of such a row. *)
Theorem C170_do_not_count : forall C d d' cs, no_blanks d -> cleaned C d d' -> Forall (call_typed C) cs -> Forall (clear_of C d) cs ->
  answers C d (no_failures cs) = answers C d' (no_failures cs) /\
  cleaned C (graph_history C d (no_failures cs)) (graph_history C d' (no_failures cs)).
Proof. exact p_C170_do_not_count. Qed.
Print Assumptions C170_do_not_count.

(** The damaged row does not hurt the others: with it and without, key 2 has the same weight, and a call that does not touch the pair of the row does the same. *)
Example C170_example_other_keys : no_blanks (hurt [unread13] []) /\ cleaned (toy true) (hurt [unread13] []) base_store /\
  call_typed (toy true) (G_add_trust (toy_trust 2 3 800 5) (toy_key 2) (from_secs 6)) /\
  clear_of (toy true) (hurt [unread13] []) (G_add_trust (toy_trust 2 3 800 5) (toy_key 2) (from_secs 6)) /\
  answers (toy true) (hurt [unread13] []) (no_failures [G_add_trust (toy_trust 2 3 800 5) (toy_key 2) (from_secs 6); G_weight (toy_key 3) (from_secs 7)]) =
    [Ok (GR_weight 8); Ok (GR_weight 8)].
Proof. exact e_C170_other_keys. Qed.

(** ** C171 *)
(** A signed revocation of a pair whose row cannot be read fails, and changes nothing. *)
Theorem C171_revoke_blocked : forall C d r v, no_blanks d -> pairs_unique d -> In r (tbl_relations d) -> row_of_pair r (rev_pk v) (revoked_by v) ->
  ~ readable C r -> signed_revocation C v ->
  exists e, graph_step C d (G_revoke v, None) = (Err (GE_InternalStorage (SE_Decode e)), d).
Proof. exact p_C171_revoke_blocked. Qed.
Print Assumptions C171_revoke_blocked.

(** A signed, unexpired trust for a pair whose row cannot be read, from a key of enough weight: it fails and the row stays, unless
    the row is of a trust whose time is up; then the trust takes its place. *)
Theorem C171_add_blocked : forall C d r t b now w d1 x d2, no_blanks d -> pairs_unique d -> In r (tbl_relations d) -> row_of_pair r (issued_for t) b ->
  ~ readable C r -> trust_typed C t -> pk_valid C b -> signed_trust C b t -> ~ before (expires_at t) now ->
  graph_step C d (G_weight b now, None) = (Ok (GR_weight w), d1) -> 2 <= w ->
  graph_step C d (G_add_trust t b now, None) = (x, d2) ->
  (~ row_expired now r -> exists e, x = Err (GE_InternalStorage (SE_Decode e)) /\ In r (tbl_relations d2)) /\
  (row_expired now r -> (exists w', x = Ok (GR_weight w')) /\ ~ In r (tbl_relations d2) /\
     In (mk_row 0 (key_text (issued_for t)) (key_text b) (i64_of_u64 (secs (issued_at t))) (i64_of_u64 (secs (expires_at t))) (sig_encode (trust_sig t))) (tbl_relations d2)).
Proof. exact p_C171_add_blocked. Qed.
Print Assumptions C171_add_blocked.

(** So it is false that a damaged row can be replaced: root 1 tries with a newer trust and with a newer revocation, in vain. *)
Theorem C171_replaced_refuted : exists C d r t v now e1 e2 d', crypto_laws C /\ no_blanks d /\ pairs_unique d /\ In r (tbl_relations d) /\
  row_of_pair r (issued_for t) (toy_key 1) /\ row_of_pair r (rev_pk v) (revoked_by v) /\ (r_issued_at r < Z.of_N (secs (issued_at t)) < Z.of_N (secs (revoked_at v)))%Z /\
  trust_typed C t /\ signed_trust C (toy_key 1) t /\ revocation_typed C v /\ signed_revocation C v /\
  graph_step C d (G_weight (toy_key 1) now, None) = (Ok (GR_weight 32), d) /\
  graph_step C d (G_add_trust t (toy_key 1) now, None) = (Err (GE_InternalStorage e1), d') /\ In r (tbl_relations d') /\
  graph_step C d (G_revoke v, None) = (Err (GE_InternalStorage e2), d).
Proof. exact p_C171_replaced_refuted. Qed.
Print Assumptions C171_replaced_refuted.

(** Later than second 900 the row is gone with the expired trusts, and the pair can be set again. *)
Example C171_example_expired : row_expired (from_secs 950) unread13 /\
  map (fun a => match a with Ok _ => true | _ => false end)
    (answers (toy true) (hurt [unread13] []) (no_failures [G_add_trust (toy_trust 1 3 2000 5) (toy_key 1) (from_secs 6); G_add_trust (toy_trust 1 3 2000 5) (toy_key 1) (from_secs 950)])) =
    [false; true].
Proof. exact e_C171_expired. Qed.

(** ** C172 *)
(** [get_all_certs] succeeds, for whatever key, exactly if the keys of all roots can be read. *)
Theorem C172_certs_exact : forall C d pk now, no_blanks d ->
  ((exists cs d', graph_step C d (G_get_all_certs pk now, None) = (Ok (GR_certs cs), d')) <-> roots_readable C d).
Proof. exact p_C172_certs_exact. Qed.
Print Assumptions C172_certs_exact.

(** Then no trust can be added either, and no weight asked for: these calls fail too. *)
Theorem C172_all_fail : forall C d now, no_blanks d -> ~ roots_readable C d ->
  (forall pk, exists e, fst (graph_step C d (G_weight pk now, None)) = Err e) /\
  (forall pk i, exists e, fst (graph_step C d (G_weight_from pk i now, None)) = Err e) /\
  (forall t b, exists e, fst (graph_step C d (G_add_trust t b now, None)) = Err e).
Proof. exact p_C172_all_fail. Qed.
Print Assumptions C172_all_fail.

(** So it is false that an unreadable root is lost alone: key 2 loses its certificates from root 1, which can be read. *)
Theorem C172_lost_alone_refuted : exists C d d' pk now cs e, crypto_laws C /\ no_blanks d' /\ tbl_relations d' = tbl_relations d /\
  (exists x, tbl_roots d' = tbl_roots d ++ [x] /\ ~ (exists k, pk_from_str C (fst x) = Ok k)) /\
  fst (graph_step C d (G_get_all_certs pk now, None)) = Ok (GR_certs cs) /\ length cs = 1%nat /\
  fst (graph_step C d' (G_get_all_certs pk now, None)) = Err e.
Proof. exact p_C172_lost_alone_refuted. Qed.
Print Assumptions C172_lost_alone_refuted.

(** Both sides of the equivalence. *)
Example C172_example_roots : roots_readable (toy true) base_store /\ ~ roots_readable (toy true) root_hurt /\ no_blanks base_store /\ no_blanks root_hurt.
Proof. exact e_C172_roots. Qed.

(** ** C173 *)
(** Every trust of a returned certificate is what a trust row of the table says, given by the key before it or, the first, by itself, and the
    first is of a key of the table of roots; signatures are not looked at. *)
Theorem C173_rows_shown : forall C d pk now cs d' c, no_blanks d -> graph_step C d (G_get_all_certs pk now, None) = (Ok (GR_certs cs), d') -> In c cs ->
  (forall i t, nth_error c i = Some t -> exists g r, nth_error c (pred i) = Some g /\ In r (tbl_relations d') /\ row_says C r t (issued_for g)) /\
  (exists t x, nth_error c 0 = Some t /\ In x (tbl_roots d') /\ pk_from_str C (fst x) = Ok (issued_for t)) /\
  (exists t, nth_error c (length c - 1) = Some t /\ issued_for t = pk) /\
  (forall r, In r (tbl_relations d') <-> In r (tbl_relations d) /\ ~ row_expired now r).
Proof. exact p_C173_rows_shown. Qed.
Print Assumptions C173_rows_shown.

(** So it is false that returned certificates verify, whatever the database holds: a forged row is shown as a trust of key 1. *)
Theorem C173_certs_verify_refuted : exists C d pk now g t, crypto_laws C /\ no_blanks d /\ pairs_unique d /\ roots_readable C d /\ (forall r, In r (tbl_relations d) -> counts C r) /\
  fst (graph_step C d (G_get_all_certs pk now, None)) = Ok (GR_certs [[g; t]]) /\ ~ signed_trust C (issued_for g) t.
Proof. exact p_C173_certs_verify_refuted. Qed.
Print Assumptions C173_certs_verify_refuted.

(** A certificate from a store with a row that cannot be read. *)
Example C173_example_shown : no_blanks (hurt [unread13] []) /\ exists c, fst (graph_step (toy true) (hurt [unread13] []) (G_get_all_certs (toy_key 2) (from_secs 6), None)) = Ok (GR_certs [c]) /\
  length c = 2%nat.
Proof. exact e_C173_shown. Qed.
