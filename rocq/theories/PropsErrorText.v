(** What the texts of errors tell. Every proof is a lemma of ErrorTextThms.v. *)
From Coq Require Import List NArith ZArith Bool.
From Coq Require String.
Import String.StringSyntax.
From Verif Require Import Base Text Keys Trust Certificate Relation Storage Graph Service Spec ServiceSpec Toy ToyFacts Witness ServiceWitness ErrorText ErrorTextSpec ErrorTextThms.
Import ListNotations.
Open Scope N_scope.

(** ** C160 *)
(** A text is given exactly for a failure, whatever the parts that come from elsewhere. *)
Theorem C160_error_text_iff : forall C F d cp c f r d', service_step C d (cp, c, f) = (Ok r, d') ->
  (answer_text F c r = [] <-> success r = true).
Proof. exact p_C160_error_text_iff. Qed.
Print Assumptions C160_error_text_iff.

(** A read of an unreadable peer id fails with a text; a root is set without one. *)
Example C160_example_texts : told_text script_call (S_get_trust_bytes [] 9 1) = Some (str "public key extraction from peer id failed: peer id parse error: ") /\
  told_text owner_call (S_set_root (pid 1) 5) = Some [].
Proof. exact e_C160_texts. Qed.

(** ** C161 *)
(** The owner's text: exactly [set_root] called for somebody else than the creator of the service. *)
Theorem C161_owner_text : forall C F d cp c f r d', service_step C d (cp, c, f) = (Ok r, d') ->
  (answer_text F c r = str "Root could add only by trust graph service owner" <->
   (exists p n, c = S_set_root p n) /\ service_creator_peer_id cp <> init_peer_id cp).
Proof. exact p_C161_owner_text. Qed.
Print Assumptions C161_owner_text.

(** The text about the time of a trust: exactly [add_trust] with a readable issuer, the host's clock, and a trust of the future. *)
Theorem C161_trust_time_text : forall C F d cp c f r d', service_step C d (cp, c, f) = (Ok r, d') ->
  (answer_text F c r = str "trust can't be issued later than the current timestamp" <->
   exists t i ts k, c = S_add_trust t i ts /\ peer_key C i k /\ host_time cp 2 /\ ts < dt_issued_at t).
Proof. exact p_C161_trust_time_text. Qed.
Print Assumptions C161_trust_time_text.

(** The text about the time of a revocation. *)
Theorem C161_revoke_time_text : forall C F d cp c f r d', service_step C d (cp, c, f) = (Ok r, d') ->
  (answer_text F c r = str "revoke can't be issued later than the current timestamp" <->
   exists v ts, c = S_revoke v ts /\ host_time cp 1 /\ ts < dr_revoked_at v).
Proof. exact p_C161_revoke_time_text. Qed.
Print Assumptions C161_revoke_time_text.

(** The three refusals. *)
Example C161_example_texts : told_text script_call (S_set_root (pid 1) 5) = Some (str "Root could add only by trust graph service owner") /\
  told_text (timed_call 2) (S_add_trust (trust_rec 1 2 900 7) (pid 1) 6) = Some (str "trust can't be issued later than the current timestamp") /\
  told_text (timed_call 1) (S_revoke (rev_rec 1 2 7) 6) = Some (str "revoke can't be issued later than the current timestamp").
Proof. exact e_C161_texts. Qed.

(** ** C162 *)
(** A text that begins like the refusal of a time is one, unless a kind of signature in the call begins so too. *)
Theorem C162_clock_text_partial : forall C F d cp c f r d', service_step C d (cp, c, f) = (Ok r, d') -> issuer_readable C c ->
  (forall s, In s (kinds_given c) -> ~ begins clock_words s) ->
  (begins clock_words (answer_text F c r) <-> not_from_clock cp c).
Proof. exact p_C162_clock_text_partial. Qed.
Print Assumptions C162_clock_text_partial.

(** A weight asked with the stranger's own time. *)
Example C162_example_refused : issuer_readable (toy true) (S_get_weight (pid 2) 6) /\ (forall s, In s (kinds_given (S_get_weight (pid 2) 6)) -> ~ begins clock_words s) /\
  told_text script_call (S_get_weight (pid 2) 6) = Some (str "you should use host peer.timestamp_sec to pass timestamp: ").
Proof. exact e_C162_refused. Qed.

(** The full claim fails: with the host's time, a kind of signature of the caller's making gives a text that begins like the refusal. *)
Theorem C162_clock_text_refuted : exists C F d cp c f r d', crypto_laws C /\ service_reachable C d /\ service_step C d (cp, c, f) = (Ok r, d') /\
  begins clock_words (answer_text F c r) /\ ~ not_from_clock cp c.
Proof. exact p_C162_clock_text_refuted. Qed.
Print Assumptions C162_clock_text_refuted.

(** ** C163 *)
(** Verifying a trust, in the library. *)
Theorem C163_library : forall C F t k now e a b, a_duration (expires_at t) -> a_duration now -> a_duration a -> a_duration b ->
  trust_verify C t k now = Err e -> (trust_error_text F e = expired_message a b <-> a = expires_at t /\ b = now /\ before (expires_at t) now).
Proof. exact p_C163_library. Qed.
Print Assumptions C163_library.

(** Verifying a trust at the service: this text is given exactly then, with the times of the record and of the call. *)
Theorem C163_verify_trust : forall C F d cp c f r d' a b, service_step C d (cp, c, f) = (Ok r, d') -> a_duration a -> a_duration b ->
  (answer_text F c r = expired_message a b <->
   exists v i ts t k, c = S_verify_trust v i ts /\ host_time cp 2 /\ peer_key C i k /\ trust_record C v t /\
     a = from_secs (dt_expires_at v) /\ b = from_secs ts /\ dt_expires_at v < ts).
Proof. exact p_C163_verify_trust. Qed.
Print Assumptions C163_verify_trust.

(** What a refused offer says about expiry is true of a trust that was offered, whatever the store and its failures. *)
Theorem C163_offered : forall C F d cp c f r d' a b, service_step C d (cp, c, f) = (Ok r, d') -> a_duration a -> a_duration b ->
  answer_text F c r = str "Trust verification error: " ++ expired_message a b ->
  exists t, offered C c t /\ a = expires_at t /\ b = offered_at c /\ before (expires_at t) (offered_at c).
Proof. exact p_C163_offered. Qed.
Print Assumptions C163_offered.

(** A duration's text is that of no other. *)
Theorem C163_duration_text : forall a b, a_duration a -> a_duration b -> duration_debug a = duration_debug b -> a = b.
Proof. exact p_C163_duration_text. Qed.
Print Assumptions C163_duration_text.

Example C163_example_durations : duration_debug (from_secs 900) = str "900s" /\ duration_debug (mk_duration 2 50000000) = str "2.05s" /\
  duration_debug (mk_duration 0 1500000) = str "1.5ms" /\ duration_debug (mk_duration 0 999) = str "999ns" /\ duration_debug (from_secs 0) = str "0ns".
Proof. exact e_C163_durations. Qed.

(** A trust until second 900, a second later. *)
Example C163_example_expired : told_text (timed_call 2) (S_verify_trust (trust_rec 1 2 900 1) (pid 1) 901) = Some (str "Trust is expired at: '900s', current time: '901s'") /\
  told_text (timed_call 2) (S_add_trust (trust_rec 1 2 900 1) (pid 1) 901) = Some (str "Trust verification error: Trust is expired at: '900s', current time: '901s'").
Proof. exact e_C163_expired. Qed.

(** ** C164 *)
(** The number in the text is the position of the last trust of the chain that does not verify against the one before it, and what
    follows is what is wrong with it. *)
Theorem C164_certificate_text : forall C F c roots now e i z, cert_verify C c roots now = Err e ->
  certificate_error_text F e = str "Trust " ++ u64_to_string (N.of_nat i) ++ str " in chain did not pass verification: " ++ z ->
  exists j g t te, i = S j /\ at_pos c j g /\ at_pos c i t /\ trust_defect C (issued_for g) t now te /\ z = trust_error_text F te /\
    (forall l, (i <= l)%nat -> (S l < length c)%nat -> good_link C c now l).
Proof. exact p_C164_certificate_text. Qed.
Print Assumptions C164_certificate_text.

(** The last trust of three has expired. *)
Example C164_example_last : exists e, cert_verify (toy true) three_trusts [toy_key 1] (from_secs 95) = Err e /\
  certificate_error_text silent e = str "Trust 2 in chain did not pass verification: Trust is expired at: '80s', current time: '95s'".
Proof. exact e_C164_last. Qed.

(** ** C165 *)
(** The number in the text is that of the line the trust begins at: two more than four times its position. *)
Theorem C165_line_number : forall C F s e n z, cert_from_str C s = Err e ->
  certificate_error_text F e = str "Cannot convert trust number " ++ u64_to_string (N.of_nat n) ++ str " from string: " ++ z ->
  exists k a b c d te, n = (4 * k + 2)%nat /\ firstn 4 (skipn n (lines s)) = [a; b; c; d] /\ trust_from_strings C a b c d = Err te /\ z = trust_error_text F te /\
    (forall j, (j < k)%nat -> exists a' b' c' d' t, firstn 4 (skipn (4 * j + 2) (lines s)) = [a'; b'; c'; d'] /\ trust_from_strings C a' b' c' d' = Ok t).
Proof. exact p_C165_line_number. Qed.
Print Assumptions C165_line_number.

(** The full claim fails: the first trust is called number 2. *)
Theorem C165_position_refuted : exists C F s e z, crypto_laws C /\ cert_from_str C s = Err e /\ length (lines s) = 6%nat /\
  certificate_error_text F e = str "Cannot convert trust number 2 from string: " ++ z.
Proof. exact p_C165_position_refuted. Qed.
Print Assumptions C165_position_refuted.
