(** What is signed when scripts run at once. Every proof is a lemma of SignedThms.v. *)
From Coq Require Import List NArith ZArith Bool.
From Verif Require Import Base Text Keys Trust Certificate Relation Storage Graph Service Spec ServiceSpec Aqua AquaSpec Sched SchedSpec SignedSpec.
From Verif Require Import Toy ServiceWitness AquaWitness SchedEx SignedThms SignedSpec.
Import ListNotations.
Open Scope N_scope.

(** ** C208 *)
(** However scripts are mixed, a script asks for no signature but that of the trust or the revocation that its user asked it for, by the peer they named, made at a time that the clock of the relay said. *)
Theorem C208_signed : forall C st clocks evs j tk p m, nth_error (sy_tasks (happens C (idle st clocks) evs)) j = Some tk -> waits_for_signature tk p m ->
  exists q k i, peer_key C q k /\ said clocks evs (relay (tk_net tk)) i /\
    ((exists e t, asked_trust (tk_request tk) p q e /\ issued_for t = k /\ expires_at t = from_secs e /\ issued_at t = from_secs i /\ m = trust_message C t) \/
     (exists v, asked_revocation (tk_request tk) p q /\ rev_pk v = k /\ revoked_at v = from_secs i /\ m = revocation_message C v)).
Proof. exact p_C208_signed. Qed.
Print Assumptions C208_signed.

(** What it then sends to a node is that trust, signed by that peer, if the Sig service is that of the peer, *)
Theorem C208_sent_trust : forall C st clocks evs j tk n x issuer now, crypto_laws C -> wasm32 C = true -> honest C st clocks evs j ->
  nth_error (sy_tasks (happens C (idle st clocks) evs)) j = Some tk -> about_to_call tk n (S_add_trust x issuer now) ->
  said clocks evs n now /\ request_node (tk_request tk) = Some n /\
  (tk_request tk = Q_import_trust n x issuer \/
   exists p e, asked_trust (tk_request tk) issuer p e /\
     forall kp, signer C (tk_net tk) issuer kp -> exists k i t, peer_key C p k /\ said clocks evs (relay (tk_net tk)) i /\
       trust_record C x t /\ trust_asked C (kp_public C kp) k e i t).
Proof. exact p_C208_sent_trust. Qed.
Print Assumptions C208_sent_trust.

(** or that revocation. *)
Theorem C208_sent_revocation : forall C st clocks evs j tk n x now, crypto_laws C -> wasm32 C = true -> honest C st clocks evs j ->
  nth_error (sy_tasks (happens C (idle st clocks) evs)) j = Some tk -> about_to_call tk n (S_revoke x now) ->
  said clocks evs n now /\ request_node (tk_request tk) = Some n /\
  (tk_request tk = Q_import_revocation n x \/
   exists by_ p, asked_revocation (tk_request tk) by_ p /\
     forall kp, signer C (tk_net tk) by_ kp -> exists k i v, peer_key C p k /\ said clocks evs (relay (tk_net tk)) i /\
       revocation_record C x v /\ revocation_asked C (kp_public C kp) k i v).
Proof. exact p_C208_sent_revocation. Qed.
Print Assumptions C208_sent_revocation.

(** And issuing, mixed with other scripts, returns what was asked for. *)
Theorem C208_issued_trust : forall C st clocks evs j tk issuer kp p k e a, crypto_laws C -> wasm32 C = true -> honest C st clocks evs j ->
  nth_error (sy_tasks (happens C (idle st clocks) evs)) j = Some tk -> tk_request tk = Q_issue_trust issuer p e -> returned tk = Some a ->
  signer C (tk_net tk) issuer kp -> peer_key C p k ->
  exists x t i, a = N_trust ([x], []) /\ said clocks evs (relay (tk_net tk)) i /\ trust_record C x t /\ trust_asked C (kp_public C kp) k e i t.
Proof. exact p_C208_issued_trust. Qed.
Print Assumptions C208_issued_trust.

Theorem C208_issued_revocation : forall C st clocks evs j tk by_ kp p k a, crypto_laws C -> wasm32 C = true -> honest C st clocks evs j ->
  nth_error (sy_tasks (happens C (idle st clocks) evs)) j = Some tk -> tk_request tk = Q_issue_revocation by_ p -> returned tk = Some a ->
  signer C (tk_net tk) by_ kp -> peer_key C p k ->
  exists x v i, a = N_revocation ([x], []) /\ said clocks evs (relay (tk_net tk)) i /\ revocation_record C x v /\ revocation_asked C (kp_public C kp) k i v.
Proof. exact p_C208_issued_revocation. Qed.
Print Assumptions C208_issued_revocation.

(** Two scripts run at once, one trusts peer 4 and one revokes peer 2, both in the name of peer 1. After five events the first waits for the signature of peer 1. *)
Example C208_example_waits : exists tk, nth_error (sy_tasks (happens (toy true) (idle toy_stores at_five) (firstn 5 mixed))) 0 = Some tk /\
  waits_for_signature tk (pid 1) (trust_sum 4 800 5) /\ asked_trust (tk_request tk) (pid 1) (pid 4) 800.
Proof. exact e_C208_waits. Qed.

(** Near the end it is about to send the trust, and the other was about to send the revocation. The Sig services were honest. *)
Example C208_example_sends : honest (toy true) toy_stores at_five (removelast mixed) 0 /\ honest (toy true) toy_stores at_five (firstn 13 mixed) 1 /\
  signer (toy true) (toy_net stranger_peer) (pid 1) (toy_kp 1) /\
  (exists tk x, nth_error (sy_tasks (happens (toy true) (idle toy_stores at_five) (removelast mixed))) 0 = Some tk /\ tk_request tk = trusting /\
     next_call (tk_rest tk) = Some (host_peer, S_add_trust x (pid 1) 6)) /\
  (exists tk x, nth_error (sy_tasks (happens (toy true) (idle toy_stores at_five) (firstn 13 mixed))) 1 = Some tk /\ tk_request tk = revoking /\
     next_call (tk_rest tk) = Some (host_peer, S_revoke x 6)).
Proof. exact e_C208_sends. Qed.

(** Two scripts that only issue. *)
Example C208_example_issues : honest (toy true) toy_stores at_five issuing 0 /\ honest (toy true) toy_stores at_five issuing 1 /\
  (exists x, told_by toy_stores issuing 0 = Some (Q_issue_trust (pid 1) (pid 4) 800, Some (N_trust ([x], [])))) /\
  (exists x, told_by toy_stores issuing 1 = Some (Q_issue_revocation (pid 1) (pid 2), Some (N_revocation ([x], [])))).
Proof. exact e_C208_issues. Qed.
