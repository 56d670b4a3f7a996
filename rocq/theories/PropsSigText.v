(** The messages of wrong signatures. Every proof is a lemma of SigTextThms.v. *)
From Coq Require Import List NArith ZArith Bool.
From Coq Require String.
Import String.StringSyntax.
From Verif Require Import Base Text Keys Trust Certificate Relation Storage Graph Service Spec ServiceSpec ErrorText ErrorTextSpec SigTextSpec.
From Verif Require Import Toy Witness ServiceWitness StateFacts GraphFacts ErrorTextThms SigTextThms.
Import ListNotations.
Open Scope N_scope.

(** ** C196 *)
(** A revocation that its revoker did not sign: refused with the message, whatever the store, which stays as it is. *)
Theorem C196_revoke_text : forall C F d cp c f v, unsigned_revocation C cp c v ->
  exists r, service_step C d (cp, c, f) = (Ok r, d) /\ success r = false /\ answer_text F c r = revoke_words ++ str " Signature is incorrect: " ++ signature_message F (revoked_by v).
Proof. exact p_C196_revoke_text. Qed.
Print Assumptions C196_revoke_text.

(** Of a store that only the service wrote, and a call with no kind of signature that begins so: the words are told exactly for such a revocation. *)
Theorem C196_revoke_means : forall C F d cp c f r d', crypto_laws C -> service_reachable C d -> service_typed c ->
  (forall s, In s (kinds_given c) -> ~ begins revoke_words s) -> service_step C d (cp, c, f) = (Ok r, d') ->
  (begins revoke_words (answer_text F c r) <-> exists v, unsigned_revocation C cp c v).
Proof. exact p_C196_revoke_means. Qed.
Print Assumptions C196_revoke_means.

(** The same for a trust that is only verified. *)
Theorem C196_verify_text : forall C F d cp c f k, unsigned_checked C cp c k ->
  exists r, service_step C d (cp, c, f) = (Ok r, d) /\ success r = false /\ answer_text F c r = signature_message F k.
Proof. exact p_C196_verify_text. Qed.
Print Assumptions C196_verify_text.

(** And no other answer begins so, unless a kind of signature does. *)
Theorem C196_verify_means : forall C F d cp c f r d', (forall s, In s (kinds_given c) -> ~ begins signature_words s) -> service_step C d (cp, c, f) = (Ok r, d') ->
  (begins signature_words (answer_text F c r) <-> exists k, unsigned_checked C cp c k).
Proof. exact p_C196_verify_means. Qed.
Print Assumptions C196_verify_means.

(** Of an addition: refused with the message, whatever the store, which stays as it is. *)
Theorem C196_add_text : forall C F d cp c f k, unsigned_added C cp c k ->
  exists r, service_step C d (cp, c, f) = (Ok r, d) /\ success r = false /\ answer_text F c r = offer_words ++ signature_message F k.
Proof. exact p_C196_add_text. Qed.
Print Assumptions C196_add_text.

(** What the words mean in an offer: the added trust is not signed by the issuer that was given, or the certificate has a trust that has not
    expired and is not signed by the key that has to have signed it; the message tells the kind of this key. *)
Theorem C196_offer_means : forall C F d cp c f r d', crypto_laws C -> service_reachable C d -> service_typed c ->
  (forall s, In s (kinds_given c) -> ~ begins (offer_words ++ signature_words) s) -> service_step C d (cp, c, f) = (Ok r, d') ->
  begins (offer_words ++ signature_words) (answer_text F c r) ->
  exists k, answer_text F c r = offer_words ++ signature_message F k /\
    (unsigned_added C cp c k \/ exists ch i t, inserted C c ch /\ at_pos ch i t /\ signer_at ch i k /\ ~ before (expires_at t) (inserted_at c) /\ ~ signed_trust C k t).
Proof. exact p_C196_offer_means. Qed.
Print Assumptions C196_offer_means.

(** A revocation by 1 that 3 signed, and a trust of 1 that 3 signed. *)
Example C196_example_texts : service_reachable (toy true) base_store /\ (exists v, unsigned_revocation (toy true) (timed_call 1) (S_revoke unsigned_rev 6) v) /\
  (exists k, unsigned_checked (toy true) (timed_call 2) (S_verify_trust unsigned_trust (pid 1) 6) k) /\ (exists k, unsigned_added (toy true) (timed_call 2) (S_add_trust unsigned_trust (pid 1) 6) k) /\
  told_text (timed_call 1) (S_revoke unsigned_rev 6) = Some (str "Error on revoking a trust: Signature is incorrect: Failed to verify signature  with  ed25519 public key: ") /\
  told_text (timed_call 2) (S_verify_trust unsigned_trust (pid 1) 6) = Some (str "Failed to verify signature  with  ed25519 public key: ") /\
  told_text (timed_call 2) (S_add_trust unsigned_trust (pid 1) 6) = Some (str "Trust verification error: Failed to verify signature  with  ed25519 public key: ").
Proof. exact e_C196_texts. Qed.
