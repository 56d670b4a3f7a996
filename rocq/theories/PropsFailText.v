(** The text of failures of the database. Every proof is a lemma of FailTextThms.v. *)
From Coq Require Import List NArith ZArith Bool.
From Coq Require String.
Import String.StringSyntax.
From Verif Require Import Base Text Keys Trust Certificate Relation Storage Graph Service Spec ServiceSpec ErrorText ErrorTextSpec.
From Verif Require Import Toy Witness ServiceWitness FailTextThms.
Import ListNotations.
Open Scope N_scope.

(** ** C192 *)
(** If a failing statement makes any difference to a response, the response is a failure with the words and what SQLite said. *)
Theorem C192_told : forall C F d cp c f r d' r0 d0, crypto_laws C -> service_reachable C d -> service_typed c ->
  service_step C d (cp, c, None) = (Ok r0, d0) -> service_step C d (cp, c, f) = (Ok r, d') ->
  (r, d') = (r0, d0) \/ success r = false /\ answer_text F c r = storage_words ++ str " " ++ F H_sqlite.
Proof. exact p_C192_told. Qed.
Print Assumptions C192_told.

(** A text with these words means that a failing statement made a difference, unless a kind of signature in the call begins with them. *)
Theorem C192_means : forall C F d cp c f r d' r0 d0, crypto_laws C -> service_reachable C d -> service_typed c ->
  (forall s, In s (kinds_given c) -> ~ begins storage_words s) ->
  service_step C d (cp, c, None) = (Ok r0, d0) -> service_step C d (cp, c, f) = (Ok r, d') ->
  (begins storage_words (answer_text F c r) <-> r <> r0).
Proof. exact p_C192_means. Qed.
Print Assumptions C192_means.

(** Asked for a weight while its second statement fails, the service answers with the words and what SQLite said; a trust with a kind of
    signature of these words gets them too, though no statement failed. *)
Example C192_example_failure : service_reachable (toy true) base_store /\ (forall s, In s (kinds_given (S_get_weight (pid 2) 6)) -> ~ begins storage_words s) /\
  (exists r d', service_step (toy true) base_store (timed_call 1, S_get_weight (pid 2) 6, Some 1%nat) = (Ok r, d') /\
     forall F, answer_text F (S_get_weight (pid 2) 6) r = str "Internal storage error: " ++ F H_sqlite) /\
  (exists r d', service_step (toy true) base_store (timed_call 1, S_get_weight (pid 2) 6, None) = (Ok r, d') /\ success r = true).
Proof. exact e_C192_failure. Qed.

(** The condition on kinds is needed. *)
Theorem C192_forged : exists C F d cp c r d', crypto_laws C /\ service_reachable C d /\ service_typed c /\ service_step C d (cp, c, None) = (Ok r, d') /\
  begins storage_words (answer_text F c r).
Proof. exact p_C192_forged. Qed.
Print Assumptions C192_forged.
