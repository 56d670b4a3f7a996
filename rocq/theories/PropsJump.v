(** A clock that was wrong for a while. Every proof is a lemma of JumpThms.v. *)
From Coq Require Import List NArith ZArith Bool.
From Verif Require Import Base Text Keys Trust Certificate Relation Storage Graph Spec MachineSpec CopySpec JumpSpec.
From Verif Require Import Toy Witness StateFacts GraphFacts BlowupThms CopyThms JumpThms CopySpec JumpSpec.
Import ListNotations.
Open Scope N_scope.

(** ** C201 *)
(** Questions at any times are asked, however wrong the clock. Then the certificates that were told of the keys [ks] before are added again. If none is longer than its
    root allows and none has a key revoked by a key before it, every call succeeds, and then every question about these keys is answered as it was before. *)
Theorem C201_brought_back : forall C d es asked now ks, reachable C d -> typed_history C es -> only_questions es ->
  duration_wf asked -> secs asked < i64_bound -> duration_wf now -> secs now < i64_bound -> Forall (pk_valid C) ks ->
  within d (told C d asked ks) -> fresh now (told C d asked ks) -> unrevoked d (told C d asked ks) ->
  few d [] -> few (graph_history C d es) (adding_again C d asked now ks) ->
  let d1 := graph_history C d es in
  let d2 := graph_history C d1 (adding_again C d asked now ks) in
  (forall r, In r (answers C d1 (adding_again C d asked now ks)) -> r = Ok GR_unit) /\
  forall k now' q, In k ks -> secs asked <= secs now' < i64_bound -> call_typed C q -> question k now' q ->
    same_answer (fst (graph_step C d2 (q, None))) (fst (graph_step C d (q, None))).
Proof. exact p_C201_brought_back. Qed.
Print Assumptions C201_brought_back.

(** Such a question takes away what everyone is told of a key, and adding the certificates again does not bring it back if one ends with a trust given by a revoked key:
    before, it counted for its direct receiver. No call fails. *)
Theorem C201_wrong_clock_harmless_refuted : exists C d es asked k, crypto_laws C /\ reachable C d /\ typed_history C es /\ only_questions es /\
  within d (told C d asked [k]) /\ fresh asked (told C d asked [k]) /\ few d [] /\ few (graph_history C d es) (adding_again C d asked asked [k]) /\
  length (certs_told C d asked k) = 2%nat /\ certs_told C (graph_history C d es) asked k = [] /\
  (forall r, In r (answers C (graph_history C d es) (adding_again C d asked asked [k])) -> r = Ok GR_unit) /\
  certs_told C (graph_history C (graph_history C d es) (adding_again C d asked asked [k])) asked k = [].
Proof. exact p_C201_wrong_clock_harmless_refuted. Qed.
Print Assumptions C201_wrong_clock_harmless_refuted.

(** In a store with revocations, what is told of key 3 is lost and brought back. *)
Example C201_example_key3 : reachable (toy true) copy_revoked /\ typed_history (toy true) far_ahead /\ only_questions far_ahead /\ pk_valid (toy true) (toy_key 3) /\
  within copy_revoked (told (toy true) copy_revoked (from_secs 8) [toy_key 3]) /\ fresh (from_secs 9) (told (toy true) copy_revoked (from_secs 8) [toy_key 3]) /\
  unrevoked copy_revoked (told (toy true) copy_revoked (from_secs 8) [toy_key 3]) /\
  few copy_revoked [] /\ few (graph_history (toy true) copy_revoked far_ahead) (adding_again (toy true) copy_revoked (from_secs 8) (from_secs 9) [toy_key 3]) /\
  length (certs_told (toy true) copy_revoked (from_secs 8) (toy_key 3)) = 2%nat /\
  certs_told (toy true) (graph_history (toy true) copy_revoked far_ahead) (from_secs 8) (toy_key 3) = [] /\
  fst (graph_step (toy true) (graph_history (toy true) (graph_history (toy true) copy_revoked far_ahead) (adding_again (toy true) copy_revoked (from_secs 8) (from_secs 9) [toy_key 3]))
    (G_weight (toy_key 3) (from_secs 10), None)) = Ok (GR_weight 16).
Proof. exact e_C201_key3. Qed.
