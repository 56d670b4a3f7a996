(** Chains of trusts that are renewed in time. Every proof is a lemma of RenewThms.v. *)
From Coq Require Import List NArith ZArith Bool.
From Verif Require Import Base Text Keys Trust Certificate Relation Storage Graph Spec MachineSpec RenewSpec.
From Verif Require Import Toy Witness StateFacts GraphFacts ReadmeSpec ReadmeThms RenewThms.
Import ListNotations.
Open Scope N_scope.

(** ** C195 *)
(** As long as every trust of a chain is renewed before it expires, the last key has a certificate with the keys of the chain and the weight that its length gives. *)
Theorem C195_no_gap : forall C d es ks k m pk now, reachable C d -> typed_history C es -> few d es ->
  nth_error ks 0 = Some k -> nth_error ks (length ks - 1) = Some pk -> NoDup ks -> (2 <= length ks)%nat -> root_max_len d k m -> N.of_nat (length ks) <= m + 1 ->
  renewed_in_time C d es ks -> renewals_last C d es ks -> no_revocation_among C d es ks ->
  covered C d es ks now -> call_typed C (G_weight pk now) ->
  (exists cs, fst (graph_step C (graph_history C d es) (G_get_all_certs pk now, None)) = Ok (GR_certs cs) /\ exists c, In c cs /\ map issued_for c = ks) /\
  (exists w, fst (graph_step C (graph_history C d es) (G_weight pk now, None)) = Ok (GR_weight w) /\ 2 ^ (m + 1 - N.of_nat (length ks)) <= w).
Proof. exact p_C195_no_gap. Qed.
Print Assumptions C195_no_gap.

(** At 2000 B still has its certificate over A, and the weight 4, though the trusts in the store at the beginning have all expired. *)
Example C195_example_renewing : reachable (toy false) (db_of (after faq)) /\ root_max_len (db_of (after faq)) (toy_key R) 4 /\ few (db_of (after faq)) renewing /\
  renewed_in_time (toy false) (db_of (after faq)) renewing chain3 /\ renewals_last (toy false) (db_of (after faq)) renewing chain3 /\
  no_revocation_among (toy false) (db_of (after faq)) renewing chain3 /\ covered (toy false) (db_of (after faq)) renewing chain3 (at_ 2000) /\
  exists w, fst (graph_step (toy false) (graph_history (toy false) (db_of (after faq)) renewing) (G_weight (toy_key B) (at_ 2000), None)) = Ok (GR_weight w) /\ 4 <= w.
Proof. exact e_C195_renewing. Qed.

(** If the renewal comes too late, it is not enough: A's trust for B, renewed while R's trust for A had expired, is reported as accepted and lost, and B has no weight also after A is trusted again. *)
Theorem C195_gap : exists C d t1 t2 r now1 now2 pk now, crypto_laws C /\ reachable C d /\ few d (no_failures [G_add_trust t1 (issued_for t2) now1; G_add_trust t2 r now2]) /\
  fst (graph_step C d (G_weight pk (from_secs 10), None)) = Ok (GR_weight 4) /\ issued_for t1 = pk /\ secs now1 < secs now2 < secs now /\
  fst (graph_step C d (G_add_trust t1 (issued_for t2) now1, None)) = Ok (GR_weight 0) /\
  answer_after C d [G_add_trust t1 (issued_for t2) now1] (G_add_trust t2 r now2) = Ok (GR_weight 8) /\
  secs now < secs (expires_at t1) /\ secs now < secs (expires_at t2) /\
  answer_after C d [G_add_trust t1 (issued_for t2) now1; G_add_trust t2 r now2] (G_weight (issued_for t2) now) = Ok (GR_weight 8) /\
  answer_after C d [G_add_trust t1 (issued_for t2) now1; G_add_trust t2 r now2] (G_weight pk now) = Ok (GR_weight 0).
Proof. exact p_C195_gap. Qed.
Print Assumptions C195_gap.
