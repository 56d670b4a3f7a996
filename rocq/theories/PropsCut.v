(** Keys that are cut off by revocations. Every proof is a lemma of CutThms.v. *)
From Coq Require Import List NArith ZArith Bool.
From Verif Require Import Base Text Keys Trust Certificate Relation Storage Graph Spec MachineSpec RenewSpec CutSpec.
From Verif Require Import Toy Witness StateFacts GraphFacts ReadmeSpec ReadmeThms CutThms.
Import ListNotations.
Open Scope N_scope.

(** ** C197 *)
(** Revoked at the border, a set of keys is cut off: whatever is called afterwards, no returned certificate has one of them, and they weigh nothing. *)
Theorem C197_cut_off : forall C d vs es ks pk now, reachable C d -> Forall (revocation_typed C) vs -> (forall v, In v vs -> signed_revocation C v) -> typed_history C es ->
  few d (revoking vs es) -> never_roots d es ks -> cut_off_by C d es vs ks -> call_typed C (G_weight pk now) ->
  (exists cs, fst (graph_step C (graph_history C d (revoking vs es)) (G_get_all_certs pk now, None)) = Ok (GR_certs cs) /\
     (forall c i k, In c cs -> key_at c i k -> ~ In k ks) /\ (In pk ks -> cs = [])) /\
  (In pk ks -> fst (graph_step C (graph_history C d (revoking vs es)) (G_weight pk now, None)) = Ok (GR_weight 0)).
Proof. exact p_C197_cut_off. Qed.
Print Assumptions C197_cut_off.

(** Before, B weighs 4 and D 2. *)
Example C197_example_thieves : reachable (toy false) (db_of (after faq)) /\ Forall (revocation_typed (toy false)) [toy_rev A B 50] /\ signed_revocation (toy false) (toy_rev A B 50) /\
  typed_history (toy false) thieves /\ few (db_of (after faq)) (revoking [toy_rev A B 50] thieves) /\ never_roots (db_of (after faq)) thieves [toy_key B; toy_key D] /\
  cut_off_by (toy false) (db_of (after faq)) thieves [toy_rev A B 50] [toy_key B; toy_key D] /\
  fst (graph_step (toy false) (db_of (after faq)) (G_weight (toy_key B) (at_ 40), None)) = Ok (GR_weight 4) /\
  fst (graph_step (toy false) (db_of (after faq)) (G_weight (toy_key D) (at_ 40), None)) = Ok (GR_weight 2).
Proof. exact e_C197_thieves. Qed.

(** It has to be those who trust the key: the only root revokes B, everything stored is older, and still D, trusted by B alone, keeps its weight. *)
Theorem C197_root_alone : exists C d v k b t w now, crypto_laws C /\ reachable C d /\ revocation_typed C v /\ signed_revocation C v /\
  (forall r, is_root d r -> r = revoked_by v) /\ (forall x, stored d x -> secs (rel_issued_at x) < secs (revoked_at v)) /\ secs (revoked_at v) < secs now /\
  b = rev_pk v /\ issued_for t = k /\ stored_trust d b t /\ (forall b' t', stored_trust d b' t' -> issued_for t' = k -> b' = b) /\
  answer_after C d [G_revoke v] (G_weight b now) = Ok (GR_weight 0) /\ answer_after C d [G_revoke v] (G_weight k now) = Ok (GR_weight w) /\ w <> 0.
Proof. exact p_C197_root_alone. Qed.
Print Assumptions C197_root_alone.
