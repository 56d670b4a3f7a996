(** Changing one's mind about a key, and replacing a key. Every proof is a lemma of BackThms.v or RotateThms.v. *)
From Coq Require Import List NArith ZArith Bool.
From Verif Require Import Base Text Keys Trust Certificate Relation Storage Graph Spec InfluenceSpec MachineSpec BackSpec RotateSpec.
From Verif Require Import Toy Witness StateFacts GraphFacts ReadmeThms MoreThms BlowupThms BackThms RotateThms InfluenceSpec MachineSpec BackSpec RotateSpec.
Import ListNotations.
Open Scope N_scope.

(** ** C202 *)
(** A key revokes another, or says anything else about it; then it trusts it anew, in a later second. The answer is the one it would have got without all that,
    and if this trust is stored, the store is as if nothing had been said before. *)
Theorem C202_taken_back : forall C d es t b now, reachable C d -> typed_history C es -> only_offers (between b (issued_for t)) now es -> last_word d es t b ->
  small d -> small (graph_history C d es) -> call_typed C (G_add_trust t b now) ->
  let plain := graph_step C d (G_add_trust t b now, None) in
  let anew := graph_step C (graph_history C d es) (G_add_trust t b now, None) in
  fst anew = fst plain /\ (forall w, fst plain = Ok (GR_weight w) -> w <> 0 -> same_contents (snd anew) (snd plain)).
Proof. exact p_C202_taken_back. Qed.
Print Assumptions C202_taken_back.

(** Then all later calls are answered alike. *)
Theorem C202_later : forall C d es t b now w cs c, reachable C d -> typed_history C es -> only_offers (between b (issued_for t)) now es -> last_word d es t b ->
  small d -> small (graph_history C d es) -> call_typed C (G_add_trust t b now) ->
  fst (graph_step C (graph_history C d es) (G_add_trust t b now, None)) = Ok (GR_weight w) -> w <> 0 -> Forall (call_typed C) cs -> call_typed C c ->
  same_answer (answer_after C (graph_history C d es) (G_add_trust t b now :: cs) c) (answer_after C d (G_add_trust t b now :: cs) c).
Proof. exact p_C202_later. Qed.
Print Assumptions C202_later.

(** Key 4 loses its weight when the key at the head of its chain is revoked, and has it back when that key is trusted anew. *)
Example C202_example_change_of_mind : reachable W (db_of (after faq)) /\ typed_history W change_of_mind /\ only_offers (between (toy_key R) (toy_key A)) (at_ 21) change_of_mind /\
  last_word (db_of (after faq)) change_of_mind (toy_trust R A 950 20) (toy_key R) /\ small (db_of (after faq)) /\ small (graph_history W (db_of (after faq)) change_of_mind) /\
  call_typed W (G_add_trust (toy_trust R A 950 20) (toy_key R) (at_ 21)) /\
  fst (graph_step W (db_of (after faq)) (G_weight (toy_key D) (at_ 8), None)) = Ok (GR_weight 2) /\
  fst (graph_step W (graph_history W (db_of (after faq)) change_of_mind) (G_weight (toy_key D) (at_ 20), None)) = Ok (GR_weight 0) /\
  fst (graph_step W (graph_history W (db_of (after faq)) change_of_mind) (G_add_trust (toy_trust R A 950 20) (toy_key R) (at_ 21), None)) = Ok (GR_weight 8) /\
  answer_after W (graph_history W (db_of (after faq)) change_of_mind) [G_add_trust (toy_trust R A 950 20) (toy_key R) (at_ 21)] (G_weight (toy_key D) (at_ 22)) = Ok (GR_weight 2).
Proof. exact e_C202_change_of_mind. Qed.

(** It has to be a later second: a trust of the second of the revocation is answered with the same weight, and not stored. *)
Theorem C202_same_second : exists C d v t b k now w, crypto_laws C /\ reachable C d /\ call_typed C (G_revoke v) /\ call_typed C (G_add_trust t b now) /\ signed_revocation C v /\
  between b (issued_for t) (RRev v) /\ secs (revoked_at v) = secs (issued_at t) /\ (forall x, stored d x -> secs (rel_issued_at x) < secs (issued_at t)) /\
  fst (graph_step C d (G_add_trust t b now, None)) = Ok (GR_weight w) /\ answer_after C d [G_revoke v] (G_add_trust t b now) = Ok (GR_weight w) /\ w <> 0 /\
  answer_after C d [G_add_trust t b now] (G_weight k now) = Ok (GR_weight 2) /\ answer_after C d [G_revoke v; G_add_trust t b now] (G_weight k now) = Ok (GR_weight 0).
Proof. exact p_C202_same_second. Qed.
Print Assumptions C202_same_second.

(** ** C203 *)
(** A new key, of which the store knows nothing, takes the place of an old one that is no root: whoever trusts the old key gives the new one a trust, the new key gives one to whomever
    the old one trusts, and these are taken on; then the old key may be revoked by anyone. Nobody loses by it: for every certificate there is now one with the
    same keys but the new one for the old, and every key weighs at least as much as before, the new one as much as the old one did. *)
Theorem C203_replaced : forall C d ts vs old new now pk pk', reachable C d -> Forall (call_typed C) (giving ts) -> Forall (revocation_typed C) vs ->
  old <> new -> ~ is_root d old -> unknown d new -> for_the_new old new now ts -> hands_over d now old new ts -> all_taken C d ts -> (forall v, In v vs -> rev_pk v = old) ->
  few d (rotation ts vs) -> call_typed C (G_weight pk now) -> pk_valid C pk' -> secs now < i64_bound -> stands_for old new pk pk' ->
  let d' := graph_history C d (rotation ts vs) in
  (exists w w', fst (graph_step C d (G_weight pk now, None)) = Ok (GR_weight w) /\ fst (graph_step C d' (G_weight pk' now, None)) = Ok (GR_weight w') /\ w <= w') /\
  (exists cs cs', fst (graph_step C d (G_get_all_certs pk now, None)) = Ok (GR_certs cs) /\ fst (graph_step C d' (G_get_all_certs pk' now, None)) = Ok (GR_certs cs') /\
     forall c, In c cs -> exists c', In c' cs' /\ Forall2 (stands_for old new) (map issued_for c) (map issued_for c')).
Proof. exact p_C203_replaced. Qed.
Print Assumptions C203_replaced.

(** Key 4 keeps its weight 2 when key 2 revokes key 3, and key 7 has the weight 4 that key 3 had; without the new trusts key 4 would have lost it. *)
Example C203_example_handed : reachable W (db_of (after faq)) /\ Forall (call_typed W) (giving handed) /\ Forall (revocation_typed W) [toy_rev A B 25] /\
  toy_key B <> toy_key 7 /\ ~ is_root (db_of (after faq)) (toy_key B) /\ unknown (db_of (after faq)) (toy_key 7) /\
  for_the_new (toy_key B) (toy_key 7) (at_ 26) handed /\ hands_over (db_of (after faq)) (at_ 26) (toy_key B) (toy_key 7) handed /\ all_taken W (db_of (after faq)) handed /\
  few (db_of (after faq)) (rotation handed [toy_rev A B 25]) /\
  fst (graph_step W (db_of (after faq)) (G_weight (toy_key D) (at_ 26), None)) = Ok (GR_weight 2) /\
  fst (graph_step W (graph_history W (db_of (after faq)) (rotation handed [toy_rev A B 25])) (G_weight (toy_key D) (at_ 26), None)) = Ok (GR_weight 2) /\
  fst (graph_step W (graph_history W (db_of (after faq)) (rotation handed [toy_rev A B 25])) (G_weight (toy_key 7) (at_ 26), None)) = Ok (GR_weight 4) /\
  fst (graph_step W (graph_history W (db_of (after faq)) (rotation [] [toy_rev A B 25])) (G_weight (toy_key D) (at_ 26), None)) = Ok (GR_weight 0).
Proof. exact e_C203_handed. Qed.
