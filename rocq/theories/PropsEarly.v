(** Setting a root early or late. Every proof is a lemma of EarlyThms.v. *)
From Coq Require Import List NArith ZArith Bool Permutation.
From Verif Require Import Base Text Keys Trust Certificate Relation Storage Graph GraphFacts Service Spec ServiceSpec.

From Verif Require Import Toy Witness ServiceWitness ReadmeThms ServedBackThms EarlyThms ServedBackSpec EarlySpec.
Import ListNotations.
Open Scope N_scope.

(** ** C217 *)
(** The store is the same whether a root is set before or after a call that is not turned away. *)
Theorem C217_either_order : forall C d c k n, reachable C d -> small d -> call_typed C c -> call_typed C (G_set_root k n) -> not_turned_away c (fst (graph_step C d (c, None))) ->
  graph_history C d (no_failures [c; G_set_root k n]) = graph_history C d (no_failures [G_set_root k n; c]).
Proof. exact p_C217_either_order. Qed.
Print Assumptions C217_either_order.

(** So it is the same for any number of calls none of which is turned away. *)
Theorem C217_early_or_late : forall C d cs k n, reachable C d -> Forall (call_typed C) cs -> call_typed C (G_set_root k n) -> none_turned_away C d cs ->
  graph_history C d (no_failures (cs ++ [G_set_root k n])) = graph_history C d (no_failures (G_set_root k n :: cs)).
Proof. exact p_C217_early_or_late. Qed.
Print Assumptions C217_early_or_late.

(** At the service: the owner may set a root before or after any calls none of which is turned away. *)
Theorem C217_service : forall C d cp p k n es, crypto_laws C -> service_reachable C d -> init_peer_id cp = service_creator_peer_id cp -> service_typed (S_set_root p n) -> peer_key C p k ->
  service_events_typed es -> unfailing es -> s_none_turned_away C d es ->
  service_history C d (es ++ [(cp, S_set_root p n, None)]) = service_history C d ((cp, S_set_root p n, None) :: es).
Proof. exact p_C217_service. Qed.
Print Assumptions C217_service.

(** A, which has weight, issues trusts for itself and for D before or after A is made a root. When no root is set yet, the trusts of A are turned away, and making A a root late is not the same as making it a root early. *)
Example C217_example_both : reachable W (db_of (after faq)) /\ Forall (call_typed W) late_calls /\ call_typed W (G_set_root (toy_key A) 9) /\ none_turned_away W (db_of (after faq)) late_calls /\
  answer_after W (db_of (after faq)) (late_calls ++ [G_set_root (toy_key A) 9]) (G_weight (toy_key D) (at_ 10)) = Ok (GR_weight 256) /\
  answer_after W (db_of (after faq)) (G_set_root (toy_key A) 9 :: late_calls) (G_weight (toy_key D) (at_ 10)) = Ok (GR_weight 256) /\
  answer_after W (db_of (after [])) (late_calls ++ [G_set_root (toy_key A) 9]) (G_weight (toy_key D) (at_ 10)) = Ok (GR_weight 0) /\
  answer_after W (db_of (after [])) (G_set_root (toy_key A) 9 :: late_calls) (G_weight (toy_key D) (at_ 10)) = Ok (GR_weight 256).
Proof. exact e_C217_both. Qed.

(** At the service key 2, which has weight, issues a trust for itself before or after the owner makes it a root. *)
Example C217_example_served : let es := [(timed_call 2, S_add_trust (trust_rec 2 2 700 90) (pid 2) 95, None)] in let r := (owner_call, S_set_root (pid 2) 9, None) in
  service_reachable (toy true) grown_store /\ init_peer_id owner_call = service_creator_peer_id owner_call /\ service_typed (S_set_root (pid 2) 9) /\ peer_key (toy true) (pid 2) (toy_key 2) /\
  service_events_typed es /\ unfailing es /\ s_none_turned_away (toy true) grown_store es /\
  map (fun es => fst (service_step (toy true) (service_history (toy true) grown_store es) (timed_call 1, S_get_weight (pid 4) 96, None))) [es ++ [r]; r :: es; es] =
    [Ok (mk_response true None (P_weight 256 (pid 4))); Ok (mk_response true None (P_weight 256 (pid 4))); Ok (mk_response true None (P_weight 8 (pid 4)))].
Proof. exact e_C217_served. Qed.
