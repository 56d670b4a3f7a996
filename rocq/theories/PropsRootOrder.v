(** The order in which roots are set. Every proof is a lemma of RootOrderThms.v. *)
From Coq Require Import List NArith ZArith Bool Permutation.
From Verif Require Import Base Text Keys Trust Certificate Relation Storage Graph GraphFacts Service Spec ServiceSpec.

From Verif Require Import Toy Witness ServiceWitness ReadmeThms RootOrderThms ServedBackSpec ScanSpec RootOrderSpec.
Import ListNotations.
Open Scope N_scope.

(** ** C216 *)
(** The store holds the same whatever the order in which different keys are made roots. *)
Theorem C216_contents : forall C d l l', reachable C d -> Forall (call_typed C) (set_roots l) -> NoDup (map fst l) -> Permutation l l' ->
  same_contents (graph_history C d (no_failures (set_roots l))) (graph_history C d (no_failures (set_roots l'))).
Proof. exact p_C216_contents. Qed.
Print Assumptions C216_contents.

(** So every later call is answered alike. *)
Theorem C216_answers : forall C d l l' cs c, reachable C d -> Forall (call_typed C) (set_roots l) -> NoDup (map fst l) -> Permutation l l' -> Forall (call_typed C) cs -> call_typed C c ->
  same_answer (answer_after C d (set_roots l ++ cs) c) (answer_after C d (set_roots l' ++ cs) c).
Proof. exact p_C216_answers. Qed.
Print Assumptions C216_answers.

(** At the service: whatever the order in which the owner makes different peers roots, every later call is answered alike. *)
Theorem C216_service : forall C d cp l l' ks es cp' c, crypto_laws C -> service_reachable C d -> init_peer_id cp = service_creator_peer_id cp -> service_events_typed (s_set_roots cp l) ->
  keys_of_peers C l ks -> NoDup (map fst ks) -> Permutation l l' -> service_events_typed es -> unfailing es -> service_typed c ->
  same_told (fst (service_step C (service_history C d (s_set_roots cp l ++ es)) (cp', c, None))) (fst (service_step C (service_history C d (s_set_roots cp l' ++ es)) (cp', c, None))).
Proof. exact p_C216_service. Qed.
Print Assumptions C216_service.

(** A and B are made roots in either order, and then trust D. With two lengths for one key the order matters: the first one counts. *)
Example C216_example_orders : Forall (call_typed W) (set_roots [(toy_key A, 6); (toy_key B, 4)]) /\ NoDup (map fst [(toy_key A, 6); (toy_key B, 4)]) /\
  map (fun l => answer_after W (db_of (after [])) (set_roots l ++ [G_add_trust (toy_trust A A 900 1) (toy_key A) (at_ 5); G_add_trust (toy_trust A D 900 1) (toy_key A) (at_ 5); G_add_trust (toy_trust B B 900 1) (toy_key B) (at_ 5); G_add_trust (toy_trust B D 900 1) (toy_key B) (at_ 5)]) (G_weight (toy_key D) (at_ 10)))
    [[(toy_key A, 6); (toy_key B, 4)]; [(toy_key B, 4); (toy_key A, 6)]] = [Ok (GR_weight 32); Ok (GR_weight 32)] /\
  map (fun l => answer_after W (db_of (after [])) (set_roots l) (G_weight (toy_key A) (at_ 10))) [[(toy_key A, 6); (toy_key A, 4)]; [(toy_key A, 4); (toy_key A, 6)]] = [Ok (GR_weight 64); Ok (GR_weight 16)].
Proof. exact e_C216_orders. Qed.

(** The owner of the service makes key 1 and key 2 roots in either order. *)
Example C216_example_served : let l := [(pid 1, 6); (pid 2, 4)] in let l' := [(pid 2, 4); (pid 1, 6)] in
  init_peer_id owner_call = service_creator_peer_id owner_call /\ service_events_typed (s_set_roots owner_call l) /\ keys_of_peers (toy true) l [(toy_key 1, 6); (toy_key 2, 4)] /\ Permutation l l' /\
  map (fun l => fst (service_step (toy true) (service_history (toy true) empty_db (s_set_roots owner_call l)) (timed_call 1, S_get_weight (pid 2) 9, None))) [l; l'] = [Ok (mk_response true None (P_weight 16 (pid 2))); Ok (mk_response true None (P_weight 16 (pid 2)))].
Proof. exact e_C216_served. Qed.
