(** Only who is who and what comes first matters; the tests of the repository for all keys and times. Every proof is a lemma of DisguiseThms.v or TestsThms.v. *)
From Coq Require Import List NArith ZArith Bool.
From Verif Require Import Base Text Keys Trust Certificate Relation Storage Graph Service Spec ServiceSpec MachineSpec ServiceMachine DisguiseSpec TestsSpec Toy DisguiseThms TestsThms.
Import ListNotations.
Open Scope N_scope.

(** ** C166 *)
(** Two stores that stand for each other give answers that stand for each other to calls that stand for each other, and stand for each other afterwards. *)
Theorem C166_only_names : forall D C C' d d' cs cs', faithful D -> reachable C d -> reachable C' d' -> same_store D d d' ->
  Forall (call_typed C) cs -> Forall (call_typed C') cs' -> few d (no_failures cs) -> few d' (no_failures cs') -> Forall2 (same_call D C C') cs cs' ->
  Forall2 (same_outcome D) (answers C d (no_failures cs)) (answers C' d' (no_failures cs')) /\
  same_store D (graph_history C d (no_failures cs)) (graph_history C' d' (no_failures cs')).
Proof. exact p_C166_only_names. Qed.
Print Assumptions C166_only_names.

(** The calls of a test by this cast stand for the calls by the toy cast. *)
Example C166_example_recast : exists D cs cs', faithful D /\ Forall2 (same_call D (toy false) (toy true)) cs cs' /\ Forall (call_typed (toy false)) cs /\
  Forall (call_typed (toy true)) cs' /\ cs = map toy_call (map fst (test_get_one_cert 100)) /\ cs' <> cs.
Proof. exact e_C166_recast. Qed.

(** ** C167 *)
(** If a story goes as told with one cast, it goes as told with every cast. *)
Theorem C167_any_cast : forall C C' n last p p' s, crypto_laws C -> crypto_laws C' -> good_cast C n last p -> good_cast C' n last p' ->
  tells_signer C n last p -> about_people n last s -> can_play C p s -> goes_as_told C p s -> goes_as_told C' p' s.
Proof. exact p_C167_any_cast. Qed.
Print Assumptions C167_any_cast.

(** A cast of its own can do in the service whatever a story tells, in the right order of times. *)
Theorem C167_can_be_played : forall C n last p s, crypto_laws C -> wasm32 C = true -> good_cast C n last p -> about_people n last s -> in_time s ->
  exists es, Forall2 (plays C p) (map fst s) es.
Proof. exact p_C167_can_be_played. Qed.
Print Assumptions C167_can_be_played.

(** What goes as told in the library goes as told in the service. *)
Theorem C167_served : forall C p s, crypto_laws C -> wasm32 C = true -> goes_as_told C p s -> served_as_told C p s.
Proof. exact p_C167_served. Qed.
Print Assumptions C167_served.

(** Good casts: the toy people, who tell their signatures apart, and the others. *)
Example C167_example_casts : good_cast (toy false) 6 200000 toy_cast /\ tells_signer (toy false) 6 200000 toy_cast /\ good_cast (toy true) 6 200000 other_cast.
Proof. exact e_C167_casts. Qed.

(** ** C168 *)
(** Every test of the service's repository passes in the library, whoever plays it and whenever. *)
Theorem C168_repo_tests : forall C p s, crypto_laws C -> good_cast C 6 200000 p -> In s repo_tests -> goes_as_told C p s.
Proof. exact p_C168_repo_tests. Qed.
Print Assumptions C168_repo_tests.

(** And in the service, where it can be played. *)
Theorem C168_repo_tests_served : forall C p s, crypto_laws C -> wasm32 C = true -> good_cast C 6 200000 p -> In s repo_tests ->
  served_as_told C p s /\ exists es, Forall2 (plays C p) (map fst s) es.
Proof. exact p_C168_repo_tests_served. Qed.
Print Assumptions C168_repo_tests_served.

(** One of the stories, with the answers the service gives when the other cast plays it. *)
Example C168_example_played : In (test_get_one_cert 101) repo_tests /\ (forall es, Forall2 (plays (toy true) other_cast) (map fst (test_get_one_cert 101)) es ->
  exists rs cs, nth_error (responses (toy true) empty_db es) 6 = Some (Ok (mk_response true None (P_certs rs))) /\
    Forall2 (certificate_record (toy true)) rs cs /\ lists (toy true) other_cast cs [told_chain 5 160 100]).
Proof. exact e_C168_played. Qed.

(** The other test, [add_root_not_owner] (312-326): whoever is not the creator cannot set a root, whatever they send and whatever is stored. *)
Theorem C168_not_owner : forall C d cp p n fu, init_peer_id cp <> service_creator_peer_id cp ->
  service_step C d (cp, S_set_root p n, fu) = (Ok (mk_response false (Some SVE_NotOwner) P_none), d).
Proof. exact p_C168_not_owner. Qed.
Print Assumptions C168_not_owner.
