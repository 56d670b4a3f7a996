(** How many certificates a key can be given. Every proof is a lemma of BlowupThms.v. *)
From Coq Require Import List NArith ZArith Bool.
From Verif Require Import Base Text Keys Trust Certificate Relation Storage Graph Service Spec ServiceSpec Toy ToyFacts GraphFacts Witness ServiceThms ServiceWitness ReadmeSpec InfluenceSpec MachineSpec BlowupSpec BlowupThms.
Import ListNotations.
Open Scope N_scope.

(** ** C159 *)
(** Whoever holds a key [b] on a path from a root, with two hops to spare, and [n] more keys: after each of these has given each later one a trust, the last key
    has at least 2^n certificates. *)
Theorem C159_certificates_explode : forall C d b c l now T ks z, reachable C d -> duration_wf now -> pk_valid C b -> clear_path d now b c ->
  (forall t, at_pos c 0 t -> root_max_len d (issued_for t) l) -> N.of_nat (length c) < l ->
  Forall (pk_valid C) (ks ++ [z]) -> NoDup (ks ++ [z]) -> (forall k, In k (ks ++ [z]) -> unknown_to d k) ->
  (forall a k, issued_for (T a k) = k) -> (forall a k, In (a, k) (each_later (b :: ks ++ [z])) -> member_trust C a now (T a k) now) ->
  let calls := trust_each_later T now (b :: ks ++ [z]) in
  few d (no_failures calls) ->
  (2 * length calls = (length ks + 1) * (length ks + 2))%nat /\
  exists cs d', graph_step C (graph_history C d (no_failures calls)) (G_get_all_certs z now, None) = (Ok (GR_certs cs), d') /\ NoDup cs /\
    (2 ^ length ks <= length cs)%nat.
Proof. exact p_C159_certificates_explode. Qed.
Print Assumptions C159_certificates_explode.

(** A root with two more keys and a third: six calls, four certificates. *)
Example C159_example_four : reachable (toy false) (db_of (after base)) /\ clear_path (db_of (after base)) (at_ 10) (toy_key R) [toy_trust R R 1000 1] /\
  root_max_len (db_of (after base)) (toy_key R) 5 /\ NoDup [toy_key A; toy_key B; toy_key D] /\
  (forall k, In k [toy_key A; toy_key B; toy_key D] -> unknown_to (db_of (after base)) k) /\ (forall a k, issued_for (toy_gives a k) = k) /\
  (forall a k, In (a, k) (each_later [toy_key R; toy_key A; toy_key B; toy_key D]) -> member_trust (toy false) a (at_ 10) (toy_gives a k) (at_ 10)) /\
  length (trust_each_later toy_gives (at_ 10) [toy_key R; toy_key A; toy_key B; toy_key D]) = 6%nat /\
  few (db_of (after base)) (no_failures (trust_each_later toy_gives (at_ 10) [toy_key R; toy_key A; toy_key B; toy_key D])) /\
  exists cs, answer_after (toy false) (db_of (after base)) (trust_each_later toy_gives (at_ 10) [toy_key R; toy_key A; toy_key B; toy_key D]) (G_get_all_certs (toy_key D) (at_ 10)) = Ok (GR_certs cs) /\ length cs = 4%nat.
Proof. exact e_C159_four. Qed.
