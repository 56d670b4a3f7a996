(** What the README says about paths, weights, roots and subnetworks. Every proof is a lemma of ReadmeThms.v. *)
From Coq Require Import List NArith ZArith Bool.
From Verif Require Import Base Text Keys Trust Certificate Relation Storage Graph Spec Toy ToyFacts GraphFacts Witness ReadmeSpec ReadmeThms.
Import ListNotations.
Open Scope N_scope.

(** ** C143 *)
(** A key with a path from a root has a weight. *)
Theorem C143_path_gives_weight : forall C d pk now fu w d' c, reachable C d -> call_typed C (G_weight pk now) -> small d ->
  graph_step C d (G_weight pk now, fu) = (Ok (GR_weight w), d') -> trust_path d' pk c -> w <> 0.
Proof. exact p_C143_path_gives_weight. Qed.
Print Assumptions C143_path_gives_weight.

(** Exactly when the weight is 0: the key is no root, and on every chain of trusts from a root to it somebody has revoked a later
    key which is not the direct issuer of the last one. *)
Theorem C143_zero_exact : forall C d pk now fu w d', reachable C d -> call_typed C (G_weight pk now) -> small d ->
  graph_step C d (G_weight pk now, fu) = (Ok (GR_weight w), d') ->
  (w = 0 <-> ~ is_root d pk /\ forall c, root_chain d' pk c -> ~ (forall i j, revokes_at d' c i j -> direct_issuer_pos c j)).
Proof. exact p_C143_zero_exact. Qed.
Print Assumptions C143_zero_exact.

(** Refuted: the root has revoked B, so the trusts R, A, B, D are no path, there is no other, and D has weight 4. *)
Theorem C143_zero_without_path_refuted : exists C d pk now w d', crypto_laws C /\ reachable C d /\ call_typed C (G_weight pk now) /\
  graph_step C d (G_weight pk now, None) = (Ok (GR_weight w), d') /\ ~ is_root d pk /\ (forall c, ~ trust_path d' pk c) /\ w <> 0.
Proof. exact p_C143_zero_without_path_refuted. Qed.
Print Assumptions C143_zero_without_path_refuted.

(** Two paths to B, and its weight. *)
Example C143_example_path : small (db_of (after two_ways)) /\ call_typed (toy false) (G_weight (toy_key B) (at_ 10)) /\
  trust_path (db_of (after (two_ways ++ [G_weight (toy_key B) (at_ 10)]))) (toy_key B) way2 /\
  graph_step (toy false) (db_of (after two_ways)) (G_weight (toy_key B) (at_ 10), None) = (Ok (GR_weight 16), db_of (after (two_ways ++ [G_weight (toy_key B) (at_ 10)]))).
Proof. exact e_C143_path. Qed.

(** ** C144 *)
(** Whoever is trusted by a key with a path is trusted, unless a key on the path has revoked them. *)
Theorem C144_path_extends : forall C d b t now fu w d' c, reachable C d -> call_typed C (G_weight (issued_for t) now) -> small d ->
  graph_step C d (G_weight (issued_for t) now, fu) = (Ok (GR_weight w), d') ->
  trust_path d' b c -> stored_trust d' b t -> (forall v i, stored_revocation d' v -> key_at c i (revoked_by v) -> rev_pk v <> issued_for t) ->
  trust_path d' (issued_for t) (c ++ [t]) /\ w <> 0.
Proof. exact p_C144_path_extends. Qed.
Print Assumptions C144_path_extends.

(** If nothing is revoked, the weight passed on is at least half of the weight of the one who trusts. *)
Theorem C144_half_weight : forall C d b t now fu fu' w w' d' d2, reachable C d -> call_typed C (G_weight b now) -> call_typed C (G_weight (issued_for t) now) -> small d ->
  (forall v, ~ stored_revocation d v) ->
  graph_step C d (G_weight b now, fu) = (Ok (GR_weight w), d') -> graph_step C d (G_weight (issued_for t) now, fu') = (Ok (GR_weight w'), d2) ->
  stored_trust d' b t -> (is_root d b -> exists t0, stored_trust d' b t0 /\ issued_for t0 = b) -> w / 2 <= w'.
Proof. exact p_C144_half_weight. Qed.
Print Assumptions C144_half_weight.

(** Refuted: B has weight 4 and trusts D, nobody has revoked B or D, and D has weight 0. *)
Theorem C144_transitive_refuted : exists C d b t now w d' d2, crypto_laws C /\ reachable C d /\ call_typed C (G_weight b now) /\ call_typed C (G_weight (issued_for t) now) /\
  ~ is_root d b /\ graph_step C d (G_weight b now, None) = (Ok (GR_weight w), d') /\ w <> 0 /\ stored_trust d' b t /\
  (forall v, stored_revocation d v -> rev_pk v <> b /\ rev_pk v <> issued_for t) /\
  graph_step C d (G_weight (issued_for t) now, None) = (Ok (GR_weight 0), d2).
Proof. exact p_C144_transitive_refuted. Qed.
Print Assumptions C144_transitive_refuted.

(** A has weight 8 and trusts B, which has weight 4. *)
Example C144_example_half : small (db_of (after faq)) /\ (forall v, ~ stored_revocation (db_of (after faq)) v) /\
  stored_trust (db_of (after (faq ++ [G_weight (toy_key A) (at_ 10)]))) (toy_key A) (toy_trust A B 800 1) /\
  graph_step (toy false) (db_of (after faq)) (G_weight (toy_key A) (at_ 10), None) = (Ok (GR_weight 8), db_of (after (faq ++ [G_weight (toy_key A) (at_ 10)]))) /\
  fst (graph_step (toy false) (db_of (after faq)) (G_weight (toy_key B) (at_ 10), None)) = Ok (GR_weight 4).
Proof. exact e_C144_half. Qed.

(** ** C145 *)
(** If all roots have the same maximum length [m], a key that is no root and whose first, that is shortest, certificate has [h] trusts after the root
    trust has the weight 2^(m - h), and 1 if [h] is above [m]. *)
Theorem C145_weight_by_distance : forall C d pk now fu fu' c cs w m d1 d2, reachable C d -> call_typed C (G_weight pk now) -> small d -> equal_roots d m -> ~ is_root d pk ->
  graph_step C d (G_get_all_certs pk now, fu) = (Ok (GR_certs (c :: cs)), d1) -> graph_step C d (G_weight pk now, fu') = (Ok (GR_weight w), d2) ->
  w = chain_weight m (length c - 1).
Proof. exact p_C145_weight_by_distance. Qed.
Print Assumptions C145_weight_by_distance.

(** A root has the weight 2^m. *)
Theorem C145_root_weight : forall C d pk now fu w m d', reachable C d -> call_typed C (G_weight pk now) -> small d -> equal_roots d m -> is_root d pk ->
  graph_step C d (G_weight pk now, fu) = (Ok (GR_weight w), d') -> w = 2 ^ m.
Proof. exact p_C145_root_weight. Qed.
Print Assumptions C145_root_weight.

(** The README is wrong here: the store of its example, a root with maximum length 4 and the chain R, A, B, C, gives the weights 16, 8, 4 and 2, not 8, 4, 2 and 1. *)
Theorem C145_readme_example : exists C d c a now, crypto_laws C /\ reachable C d /\ only_root d a 4 /\ length c = 4%nat /\ key_at c 0 a /\
  (forall b t, stored_trust d b t <-> exists i, at_pos c i t /\ key_at c (i - 1) b) /\ (forall v, ~ stored_revocation d v) /\
  (forall i k, key_at c i k -> exists w d', graph_step C d (G_weight k now, None) = (Ok (GR_weight w), d') /\ w = 2 ^ (4 - N.of_nat i) /\ w <> 2 ^ (3 - N.of_nat i)).
Proof. exact p_C145_readme_example. Qed.
Print Assumptions C145_readme_example.

(** The same store: all its roots have length 4, and B's first certificate has two trusts after the root trust. *)
Example C145_example_distance : small (db_of (after faq)) /\ equal_roots (db_of (after faq)) 4 /\ ~ is_root (db_of (after faq)) (toy_key B) /\ is_root (db_of (after faq)) (toy_key R) /\
  fst (graph_step (toy false) (db_of (after faq)) (G_get_all_certs (toy_key B) (at_ 10), None)) = Ok (GR_certs [way2]) /\
  fst (graph_step (toy false) (db_of (after faq)) (G_weight (toy_key B) (at_ 10), None)) = Ok (GR_weight (chain_weight 4 2)).
Proof. exact e_C145_distance. Qed.

(** ** C146 *)
(** If all roots have the same maximum length, a key with a shorter certificate weighs at least as much, and more unless the maximum is used up. *)
Theorem C146_closer_is_heavier : forall C d a b now fa fa' fb fb' ca csa cb csb wa wb m d1 d2 d3 d4, reachable C d -> call_typed C (G_weight a now) -> call_typed C (G_weight b now) ->
  small d -> equal_roots d m -> ~ is_root d a -> ~ is_root d b ->
  graph_step C d (G_get_all_certs a now, fa) = (Ok (GR_certs (ca :: csa)), d1) -> graph_step C d (G_weight a now, fa') = (Ok (GR_weight wa), d2) ->
  graph_step C d (G_get_all_certs b now, fb) = (Ok (GR_certs (cb :: csb)), d3) -> graph_step C d (G_weight b now, fb') = (Ok (GR_weight wb), d4) ->
  (length ca < length cb)%nat -> wb <= wa /\ (N.of_nat (length ca - 1) < m -> wb < wa).
Proof. exact p_C146_closer_is_heavier. Qed.
Print Assumptions C146_closer_is_heavier.

(** A root is heavier than every other key. *)
Theorem C146_root_is_heaviest : forall C d a b now fa fb wa wb m d2 d4, reachable C d -> call_typed C (G_weight a now) -> call_typed C (G_weight b now) ->
  small d -> equal_roots d m -> is_root d a -> ~ is_root d b ->
  graph_step C d (G_weight a now, fa) = (Ok (GR_weight wa), d2) -> graph_step C d (G_weight b now, fb) = (Ok (GR_weight wb), d4) -> wb <= wa /\ (0 < m -> wb < wa).
Proof. exact p_C146_root_is_heaviest. Qed.
Print Assumptions C146_root_is_heaviest.

(** Not so if the roots have different lengths: every certificate of A is shorter than every one of B, and A weighs 1 and B 16384. *)
Theorem C146_needs_equal_lengths : exists C d a b now csa csb wa wb d1 d2 d3 d4, crypto_laws C /\ reachable C d /\ ~ is_root d a /\ ~ is_root d b /\
  graph_step C d (G_get_all_certs a now, None) = (Ok (GR_certs csa), d1) /\ graph_step C d (G_weight a now, None) = (Ok (GR_weight wa), d2) /\
  graph_step C d (G_get_all_certs b now, None) = (Ok (GR_certs csb), d3) /\ graph_step C d (G_weight b now, None) = (Ok (GR_weight wb), d4) /\
  csa <> [] /\ (forall ca cb, In ca csa -> In cb csb -> (length ca < length cb)%nat) /\ wa < wb.
Proof. exact p_C146_needs_equal_lengths. Qed.
Print Assumptions C146_needs_equal_lengths.

(** A is one hop from the root and weighs 8, D three hops and weighs 2. *)
Example C146_example_closer : equal_roots (db_of (after faq)) 4 /\ ~ is_root (db_of (after faq)) (toy_key A) /\ ~ is_root (db_of (after faq)) (toy_key D) /\
  fst (graph_step (toy false) (db_of (after faq)) (G_get_all_certs (toy_key A) (at_ 10), None)) = Ok (GR_certs [[toy_trust R R 1000 1; toy_trust R A 900 1]]) /\
  fst (graph_step (toy false) (db_of (after faq)) (G_weight (toy_key A) (at_ 10), None)) = Ok (GR_weight 8) /\
  fst (graph_step (toy false) (db_of (after faq)) (G_get_all_certs (toy_key D) (at_ 10), None)) = Ok (GR_certs [way2 ++ [toy_trust B D 700 1]]) /\
  fst (graph_step (toy false) (db_of (after faq)) (G_weight (toy_key D) (at_ 10), None)) = Ok (GR_weight 2) /\ (2 < length (way2 ++ [toy_trust B D 700 1]))%nat.
Proof. exact e_C146_closer. Qed.

(** ** C147 *)
(** After the calls of the README's first use case, [get_weight_from(pk, a)] is 2^(n-1) for the members, with [n] cut to 16, and 0 for every other key, also
    for [a] itself. *)
Theorem C147_subnetwork : forall C a n t0 i0 ts now pk fu w d', pk_valid C a -> n < u32_bound -> 1 <= n -> issued_for t0 = a ->
  NoDup (a :: map (fun x => issued_for (fst x)) ts) -> member_trust C a now t0 i0 -> (forall t i, In (t, i) ts -> member_trust C a now t i) ->
  let d := graph_history C empty_db (no_failures (subnetwork_calls a n t0 i0 ts)) in
  small d -> call_typed C (G_weight_from pk a now) -> graph_step C d (G_weight_from pk a now, fu) = (Ok (GR_weight w), d') ->
  reachable C d /\
  (In pk (map (fun x => issued_for (fst x)) ts) -> w = 2 ^ (N.min n 16 - 1)) /\ (~ In pk (map (fun x => issued_for (fst x)) ts) -> w = 0).
Proof. exact p_C147_subnetwork. Qed.
Print Assumptions C147_subnetwork.

(** The authority 1 and the members 2 and 3, at second 100: member 2 has weight 8, key 4 and the authority itself 0. *)
Example C147_example_abc : Forall (call_typed (toy false)) abc /\ graph_history (toy false) empty_db (no_failures abc) = db_of (after abc) /\ small (db_of (after abc)) /\
  NoDup [toy_key R; toy_key A; toy_key B] /\
  member_trust (toy false) (toy_key R) (at_ 100) (toy_trust R R 1000 1) (at_ 5) /\ member_trust (toy false) (toy_key R) (at_ 100) (toy_trust R A 900 1) (at_ 6) /\
  member_trust (toy false) (toy_key R) (at_ 100) (toy_trust R B 900 2) (at_ 7) /\
  fst (graph_step (toy false) (db_of (after abc)) (G_weight_from (toy_key A) (toy_key R) (at_ 100), None)) = Ok (GR_weight 8) /\
  fst (graph_step (toy false) (db_of (after abc)) (G_weight_from (toy_key D) (toy_key R) (at_ 100), None)) = Ok (GR_weight 0) /\
  fst (graph_step (toy false) (db_of (after abc)) (G_weight_from (toy_key R) (toy_key R) (at_ 100), None)) = Ok (GR_weight 0).
Proof. exact e_C147_abc. Qed.

(** ** C148 *)
(** A root stays a root with the same length, and has at least its weight at every time, whatever calls come. *)
Theorem C148_roots_stay : forall C d k m es now fu w d', reachable C d -> root_max_len d k m -> typed_history C es -> call_typed C (G_weight k now) ->
  graph_step C (graph_history C d es) (G_weight k now, fu) = (Ok (GR_weight w), d') ->
  root_max_len (graph_history C d es) k m /\ 2 ^ m <= w.
Proof. exact p_C148_roots_stay. Qed.
Print Assumptions C148_roots_stay.

(** A revokes the root R, R's own trust expires, and another length is asked for: R keeps the length 4 and the weight 16. *)
Example C148_example_root : root_max_len (db_of (after faq)) (toy_key R) 4 /\ typed_history (toy false) (no_failures later) /\
  graph_history (toy false) (db_of (after faq)) (no_failures later) = db_of (after (faq ++ later)) /\
  fst (graph_step (toy false) (db_of (after (faq ++ later))) (G_weight (toy_key R) (at_ 2000), None)) = Ok (GR_weight 16).
Proof. exact e_C148_root. Qed.
