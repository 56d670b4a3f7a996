(** Who can influence whose certificates and weight. Every proof is a lemma of InfluenceThms.v. *)
From Coq Require Import List NArith ZArith Bool.
From Verif Require Import Base Text Keys Trust Certificate Relation Storage Graph Spec Toy ToyFacts GraphFacts Witness ReadmeSpec ReadmeThms InfluenceSpec InfluenceThms.
Import ListNotations.
Open Scope N_scope.

(** ** C149 *)
(** Whatever keys without a path of trusts from a root sign and bring in, no answer changes. *)
Theorem C149_strangers : forall C d es now pk q, reachable C d -> typed_history C es ->
  only_offers (fun x => ~ linked d now (rel_issued_by x)) now es -> small d -> small (graph_history C d es) -> call_typed C q -> about pk now q ->
  same_answer (fst (graph_step C d (q, None))) (fst (graph_step C (graph_history C d es) (q, None))).
Proof. exact p_C149_strangers. Qed.
Print Assumptions C149_strangers.

(** Such a key has no certificates and no weight. *)
Theorem C149_stranger_weight : forall C d pk now fu fu' cs w d1 d2, reachable C d -> call_typed C (G_weight pk now) -> small d -> ~ linked d now pk ->
  graph_step C d (G_get_all_certs pk now, fu) = (Ok (GR_certs cs), d1) -> graph_step C d (G_weight pk now, fu') = (Ok (GR_weight w), d2) -> cs = [] /\ w = 0.
Proof. exact p_C149_stranger_weight. Qed.
Print Assumptions C149_stranger_weight.

(** Key 9 signs a trust for itself, one for B, and a revocation of A, and adds and revokes; B keeps the weight 4. *)
Example C149_example_nine : ~ linked (db_of (after faq)) (at_ 10) (toy_key 9) /\ typed_history (toy false) (no_failures by_nine) /\
  only_offers (fun x => ~ linked (db_of (after faq)) (at_ 10) (rel_issued_by x)) (at_ 10) (no_failures by_nine) /\
  small (graph_history (toy false) (db_of (after faq)) (no_failures by_nine)) /\ stored_revocation (graph_history (toy false) (db_of (after faq)) (no_failures by_nine)) (toy_rev 9 A 8) /\
  fst (graph_step (toy false) (db_of (after faq)) (G_weight (toy_key B) (at_ 10), None)) = Ok (GR_weight 4).
Proof. exact e_C149_nine. Qed.

(** ** C150 *)
(** Nothing a key signs changes its own weight. *)
Theorem C150_own_weight : forall C d es now pk fu fu' w w' d1 d2, reachable C d -> typed_history C es -> only_offers (fun x => rel_issued_by x = pk) now es ->
  small d -> small (graph_history C d es) -> call_typed C (G_weight pk now) ->
  graph_step C d (G_weight pk now, fu) = (Ok (GR_weight w), d1) -> graph_step C (graph_history C d es) (G_weight pk now, fu') = (Ok (GR_weight w'), d2) -> w' = w.
Proof. exact p_C150_own_weight. Qed.
Print Assumptions C150_own_weight.

(** Nor its certificates, but for those it has itself signed a trust of. *)
Theorem C150_own_certificates : forall C d es now pk fu fu' cs cs' d1 d2 c, reachable C d -> typed_history C es -> only_offers (fun x => rel_issued_by x = pk) now es ->
  call_typed C (G_get_all_certs pk now) -> graph_step C d (G_get_all_certs pk now, fu) = (Ok (GR_certs cs), d1) ->
  graph_step C (graph_history C d es) (G_get_all_certs pk now, fu') = (Ok (GR_certs cs'), d2) -> not_through pk c -> (In c cs' <-> In c cs).
Proof. exact p_C150_own_certificates. Qed.
Print Assumptions C150_own_certificates.

(** B trusts itself and revokes A above it; it keeps the weight 4 and gets a longer certificate. *)
Example C150_example_b : typed_history (toy false) (no_failures by_b) /\ only_offers (fun x => rel_issued_by x = toy_key B) (at_ 10) (no_failures by_b) /\
  graph_history (toy false) (db_of (after faq)) (no_failures by_b) = db_of (after (faq ++ by_b)) /\ small (db_of (after (faq ++ by_b))) /\
  fst (graph_step (toy false) (db_of (after faq)) (G_weight (toy_key B) (at_ 10), None)) = Ok (GR_weight 4) /\
  fst (graph_step (toy false) (db_of (after (faq ++ by_b))) (G_weight (toy_key B) (at_ 10), None)) = Ok (GR_weight 4) /\
  fst (graph_step (toy false) (db_of (after faq)) (G_get_all_certs (toy_key B) (at_ 10), None)) = Ok (GR_certs [way2]) /\
  fst (graph_step (toy false) (db_of (after (faq ++ by_b))) (G_get_all_certs (toy_key B) (at_ 10), None)) = Ok (GR_certs [way2; way2 ++ [toy_trust B B 900 2]]).
Proof. exact e_C150_b. Qed.

(** ** C151 *)
(** What is said about keys from which no path of trusts leads to [pk] changes no answer about [pk]. *)
Theorem C151_elsewhere : forall C d es now pk q, reachable C d -> typed_history C es ->
  only_offers (fun x => ~ leads d now pk (rel_issued_for x)) now es -> small d -> small (graph_history C d es) -> call_typed C q -> about pk now q ->
  same_answer (fst (graph_step C d (q, None))) (fst (graph_step C (graph_history C d es) (q, None))).
Proof. exact p_C151_elsewhere. Qed.
Print Assumptions C151_elsewhere.

Example C151_example_d : ~ leads (db_of (after faq)) (at_ 10) (toy_key A) (toy_key D) /\ typed_history (toy false) (no_failures about_d) /\
  only_offers (fun x => ~ leads (db_of (after faq)) (at_ 10) (toy_key A) (rel_issued_for x)) (at_ 10) (no_failures about_d) /\
  small (graph_history (toy false) (db_of (after faq)) (no_failures about_d)) /\
  fst (graph_step (toy false) (db_of (after faq)) (G_weight (toy_key A) (at_ 10), None)) = Ok (GR_weight 8).
Proof. exact e_C151_d. Qed.

(** ** C152 *)
(** A revocation only takes certificates away and raises no weight, of any key at any time. *)
Theorem C152_revoke_lowers : forall C d v fu d2 now pk f1 f2 f3 f4 cs cs' w w' e1 e2 e3 e4, reachable C d -> revocation_typed C v -> small d -> small d2 -> call_typed C (G_weight pk now) ->
  graph_step C d (G_revoke v, fu) = (Ok GR_unit, d2) ->
  graph_step C d (G_get_all_certs pk now, f1) = (Ok (GR_certs cs), e1) -> graph_step C d2 (G_get_all_certs pk now, f2) = (Ok (GR_certs cs'), e2) ->
  graph_step C d (G_weight pk now, f3) = (Ok (GR_weight w), e3) -> graph_step C d2 (G_weight pk now, f4) = (Ok (GR_weight w'), e4) ->
  incl cs' cs /\ w' <= w.
Proof. exact p_C152_revoke_lowers. Qed.
Print Assumptions C152_revoke_lowers.

(** A trust that expires later than now, and before 2^63 seconds, lowers the weight of no key. *)
Theorem C152_trust_raises : forall C d t b now v d2 pk fu fu' w w' e1 e2, reachable C d -> call_typed C (G_add_trust t b now) -> small d -> small d2 -> call_typed C (G_weight pk now) ->
  secs now < secs (expires_at t) < i64_bound -> graph_step C d (G_add_trust t b now, None) = (Ok (GR_weight v), d2) ->
  graph_step C d (G_weight pk now, fu) = (Ok (GR_weight w), e1) -> graph_step C d2 (G_weight pk now, fu') = (Ok (GR_weight w'), e2) -> w <= w'.
Proof. exact p_C152_trust_raises. Qed.
Print Assumptions C152_trust_raises.

(** An expiry too far away does lower it: R renews its trust for A until 2^63 seconds, and A, which had weight 8, has none. *)
Theorem C152_far_expiry_lowers : exists C d t b now v d2 pk w e1 e2, crypto_laws C /\ reachable C d /\ call_typed C (G_add_trust t b now) /\ call_typed C (G_weight pk now) /\ small d /\
  secs now < secs (expires_at t) /\ graph_step C d (G_add_trust t b now, None) = (Ok (GR_weight v), d2) /\
  graph_step C d (G_weight pk now, None) = (Ok (GR_weight w), e1) /\ graph_step C d2 (G_weight pk now, None) = (Ok (GR_weight 0), e2) /\ w <> 0.
Proof. exact p_C152_far_expiry_lowers. Qed.
Print Assumptions C152_far_expiry_lowers.

(** A trust by R takes B from 4 to 8, a revocation by A takes D from 2 to 0. *)
Example C152_example_both : call_typed (toy false) (G_add_trust (toy_trust R B 900 1) (toy_key R) (at_ 10)) /\
  fst (graph_step (toy false) (db_of (after faq)) (G_add_trust (toy_trust R B 900 1) (toy_key R) (at_ 10), None)) = Ok (GR_weight 8) /\
  fst (graph_step (toy false) (db_of (after faq)) (G_weight (toy_key B) (at_ 10), None)) = Ok (GR_weight 4) /\
  fst (graph_step (toy false) (db_of (after (faq ++ [G_add_trust (toy_trust R B 900 1) (toy_key R) (at_ 10)]))) (G_weight (toy_key B) (at_ 10), None)) = Ok (GR_weight 8) /\
  fst (graph_step (toy false) (db_of (after faq)) (G_revoke (toy_rev A D 9), None)) = Ok GR_unit /\
  fst (graph_step (toy false) (db_of (after faq)) (G_weight (toy_key D) (at_ 10), None)) = Ok (GR_weight 2) /\
  fst (graph_step (toy false) (db_of (after (faq ++ [G_revoke (toy_rev A D 9)]))) (G_weight (toy_key D) (at_ 10), None)) = Ok (GR_weight 0).
Proof. exact e_C152_both. Qed.

(** ** C153 *)
(** A weight above 1 comes from a key of at least twice the weight that trusts the key, if none of those who trust it are revoked. *)
Theorem C153_half_at_most : forall C d pk now fu w d1, reachable C d -> call_typed C (G_weight pk now) -> small d -> ~ is_root d pk ->
  (forall v t, stored_revocation d v -> live d now (rev_pk v) t -> issued_for t <> pk) ->
  graph_step C d (G_weight pk now, fu) = (Ok (GR_weight w), d1) -> 1 < w ->
  exists b t w' d2, b <> pk /\ live d now b t /\ issued_for t = pk /\ graph_step C d (G_weight b now, None) = (Ok (GR_weight w'), d2) /\ 2 * w <= w'.
Proof. exact p_C153_half_at_most. Qed.
Print Assumptions C153_half_at_most.

(** Not so if the one who trusts is revoked: D has weight 4, and B, the only one who trusts it, none. *)
Theorem C153_needs_unrevoked : exists C d pk now w d1, crypto_laws C /\ reachable C d /\ call_typed C (G_weight pk now) /\ small d /\ ~ is_root d pk /\
  graph_step C d (G_weight pk now, None) = (Ok (GR_weight w), d1) /\ 1 < w /\
  forall b t, live d now b t -> issued_for t = pk -> exists d2, graph_step C d (G_weight b now, None) = (Ok (GR_weight 0), d2).
Proof. exact p_C153_needs_unrevoked. Qed.
Print Assumptions C153_needs_unrevoked.

(** In the README's chain, B has weight 4 and A, who trusts it, 8. *)
Example C153_example_b : ~ is_root (db_of (after faq)) (toy_key B) /\ (forall v, ~ stored_revocation (db_of (after faq)) v) /\
  fst (graph_step (toy false) (db_of (after faq)) (G_weight (toy_key B) (at_ 10), None)) = Ok (GR_weight 4).
Proof. exact e_C153_b. Qed.

(** ** C154 *)
(** Of a set of keys without roots none weighs more than the heaviest of those that a key outside the set trusts, if these are not revoked. *)
Theorem C154_made_up_keys : forall C d now ks M pk fu w d1, reachable C d -> small d -> (forall k, In k ks -> ~ is_root d k) ->
  (forall b t fu' w' d2, live d now b t -> ~ In b ks -> In (issued_for t) ks ->
     (forall v, stored_revocation d v -> rev_pk v <> issued_for t) /\ (graph_step C d (G_weight (issued_for t) now, fu') = (Ok (GR_weight w'), d2) -> w' <= M)) ->
  In pk ks -> call_typed C (G_weight pk now) -> graph_step C d (G_weight pk now, fu) = (Ok (GR_weight w), d1) -> w <= M.
Proof. exact p_C154_made_up_keys. Qed.
Print Assumptions C154_made_up_keys.

(** B and D, of which only B is trusted from outside: B has weight 4 and D 2. *)
Example C154_example_bd : let ks := [toy_key B; toy_key D] in let d := db_of (after faq) in
  (forall k, In k ks -> ~ is_root d k) /\ (forall v, ~ stored_revocation d v) /\
  (forall b t, live d (at_ 10) b t -> ~ In b ks -> In (issued_for t) ks -> issued_for t = toy_key B) /\
  fst (graph_step (toy false) d (G_weight (toy_key B) (at_ 10), None)) = Ok (GR_weight 4) /\ fst (graph_step (toy false) d (G_weight (toy_key D) (at_ 10), None)) = Ok (GR_weight 2).
Proof. exact e_C154_bd. Qed.
