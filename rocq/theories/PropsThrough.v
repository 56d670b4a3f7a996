(** What time, a revocation, a new trust and a new root change through an issuer. Every proof is a lemma of ThroughThms.v. *)
From Coq Require Import List NArith ZArith Bool.
From Verif Require Import Base Text Keys Trust Certificate Relation Storage Graph GraphFacts Service Spec ServiceSpec.

From Verif Require Import Toy Witness ReadmeThms LapseThms SeverThms CrownThms ThroughThms InfluenceSpec ExtendSpec SeverSpec AnewSpec CrownSpec LapseSpec.
Import ListNotations.
Open Scope N_scope.

(** ** C211 *)
(** The certificates through an issuer are told exactly until a trust in them expires, too. *)
Theorem C211_from : forall C d pk i a b fu fu' cs cs' d1 d2 es, reachable C d -> call_typed C (G_get_all_certs_from pk i a) -> call_typed C (G_get_all_certs_from pk i b) -> in_order a b ->
  graph_step C d (G_get_all_certs_from pk i a, fu) = (Ok (GR_certs cs), d1) -> typed_history C es -> asked_until b es ->
  graph_step C (graph_history C d1 es) (G_get_all_certs_from pk i b, fu') = (Ok (GR_certs cs'), d2) ->
  forall c, In c cs' <-> In c cs /\ lasting b c.
Proof. exact p_C211_from. Qed.
Print Assumptions C211_from.

(** The weight through the issuer at every later time is that of the best of them that has lasted, and nothing if there is none. *)
Theorem C211_weights_from : forall C d pk i a b fu fu' cs w d1 d2 es, reachable C d -> small d -> call_typed C (G_get_all_certs_from pk i a) -> call_typed C (G_weight_from pk i b) -> in_order a b ->
  graph_step C d (G_get_all_certs_from pk i a, fu) = (Ok (GR_certs cs), d1) -> typed_history C es -> asked_until b es ->
  graph_step C (graph_history C d1 es) (G_weight_from pk i b, fu') = (Ok (GR_weight w), d2) ->
  greatest (fun v => exists c, In c cs /\ lasting b c /\ cert_weight d c v) w.
Proof. exact p_C211_weights_from. Qed.
Print Assumptions C211_weights_from.

(** B has a certificate through A, which lasts beyond second 700 as in [C211_example_two_ways]. *)
Example C211_example_issuer : call_typed W (G_get_all_certs_from (toy_key B) (toy_key A) (at_ 10)) /\ asked_until (at_ 700) (no_failures asked_meanwhile) /\
  fst (graph_step W (db_of (after two_ways)) (G_get_all_certs_from (toy_key B) (toy_key A) (at_ 10), None)) = Ok (GR_certs [way2]) /\ lasting (at_ 700) way2 /\
  answer_after W (db_of (after two_ways)) asked_meanwhile (G_get_all_certs_from (toy_key B) (toy_key A) (at_ 700)) = Ok (GR_certs [way2]) /\
  answer_after W (db_of (after two_ways)) asked_meanwhile (G_weight_from (toy_key B) (toy_key A) (at_ 700)) = Ok (GR_weight 8).
Proof. exact e_C211_issuer. Qed.

(** ** C212 *)
(** A new revocation takes the same certificates away from those through an issuer. *)
Theorem C212_from : forall C d v fu d' pk i now fu1 fu2 cs cs' d1 d2, reachable C d -> revocation_typed C v -> call_typed C (G_get_all_certs_from pk i now) ->
  graph_step C d (G_revoke v, fu) = (Ok GR_unit, d') -> (forall z, stored d z -> same_keys (RRev v) z -> before (rel_issued_at z) (revoked_at v)) ->
  graph_step C d (G_get_all_certs_from pk i now, fu1) = (Ok (GR_certs cs), d1) -> graph_step C d' (G_get_all_certs_from pk i now, fu2) = (Ok (GR_certs cs'), d2) ->
  forall c, In c cs' <-> In c cs /\ ~ cuts v c.
Proof. exact p_C212_from. Qed.
Print Assumptions C212_from.

(** The weight through an issuer that is left is that of the best other certificate. *)
Theorem C212_weights_from : forall C d v fu d' pk i now fu1 fu2 cs w d1 d2, reachable C d -> small d' -> revocation_typed C v -> call_typed C (G_get_all_certs_from pk i now) ->
  graph_step C d (G_revoke v, fu) = (Ok GR_unit, d') -> (forall z, stored d z -> same_keys (RRev v) z -> before (rel_issued_at z) (revoked_at v)) ->
  graph_step C d (G_get_all_certs_from pk i now, fu1) = (Ok (GR_certs cs), d1) -> graph_step C d' (G_weight_from pk i now, fu2) = (Ok (GR_weight w), d2) ->
  greatest (fun x => exists c, In c cs /\ ~ cuts v c /\ cert_weight d c x) w.
Proof. exact p_C212_weights_from. Qed.
Print Assumptions C212_weights_from.

(** R trusts A, A trusts B and B trusts D. R revokes A: nothing is left of D through A. *)
Example C212_example_issuer : call_typed W (G_get_all_certs_from (toy_key D) (toy_key A) (at_ 22)) /\ revocation_typed W (toy_rev R A 9) /\
  (forall z, stored (db_of (after faq)) z -> same_keys (RRev (toy_rev R A 9)) z -> before (rel_issued_at z) (at_ 9)) /\
  fst (graph_step W (db_of (after faq)) (G_get_all_certs_from (toy_key D) (toy_key A) (at_ 22), None)) = Ok (GR_certs [faq_cert]) /\
  answer_after W (db_of (after faq)) [G_revoke (toy_rev R A 9)] (G_get_all_certs_from (toy_key D) (toy_key A) (at_ 22)) = Ok (GR_certs []) /\
  answer_after W (db_of (after faq)) [G_revoke (toy_rev R A 9)] (G_weight_from (toy_key D) (toy_key A) (at_ 22)) = Ok (GR_weight 0).
Proof. exact e_C212_issuer. Qed.

(** ** C213 *)
(** A renewed trust takes the place of the one before in the certificates through an issuer, too. *)
Theorem C213_from : forall C d t b now w d' pk i at' z fu1 fu2 cs cs' d1 d2, reachable C d -> small d -> call_typed C (G_add_trust t b now) ->
  graph_step C d (G_add_trust t b now, None) = (Ok (GR_weight w), d') -> w <> 0 -> secs now <= secs at' < secs (expires_at t) -> secs (expires_at t) < i64_bound ->
  (forall x, stored d x -> same_keys (RAuth (mk_auth t b)) x -> before (rel_issued_at x) (issued_at t)) -> call_typed C (G_get_all_certs_from pk i at') ->
  graph_step C d (G_get_all_certs_from pk i at', fu1) = (Ok (GR_certs cs), d1) -> graph_step C d' (G_get_all_certs_from pk i at', fu2) = (Ok (GR_certs cs'), d2) ->
  live d at' b z -> issued_for z = issued_for t ->
  (forall c, In c cs' <-> exists c0, In c0 cs /\ exchanged b (whole_trust t) c0 c) /\ (forall c0, In c0 cs -> exists c, In c cs' /\ exchanged b (whole_trust t) c0 c).
Proof. exact p_C213_from. Qed.
Print Assumptions C213_from.

(** No weight through an issuer changes by that. *)
Theorem C213_weights_from : forall C d t b now w d' pk i at' z fu1 fu2 w1 w2 d1 d2, reachable C d -> small d -> small d' -> call_typed C (G_add_trust t b now) ->
  graph_step C d (G_add_trust t b now, None) = (Ok (GR_weight w), d') -> w <> 0 -> secs now <= secs at' < secs (expires_at t) -> secs (expires_at t) < i64_bound ->
  (forall x, stored d x -> same_keys (RAuth (mk_auth t b)) x -> before (rel_issued_at x) (issued_at t)) -> call_typed C (G_weight_from pk i at') ->
  graph_step C d (G_weight_from pk i at', fu1) = (Ok (GR_weight w1), d1) -> graph_step C d' (G_weight_from pk i at', fu2) = (Ok (GR_weight w2), d2) ->
  live d at' b z -> issued_for z = issued_for t -> w1 = w2.
Proof. exact p_C213_weights_from. Qed.
Print Assumptions C213_weights_from.

(** R gives A a new trust before the old one has expired: it stands in the certificate of D through A, with the same weight. The other hypotheses are met as in [C213_example_faq]. *)
Example C213_example_issuer : call_typed W (G_weight_from (toy_key D) (toy_key A) (at_ 22)) /\ call_typed W (G_add_trust (toy_trust R A 950 20) (toy_key R) (at_ 21)) /\
  fst (graph_step W (db_of (after faq)) (G_weight_from (toy_key D) (toy_key A) (at_ 22), None)) = Ok (GR_weight 2) /\
  answer_after W (db_of (after faq)) [G_add_trust (toy_trust R A 950 20) (toy_key R) (at_ 21)] (G_get_all_certs_from (toy_key D) (toy_key A) (at_ 22)) =
    Ok (GR_certs [[toy_trust R R 1000 1; toy_trust R A 950 20; toy_trust A B 800 1; toy_trust B D 700 1]]) /\
  answer_after W (db_of (after faq)) [G_add_trust (toy_trust R A 950 20) (toy_key R) (at_ 21)] (G_weight_from (toy_key D) (toy_key A) (at_ 22)) = Ok (GR_weight 2).
Proof. exact e_C213_issuer. Qed.

(** ** C214 *)
(** Once a root was set, the certificates through an issuer of before are told, and those through the issuer that begin with the trust of the root for itself. *)
Theorem C214_from : forall C d k n fu d' pk i now fu1 fu2 cs cs' d1 d2, reachable C d -> call_typed C (G_set_root k n) -> call_typed C (G_get_all_certs_from pk i now) ->
  graph_step C d (G_set_root k n, fu) = (Ok GR_unit, d') ->
  graph_step C d (G_get_all_certs_from pk i now, fu1) = (Ok (GR_certs cs), d1) -> graph_step C d' (G_get_all_certs_from pk i now, fu2) = (Ok (GR_certs cs'), d2) ->
  forall c, In c cs' <-> In c cs \/ (chain_below d now k pk c /\ exists j, key_at c j i).
Proof. exact p_C214_from. Qed.
Print Assumptions C214_from.

(** The weight through an issuer is then the greater of what it was and what those certificates give; if the root was one before, it is what it was. *)
Theorem C214_weights_from : forall C d k n fu d' pk i now fu1 fu2 w1 w2 d1 d2, reachable C d -> small d -> call_typed C (G_set_root k n) -> call_typed C (G_weight_from pk i now) ->
  graph_step C d (G_set_root k n, fu) = (Ok GR_unit, d') ->
  graph_step C d (G_weight_from pk i now, fu1) = (Ok (GR_weight w1), d1) -> graph_step C d' (G_weight_from pk i now, fu2) = (Ok (GR_weight w2), d2) ->
  (is_root d k -> w2 = w1) /\
  (~ is_root d k -> greatest (fun x => x = w1 \/ exists c, chain_below d now k pk c /\ (exists j, key_at c j i) /\ x = chain_weight (N.min n 16) (length c - 1)) w2).
Proof. exact p_C214_weights_from. Qed.
Print Assumptions C214_weights_from.

(** A has trusted themselves and is made a root: a certificate of D through A is added and their weight rises, and none through R. *)
Example C214_example_issuer : call_typed W (G_set_root (toy_key A) 9) /\ call_typed W (G_weight_from (toy_key D) (toy_key A) (at_ 10)) /\
  fst (graph_step W (db_of (after own_trust)) (G_weight_from (toy_key D) (toy_key A) (at_ 10), None)) = Ok (GR_weight 2) /\
  answer_after W (db_of (after own_trust)) [G_set_root (toy_key A) 9] (G_weight_from (toy_key D) (toy_key A) (at_ 10)) = Ok (GR_weight 128) /\
  answer_after W (db_of (after own_trust)) [G_set_root (toy_key A) 9] (G_weight_from (toy_key D) (toy_key R) (at_ 10)) = Ok (GR_weight 2) /\
  answer_after W (db_of (after own_trust)) [G_set_root (toy_key A) 9] (G_get_all_certs_from (toy_key D) (toy_key R) (at_ 10)) =
    Ok (GR_certs [faq_cert; [toy_trust R R 1000 1; toy_trust R A 900 1; toy_trust A A 900 1; toy_trust A B 800 1; toy_trust B D 700 1]]).
Proof. exact e_C214_issuer. Qed.
