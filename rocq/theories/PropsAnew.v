(** What a trust adds, and what a renewed trust changes. Every proof is a lemma of AnewThms.v. *)
From Coq Require Import List NArith ZArith Bool.
From Verif Require Import Base Text Keys Trust Certificate Relation Storage Graph GraphFacts Service Spec ServiceSpec.

From Verif Require Import Toy Witness ServiceWitness ReadmeThms SeverThms ServedBackThms AnewThms InfluenceSpec ExtendSpec SeverSpec AnewSpec.
Import ListNotations.
Open Scope N_scope.

(** ** C213 *)
(** A trust that is newer than what its issuer said of the key leaves the other certificates alone, but for those that an earlier revocation had taken away. *)
Theorem C213_others : forall C d t b now w d' pk at' fu1 fu2 cs cs' d1 d2 c, reachable C d -> small d -> call_typed C (G_add_trust t b now) ->
  graph_step C d (G_add_trust t b now, None) = (Ok (GR_weight w), d') -> w <> 0 -> secs now <= secs at' < secs (expires_at t) -> secs (expires_at t) < i64_bound ->
  (forall z, stored d z -> same_keys (RAuth (mk_auth t b)) z -> before (rel_issued_at z) (issued_at t)) -> call_typed C (G_get_all_certs pk at') ->
  graph_step C d (G_get_all_certs pk at', fu1) = (Ok (GR_certs cs), d1) -> graph_step C d' (G_get_all_certs pk at', fu2) = (Ok (GR_certs cs'), d2) ->
  (forall i, ~ given_at c i b (issued_for t)) -> (forall v, stored_revocation d v -> revoked_by v = b -> rev_pk v = issued_for t -> ~ cuts v c) ->
  (In c cs' <-> In c cs).
Proof. exact p_C213_others. Qed.
Print Assumptions C213_others.

(** In the certificates that name the trusted key next to the issuer stands the new trust. *)
Theorem C213_through : forall C d t b now w d' pk at' fu2 cs' d2 c i, reachable C d -> small d -> call_typed C (G_add_trust t b now) ->
  graph_step C d (G_add_trust t b now, None) = (Ok (GR_weight w), d') -> w <> 0 -> secs now <= secs at' < secs (expires_at t) -> secs (expires_at t) < i64_bound ->
  (forall z, stored d z -> same_keys (RAuth (mk_auth t b)) z -> before (rel_issued_at z) (issued_at t)) -> call_typed C (G_get_all_certs pk at') ->
  graph_step C d' (G_get_all_certs pk at', fu2) = (Ok (GR_certs cs'), d2) -> In c cs' -> given_at c i b (issued_for t) -> at_pos c i (whole_trust t).
Proof. exact p_C213_through. Qed.
Print Assumptions C213_through.

(** A renewed trust takes the place of the trust that has not expired in all certificates, and changes nothing else in them. *)
Theorem C213_renewed : forall C d t b now w d' pk at' z fu1 fu2 cs cs' d1 d2, reachable C d -> small d -> call_typed C (G_add_trust t b now) ->
  graph_step C d (G_add_trust t b now, None) = (Ok (GR_weight w), d') -> w <> 0 -> secs now <= secs at' < secs (expires_at t) -> secs (expires_at t) < i64_bound ->
  (forall x, stored d x -> same_keys (RAuth (mk_auth t b)) x -> before (rel_issued_at x) (issued_at t)) -> call_typed C (G_get_all_certs pk at') ->
  graph_step C d (G_get_all_certs pk at', fu1) = (Ok (GR_certs cs), d1) -> graph_step C d' (G_get_all_certs pk at', fu2) = (Ok (GR_certs cs'), d2) ->
  live d at' b z -> issued_for z = issued_for t ->
  (forall c, In c cs' <-> exists c0, In c0 cs /\ exchanged b (whole_trust t) c0 c) /\ (forall c0, In c0 cs -> exists c, In c cs' /\ exchanged b (whole_trust t) c0 c).
Proof. exact p_C213_renewed. Qed.
Print Assumptions C213_renewed.

(** No weight changes by that. *)
Theorem C213_weights : forall C d t b now w d' pk at' z fu1 fu2 w1 w2 d1 d2, reachable C d -> small d -> small d' -> call_typed C (G_add_trust t b now) ->
  graph_step C d (G_add_trust t b now, None) = (Ok (GR_weight w), d') -> w <> 0 -> secs now <= secs at' < secs (expires_at t) -> secs (expires_at t) < i64_bound ->
  (forall x, stored d x -> same_keys (RAuth (mk_auth t b)) x -> before (rel_issued_at x) (issued_at t)) -> call_typed C (G_weight pk at') ->
  graph_step C d (G_weight pk at', fu1) = (Ok (GR_weight w1), d1) -> graph_step C d' (G_weight pk at', fu2) = (Ok (GR_weight w2), d2) ->
  live d at' b z -> issued_for z = issued_for t -> w1 = w2.
Proof. exact p_C213_weights. Qed.
Print Assumptions C213_weights.

(** At the service: in the certificates that are told, a record of the renewed trust stands where one of the trust before did, and nothing else changes. *)
Theorem C213_service : forall C d r t i b cp ts w d' p ts' cp1 cp2 rs z, crypto_laws C -> wasm32 C = true -> service_reachable C d -> small d ->
  trust_record C r t -> peer_key C i b -> host_time cp 2 -> dto_trust_typed r -> dt_issued_at r <= ts -> ts <= ts' < dt_expires_at r -> dt_expires_at r < i64_bound ->
  service_step C d (cp, S_add_trust r i ts, None) = (Ok (mk_response true None (P_added w)), d') -> w <> 0 ->
  (forall x, stored d x -> same_keys (RAuth (mk_auth t b)) x -> before (rel_issued_at x) (issued_at t)) -> live d (from_secs ts') b z -> issued_for z = issued_for t ->
  fst (service_step C d (cp1, S_get_all_certs p ts', None)) = Ok (mk_response true None (P_certs rs)) -> host_time cp2 1 ->
  exists rs', fst (service_step C d' (cp2, S_get_all_certs p ts', None)) = Ok (mk_response true None (P_certs rs')) /\
    (forall x', In x' rs' -> exists x, In x rs /\ s_exchanged C b t x x') /\ (forall x, In x rs -> exists x', In x' rs' /\ s_exchanged C b t x x').
Proof. exact p_C213_service. Qed.
Print Assumptions C213_service.

(** R gives A a new trust before the old one has expired: it stands in the certificate of D where the old one stood, until second 950, and the weight of D is as before. A new trust of R for B opens a second, shorter way to D. *)
Example C213_example_faq : reachable W (db_of (after faq)) /\ small (db_of (after faq)) /\ call_typed W (G_add_trust (toy_trust R A 950 20) (toy_key R) (at_ 21)) /\
  fst (graph_step W (db_of (after faq)) (G_add_trust (toy_trust R A 950 20) (toy_key R) (at_ 21), None)) = Ok (GR_weight 8) /\
  (forall x, stored (db_of (after faq)) x -> same_keys (RAuth (mk_auth (toy_trust R A 950 20) (toy_key R))) x -> before (rel_issued_at x) (at_ 20)) /\
  live (db_of (after faq)) (at_ 22) (toy_key R) (toy_trust R A 900 1) /\
  fst (graph_step W (db_of (after faq)) (G_get_all_certs (toy_key D) (at_ 22), None)) = Ok (GR_certs [faq_cert]) /\
  answer_after W (db_of (after faq)) [G_add_trust (toy_trust R A 950 20) (toy_key R) (at_ 21)] (G_get_all_certs (toy_key D) (at_ 22)) =
    Ok (GR_certs [[toy_trust R R 1000 1; toy_trust R A 950 20; toy_trust A B 800 1; toy_trust B D 700 1]]) /\
  answer_after W (db_of (after faq)) [G_add_trust (toy_trust R A 950 20) (toy_key R) (at_ 21)] (G_weight (toy_key D) (at_ 22)) = Ok (GR_weight 2) /\
  answer_after W (db_of (after faq)) [G_add_trust (toy_trust R B 950 20) (toy_key R) (at_ 21)] (G_get_all_certs (toy_key D) (at_ 22)) =
    Ok (GR_certs [[toy_trust R R 1000 1; toy_trust R B 950 20; toy_trust B D 700 1]; faq_cert]).
Proof. exact e_C213_faq. Qed.

(** Key 1 gives key 2 a new record, which stands in the certificate of key 4 where the old one stood. *)
Example C213_example_served : service_reachable (toy true) grown_store /\ small grown_store /\ trust_record (toy true) (trust_rec 1 2 2000 90) (toy_trust 1 2 2000 90) /\ peer_key (toy true) (pid 1) (toy_key 1) /\
  host_time (timed_call 2) 2 /\ dto_trust_typed (trust_rec 1 2 2000 90) /\ live grown_store (from_secs 96) (toy_key 1) (toy_trust 1 2 900 1) /\
  (forall x, stored grown_store x -> same_keys (RAuth (mk_auth (toy_trust 1 2 2000 90) (toy_key 1))) x -> before (rel_issued_at x) (from_secs 90)) /\ host_time (timed_call 1) 1 /\
  fst (service_step (toy true) grown_store (timed_call 2, S_add_trust (trust_rec 1 2 2000 90) (pid 1) 95, None)) = Ok (mk_response true None (P_added 16)) /\
  fst (service_step (toy true) grown_store (timed_call 1, S_get_all_certs (pid 4) 96, None)) = Ok (mk_response true None (P_certs [[trust_rec 1 1 1000 1; trust_rec 1 2 900 1; trust_rec 2 4 800 5]])) /\
  fst (service_step (toy true) (snd (service_step (toy true) grown_store (timed_call 2, S_add_trust (trust_rec 1 2 2000 90) (pid 1) 95, None))) (timed_call 1, S_get_all_certs (pid 4) 96, None)) =
    Ok (mk_response true None (P_certs [[trust_rec 1 1 1000 1; trust_rec 1 2 2000 90; trust_rec 2 4 800 5]])).
Proof. exact e_C213_served. Qed.
