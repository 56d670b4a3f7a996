(** What a revocation takes away. Every proof is a lemma of SeverThms.v. *)
From Coq Require Import List NArith ZArith Bool.
From Verif Require Import Base Text Keys Trust Certificate Relation Storage Graph GraphFacts Service Spec ServiceSpec.

From Verif Require Import Toy Witness ServiceWitness ReadmeThms SeverThms ExtendSpec SeverSpec.
Import ListNotations.
Open Scope N_scope.

(** ** C212 *)
(** A revocation that is newer than what its author said of the key takes away exactly these certificates. *)
Theorem C212_certificates : forall C d v fu d' pk now fu1 fu2 cs cs' d1 d2, reachable C d -> revocation_typed C v -> call_typed C (G_get_all_certs pk now) ->
  graph_step C d (G_revoke v, fu) = (Ok GR_unit, d') -> (forall z, stored d z -> same_keys (RRev v) z -> before (rel_issued_at z) (revoked_at v)) ->
  graph_step C d (G_get_all_certs pk now, fu1) = (Ok (GR_certs cs), d1) -> graph_step C d' (G_get_all_certs pk now, fu2) = (Ok (GR_certs cs'), d2) ->
  forall c, In c cs' <-> In c cs /\ ~ cuts v c.
Proof. exact p_C212_certificates. Qed.
Print Assumptions C212_certificates.

(** Another one takes away nothing. *)
Theorem C212_older : forall C d v z fu d' pk now fu1 fu2 cs cs' d1 d2, reachable C d -> revocation_typed C v -> call_typed C (G_get_all_certs pk now) ->
  graph_step C d (G_revoke v, fu) = (Ok GR_unit, d') -> stored d z -> same_keys (RRev v) z -> ~ before (rel_issued_at z) (revoked_at v) ->
  graph_step C d (G_get_all_certs pk now, fu1) = (Ok (GR_certs cs), d1) -> graph_step C d' (G_get_all_certs pk now, fu2) = (Ok (GR_certs cs'), d2) ->
  forall c, In c cs' <-> In c cs.
Proof. exact p_C212_older. Qed.
Print Assumptions C212_older.

(** The weight that is left is that of the key as a root or of the best other certificate. *)
Theorem C212_weights : forall C d v fu d' pk now fu1 fu2 cs w d1 d2, reachable C d -> small d' -> revocation_typed C v -> call_typed C (G_get_all_certs pk now) ->
  graph_step C d (G_revoke v, fu) = (Ok GR_unit, d') -> (forall z, stored d z -> same_keys (RRev v) z -> before (rel_issued_at z) (revoked_at v)) ->
  graph_step C d (G_get_all_certs pk now, fu1) = (Ok (GR_certs cs), d1) -> graph_step C d' (G_weight pk now, fu2) = (Ok (GR_weight w), d2) ->
  greatest (fun x => (exists m, root_max_len d pk m /\ x = 2 ^ m) \/ exists c, In c cs /\ ~ cuts v c /\ cert_weight d c x) w.
Proof. exact p_C212_weights. Qed.
Print Assumptions C212_weights.

(** At the service: a record that [revoke] has accepted takes away exactly these certificates. *)
Theorem C212_service : forall C d r v cp ts d' p ts' cp1 cp2 rs, crypto_laws C -> wasm32 C = true -> service_reachable C d -> revocation_record C r v -> service_typed (S_revoke r ts) -> ts' < u64_bound ->
  service_step C d (cp, S_revoke r ts, None) = (Ok (mk_response true None P_none), d') -> (forall z, stored d z -> same_keys (RRev v) z -> before (rel_issued_at z) (revoked_at v)) ->
  fst (service_step C d (cp1, S_get_all_certs p ts', None)) = Ok (mk_response true None (P_certs rs)) -> host_time cp2 1 ->
  exists rs', fst (service_step C d' (cp2, S_get_all_certs p ts', None)) = Ok (mk_response true None (P_certs rs')) /\ forall x, In x rs' <-> In x rs /\ ~ s_cuts C v x.
Proof. exact p_C212_service. Qed.
Print Assumptions C212_service.

(** R trusts A, A trusts B and B trusts D. R revokes B: the certificate of B is gone, that of D stays, for B is its direct issuer. *)
Example C212_example_faq : reachable W (db_of (after faq)) /\ revocation_typed W (toy_rev R B 9) /\
  fst (graph_step W (db_of (after faq)) (G_revoke (toy_rev R B 9), None)) = Ok GR_unit /\ (forall z, stored (db_of (after faq)) z -> ~ same_keys (RRev (toy_rev R B 9)) z) /\
  fst (graph_step W (db_of (after faq)) (G_get_all_certs (toy_key B) (at_ 10), None)) = Ok (GR_certs [firstn 3 faq_cert]) /\ cuts (toy_rev R B 9) (firstn 3 faq_cert) /\
  fst (graph_step W (db_of (after faq)) (G_get_all_certs (toy_key D) (at_ 10), None)) = Ok (GR_certs [faq_cert]) /\ ~ cuts (toy_rev R B 9) faq_cert /\ cuts (toy_rev R A 9) faq_cert /\
  answer_after W (db_of (after faq)) [G_revoke (toy_rev R B 9)] (G_get_all_certs (toy_key B) (at_ 10)) = Ok (GR_certs []) /\
  answer_after W (db_of (after faq)) [G_revoke (toy_rev R B 9)] (G_get_all_certs (toy_key D) (at_ 10)) = Ok (GR_certs [faq_cert]) /\
  answer_after W (db_of (after faq)) [G_revoke (toy_rev R A 9)] (G_get_all_certs (toy_key D) (at_ 10)) = Ok (GR_certs []).
Proof. exact e_C212_faq. Qed.

(** Key 2 revokes key 4 in a chain from key 1 to key 5: the certificate of key 4 is gone, that of key 5 stays. *)
Example C212_example_served : service_reachable (toy true) unsevered /\ revocation_record (toy true) (rev_rec 2 4 8) (toy_rev 2 4 8) /\ service_typed (S_revoke (rev_rec 2 4 8) 8) /\
  fst (service_step (toy true) unsevered (timed_call 1, S_revoke (rev_rec 2 4 8) 8, None)) = Ok (mk_response true None P_none) /\ (forall z, stored unsevered z -> ~ same_keys (RRev (toy_rev 2 4 8)) z) /\ host_time (timed_call 1) 1 /\
  map (fun p => told_certs (service_step (toy true) unsevered (timed_call 1, S_get_all_certs p 9, None))) [pid 4; pid 5] = [1; 1]%nat /\
  map (fun p => told_certs (service_step (toy true) (snd (service_step (toy true) unsevered (timed_call 1, S_revoke (rev_rec 2 4 8) 8, None))) (timed_call 1, S_get_all_certs p 9, None))) [pid 4; pid 5] = [0; 1]%nat.
Proof. exact e_C212_served. Qed.
