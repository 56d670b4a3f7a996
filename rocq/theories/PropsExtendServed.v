(** Certificates one trust longer, at the service. Every proof is a lemma of ExtendServedThms.v. *)
From Coq Require Import List NArith ZArith Bool.
From Verif Require Import Base Text Keys Trust Certificate Relation Storage Graph Spec Service ServiceSpec ExtendSpec.
From Verif Require Import Toy ServiceWitness PartsServedThms ExtendServedThms.
Import ListNotations.
Open Scope N_scope.

(** ** C209 *)
(** At the service: a record that [add_trust] has accepted with a weight stands at the end of a certificate that is told of its peer, behind the records of each certificate of its issuer
    that does not name the peer, and in which nobody has revoked the direct issuer or, but for the issuer, the peer. *)
Theorem C209_service_added : forall C d r t i b cp ts w d' cp1 rs x cp2, crypto_laws C -> wasm32 C = true -> service_reachable C d -> small d ->
  trust_record C r t -> peer_key C i b -> host_time cp 2 -> dto_trust_typed r -> dt_issued_at r <= ts -> ts < dt_expires_at r < i64_bound ->
  service_step C d (cp, S_add_trust r i ts, None) = (Ok (mk_response true None (P_added w)), d') -> w <> 0 ->
  (forall z, stored d z -> same_keys (RAuth (mk_auth t b)) z -> before (rel_issued_at z) (issued_at t)) ->
  fst (service_step C d (cp1, S_get_all_certs i ts, None)) = Ok (mk_response true None (P_certs rs)) -> In x rs -> issued_for t <> b ->
  (forall j, ~ names C x j (issued_for t)) ->
  (forall v j, stored_revocation d v -> names C x (length x - 2) (rev_pk v) -> (j < length x - 2)%nat -> ~ names C x j (revoked_by v)) ->
  (forall v j, stored_revocation d v -> rev_pk v = issued_for t -> revoked_by v <> b -> ~ names C x j (revoked_by v)) ->
  host_time cp2 1 ->
  exists rs' r', fst (service_step C d' (cp2, S_get_all_certs (dt_issued_for r) ts, None)) = Ok (mk_response true None (P_certs rs')) /\ In (x ++ [r']) rs' /\ trust_record C r' t.
Proof. exact p_C209_service_added. Qed.
Print Assumptions C209_service_added.

(** Key 3 has the certificate 1 -> 1 -> 2 -> 3 and trusts key 4 anew. *)
Example C209_example_service_added : service_reachable (toy true) shorter_store /\ small shorter_store /\ host_time (timed_call 2) 2 /\ host_time (timed_call 1) 1 /\
  (forall v, ~ stored_revocation shorter_store v) /\
  fst (service_step (toy true) shorter_store (timed_call 1, S_get_all_certs (pid 3) 23, None)) = Ok (mk_response true None (P_certs [firstn 3 longer_cert])) /\
  fst (service_step (toy true) shorter_store (timed_call 2, S_add_trust (trust_rec 3 4 3000 22) (pid 3) 23, None)) = Ok (mk_response true None (P_added 4)) /\
  fst (service_step (toy true) longer_store (timed_call 1, S_get_all_certs (pid 4) 23, None)) = Ok (mk_response true None (P_certs [firstn 3 longer_cert ++ [trust_rec 3 4 3000 22]])).
Proof. exact e_C209_service_added. Qed.
