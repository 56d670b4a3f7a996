(** Certificates told by the service can be checked by anyone. Every proof is a lemma of CheckServedThms.v. *)
From Coq Require Import List NArith ZArith Bool.
From Verif Require Import Base Text Keys Trust Certificate Relation Storage Graph GraphFacts Service Spec ServiceSpec.

From Verif Require Import Toy ServiceWitness PartsServedThms CheckServedThms ExtendSpec.
Import ListNotations.
Open Scope N_scope.

(** ** C26 *)
(** The records of a certificate that the service tells are read as a certificate, which can be written as a text and read again, and which verifies for everybody
    who holds its first key for a root, at every time at which none of its records has expired. *)
Theorem C26_service : forall C d cp p ts rs x, crypto_laws C -> wasm32 C = true -> service_reachable C d -> ts < u64_bound ->
  fst (service_step C d (cp, S_get_all_certs p ts, None)) = Ok (mk_response true None (P_certs rs)) -> In x rs ->
  exists c, cert_of_dto C x = Ok c /\ cert_from_str C (cert_to_string c) = Ok c /\
    (forall rks now, (forall k, names C x 0 k -> In k rks) -> now < u64_bound -> (forall r, In r x -> now <= dt_expires_at r) -> cert_verify C c rks (from_secs now) = Ok tt) /\
    (ts < i64_bound -> forall r, In r x -> ts < dt_expires_at r).
Proof. exact p_C26_service. Qed.
Print Assumptions C26_service.

(** The certificate of key 4 in a store of the service is read, written as a text, read again, and verified with the key of the root until second 900. *)
Example C26_example_served : service_reachable (toy true) longer_store /\
  fst (service_step (toy true) longer_store (timed_call 1, S_get_all_certs (pid 4) 30, None)) = Ok (mk_response true None (P_certs [longer_cert])) /\
  exists c, cert_of_dto (toy true) longer_cert = Ok c /\ cert_from_str (toy true) (cert_to_string c) = Ok c /\ names (toy true) longer_cert 0 (toy_key 1) /\
    cert_verify (toy true) c [toy_key 1] (from_secs 900) = Ok tt /\ cert_verify (toy true) c [toy_key 1] (from_secs 901) <> Ok tt.
Proof. exact e_C26_served. Qed.
