(** Clocks that disagree: the words of C191. *)
From Coq Require Import List NArith ZArith Bool.
From Verif Require Import Base Text Keys Trust Certificate Relation Storage Graph Service Spec ServiceSpec.
Import ListNotations.
Open Scope N_scope.

(** The same call at another time. *)
Definition at_time (now : duration) (c : graph_call) : graph_call :=
  match c with
  | G_add_trust t b _ => G_add_trust t b now
  | G_add ch _ => G_add ch now
  | G_weight k _ => G_weight k now
  | G_weight_from k i _ => G_weight_from k i now
  | G_get_all_certs k _ => G_get_all_certs k now
  | G_get_all_certs_from k i _ => G_get_all_certs_from k i now
  | G_set_root _ _ | G_revoke _ | G_get_revocations _ => c
  end.
(** In seconds, the trust expires before both times or after both. *)
Definition clear_of (a b : duration) (t : trust) : Prop :=
  (secs (expires_at t) < secs a /\ secs (expires_at t) < secs b) \/ (secs a < secs (expires_at t) /\ secs b < secs (expires_at t)).

(** A call of the library at either time: the clocks are below 2^63 seconds, and no trust, stored or brought by the call, expires
    just then or in between. *)
Definition clear_call (d : db) (a b : duration) (c : graph_call) : Prop :=
  secs a < i64_bound /\ secs b < i64_bound /\ (forall k t, stored_trust d k t -> clear_of a b t) /\ (forall t k, offers_trust c t k -> clear_of a b t).
(** Calls, each with what two clocks say and the statement of the database that fails, if any. *)
Definition twice := (graph_call * (duration * duration) * option nat)%type.
Definition one (e : twice) : graph_call * option nat := (at_time (fst (snd (fst e))) (fst (fst e)), snd e).
Definition other (e : twice) : graph_call * option nat := (at_time (snd (snd (fst e))) (fst (fst e)), snd e).
(** Call by call, nothing expired between what the clocks said. *)
Fixpoint no_expiry_between (C : crypto) (d : db) (es : list twice) : Prop :=
  match es with
  | [] => True
  | e :: es' => clear_call d (fst (snd (fst e))) (snd (snd (fst e))) (fst (fst e)) /\ no_expiry_between C (snd (graph_step C d (one e))) es'
  end.
(** The same, but that a refusal of an expired trust tells the time of the clock. *)
Definition same_but_clock (a b : duration) (r r' : result graph_error graph_reply) : Prop :=
  r = r' \/ exists e, r = Err (GE_TrustVerification (TE_Expired e a)) /\ r' = Err (GE_TrustVerification (TE_Expired e b)).

(** The same call of the service with another timestamp. *)
Definition told (ts : N) (c : service_call) : service_call :=
  match c with
  | S_insert_cert_raw s _ => S_insert_cert_raw s ts
  | S_insert_cert r _ => S_insert_cert r ts
  | S_get_all_certs p _ => S_get_all_certs p ts
  | S_get_all_certs_from p i _ => S_get_all_certs_from p i ts
  | S_get_host_certs _ => S_get_host_certs ts
  | S_get_host_certs_from i _ => S_get_host_certs_from i ts
  | S_get_weight p _ => S_get_weight p ts
  | S_get_weight_from p i _ => S_get_weight_from p i ts
  | S_verify_trust r i _ => S_verify_trust r i ts
  | S_add_trust r i _ => S_add_trust r i ts
  | S_revoke r _ => S_revoke r ts
  | S_set_root _ _ | S_get_trust_bytes _ _ _ | S_issue_trust _ _ _ _ | S_get_revocation_bytes _ _ | S_issue_revocation _ _ _ _ | S_export_revocations _ => c
  end.
(** No trust, stored or brought by the call, expires at either timestamp or in between, and what it brings was made before both
    timestamps or after both. *)
Definition clear_request (C : crypto) (d : db) (cp : call_params) (ts ts' : N) (c : service_call) : Prop :=
  ts < i64_bound /\ ts' < i64_bound /\
  (forall k t, stored_trust d k t -> clear_of (from_secs ts) (from_secs ts') t) /\
  (forall g t k, requests C cp c g -> offers_trust g t k -> clear_of (from_secs ts) (from_secs ts') t) /\
  match c with
  | S_verify_trust r i _ => (dt_expires_at r < ts /\ dt_expires_at r < ts') \/ (ts < dt_expires_at r /\ ts' < dt_expires_at r)
  | S_add_trust r i _ => dt_issued_at r <= ts <-> dt_issued_at r <= ts'
  | S_revoke r _ => dr_revoked_at r <= ts <-> dr_revoked_at r <= ts'
  | _ => True
  end.
Definition same_but_time (ts ts' : N) (r r' : result Empty_set response) : Prop :=
  r = r' \/ exists e p told_as, (told_as = SVE_TrustError \/ told_as = (fun x => SVE_TGError (GE_TrustVerification x))) /\
    r = Ok (mk_response false (Some (told_as (TE_Expired e (from_secs ts)))) p) /\
    r' = Ok (mk_response false (Some (told_as (TE_Expired e (from_secs ts')))) p).
(** Calls of the service, each with two timestamps. *)
Definition twice_called := (call_params * service_call * (N * N) * option nat)%type.
Definition first_time (e : twice_called) : service_event := match e with (cp, c, (ts, _), fu) => (cp, told ts c, fu) end.
Definition second_time (e : twice_called) : service_event := match e with (cp, c, (_, ts'), fu) => (cp, told ts' c, fu) end.
Fixpoint clear_requests (C : crypto) (d : db) (es : list twice_called) : Prop :=
  match es with
  | [] => True
  | (cp, c, (ts, ts'), fu) :: es' => clear_request C d cp ts ts' c /\ clear_requests C (snd (service_step C d (cp, told ts c, fu))) es'
  end.
