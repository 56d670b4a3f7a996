(** The vocabulary of the service properties: what texts and records stand for, which argument is
    the time, and which graph call a service call asks for. *)
From Coq Require Import List NArith ZArith Bool.
From Coq Require String.
Import String.StringSyntax.
From Verif Require Import Base Text Keys Trust Certificate Relation Storage Graph Service Spec.
Import ListNotations.
Open Scope N_scope.

(** [s] is the base58 text of a peer id that contains key [k]. *)
Definition peer_key (C : crypto) (s : text) (k : public_key) : Prop :=
  exists p, b58_decode s = Ok p /\ multihash_ok C p = true /\ inlined_key C p = Some k.

(** Kind and bytes of a signature as texts. *)
Definition signature_text (C : crypto) (sig_text sig_type : text) (s : signature) : Prop :=
  b58_decode sig_text = Ok (sig_raw s) /\ fmt_supported C (sig_fmt s) = true /\ sig_type = fmt_text (sig_fmt s).

(** A record of the service interface describes a trust, a certificate, a revocation. *)
Definition trust_record (C : crypto) (r : dto_trust) (t : trust) : Prop :=
  peer_key C (dt_issued_for r) (issued_for t) /\
  expires_at t = from_secs (dt_expires_at r) /\ issued_at t = from_secs (dt_issued_at r) /\
  signature_text C (dt_signature r) (dt_sig_type r) (trust_sig t).
Definition certificate_record (C : crypto) (r : dto_certificate) (c : certificate) : Prop := Forall2 (trust_record C) r c.
Definition revocation_record (C : crypto) (r : dto_revocation) (v : revocation) : Prop :=
  peer_key C (dr_revoked_peer_id r) (rev_pk v) /\ peer_key C (dr_revoked_by r) (revoked_by v) /\
  revoked_at v = from_secs (dr_revoked_at r) /\ signature_text C (dr_signature r) (dr_sig_type r) (rev_sig v).

(** Argument [arg] of the call was produced by [peer.timestamp_sec] of the host itself. *)
Definition host_time (cp : call_params) (arg : nat) : Prop :=
  exists t ts, nth_error (tetraplets cp) arg = Some (t :: ts) /\
    tp_service_id t = str "peer" /\ tp_function_name t = str "timestamp_sec" /\ tp_peer_pk t = host_id cp.

(** The current time a call is given and the position of that argument. *)
Definition given_time (c : service_call) : option (N * nat) :=
  match c with
  | S_insert_cert_raw _ ts | S_insert_cert _ ts | S_get_all_certs _ ts | S_get_host_certs_from _ ts
  | S_get_weight _ ts | S_revoke _ ts => Some (ts, 1%nat)
  | S_get_all_certs_from _ _ ts | S_get_weight_from _ _ ts | S_verify_trust _ _ ts | S_add_trust _ _ ts => Some (ts, 2%nat)
  | S_get_host_certs ts => Some (ts, 0%nat)
  | S_set_root _ _ | S_get_trust_bytes _ _ _ | S_issue_trust _ _ _ _ | S_get_revocation_bytes _ _
  | S_issue_revocation _ _ _ _ | S_export_revocations _ => None
  end.
(** [insert_cert] and [insert_cert_raw]. *)
Definition inserts_cert (c : service_call) : bool :=
  match c with S_insert_cert_raw _ _ | S_insert_cert _ _ => true | _ => false end.
Definition is_get_weight_from (c : service_call) : bool := match c with S_get_weight_from _ _ _ => true | _ => false end.

(** The numbers fit the types of the arguments. *)
Definition dto_trust_typed (t : dto_trust) : Prop := dt_expires_at t < u64_bound /\ dt_issued_at t < u64_bound.
Definition service_typed (c : service_call) : Prop :=
  match c with
  | S_set_root _ n => n < u32_bound
  | S_insert_cert_raw _ ts | S_get_all_certs _ ts | S_get_all_certs_from _ _ ts | S_get_host_certs ts
  | S_get_host_certs_from _ ts | S_get_weight _ ts | S_get_weight_from _ _ ts => ts < u64_bound
  | S_insert_cert c ts => Forall dto_trust_typed c /\ ts < u64_bound
  | S_get_trust_bytes _ e i | S_issue_trust _ e i _ => e < u64_bound /\ i < u64_bound
  | S_verify_trust t _ ts | S_add_trust t _ ts => dto_trust_typed t /\ ts < u64_bound
  | S_get_revocation_bytes _ a | S_issue_revocation _ _ a _ => a < u64_bound
  | S_revoke r ts => dr_revoked_at r < u64_bound /\ ts < u64_bound
  | S_export_revocations _ => True
  end.
Definition service_events_typed (es : list service_event) : Prop := Forall (fun e => service_typed (snd (fst e))) es.
(** A database some history of service calls, by any callers and with failures anywhere, leaves. *)
Definition service_reachable (C : crypto) (d : db) : Prop :=
  exists es, service_events_typed es /\ service_history C empty_db es = d.

(** Graph call [g] is what service call [c] asks for. *)
Definition requests (C : crypto) (cp : call_params) (c : service_call) (g : graph_call) : Prop :=
  match c, g with
  | S_set_root p n, G_set_root k n' => peer_key C p k /\ n' = n
  | S_insert_cert_raw s ts, G_add ch now => cert_from_str C s = Ok ch /\ now = from_secs ts
  | S_insert_cert r ts, G_add ch now => certificate_record C r ch /\ now = from_secs ts
  | S_get_all_certs p ts, G_get_all_certs k now => peer_key C p k /\ now = from_secs ts
  | S_get_all_certs_from p i ts, G_get_all_certs_from k k' now => peer_key C p k /\ peer_key C i k' /\ now = from_secs ts
  | S_get_host_certs ts, G_get_all_certs k now => peer_key C (host_id cp) k /\ now = from_secs ts
  | S_get_host_certs_from i ts, G_get_all_certs_from k k' now => peer_key C (host_id cp) k /\ peer_key C i k' /\ now = from_secs ts
  | S_get_weight p ts, G_weight k now => peer_key C p k /\ now = from_secs ts
  | S_get_weight_from p i ts, G_weight_from k k' now => peer_key C p k /\ peer_key C i k' /\ now = from_secs ts
  | S_add_trust r i ts, G_add_trust t b now => trust_record C r t /\ peer_key C i b /\ now = from_secs ts
  | S_revoke r ts, G_revoke v => revocation_record C r v
  | S_export_revocations p, G_get_revocations k => peer_key C p k
  | _, _ => False
  end.

(** The payload of a response tells the answer of the graph. *)
Definition tells (C : crypto) (c : service_call) (x : graph_reply) (p : payload) : Prop :=
  match c, x, p with
  | (S_set_root _ _ | S_insert_cert_raw _ _ | S_insert_cert _ _ | S_revoke _ _), GR_unit, P_none => True
  | (S_get_all_certs _ _ | S_get_all_certs_from _ _ _ | S_get_host_certs _ | S_get_host_certs_from _ _), GR_certs cs, P_certs rs =>
      Forall2 (certificate_record C) rs cs
  | (S_get_weight q _ | S_get_weight_from q _ _), GR_weight w, P_weight w' q' => w' = w /\ q' = q
  | S_add_trust _ _ _, GR_weight w, P_added w' => w' = w
  | S_export_revocations _, GR_revs vs, P_revocations rs => Forall2 (revocation_record C) rs vs
  | _, _, _ => False
  end.

(** The payload of a failed call of this kind: zero, empty. *)
Definition empty_payload (c : service_call) : payload :=
  match c with
  | S_set_root _ _ | S_insert_cert_raw _ _ | S_insert_cert _ _ | S_verify_trust _ _ _ | S_revoke _ _ => P_none
  | S_get_all_certs _ _ | S_get_all_certs_from _ _ _ | S_get_host_certs _ | S_get_host_certs_from _ _ => P_certs []
  | S_get_weight _ _ | S_get_weight_from _ _ _ => P_weight 0 []
  | S_get_trust_bytes _ _ _ | S_get_revocation_bytes _ _ => P_bytes []
  | S_issue_trust _ _ _ _ => P_trust (mk_dto_trust [] 0 [] [] 0)
  | S_add_trust _ _ _ => P_added 0
  | S_issue_revocation _ _ _ _ => P_revocation (mk_dto_revocation [] 0 [] [] [])
  | S_export_revocations _ => P_revocations []
  end.

(** The functions that only compute and never touch the graph. *)
Definition local_call (c : service_call) : bool :=
  match c with
  | S_get_trust_bytes _ _ _ | S_issue_trust _ _ _ _ | S_verify_trust _ _ _ | S_get_revocation_bytes _ _ | S_issue_revocation _ _ _ _ => true
  | _ => false
  end.

(** The service lets the call through to the graph. *)
Definition admitted (cp : call_params) (c : service_call) : Prop :=
  match c with
  | S_set_root _ _ => init_peer_id cp = service_creator_peer_id cp
  | S_get_host_certs _ => host_time cp 0
  | S_get_all_certs _ _ | S_get_host_certs_from _ _ | S_get_weight _ _ | S_get_weight_from _ _ _ => host_time cp 1
  | S_get_all_certs_from _ _ _ => host_time cp 2
  | S_add_trust r _ ts => host_time cp 2 /\ dt_issued_at r <= ts
  | S_revoke r ts => host_time cp 1 /\ dr_revoked_at r <= ts
  | _ => True
  end.
