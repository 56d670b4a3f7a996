(** Copying the standing of keys from one node to another through the service. *)
From Coq Require Import List NArith ZArith Bool.
From Verif Require Import Base Text Keys Trust Certificate Relation Storage Graph Service Spec ServiceSpec MachineSpec CopySpec.
Import ListNotations.
Open Scope N_scope.

(** The records in the responses of a node that is asked for the certificates and the revocations of a peer. *)
Definition cert_records (C : crypto) (d : db) (cp : call_params) (asked : N) (p : text) : list dto_certificate :=
  match fst (service_step C d (cp, S_get_all_certs p asked, None)) with Ok (mk_response true _ (P_certs rs)) => rs | _ => [] end.
Definition revocation_records (C : crypto) (d : db) (cp : call_params) (p : text) : list dto_revocation :=
  match fst (service_step C d (cp, S_export_revocations p, None)) with Ok (mk_response true _ (P_revocations rs)) => rs | _ => [] end.
(** The calls of the other node: every record is handed on as it is, first all certificates of the peers [ps], then for every
    peer that occurs in one of them all its revocations. [asked] is the time of the first node, [now] that of the other;
    [cp] and [cp'] are the circumstances of the calls there. *)
Definition records (C : crypto) (d : db) (cp : call_params) (asked : N) (ps : list text) : list dto_certificate :=
  flat_map (cert_records C d cp asked) ps.
Definition handing_on (C : crypto) (d : db) (cp cp' : call_params) (asked now : N) (ps : list text) : list service_event :=
  map (fun r => (cp', S_insert_cert r now, None)) (records C d cp asked ps) ++
  map (fun r => (cp', S_revoke r now, None)) (flat_map (revocation_records C d cp) (flat_map (map dt_issued_for) (records C d cp asked ps))).
(** No revocation in the store is of later than [now]. *)
Definition none_ahead (d : db) (now : N) : Prop := forall v, stored d (RRev v) -> secs (revoked_at v) <= now.
