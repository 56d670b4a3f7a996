(** A clock that was wrong for a while, at the service. *)
From Coq Require Import List NArith ZArith Bool.
From Verif Require Import Base Text Keys Trust Certificate Relation Storage Graph Service Spec ServiceSpec MachineSpec CopySpec CopyServiceSpec.
Import ListNotations.
Open Scope N_scope.

(** Only calls that bring nothing, by anyone, at any times, failing anywhere. *)
Definition brings_nothing (c : service_call) : Prop :=
  match c with S_set_root _ _ | S_insert_cert_raw _ _ | S_insert_cert _ _ | S_add_trust _ _ _ | S_revoke _ _ => False | _ => True end.
Definition s_only_questions (es : list service_event) : Prop := Forall (fun e => brings_nothing (snd (fst e))) es.
(** The records of the certificates the node told of the peers [ps] at [asked], inserted again at [now]. *)
Definition handing_back (C : crypto) (d : db) (cp cp' : call_params) (asked now : N) (ps : list text) : list service_event :=
  map (fun r => (cp', S_insert_cert r now, None)) (records C d cp asked ps).
