(** Calls that a root set before them would not change. Used in C217. *)
From Coq Require Import List NArith.
From Verif Require Import Base Keys Storage Graph Service Spec ServiceSpec.
Import ListNotations.
Open Scope N_scope.

(** The call sets no root and adds no certificate, and it is not a trust that is turned away because its issuer has no weight. *)
Definition not_turned_away (c : graph_call) (r : result graph_error graph_reply) : Prop :=
  match c with
  | G_set_root _ _ | G_add _ _ => False
  | G_add_trust _ _ _ => r <> Ok (GR_weight 0)
  | _ => True
  end.
(** None of the calls is turned away, one after the other from the store [d], and the stores stay small. *)
Fixpoint none_turned_away (C : crypto) (d : db) (cs : list graph_call) : Prop :=
  match cs with
  | [] => True
  | c :: cs => small d /\ not_turned_away c (fst (graph_step C d (c, None))) /\ none_turned_away C (snd (graph_step C d (c, None))) cs
  end.
(** The same of a call of the service and its response. *)
Definition s_not_turned_away (c : service_call) (r : result Empty_set response) : Prop :=
  match c with
  | S_set_root _ _ | S_insert_cert_raw _ _ | S_insert_cert _ _ => False
  | S_add_trust _ _ _ => r <> Ok (mk_response true None (P_added 0))
  | _ => True
  end.
Fixpoint s_none_turned_away (C : crypto) (d : db) (es : list service_event) : Prop :=
  match es with
  | [] => True
  | e :: es => small d /\ s_not_turned_away (snd (fst e)) (fst (service_step C d e)) /\ s_none_turned_away C (snd (service_step C d e)) es
  end.
