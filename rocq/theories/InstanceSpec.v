(** The vocabulary of the properties of the running service. *)
From Coq Require Import List NArith ZArith Bool.
From Verif Require Import Base Text Keys Certificate Storage Service Instance ServiceSpec.
Import ListNotations.
Open Scope N_scope.

Definition running (m : machine) : Prop := m_process m <> None.
(** The call of an event fits the types of its arguments. *)
Definition machine_typed (ev : machine_event) : Prop :=
  match ev with E_call e _ | E_kill e _ => service_typed (snd (fst e)) | _ => True end.
(** The database opens whenever it is opened. *)
Definition opens (ev : machine_event) : Prop := match ev with E_call _ o | E_kill _ o => o = true | _ => True end.
Definition is_call (ev : machine_event) : Prop := match ev with E_call _ _ => True | _ => False end.
(** A node some life leads to: starts, stops, crashes and calls by anyone. *)
Definition machine_reachable (C : crypto) (renews : bool) (m : machine) : Prop :=
  exists evs, Forall machine_typed evs /\ m = machine_history C renews new_machine evs.

(** A call that works on the graph: every call but the computing ones and a refused [set_root]. *)
Definition graph_use (cp : call_params) (c : service_call) : Prop :=
  local_call c = false /\ (forall p n, c = S_set_root p n -> init_peer_id cp = service_creator_peer_id cp).
(** Since the last start someone gave the running service a text that makes the certificate parser panic. *)
Definition poisoned (C : crypto) (renews : bool) (m : machine) (evs : list machine_event) : Prop :=
  exists h1 cp s ts fu o h2, evs = h1 ++ E_call (cp, S_insert_cert_raw s ts, fu) o :: h2 /\
    running (machine_history C renews m h1) /\ cert_from_str C s = Panic /\ Forall is_call h2.

(** Since the last start the graph has been used while the database could be opened. *)
Definition opened (C : crypto) (renews : bool) (m : machine) (evs : list machine_event) : Prop :=
  exists h1 e h2, evs = h1 ++ E_call e true :: h2 /\ running (machine_history C renews m h1) /\ graph_use (fst (fst e)) (snd (fst e)) /\ Forall is_call h2.
(** Since the last start someone gave such a text to the running service when its database was open. *)
Definition poisoned_open (C : crypto) (renews : bool) (m : machine) (evs : list machine_event) : Prop :=
  exists h1 cp s ts fu o h2, evs = h1 ++ E_call (cp, S_insert_cert_raw s ts, fu) o :: h2 /\
    running (machine_history C renews m h1) /\ opened C renews m (h1 ++ [E_call (cp, S_insert_cert_raw s ts, fu) o]) /\ cert_from_str C s = Panic /\ Forall is_call h2.
