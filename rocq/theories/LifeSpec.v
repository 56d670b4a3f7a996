(** The whole life of a node, with starts, stops, traps and crashes, in terms of the abstract machine. *)
From Coq Require Import List NArith ZArith Bool.
From Verif Require Import Base Text Keys Trust Certificate Relation Storage Graph Service Spec ServiceSpec MachineSpec ServiceMachine Instance InstanceSpec.
Import ListNotations.
Open Scope N_scope.

(** The answers in a life. *)
Fixpoint life_answers (C : crypto) (renews : bool) (n : machine) (evs : list machine_event) : list (option (result Empty_set response)) :=
  match evs with
  | [] => []
  | ev :: evs' => fst (machine_step C renews n ev) :: life_answers C renews (snd (machine_step C renews n ev)) evs'
  end.
(** Which calls of a life took effect, with their responses: all that were answered, in their order; and of those during which the node died,
    any. Starts, stops, calls that trap and calls of a service that does not run have no effect. *)
Inductive happened : list machine_event -> list (option (result Empty_set response)) -> list service_event -> list (result Empty_set response) -> Prop :=
| h_end : happened [] [] [] []
| h_start : forall k evs as_ es rs, happened evs as_ es rs -> happened (E_start k :: evs) (None :: as_) es rs
| h_stop : forall evs as_ es rs, happened evs as_ es rs -> happened (E_stop :: evs) (None :: as_) es rs
| h_answered : forall e o r evs as_ es rs, happened evs as_ es rs -> happened (E_call e o :: evs) (Some (Ok r) :: as_) (e :: es) (Ok r :: rs)
| h_trapped : forall e o evs as_ es rs, happened evs as_ es rs -> happened (E_call e o :: evs) (Some Panic :: as_) es rs
| h_down : forall e o evs as_ es rs, happened evs as_ es rs -> happened (E_call e o :: evs) (None :: as_) es rs
| h_died : forall e o evs as_ es rs, happened evs as_ es rs -> happened (E_kill e o :: evs) (None :: as_) es rs
| h_died_late : forall e o r evs as_ es rs, happened evs as_ es rs -> happened (E_kill e o :: evs) (None :: as_) (e :: es) (r :: rs).
(** As [s_few], of a life from an empty disk. *)
Definition life_offered (ev : machine_event) : nat := match ev with E_call e _ | E_kill e _ => s_offered (snd (fst e)) | _ => 0%nat end.
Definition life_few (evs : list machine_event) : Prop := N.of_nat (list_sum (map life_offered evs)) + 17 < u32_bound.
