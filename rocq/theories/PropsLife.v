(** The whole life of a node in terms of the abstract machine. Every proof is a lemma of LifeThms.v. *)
From Coq Require Import List NArith ZArith Bool.
From Verif Require Import Base Text Keys Trust Certificate Relation Storage Graph Service Spec ServiceSpec MachineSpec ServiceMachine Instance InstanceSpec LifeSpec.
From Verif Require Import Toy ServiceWitness LifeThms.
Import ListNotations.
Open Scope N_scope.

(** ** C200 *)
(** The whole life of a node, from an empty disk on, through starts, failed starts, stops, traps and crashes in the middle of calls: the calls
    that were answered, with their answers, and some of those during which the node died are, in their order, a run of the machine, and what is
    on the disk in the end is its state. *)
Theorem C200_life : forall C rn evs, crypto_laws C -> wasm32 C = true -> Forall machine_typed evs -> life_few evs ->
  exists es rs m, happened evs (life_answers C rn new_machine evs) es rs /\ s_run C empty_machine es rs m /\
    same_machine (contents (db_of (m_file (machine_history C rn new_machine evs)))) m.
Proof. exact p_C200_life. Qed.
Print Assumptions C200_life.

(** A start that fails at the second table, roots and trusts, a crash in the middle of a trust and one after another, and a stranger's text that
    makes the service trap until the next start. *)
Example C200_example_life : Forall machine_typed long_life /\ life_few long_life /\
  life_answers (toy true) false new_machine long_life =
    [None; None; Some (Ok (mk_response true None P_none)); Some (Ok (mk_response true None (P_added 32))); None; None;
     Some (Ok (mk_response true None (P_weight 0 (pid 2)))); None; None; None; Some (Ok (mk_response true None (P_weight 16 (pid 2)))); Some Panic; Some Panic; None; None;
     Some (Ok (mk_response true None (P_weight 16 (pid 2))))].
Proof. exact e_C200_life. Qed.
