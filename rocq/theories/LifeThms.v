(** Proofs about the whole life of a node. *)
From Coq Require Import List NArith ZArith Bool Lia ZifyBool ZifyNat ZifyN.
From Verif Require Import Base BaseFacts Text Keys Trust Certificate Relation Storage Graph Service Spec ServiceSpec ServiceFacts ServiceThms ServiceWitness
  Toy ToyFacts MachineSpec ServiceMachine ServiceMachineThms Instance InstanceSpec InstanceThms LifeSpec.
Import ListNotations.
Open Scope N_scope.

Lemma reachable_on : forall C rn n ev, machine_reachable C rn n -> machine_typed ev -> machine_reachable C rn (snd (machine_step C rn n ev)).
Proof.
  intros C rn n ev (evs & T & ->) Te. exists (evs ++ [ev]). split; [apply Forall_app; split; [exact T|constructor; [exact Te|constructor]]|].
  unfold machine_history. rewrite fold_left_app. reflexivity.
Qed.
Lemma no_fuel_out : forall C rn n e o n', crypto_laws C -> machine_reachable C rn n -> service_typed (snd (fst e)) -> machine_step C rn n (E_call e o) <> (Some OutOfFuel, n').
Proof.
  intros C rn n e o n' L R T H. cbn [machine_step] in H.
  destruct (call_cases C rn n e o (p_C104_stores C rn n L R) L T _ _ H) as [(_ & X & _)|(p & _ & [(resp & d' & X & _)|(X & _)])]; discriminate X.
Qed.
Lemma life_happens : forall C rn, crypto_laws C -> forall evs n, machine_reachable C rn n -> Forall machine_typed evs ->
  exists es, happened evs (life_answers C rn n evs) es (responses C (db_of (m_file n)) es) /\
    db_of (m_file (machine_history C rn n evs)) = service_history C (db_of (m_file n)) es /\ service_events_typed es /\
    (list_sum (map (fun e : call_params * service_call * option nat => s_offered (snd (fst e))) es) <= list_sum (map life_offered evs))%nat.
Proof.
  intros C rn L. induction evs as [|ev evs IH]; intros n R T.
  { exists []. split; [constructor|]. split; [reflexivity|]. split; [constructor|apply le_n]. }
  inversion T as [|? ? Te Tes]; subst. pose proof (reachable_on C rn n ev R Te) as R1. destruct (IH _ R1 Tes) as (es & H & D & Ty & Le). clear IH.
  change (machine_history C rn n (ev :: evs)) with (machine_history C rn (snd (machine_step C rn n ev)) evs). cbn [life_answers].
  assert (Sk : db_of (m_file (snd (machine_step C rn n ev))) = db_of (m_file n) ->
    (forall as_ es' rs', happened evs as_ es' rs' -> happened (ev :: evs) (fst (machine_step C rn n ev) :: as_) es' rs') ->
    exists es, happened (ev :: evs) (fst (machine_step C rn n ev) :: life_answers C rn (snd (machine_step C rn n ev)) evs) es (responses C (db_of (m_file n)) es) /\
      db_of (m_file (machine_history C rn (snd (machine_step C rn n ev)) evs)) = service_history C (db_of (m_file n)) es /\ service_events_typed es /\
      (list_sum (map (fun e : call_params * service_call * option nat => s_offered (snd (fst e))) es) <= list_sum (map life_offered (ev :: evs)))%nat).
  { intros K Hs. rewrite K in H, D. exists es. split; [apply Hs; exact H|]. split; [exact D|]. split; [exact Ty|].
    change (list_sum (map life_offered (ev :: evs))) with (life_offered ev + list_sum (map life_offered evs))%nat. lia. }
  assert (Ta : forall e r, service_typed (snd (fst e)) -> life_offered ev = s_offered (snd (fst e)) ->
    service_step C (db_of (m_file n)) e = (r, db_of (m_file (snd (machine_step C rn n ev)))) ->
    (forall as_ es' rs', happened evs as_ es' rs' -> happened (ev :: evs) (fst (machine_step C rn n ev) :: as_) (e :: es') (r :: rs')) ->
    exists es, happened (ev :: evs) (fst (machine_step C rn n ev) :: life_answers C rn (snd (machine_step C rn n ev)) evs) es (responses C (db_of (m_file n)) es) /\
      db_of (m_file (machine_history C rn (snd (machine_step C rn n ev)) evs)) = service_history C (db_of (m_file n)) es /\ service_events_typed es /\
      (list_sum (map (fun e : call_params * service_call * option nat => s_offered (snd (fst e))) es) <= list_sum (map life_offered (ev :: evs)))%nat).
  { intros e r Tye Of E Hs. exists (e :: es). cbn [responses]. rewrite E. cbn [fst snd]. split; [apply Hs; exact H|].
    split; [unfold service_history; cbn [fold_left]; rewrite E; exact D|]. split; [constructor; [exact Tye|exact Ty]|].
    change (list_sum (map life_offered (ev :: evs))) with (life_offered ev + list_sum (map life_offered evs))%nat.
    change (list_sum (map (fun e : call_params * service_call * option nat => s_offered (snd (fst e))) (e :: es))) with (s_offered (snd (fst e)) + list_sum (map (fun e : call_params * service_call * option nat => s_offered (snd (fst e))) es))%nat. lia. }
  destruct ev as [k| |e o|e o].
  - apply Sk; [apply p_C104_starts_keep; intros; split; discriminate|].
    assert (A : fst (machine_step C rn n (E_start k)) = None) by (cbn [machine_step]; destruct (start (m_file n) k) as [[u|u| |] f]; reflexivity).
    rewrite A. intros as_ es' rs'. apply h_start.
  - apply Sk; [reflexivity|]. intros as_ es' rs'. apply h_stop.
  - destruct (machine_step C rn n (E_call e o)) as [a n'] eqn:E. cbn [fst snd] in *. destruct a as [[r|x| |]|].
    + apply (Ta e (Ok r)); [exact Te|reflexivity|apply (p_C104_answers C rn n e o r n' L R Te E)|]. intros as_ es' rs'. apply h_answered.
    + destruct x.
    + apply Sk; [apply (p_C104_traps_keep C rn n e o n' L R Te E)|]. intros as_ es' rs'. apply h_trapped.
    + exfalso. exact (no_fuel_out C rn n e o n' L R Te E).
    + apply Sk; [|intros as_ es' rs'; apply h_down]. cbn [machine_step] in E. unfold machine_call in E. destruct (m_process n) as [p|]; [destruct (process_call C p (db_of (m_file n)) e o) as [[r p'] d']; discriminate E|].
      injection E as <-. reflexivity.
  - destruct (p_C104_crash C rn n e o L R Te) as [K|K].
    + apply Sk; [exact K|]. intros as_ es' rs'. apply h_died.
    + destruct (service_step C (db_of (m_file n)) e) as [r d'] eqn:E. cbn [snd] in K. apply (Ta e r); [exact Te|reflexivity|rewrite K; exact E|]. intros as_ es' rs'. apply h_died_late.
Qed.

(** ** C200 *)
(** The whole life of a node, from an empty disk on, through starts, failed starts, stops, traps and crashes in the middle of calls: the calls
    that were answered, with their answers, and some of those during which the node died are, in their order, a run of the machine, and what is
    on the disk in the end is its state. *)
Lemma p_C200_life : forall C rn evs, crypto_laws C -> wasm32 C = true -> Forall machine_typed evs -> life_few evs ->
  exists es rs m, happened evs (life_answers C rn new_machine evs) es rs /\ s_run C empty_machine es rs m /\
    same_machine (contents (db_of (m_file (machine_history C rn new_machine evs)))) m.
Proof.
  intros C rn evs L W T F. destruct (life_happens C rn L evs new_machine) as (es & H & D & Ty & Le); [exists []; split; [constructor|reflexivity]|exact T|].
  change (db_of (m_file new_machine)) with empty_db in *.
  destruct (p_C156_from_the_start C es L W Ty) as (m & Rn & Sm).
  - unfold s_few, life_few in *. cbn [empty_db tbl_relations length]. lia.
  - exists es, (responses C empty_db es), m. split; [exact H|]. split; [exact Rn|]. rewrite D. exact Sm.
Qed.
(** A start that fails at the second table, roots and trusts, a crash in the middle of a trust and one after another, and a stranger's text that
    makes the service trap until the next start. *)
Definition long_life : list machine_event :=
  [E_start (Some 2%nat); E_start None; E_call (owner_call, S_set_root (pid 1) 5, None) true; E_call (timed_call 2, S_add_trust (trust_rec 1 1 1000 1) (pid 1) 5, None) true;
   E_kill (timed_call 2, S_add_trust (trust_rec 1 2 900 1) (pid 1) 5, Some 3%nat) true; E_start None;
   E_call (timed_call 1, S_get_weight (pid 2) 6, None) true; E_kill (timed_call 2, S_add_trust (trust_rec 1 2 900 1) (pid 1) 5, None) true;
   E_call (timed_call 1, S_get_weight (pid 2) 6, None) true; E_start None; E_call (timed_call 1, S_get_weight (pid 2) 6, None) true;
   E_call (script_call, S_insert_cert_raw [] 5, None) true; E_call (timed_call 1, S_get_weight (pid 2) 6, None) true; E_stop; E_start None; E_call (timed_call 1, S_get_weight (pid 2) 6, None) true].
Example e_C200_life : Forall machine_typed long_life /\ life_few long_life /\
  life_answers (toy true) false new_machine long_life =
    [None; None; Some (Ok (mk_response true None P_none)); Some (Ok (mk_response true None (P_added 32))); None; None;
     Some (Ok (mk_response true None (P_weight 0 (pid 2)))); None; None; None; Some (Ok (mk_response true None (P_weight 16 (pid 2)))); Some Panic; Some Panic; None; None;
     Some (Ok (mk_response true None (P_weight 16 (pid 2))))].
Proof. split; [repeat constructor|]. split; [vm_compute; reflexivity|]. vm_compute. reflexivity. Qed.
