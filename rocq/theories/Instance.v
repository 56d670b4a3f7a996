(** Model of the running service around its calls: service/src/main.rs, [create_tables] and the cell
    that holds the graph (service/src/misc.rs 53-63), with starts, stops and crashes of the node. *)
From Coq Require Import List NArith ZArith Bool.
From Verif Require Import Base Text Keys Trust Certificate Relation Storage Graph Service.
Import ListNotations.
Open Scope N_scope.

(** The database file /tmp/trust-graph.sqlite (storage_impl.rs 26); a table may not exist yet. *)
Record file := mk_file { f_relations : option (list row); f_roots : option (list (text * Z)) }.
Definition no_file : file := mk_file None None.
Definition table {A} (t : option (list A)) : list A := match t with Some l => l | None => [] end.
Definition db_of (f : file) : db := mk_db (table (f_relations f)) (table (f_roots f)).
Definition with_db (d : db) : file := mk_file (Some (tbl_relations d)) (Some (tbl_roots d)).

(** [CREATE TABLE IF NOT EXISTS], storage_impl.rs 31-43 and 44-51. *)
Definition create_relations (f : file) : file := mk_file (Some (table (f_relations f))) (f_roots f).
Definition create_roots (f : file) : file := mk_file (f_relations f) (Some (table (f_roots f))).

(** [main] (main.rs 19-26) and [create_tables] (storage_impl.rs 28-52): open, create, create, each
    unwrapped. [Some k]: step [k] fails. The logger is taken to start. *)
Definition start (f : file) (fails : option nat) : result Empty_set unit * file :=
  match fails with
  | Some O | Some (S O) => (Panic, f)
  | Some (S (S O)) => (Panic, create_relations f)
  | _ => (Ok tt, create_roots (create_relations f))
  end.

(** A running instance: the thread local [INSTANCE] (misc.rs 53-55) is made at its first use; its cell is
    borrowed during a call. *)
Record process := mk_process { p_open : bool; p_borrowed : bool }.
Definition new_process : process := mk_process false false.

(** Calls that enter [with_tg] (misc.rs 57-62); the others use [wrapped_try] (misc.rs 64-69) or return
    before. *)
Definition enters_graph (cp : call_params) (c : service_call) : bool :=
  match c with
  | S_set_root _ _ => bytes_eqb (service_creator_peer_id cp) (init_peer_id cp)
  | S_get_trust_bytes _ _ _ | S_issue_trust _ _ _ _ | S_verify_trust _ _ _ | S_get_revocation_bytes _ _ | S_issue_revocation _ _ _ _ => false
  | _ => true
  end.

Section WithCrypto.
Variable C : crypto.

(** One call. [opens]: [marine_sqlite_connector::open] succeeds if it is run. [borrow_mut] panics on a
    borrowed cell. A panic is a trap, which runs no destructor: the cell stays borrowed. misc.rs 53-62. *)
Definition process_call (p : process) (d : db) (e : service_event) (opens : bool) : result Empty_set response * process * db :=
  match e with
  | (cp, c, _) =>
      if enters_graph cp c then
        if negb (p_open p) && negb opens then (Panic, p, d)
        else if p_borrowed p then (Panic, mk_process true true, d)
        else match service_step C d e with
             | (Ok r, d') => (Ok r, mk_process true false, d')
             | (r, d') => (r, mk_process true true, d')
             end
      else match service_step C d e with (r, d') => (r, p, d') end
  end.

(** The node: the file, and the instance if one runs. storage_impl.rs 26 (the file), main.rs 19-26, misc.rs 53-55 (the instance). *)
Record machine := mk_machine { m_file : file; m_process : option process }.
Definition new_machine : machine := mk_machine no_file None.

Inductive machine_event :=
| E_start (fails : option nat)                       (* the node starts the service, step [fails] failing *)
| E_stop                                             (* the node stops or dies between calls *)
| E_call (e : service_event) (opens : bool)          (* a call *)
| E_kill (e : service_event) (opens : bool).         (* the node dies during a call: before the statement its fuse names, or at its end *)

(** [renews]: whether the node replaces an instance that trapped (it then runs [main] again). main.rs 19-26; the replacing is done by the host, outside /repo. *)
Variable renews : bool.

Definition machine_call (m : machine) (e : service_event) (opens : bool) : option (result Empty_set response) * machine :=
  match m_process m with
  | None => (None, m)
  | Some p =>
      match process_call p (db_of (m_file m)) e opens with
      | (r, p', d') =>
          (Some r, mk_machine (with_db d')
             (Some (match r with Ok _ => p' | _ => if renews then new_process else p' end)))
      end
  end.

(** The answer, if the service runs, and the node afterwards. main.rs 19-26, misc.rs 53-62. *)
Definition machine_step (m : machine) (ev : machine_event) : option (result Empty_set response) * machine :=
  match ev with
  | E_start k =>
      match start (m_file m) k with
      | (Ok _, f) => (None, mk_machine f (Some new_process))
      | (_, f) => (None, mk_machine f None)
      end
  | E_stop => (None, mk_machine (m_file m) None)
  | E_call e o => machine_call m e o
  | E_kill e o => (None, mk_machine (m_file (snd (machine_call m e o))) None)
  end.
Definition machine_history (m : machine) (evs : list machine_event) : machine :=
  fold_left (fun m ev => snd (machine_step m ev)) evs m.

End WithCrypto.
