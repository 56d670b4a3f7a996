(** The vocabulary of the properties of scripts that run at once. *)
From Coq Require Import List NArith ZArith Bool.
From Verif Require Import Base Text Keys Trust Certificate Relation Storage Graph Service Spec ServiceSpec Aqua AquaSpec Sched.
Import ListNotations.
Open Scope N_scope.

(** What a script has returned, once it has ended. *)
Definition returned (tk : task) : option answer := match tk_rest tk with Done a => Some a | _ => None end.
Definition stuck (tk : task) : Prop := tk_rest tk = Stuck.

(** The use of the interface, made alone, that a request stands for when the clocks answer [i] on the relay and [now] on the node. *)
Definition alone (q : request) (i now : N) : api_call :=
  match q with
  | Q_set_root node p n => A_set_root node p n
  | Q_issue_trust issuer p e => A_issue_trust issuer p e i
  | Q_import_trust node x issuer => A_import_trust node x issuer now
  | Q_add_trust node issuer p e => A_add_trust node issuer p e i now
  | Q_add_root_trust node p n e => A_add_root_trust node p n e i now
  | Q_verify_trust node x issuer => A_verify_trust node x issuer now
  | Q_get_weight node p => A_get_weight node p now
  | Q_get_weight_from node p issuer => A_get_weight_from node p issuer now
  | Q_issue_revocation q p => A_issue_revocation q p i
  | Q_import_revocation node x => A_import_revocation node x now
  | Q_revoke node q p => A_revoke node q p i now
  | Q_get_host_certs_from node issuer => A_get_host_certs_from node issuer now
  | Q_get_all_certs node p => A_get_all_certs node p now
  | Q_get_all_certs_from node p issuer => A_get_all_certs_from node p issuer now
  | Q_get_host_certs node => A_get_host_certs node now
  | Q_insert_cert node c => A_insert_cert node c now
  | Q_is_fluence_peer node => A_is_fluence_peer node now
  end.

(** What a function returns when it is used alone. *)
Definition rmap {A B} (f : A -> B) (r : result Empty_set A) : result Empty_set B :=
  match r with Ok x => Ok (f x) | Err e => Err e | Panic => Panic | OutOfFuel => OutOfFuel end.
Definition reply_of (C : crypto) (net : network) (src : nat -> origin) (a : api_call) (st : stores) : result Empty_set answer :=
  match a with
  | A_set_root node p n => rmap N_response (fst (aq_set_root C net src node p n st))
  | A_issue_trust issuer p e i => rmap N_trust (fst (aq_issue_trust C net src issuer p e i st))
  | A_import_trust node x issuer now => rmap N_errors (fst (aq_import_trust C net node (src 0%nat) (src 1%nat) x issuer now st))
  | A_add_trust node issuer p e i now => rmap N_errors (fst (aq_add_trust C net src node issuer p e i now st))
  | A_add_root_trust node p n e i now => rmap N_errors (fst (aq_add_root_trust C net src node p n e i now st))
  | A_verify_trust node x issuer now => rmap N_response (fst (aq_verify_trust C net src node x issuer now st))
  | A_get_weight node p now => rmap N_response (fst (aq_get_weight C net src node p now st))
  | A_get_weight_from node p issuer now => rmap N_response (fst (aq_get_weight_from C net src node p issuer now st))
  | A_issue_revocation q p i => rmap N_revocation (fst (aq_issue_revocation C net src q p i st))
  | A_import_revocation node x now => rmap N_errors (fst (aq_import_revocation C net node (src 0%nat) x now st))
  | A_revoke node q p i now => rmap N_errors (fst (aq_revoke C net src node q p i now st))
  | A_get_host_certs_from node issuer now => rmap N_response (fst (aq_get_host_certs_from C net node (src 0%nat) issuer now st))
  | A_get_all_certs node p now => rmap N_response (fst (aq_get_all_certs C net src node p now st))
  | A_get_all_certs_from node p issuer now => rmap N_response (fst (aq_get_all_certs_from C net src node p issuer now st))
  | A_get_host_certs node now => rmap N_response (fst (aq_get_host_certs C net node now st))
  | A_insert_cert node c now => rmap N_response (fst (aq_insert_cert C net src node c now st))
  | A_is_fluence_peer node now => rmap N_label (fst (is_fluence_peer C net node now st))
  end.

(** The network of a user, with what the Sig service and the database did during one use. *)
Definition as_met (net : network) (signature : option bytes) (fuse : option nat) : network :=
  mk_network (initiator net) (relay net) (creator_on net) (fun _ _ => signature) (fun _ _ => fuse).

(** The uses a script is worth: the whole function or, for [add_root_trust], its [set_root] and then its [add_trust]. *)
Inductive part := P_whole | P_root | P_trust.
Definition part_of (q : request) (p : part) : option request :=
  match p, q with
  | P_whole, _ => Some q
  | P_root, Q_add_root_trust node r n _ => Some (Q_set_root node r n)
  | P_trust, Q_add_root_trust node r _ e => Some (Q_add_trust node r r e)
  | _, _ => None
  end.

(** A use in a sequence, and the script it stands for. *)
Record entry := mk_entry { en_task : nat; en_part : part; en_use : network * (nat -> origin) * api_call }.
Definition entries := list entry.

(** What the clock of a node said at some time. *)
Definition said (clocks : text -> N) (evs : schedule) (node : text) (t : N) : Prop := t = clocks node \/ In (E_tick node t) evs.
(** The node a request is for. *)
Definition request_node (q : request) : option text := target (alone q 0 0).
(** The entry is a use by the user of its script, of the function the script is of, and its times are what clocks said. *)
Definition entry_of (clocks : text -> N) (evs : schedule) (tasks : list task) (en : entry) : Prop :=
  exists tk q i now signature fuse,
    nth_error tasks (en_task en) = Some tk /\ part_of (tk_request tk) (en_part en) = Some q /\
    en_use en = (as_met (tk_net tk) signature fuse, tk_src tk, alone q i now) /\
    said clocks evs (relay (tk_net tk)) i /\
    (forall node, request_node q = Some node -> said clocks evs node now).

(** What the uses of a sequence return, made alone one after the other. *)
Fixpoint replies (C : crypto) (us : entries) (st : stores) : list (nat * (part * result Empty_set answer)) :=
  match us with
  | [] => []
  | mk_entry j p (net, src, a) :: us' => (j, (p, reply_of C net src a st)) :: replies C us' (run C net src a st)
  end.
Definition replies_to (j : nat) (l : list (nat * (part * result Empty_set answer))) : list (part * result Empty_set answer) :=
  map snd (filter (fun x => Nat.eqb (fst x) j) l).

Definition is_add_root (q : request) : Prop := exists node p n e, q = Q_add_root_trust node p n e.
(** A script that has returned made one use and returned its reply. One that has not made none. Only [add_root_trust] may make
    its [set_root] first and its [add_trust] later. *)
Definition settled (tk : task) (l : list (part * result Empty_set answer)) : Prop :=
  match returned tk with
  | Some x =>
      l = [(P_whole, Ok x)] \/
      (is_add_root (tk_request tk) /\
       ((exists r, success r = false /\ x = N_errors [error_in r] /\ l = [(P_root, Ok (N_response r))]) \/
        (exists r, success r = true /\ l = [(P_root, Ok (N_response r)); (P_trust, Ok x)])))
  | None =>
      l = [] \/ (is_add_root (tk_request tk) /\ exists r, success r = true /\ l = [(P_root, Ok (N_response r))])
  end.

(** The sequence of uses [us] leaves the stores and gives the replies of the schedule. *)
Definition explains (C : crypto) (st : stores) (clocks : text -> N) (evs : schedule) (us : entries) : Prop :=
  let s := happens C (idle st clocks) evs in
  (forall n, sy_stores s n = run_all C (map en_use us) st n) /\
  Forall (entry_of clocks evs (sy_tasks s)) us /\
  forall j tk, nth_error (sy_tasks s) j = Some tk -> settled tk (replies_to j (replies C us st)).

(** The numbers fit the types of the arguments and of the clocks. *)
Definition event_typed (e : event) : Prop :=
  match e with
  | E_start _ _ q => api_typed (alone q 0 0)
  | E_step _ _ _ => True
  | E_tick _ t => t < u64_bound
  end.
Definition schedule_typed (clocks : text -> N) (evs : schedule) : Prop := (forall n, clocks n < u64_bound) /\ Forall event_typed evs.

(** The steps of script [j] in a schedule, and the schedule without them. *)
Definition is_step (j : nat) (e : event) : bool := match e with E_step i _ _ => Nat.eqb i j | _ => false end.
Definition own_steps (j : nat) (evs : schedule) : nat := length (filter (is_step j) evs).
Definition without (j : nat) (evs : schedule) : schedule := filter (fun e => negb (is_step j e)) evs.

(** How many requests a function makes, at most. *)
Definition requests_of (q : request) : nat :=
  match q with
  | Q_set_root _ _ _ => 1
  | Q_issue_trust _ _ _ | Q_issue_revocation _ _ => 4
  | Q_add_trust _ _ _ _ | Q_revoke _ _ _ => 6
  | Q_add_root_trust _ _ _ _ => 7
  | _ => 2
  end.
(** A script brought [y] to the node [n]. *)
Definition brought (C : crypto) (clocks : text -> N) (evs : schedule) (n : text) (y : relation) : Prop :=
  exists net src q i now, In (E_start net src q) evs /\ request_node q = Some n /\ said clocks evs (relay net) i /\ said clocks evs n now /\ brings C (alone q i now) y.

(** [x] is in the store of [n] after the events, or the clock of [n] said a time at which it is expired, or there was another
    relation of the same keys, not older, at the start or brought by a script. *)
Definition lasts (C : crypto) (st : stores) (clocks : text -> N) (evs : schedule) (n : text) (x : relation) : Prop :=
  stored (sy_stores (happens C (idle st clocks) evs) n) x \/
  (exists now, said clocks evs n now /\ db_expired (from_secs now) x) \/
  (exists y, (stored (st n) y \/ brought C clocks evs n y) /\ same_keys x y /\ y <> x /\ ~ before (rel_issued_at y) (rel_issued_at x)).
