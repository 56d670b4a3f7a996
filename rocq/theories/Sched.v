(** Model of many Aqua scripts running at once. The functions of trust-graph-api.aqua and labelling.aqua as trees of the
    requests they make, in order (Aqua.v runs the same functions alone, from start to end), and a network on which any
    number of them run: each request of a script is one step, and the steps of different scripts come in any order. A script
    may also never get its next step: its particle is lost, or the peer it waits for is gone.
    Simplified: one request is answered at once; a service handles one call at a time (a marine service is single-threaded). *)
From Coq Require Import List NArith ZArith Bool.
From Coq Require String.
Import String.StringSyntax.
From Verif Require Import Base Text Keys Trust Certificate Relation Storage Graph Service Aqua.
Import ListNotations.
Open Scope N_scope.

(** What a script does next. The requests of aqua/trust-graph-api.aqua 1-236 and aqua/labelling.aqua 1-44. *)
Inductive steps (A : Type) : Type :=
| Done (a : A)                                                       (* it has ended and returns [a] *)
| Stuck                                                              (* it has ended with an error of the AquaVM *)
| Clock (node : text) (k : N -> steps A)                             (* on node: Peer.timestamp_sec() *)
| Sign (service : text) (m : bytes) (k : option bytes -> steps A)    (* Sig.sign(m); [None]: success = false *)
| Ask (node : text) (args : list origin) (c : service_call) (k : response -> steps A).  (* on node: TrustGraph.f(..) *)
Arguments Done {A} a.
Arguments Stuck {A}.
Arguments Clock {A} node k.
Arguments Sign {A} service m k.
Arguments Ask {A} node args c k.

Fixpoint tbind {A B} (t : steps A) (f : A -> steps B) : steps B :=
  match t with
  | Done a => f a
  | Stuck => Stuck
  | Clock n k => Clock n (fun x => tbind (k x) f)
  | Sign p m k => Sign p m (fun x => tbind (k x) f)
  | Ask n args c k => Ask n args c (fun x => tbind (k x) f)
  end.
Notation "'let%' x := m 'in' k" := (tbind m (fun x => k))
  (at level 200, x name, m at level 100, k at level 200).

Definition ask (node : text) (args : list origin) (c : service_call) : steps response := Ask node args c Done.
Definition clock (node : text) : steps N := Clock node Done.
Definition sign (service : text) (m : bytes) : steps (option bytes) := Sign service m Done.
(** [!], as in Aqua.v. aqua/trust-graph-api.aqua 1-236. *)
Definition first {A} (l : list A) : steps A := match l with x :: _ => Done x | [] => Stuck end.

Section Scripts.
Variable net : network.     (* who runs the script, and through which relay *)
Variable src : nat -> origin.

(** trust-graph-api.aqua 21-23. *)
Definition sc_set_root (node peer_id : text) (max_chain_len : N) : steps response :=
  ask node [src 0; src 1] (S_set_root peer_id max_chain_len).

(** trust-graph-api.aqua 30-54. *)
Definition sc_issue_trust (issuer issued_for : text) (expires_at_sec : N) : steps (list dto_trust * list aqua_error) :=
  let% t := clock (relay net) in
  let% bytes := ask (relay net) [src 1; src 2; clock_of (relay net)] (S_get_trust_bytes issued_for expires_at_sec t) in
  if success bytes then
    let% signed := sign issuer (bytes_in bytes) in
    match signed with
    | Some signature =>
        let% r := ask (relay net) [src 1; src 2; clock_of (relay net); result_of (initiator net) issuer (str "sign")]
                    (S_issue_trust issued_for expires_at_sec t signature) in
        if success r then Done ([trust_in r], []) else Done ([], [error_in r])
    | None => Done ([], [AE_sign])
    end
  else Done ([], [error_in bytes]).

(** trust-graph-api.aqua 60-67. *)
Definition sc_import_trust (node : text) (origin_of_trust origin_of_issuer : origin) (t : dto_trust) (issuer : text)
  : steps (list aqua_error) :=
  let% now := clock node in
  let% r := ask node [origin_of_trust; origin_of_issuer; clock_of node] (S_add_trust t issuer now) in
  Done (if success r then [] else [error_in r]).

(** trust-graph-api.aqua 74-85. *)
Definition sc_add_trust (node issuer issued_for : text) (expires_at_sec : N) : steps (list aqua_error) :=
  let% issued := sc_issue_trust issuer issued_for expires_at_sec in
  match snd issued with
  | [] =>
      let% tr := first (fst issued) in
      let% e := sc_import_trust node (result_of (relay net) (str "trust-graph") (str "issue_trust")) (src 1) tr issuer in
      Done (append_error [] e)
  | _ => let% e := first (snd issued) in Done [e]
  end.

(** trust-graph-api.aqua 92-107. *)
Definition sc_add_root_trust (node peer_id : text) (max_chain_len expires_at_sec : N) : steps (list aqua_error) :=
  let% issued := sc_issue_trust peer_id peer_id expires_at_sec in
  match snd issued with
  | [] =>
      let% r := sc_set_root node peer_id max_chain_len in
      if success r then
        let% tr := first (fst issued) in
        let% e := sc_import_trust node (result_of (relay net) (str "trust-graph") (str "issue_trust")) (src 1) tr peer_id in
        Done (append_error [] e)
      else Done [error_in r]
  | _ => let% e := first (snd issued) in Done [e]
  end.

(** trust-graph-api.aqua 111-115. *)
Definition sc_verify_trust (node : text) (t : dto_trust) (issuer : text) : steps response :=
  let% now := clock node in ask node [src 0; src 1; clock_of node] (S_verify_trust t issuer now).

(** trust-graph-api.aqua 120-124. *)
Definition sc_get_weight (node peer_id : text) : steps response :=
  let% now := clock node in ask node [src 0; clock_of node] (S_get_weight peer_id now).

(** trust-graph-api.aqua 128-132. *)
Definition sc_get_weight_from (node peer_id issuer : text) : steps response :=
  let% now := clock node in ask node [src 0; src 1; clock_of node] (S_get_weight_from peer_id issuer now).

(** trust-graph-api.aqua 139-164. *)
Definition sc_issue_revocation (revoked_by revoked : text) : steps (list dto_revocation * list aqua_error) :=
  let% t := clock (relay net) in
  let% bytes := ask (relay net) [src 1; clock_of (relay net)] (S_get_revocation_bytes revoked t) in
  if success bytes then
    let% signed := sign revoked_by (bytes_in bytes) in
    match signed with
    | Some signature =>
        let% r := ask (relay net) [src 0; src 1; clock_of (relay net); result_of (initiator net) revoked_by (str "sign")]
                    (S_issue_revocation revoked_by revoked t signature) in
        if success r then Done ([revocation_in r], []) else Done ([], [error_in r])
    | None => Done ([], [AE_sign])
    end
  else Done ([], [error_in bytes]).

(** trust-graph-api.aqua 170-177. *)
Definition sc_import_revocation (node : text) (origin_of_revocation : origin) (r : dto_revocation) : steps (list aqua_error) :=
  let% now := clock node in
  let% a := ask node [origin_of_revocation; clock_of node] (S_revoke r now) in
  Done (if success a then [] else [error_in a]).

(** trust-graph-api.aqua 185-196. *)
Definition sc_revoke (node revoked_by revoked : text) : steps (list aqua_error) :=
  let% issued := sc_issue_revocation revoked_by revoked in
  match fst issued with
  | [] => let% e := first (snd issued) in Done [e]
  | _ =>
      let% r := first (fst issued) in
      let% e := sc_import_revocation node (result_of (relay net) (str "trust-graph") (str "issue_revocation")) r in
      Done (append_error [] e)
  end.

(** trust-graph-api.aqua 200-204. *)
Definition sc_get_host_certs_from (node : text) (o : origin) (issuer : text) : steps response :=
  let% now := clock node in ask node [o; clock_of node] (S_get_host_certs_from issuer now).

(** trust-graph-api.aqua 208-212. *)
Definition sc_get_all_certs (node issued_for : text) : steps response :=
  let% now := clock node in ask node [src 0; clock_of node] (S_get_all_certs issued_for now).

(** trust-graph-api.aqua 216-220. *)
Definition sc_get_all_certs_from (node issued_for issuer : text) : steps response :=
  let% now := clock node in ask node [src 0; src 1; clock_of node] (S_get_all_certs_from issued_for issuer now).

(** trust-graph-api.aqua 224-228. *)
Definition sc_get_host_certs (node : text) : steps response :=
  let% now := clock node in ask node [clock_of node] (S_get_host_certs now).

(** trust-graph-api.aqua 232-236. *)
Definition sc_insert_cert (node : text) (c : dto_certificate) : steps response :=
  let% now := clock node in ask node [src 0; clock_of node] (S_insert_cert c now).

(** labelling.aqua 23-44. *)
Definition sc_is_fluence_peer (node : text) : steps (list bool * list aqua_error) :=
  let% r := sc_get_host_certs_from node (literal net) label_peer_id in
  Done (if success r
        then match flat_map labelled (certs_in r) with [] => ([false], []) | hits => (hits, []) end
        else ([], [error_in r])).

End Scripts.

(** A use of the interface: the function (trust-graph-api.aqua 3-8, labelling.aqua 3) with its arguments. *)
Inductive request :=
| Q_set_root (node p : text) (n : N)
| Q_issue_trust (issuer p : text) (e : N)
| Q_import_trust (node : text) (x : dto_trust) (issuer : text)
| Q_add_trust (node issuer p : text) (e : N)
| Q_add_root_trust (node p : text) (n e : N)
| Q_verify_trust (node : text) (x : dto_trust) (issuer : text)
| Q_get_weight (node p : text)
| Q_get_weight_from (node p issuer : text)
| Q_issue_revocation (q p : text)
| Q_import_revocation (node : text) (x : dto_revocation)
| Q_revoke (node q p : text)
| Q_get_host_certs_from (node issuer : text)
| Q_get_all_certs (node p : text)
| Q_get_all_certs_from (node p issuer : text)
| Q_get_host_certs (node : text)
| Q_insert_cert (node : text) (c : dto_certificate)
| Q_is_fluence_peer (node : text).

(** What a function returns. The results of the functions of aqua/trust-graph-api.aqua 1-236 and aqua/labelling.aqua 1-44. *)
Inductive answer :=
| N_response (r : response)
| N_errors (es : list aqua_error)
| N_trust (t : list dto_trust * list aqua_error)
| N_revocation (v : list dto_revocation * list aqua_error)
| N_label (b : list bool * list aqua_error).

(** The script of a use. The functions of aqua/trust-graph-api.aqua 1-236 and aqua/labelling.aqua 1-44. *)
Definition script_of (net : network) (src : nat -> origin) (q : request) : steps answer :=
  match q with
  | Q_set_root node p n => let% r := sc_set_root src node p n in Done (N_response r)
  | Q_issue_trust issuer p e => let% r := sc_issue_trust net src issuer p e in Done (N_trust r)
  | Q_import_trust node x issuer => let% r := sc_import_trust node (src 0%nat) (src 1%nat) x issuer in Done (N_errors r)
  | Q_add_trust node issuer p e => let% r := sc_add_trust net src node issuer p e in Done (N_errors r)
  | Q_add_root_trust node p n e => let% r := sc_add_root_trust net src node p n e in Done (N_errors r)
  | Q_verify_trust node x issuer => let% r := sc_verify_trust src node x issuer in Done (N_response r)
  | Q_get_weight node p => let% r := sc_get_weight src node p in Done (N_response r)
  | Q_get_weight_from node p issuer => let% r := sc_get_weight_from src node p issuer in Done (N_response r)
  | Q_issue_revocation q p => let% r := sc_issue_revocation net src q p in Done (N_revocation r)
  | Q_import_revocation node x => let% r := sc_import_revocation node (src 0%nat) x in Done (N_errors r)
  | Q_revoke node q p => let% r := sc_revoke net src node q p in Done (N_errors r)
  | Q_get_host_certs_from node issuer => let% r := sc_get_host_certs_from node (src 0%nat) issuer in Done (N_response r)
  | Q_get_all_certs node p => let% r := sc_get_all_certs src node p in Done (N_response r)
  | Q_get_all_certs_from node p issuer => let% r := sc_get_all_certs_from src node p issuer in Done (N_response r)
  | Q_get_host_certs node => let% r := sc_get_host_certs node in Done (N_response r)
  | Q_insert_cert node c => let% r := sc_insert_cert src node c in Done (N_response r)
  | Q_is_fluence_peer node => let% r := sc_is_fluence_peer net node in Done (N_label r)
  end.

(** A started script. [tk_times] and [tk_signatures] are what the clocks and the Sig service have told it so far; only
    specifications read them. The running itself is done by AquaVM, outside /repo. *)
Record task := mk_task {
  tk_net : network; tk_src : nat -> origin; tk_request : request; tk_rest : steps answer;
  tk_times : list N; tk_signatures : list (option bytes)
}.

(** A network on which scripts run: the stores of its nodes, their clocks, and the scripts, in the order they were started. The running itself is done by AquaVM, outside /repo; the store of a node is that of storage_impl.rs 26. *)
Record system := mk_system { sy_stores : stores; sy_clock : text -> N; sy_tasks : list task }.

(** What happens next on the network: someone starts a script, script number [j] makes its next request, or a clock is set.
    [signature] is what the Sig service answers, [fuse] the fuse of the database during the call. Done by AquaVM, outside /repo. *)
Inductive event :=
| E_start (net : network) (src : nat -> origin) (q : request)
| E_step (j : nat) (signature : option bytes) (fuse : option nat)
| E_tick (node : text) (t : N).

Fixpoint replace {A} (j : nat) (x : A) (l : list A) : list A :=
  match l, j with
  | [], _ => []
  | _ :: l', O => x :: l'
  | y :: l', S j' => y :: replace j' x l'
  end.

Section Run.
Variable C : crypto.

(** One request of a script. A call in aqua/trust-graph-api.aqua 1-236 or aqua/labelling.aqua 1-44. *)
Definition task_step (st : stores) (clocks : text -> N) (tk : task) (signature : option bytes) (fuse : option nat) : task * stores :=
  let go rest times signatures := mk_task (tk_net tk) (tk_src tk) (tk_request tk) rest times signatures in
  match tk_rest tk with
  | Done _ | Stuck => (tk, st)
  | Clock node k => (go (k (clocks node)) (tk_times tk ++ [clocks node]) (tk_signatures tk), st)
  | Sign _ _ k => (go (k signature) (tk_times tk) (tk_signatures tk ++ [signature]), st)
  | Ask node args c k =>
      match service_step C (st node) (mk_params (initiator (tk_net tk)) (creator_on (tk_net tk) node) node args, c, fuse) with
      | (Ok r, d) => (go (k r) (tk_times tk) (tk_signatures tk), put st node d)
      | (_, d) => (go Stuck (tk_times tk) (tk_signatures tk), put st node d)
      end
  end.

Definition happen (s : system) (e : event) : system :=
  match e with
  | E_start net src q => mk_system (sy_stores s) (sy_clock s) (sy_tasks s ++ [mk_task net src q (script_of net src q) [] []])
  | E_step j signature fuse =>
      match nth_error (sy_tasks s) j with
      | None => s
      | Some tk =>
          let '(tk', st') := task_step (sy_stores s) (sy_clock s) tk signature fuse in
          mk_system st' (sy_clock s) (replace j tk' (sy_tasks s))
      end
  | E_tick node t => mk_system (sy_stores s) (fun n => if bytes_eqb node n then t else sy_clock s n) (sy_tasks s)
  end.

(** Any number of events, from a network on which no script runs. Done by AquaVM, outside /repo. *)
Definition schedule := list event.
Definition happens (s : system) (evs : schedule) : system := fold_left happen evs s.
Definition idle (st : stores) (clocks : text -> N) : system := mk_system st clocks [].

End Run.
