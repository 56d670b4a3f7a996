(** Model of the Aqua scripts in aqua/: trust-graph-api.aqua, misc.aqua, labelling.aqua. They are the
    interface the README gives to users: each calls services on the nodes of a network.
    Simplified: the steps of a script run in order and all arrive; a service that traps ends the
    script ([Panic]). A stream or optional value is the list of its elements. *)
From Coq Require Import List NArith ZArith Bool.
From Coq Require String.
Import String.StringSyntax.
From Verif Require Import Base Text Keys Trust Certificate Relation Storage Graph Service.
Import ListNotations.
Open Scope N_scope.

(** trust-graph-api.aqua 14 [alias Error: string]: the [error] of a service result ([None] is the empty
    string), or that of the Sig service. *)
Inductive aqua_error := AE_service (e : option service_error) | AE_sign.

(** What a script meets outside the code of this repository. The services [Peer], [Sig] and [Op] called in aqua/trust-graph-api.aqua 1-236 and aqua/misc.aqua. *)
Record network := mk_network {
  initiator : text;                               (* %init_peer_id% *)
  relay : text;                                   (* HOST_PEER_ID *)
  creator_on : text -> text;                      (* who created the trust-graph service of a node *)
  sign_with : text -> bytes -> option bytes;      (* the Sig service with that id; [None]: success = false *)
  fault : text -> service_call -> option nat      (* fuse of the database of a node during a call *)
}.

(** The database of the trust-graph service of every node. For the calls of aqua/trust-graph-api.aqua 1-236; each node has the file of storage_impl.rs 26. *)
Definition stores := text -> db.
Definition put (st : stores) (node : text) (d : db) : stores :=
  fun n => if bytes_eqb node n then d else st n.

Definition script (A : Type) : Type := stores -> result Empty_set A * stores.
Definition sret {A} (a : A) : script A := fun st => (Ok a, st).
Definition sbind {A B} (m : script A) (f : A -> script B) : script B := fun st =>
  match m st with
  | (Ok a, st') => f a st'
  | (Err e, st') => (Err e, st')
  | (Panic, st') => (Panic, st')
  | (OutOfFuel, st') => (OutOfFuel, st')
  end.
Notation "'let>' x := m 'in' k" := (sbind m (fun x => k))
  (at level 200, x name, m at level 100, k at level 200).

(** Where an argument of a call comes from, as AquaVM records it. Read in misc.rs 31-46. *)
Definition origin := list tetraplet.
(** The result of a function of a service on a node. Arguments of this kind occur in aqua/trust-graph-api.aqua 1-236. *)
Definition result_of (node service function : text) : origin := [mk_tetraplet node service function].
(** The answer of [Peer.timestamp_sec()] on a node. Called in aqua/trust-graph-api.aqua and aqua/misc.aqua. *)
Definition clock_of (node : text) : origin := result_of node (str "peer") (str "timestamp_sec").
(** A literal in the script. E.g. the arguments of the functions of aqua/trust-graph-api.aqua. *)
Definition literal (net : network) : origin := result_of (initiator net) [] [].

(** [!]: the first element. An empty value ends the script. Used in aqua/trust-graph-api.aqua and aqua/misc.aqua. *)
Definition bang {A} (l : list A) : script A := fun st =>
  match l with x :: _ => (Ok x, st) | [] => (Panic, st) end.

Section WithCrypto.
Variable C : crypto.
Variable net : network.

(** [on node: TrustGraph.f(..)]: a call of the service of [node], trust-graph.aqua 77-94. *)
Definition call_on (node : text) (args : list origin) (c : service_call) : script response := fun st =>
  match service_step C (st node) (mk_params (initiator net) (creator_on net node) node args, c, fault net node c) with
  | (r, d) => (r, put st node d)
  end.

(** Fields of a result record (trust-graph.aqua 3-75). *)
Definition bytes_in (r : response) : bytes := match reply r with P_bytes b => b | _ => [] end.
Definition trust_in (r : response) : dto_trust := match reply r with P_trust t => t | _ => dto_trust_default end.
Definition revocation_in (r : response) : dto_revocation :=
  match reply r with P_revocation v => v | _ => dto_revocation_default end.
Definition certs_in (r : response) : list dto_certificate := match reply r with P_certs cs => cs | _ => [] end.
Definition error_in (r : response) : aqua_error := AE_service (error r).

(** misc.aqua 15-17 [append_error]. *)
Definition append_error (stream err : list aqua_error) : list aqua_error :=
  match err with [] => stream | e :: _ => stream ++ [e] end.

(** [src i] is the origin of argument [i] of a script function; [t..] are the answers of the
    clocks, in the order they are asked. *)
Variable src : nat -> origin.

(** trust-graph-api.aqua 21-23. *)
Definition aq_set_root (node peer_id : text) (max_chain_len : N) : script response :=
  call_on node [src 0; src 1] (S_set_root peer_id max_chain_len).

(** trust-graph-api.aqua 30-54. *)
Definition aq_issue_trust (issuer issued_for : text) (expires_at_sec t : N)
  : script (list dto_trust * list aqua_error) :=
  let> bytes := call_on (relay net) [src 1; src 2; clock_of (relay net)] (S_get_trust_bytes issued_for expires_at_sec t) in
  if success bytes then
    match sign_with net issuer (bytes_in bytes) with
    | Some signature =>
        let> r := call_on (relay net) [src 1; src 2; clock_of (relay net); result_of (initiator net) issuer (str "sign")]
                    (S_issue_trust issued_for expires_at_sec t signature) in
        if success r then sret ([trust_in r], []) else sret ([], [error_in r])
    | None => sret ([], [AE_sign])
    end
  else sret ([], [error_in bytes]).

(** trust-graph-api.aqua 60-67. [origin_of_trust] is where the trust comes from. *)
Definition aq_import_trust (node : text) (origin_of_trust origin_of_issuer : origin) (t : dto_trust) (issuer : text) (now : N)
  : script (list aqua_error) :=
  let> r := call_on node [origin_of_trust; origin_of_issuer; clock_of node] (S_add_trust t issuer now) in
  sret (if success r then [] else [error_in r]).

(** trust-graph-api.aqua 74-85. *)
Definition aq_add_trust (node issuer issued_for : text) (expires_at_sec t now : N) : script (list aqua_error) :=
  let> issued := aq_issue_trust issuer issued_for expires_at_sec t in
  match snd issued with
  | [] =>
      let> tr := bang (fst issued) in
      let> e := aq_import_trust node (result_of (relay net) (str "trust-graph") (str "issue_trust")) (src 1) tr issuer now in
      sret (append_error [] e)
  | _ => let> e := bang (snd issued) in sret [e]
  end.

(** trust-graph-api.aqua 92-107. *)
Definition aq_add_root_trust (node peer_id : text) (max_chain_len expires_at_sec t now : N) : script (list aqua_error) :=
  let> issued := aq_issue_trust peer_id peer_id expires_at_sec t in
  match snd issued with
  | [] =>
      let> r := aq_set_root node peer_id max_chain_len in
      if success r then
        let> tr := bang (fst issued) in
        let> e := aq_import_trust node (result_of (relay net) (str "trust-graph") (str "issue_trust")) (src 1) tr peer_id now in
        sret (append_error [] e)
      else sret [error_in r]
  | _ => let> e := bang (snd issued) in sret [e]
  end.

(** trust-graph-api.aqua 111-115. *)
Definition aq_verify_trust (node : text) (t : dto_trust) (issuer : text) (now : N) : script response :=
  call_on node [src 0; src 1; clock_of node] (S_verify_trust t issuer now).

(** trust-graph-api.aqua 120-124. *)
Definition aq_get_weight (node peer_id : text) (now : N) : script response :=
  call_on node [src 0; clock_of node] (S_get_weight peer_id now).

(** trust-graph-api.aqua 128-132. *)
Definition aq_get_weight_from (node peer_id issuer : text) (now : N) : script response :=
  call_on node [src 0; src 1; clock_of node] (S_get_weight_from peer_id issuer now).

(** trust-graph-api.aqua 139-164. *)
Definition aq_issue_revocation (revoked_by revoked : text) (t : N) : script (list dto_revocation * list aqua_error) :=
  let> bytes := call_on (relay net) [src 1; clock_of (relay net)] (S_get_revocation_bytes revoked t) in
  if success bytes then
    match sign_with net revoked_by (bytes_in bytes) with
    | Some signature =>
        let> r := call_on (relay net) [src 0; src 1; clock_of (relay net); result_of (initiator net) revoked_by (str "sign")]
                    (S_issue_revocation revoked_by revoked t signature) in
        if success r then sret ([revocation_in r], []) else sret ([], [error_in r])
    | None => sret ([], [AE_sign])
    end
  else sret ([], [error_in bytes]).

(** trust-graph-api.aqua 170-177. *)
Definition aq_import_revocation (node : text) (origin_of_revocation : origin) (r : dto_revocation) (now : N)
  : script (list aqua_error) :=
  let> a := call_on node [origin_of_revocation; clock_of node] (S_revoke r now) in
  sret (if success a then [] else [error_in a]).

(** trust-graph-api.aqua 185-196. Tests the result for nil, not the error. *)
Definition aq_revoke (node revoked_by revoked : text) (t now : N) : script (list aqua_error) :=
  let> issued := aq_issue_revocation revoked_by revoked t in
  match fst issued with
  | [] => let> e := bang (snd issued) in sret [e]
  | _ =>
      let> r := bang (fst issued) in
      let> e := aq_import_revocation node (result_of (relay net) (str "trust-graph") (str "issue_revocation")) r now in
      sret (append_error [] e)
  end.

(** trust-graph-api.aqua 200-204. [o]: origin of the issuer. *)
Definition aq_get_host_certs_from (node : text) (o : origin) (issuer : text) (now : N) : script response :=
  call_on node [o; clock_of node] (S_get_host_certs_from issuer now).

(** trust-graph-api.aqua 208-212. *)
Definition aq_get_all_certs (node issued_for : text) (now : N) : script response :=
  call_on node [src 0; clock_of node] (S_get_all_certs issued_for now).

(** trust-graph-api.aqua 216-220. *)
Definition aq_get_all_certs_from (node issued_for issuer : text) (now : N) : script response :=
  call_on node [src 0; src 1; clock_of node] (S_get_all_certs_from issued_for issuer now).

(** trust-graph-api.aqua 224-228. *)
Definition aq_get_host_certs (node : text) (now : N) : script response :=
  call_on node [clock_of node] (S_get_host_certs now).

(** trust-graph-api.aqua 232-236. *)
Definition aq_insert_cert (node : text) (c : dto_certificate) (now : N) : script response :=
  call_on node [src 0; clock_of node] (S_insert_cert c now).

(** labelling.aqua 24-25. *)
Definition fluence_root_peer_id : text := str "12D3KooWNbZKaPWRZ8wgjGvrxdJFz9Fq5uVwkR6ERV1f74HhPdyB".
Definition label_peer_id : text := str "12D3KooWM45u7AQxsb4MuQJNYT3NWHHMLU7JTbBV66RTfF3KSzdR".

(** labelling.aqua 33-38: one [true] for a certificate of three trusts whose first two are for the
    two keys. *)
Definition labelled (cert : dto_certificate) : list bool :=
  match cert with
  | [a; b; _] =>
      if bytes_eqb (dt_issued_for a) fluence_root_peer_id
      then if bytes_eqb (dt_issued_for b) label_peer_id then [true] else []
      else []
  | _ => []
  end.

(** labelling.aqua 23-44 [isFluencePeer]. *)
Definition is_fluence_peer (node : text) (now : N) : script (list bool * list aqua_error) :=
  let> r := aq_get_host_certs_from node (literal net) label_peer_id now in
  sret (if success r
        then match flat_map labelled (certs_in r) with [] => ([false], []) | hits => (hits, []) end
        else ([], [error_in r])).

End WithCrypto.
