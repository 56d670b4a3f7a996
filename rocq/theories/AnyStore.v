(** Model of trust-graph/src/trust_graph.rs over any storage: [TrustGraph<S>] asks of [S] only what the trait [Storage]
    offers (trust_graph_storage.rs 10-34). Graph.v is the same code over the SQLite storage; [C187_sqlite_is_one] says so. *)
From Coq Require Import List NArith ZArith Bool.
From Verif Require Import Base Text Keys Trust Certificate Relation Storage Graph.
Import ListNotations.
Open Scope N_scope.

(** The trait [Storage], trust_graph_storage.rs 10-34: functions over a state [St] with errors [Er]. [get_relation] and [insert] are left out,
    because the graph calls neither. A method that takes [&self] may still change the state, through interior mutability. *)
Record storage (St Er : Type) := mk_storage {
  s_get_authorizations : public_key -> St -> result Er (list auth) * St;
  s_get_revocations : public_key -> St -> result Er (list revocation) * St;
  s_get_root_weight_factor : public_key -> St -> result Er (option N) * St;
  s_set_root_weight_factor : public_key -> N -> St -> result Er unit * St;
  s_root_keys : St -> result Er (list public_key) * St;
  s_revoke : revocation -> St -> result Er unit * St;
  s_update_auth : auth -> duration -> St -> result Er unit * St;
  s_remove_expired : duration -> St -> result Er unit * St
}.
Arguments s_get_authorizations {St Er}. Arguments s_get_revocations {St Er}. Arguments s_get_root_weight_factor {St Er}. Arguments s_set_root_weight_factor {St Er}.
Arguments s_root_keys {St Er}. Arguments s_revoke {St Er}. Arguments s_update_auth {St Er}. Arguments s_remove_expired {St Er}.

(** trust_graph.rs 55-83: an error of the storage, boxed, or another one of Graph.v. *)
Inductive any_error (Er : Type) := X_storage (e : Er) | X_other (e : graph_error).
Arguments X_storage {Er}. Arguments X_other {Er}.

(** Computations over the state of a storage. For the functions of trust_graph_storage.rs 10-34. *)
Definition AM (St Er A : Type) : Type := St -> result (any_error Er) A * St.
Definition aret {St Er A} (a : A) : AM St Er A := fun s => (Ok a, s).
Definition alift {St Er A} (r : result graph_error A) : AM St Er A := fun s => (map_err X_other r, s).
Definition abind {St Er A B} (m : AM St Er A) (f : A -> AM St Er B) : AM St Er B := fun s =>
  match m s with
  | (Ok a, s') => f a s'
  | (Err e, s') => (Err e, s')
  | (Panic, s') => (Panic, s')
  | (OutOfFuel, s') => (OutOfFuel, s')
  end.
(** [?] on a result of the storage: [From<T: StorageError> for TrustGraphError], trust_graph.rs 85-89. *)
Definition ast {St Er A} (m : St -> result Er A * St) : AM St Er A := fun s => match m s with (r, s') => (map_err X_storage r, s') end.
Notation "'let#' x := m 'in' k" := (abind m (fun x => k))
  (at level 200, x name, m at level 100, k at level 200).

Section WithStorage.
Variable C : crypto.
Variables St Er : Type.
Variable T : storage St Er.
(** How many relations a state can hold; artefact of the model, for the fuel of the search. *)
Variable size : St -> nat.

(** [set_root], trust_graph.rs 114-118. *)
Definition a_set_root (pk : public_key) (max_chain_len : N) : AM St Er unit :=
  ast (s_set_root_weight_factor T pk (get_weight_factor max_chain_len)).

(** trust_graph.rs 299-310. *)
Fixpoint a_extend_chain (c : chain) (auths : list auth) : AM St Er (list chain) :=
  match auths with
  | [] => aret []
  | a :: auths' =>
      if can_be_extended_by c (issued_by a) then
        let# rs := ast (s_get_revocations T (issued_by a)) in
        let# rest := a_extend_chain c auths' in
        aret (ch_push (ch_add_revocations c rs) a :: rest)
      else a_extend_chain c auths'
  end.

(** Body of the [while] loop, trust_graph.rs 289-322; identity on an empty queue. *)
Definition a_search_step (roots : list public_key) (s : search_state) : AM St Er search_state :=
  match fst s with
  | [] => aret s
  | c :: q =>
      let# auths := ast (s_get_authorizations T (issued_by (ch_last c))) in
      let# new := a_extend_chain c auths in
      aret (q ++ new, if chain_terminates roots c then snd s ++ [ch_auths c] else snd s)
  end.

(** The [while] loop: at most 2^n iterations. *)
Fixpoint a_search_run (n : nat) (roots : list public_key) (s : search_state) : AM St Er search_state :=
  match n with
  | O => a_search_step roots s
  | S n' =>
      let# s' := a_search_run n' roots s in
      match fst s' with
      | [] => aret s'
      | _ => a_search_run n' roots s'
      end
  end.

(** Fuel, as [search_fuel] of Graph.v. For the loop of trust_graph.rs 289-322. *)
Definition a_search_fuel (s : St) : nat := let m := S (size s) in (2 * m + 3) * m.

(** [bf_search_paths], trust_graph.rs 269-326. *)
Definition a_bf_search_paths (pk : public_key) (roots : list public_key) : AM St Er (list (list auth)) :=
  let# node_auths := ast (s_get_authorizations T pk) in
  let# node_revocations := ast (s_get_revocations T pk) in
  let queue := map (fun a => ch_new a node_revocations) node_auths in
  let# s := (fun w => a_search_run (a_search_fuel w) roots (queue, []) w) in
  match fst s with
  | [] => aret (snd s)
  | _ => alift OutOfFuel
  end.

(** [get_all_certs], trust_graph.rs 351-382. *)
Definition a_get_all_certs (pk : public_key) (cur_time : duration) : AM St Er (list certificate) :=
  let# _ := ast (s_remove_expired T cur_time) in
  let# roots := ast (s_root_keys T) in
  let# paths := a_bf_search_paths pk roots in
  aret (filter (fun c : certificate => Nat.ltb 1 (length c)) (map (fun p => rev (map auth_trust p)) paths)).

(** [get_all_certs_from], trust_graph.rs 331-347. *)
Definition a_get_all_certs_from (pk issuer : public_key) (cur_time : duration) : AM St Er (list certificate) :=
  let# cs := a_get_all_certs pk cur_time in
  aret (filter (fun c : certificate => existsb (fun t => pk_eqb (issued_for t) issuer) c) cs).

(** trust_graph.rs 246-263. *)
Fixpoint a_certs_min_factor (cs : list certificate) (acc : N) : AM St Er N :=
  match cs with
  | [] => aret acc
  | c :: cs' =>
      match c with
      | [] => alift (Err (GE_CertificateCheck CE_CertificateLengthError))
      | first :: _ =>
          let# f := ast (s_get_root_weight_factor T (issued_for first)) in
          match f with
          | None => alift (Err GE_NoRoot)
          | Some rwf => a_certs_min_factor cs' (N.min acc (u32_sub (u32_add rwf (u32_of_nat (length c))) 1))
          end
      end
  end.

(** [certificates_weight_factor], trust_graph.rs 229-266. *)
Definition a_certificates_weight_factor (cs : list certificate) : AM St Er (option N) :=
  match cs with
  | [] => aret None
  | _ => let# f := a_certs_min_factor cs u32_max in aret (Some f)
  end.

(** [weight], trust_graph.rs 185-201. *)
Definition a_weight (pk : public_key) (cur_time : duration) : AM St Er N :=
  let# rf := ast (s_get_root_weight_factor T pk) in
  let max0 := match rf with Some wf => get_weight_from_factor wf | None => 0 end in
  let# cs := a_get_all_certs pk cur_time in
  let# cf := a_certificates_weight_factor cs in
  aret (match cf with Some wf => N.max max0 (get_weight_from_factor wf) | None => max0 end).

(** [weight_from], trust_graph.rs 205-224. *)
Definition a_weight_from (pk issuer : public_key) (cur_time : duration) : AM St Er N :=
  let# cs := a_get_all_certs_from pk issuer cur_time in
  let# cf := a_certificates_weight_factor cs in
  aret (match cf with Some wf => N.max 0 (get_weight_from_factor wf) | None => 0 end).

(** [get_next_weight], trust_graph.rs 168-182. *)
Definition a_get_next_weight (by_pk for_pk : public_key) (cur_time : duration) : AM St Er N :=
  let# w := a_weight by_pk cur_time in
  aret (if pk_eqb by_pk for_pk then w else w / 2).

(** [add_trust], trust_graph.rs 120-149. *)
Definition a_add_trust (t : trust) (by_pk : public_key) (cur_time : duration) : AM St Er N :=
  let# _ := alift (map_err GE_TrustVerification (trust_verify C t by_pk cur_time)) in
  let# next_weight := a_get_next_weight by_pk (issued_for t) cur_time in
  if next_weight =? 0 then aret 0
  else
    let# _ := ast (s_update_auth T (mk_auth t by_pk) cur_time) in
    aret next_weight.

(** trust_graph.rs 160-163. *)
Fixpoint a_add_chain (chain : list trust) (by_pk : public_key) (cur_time : duration) : AM St Er unit :=
  match chain with
  | [] => aret tt
  | t :: chain' =>
      let# _ := a_add_trust t by_pk cur_time in
      a_add_chain chain' (issued_for t) cur_time
  end.

(** [add], trust_graph.rs 152-166. *)
Definition a_add (c : certificate) (cur_time : duration) : AM St Er unit :=
  match c with
  | [] => alift (Err GE_EmptyChain)
  | t0 :: _ => a_add_chain c (issued_for t0) cur_time
  end.

(** [revoke], trust_graph.rs 387-391. *)
Definition a_revoke (v : revocation) : AM St Er unit :=
  let# _ := alift (map_err GE_RevokeCheck (revocation_verify C v)) in
  ast (s_revoke T v).

(** [get_revocations], trust_graph.rs 393-398. *)
Definition a_get_revocations (pk : public_key) : AM St Er (list revocation) := ast (s_get_revocations T pk).

Definition amap {A B} (f : A -> B) (m : AM St Er A) : AM St Er B := let# a := m in aret (f a).

(** The calls of Graph.v on a [TrustGraph<S>]. trust_graph.rs 105-399. *)
Definition any_do (c : graph_call) : AM St Er graph_reply :=
  match c with
  | G_set_root pk n => amap (fun _ => GR_unit) (a_set_root pk n)
  | G_add_trust t b now => amap GR_weight (a_add_trust t b now)
  | G_add c now => amap (fun _ => GR_unit) (a_add c now)
  | G_weight pk now => amap GR_weight (a_weight pk now)
  | G_weight_from pk i now => amap GR_weight (a_weight_from pk i now)
  | G_get_all_certs pk now => amap GR_certs (a_get_all_certs pk now)
  | G_get_all_certs_from pk i now => amap GR_certs (a_get_all_certs_from pk i now)
  | G_revoke v => amap (fun _ => GR_unit) (a_revoke v)
  | G_get_revocations pk => amap GR_revs (a_get_revocations pk)
  end.

(** A history of calls: the answers and the state left. Calls of the methods of trust_graph.rs 105-399. *)
Fixpoint any_run (s : St) (cs : list graph_call) : list (result (any_error Er) graph_reply) * St :=
  match cs with
  | [] => ([], s)
  | c :: cs' => match any_do c s with (r, s1) => match any_run s1 cs' with (rs, s2) => (r :: rs, s2) end end
  end.

End WithStorage.

(** The SQLite storage of Storage.v as one of these. storage_impl.rs 192-356. *)
Definition sqlite (C : crypto) : storage world storage_error := mk_storage world storage_error
  (get_authorizations C) (get_revocations C) get_root_weight_factor set_root_weight_factor (root_keys C) (storage_revoke C) (update_auth C) remove_expired.
(** The rows of its first table. storage_impl.rs 33-41. *)
Definition sqlite_size (w : world) : nat := length (tbl_relations (w_db w)).
