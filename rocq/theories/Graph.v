(** Model of trust-graph/src/trust_graph.rs over the SQLite storage. *)
From Coq Require Import List NArith ZArith Bool.
From Verif Require Import Base Text Keys Trust Certificate Relation Storage.
Import ListNotations.
Open Scope N_scope.

(** trust_graph.rs 55-83 (variants the code can produce). *)
Inductive graph_error :=
| GE_InternalStorage (e : storage_error)
| GE_NoRoot
| GE_EmptyChain
| GE_CertificateCheck (e : certificate_error)
| GE_RevokeCheck (e : revoke_error)
| GE_TrustVerification (e : trust_error).

(** trust_graph.rs 42. *)
Definition MAX_WEIGHT_FACTOR : N := 16.

(** [get_weight_factor], trust_graph.rs 97-99. N subtraction saturates at 0. *)
Definition get_weight_factor (max_chain_len : N) : N := MAX_WEIGHT_FACTOR - max_chain_len.

(** [get_weight_from_factor], trust_graph.rs 101-103. *)
Definition get_weight_from_factor (wf : N) : N := 2 ^ (MAX_WEIGHT_FACTOR - wf).

(** [?] on a storage result: [From<StorageError> for TrustGraphError], trust_graph.rs 85-89. *)
Definition st {A} (m : M storage_error A) : M graph_error A := mmap_err GE_InternalStorage m.

Section WithCrypto.
Variable C : crypto.

(** [set_root], trust_graph.rs 114-118. *)
Definition set_root (pk : public_key) (max_chain_len : N) : M graph_error unit :=
  st (set_root_weight_factor pk (get_weight_factor max_chain_len)).

(** trust_graph.rs 299-310: extensions of one chain, in order. *)
Fixpoint extend_chain (c : chain) (auths : list auth) : M graph_error (list chain) :=
  match auths with
  | [] => ret []
  | a :: auths' =>
      if can_be_extended_by c (issued_by a) then
        let! rs := st (get_revocations C (issued_by a)) in
        let! rest := extend_chain c auths' in
        ret (ch_push (ch_add_revocations c rs) a :: rest)
      else extend_chain c auths'
  end.

(** trust_graph.rs 316-320: the chain ends with a self-signed trust of a root and has more
    than one trust. *)
Definition chain_terminates (roots : list public_key) (c : chain) : bool :=
  let l := ch_last c in
  pk_eqb (issued_by l) (issued_for (auth_trust l)) &&
  existsb (pk_eqb (issued_by l)) roots &&
  Nat.ltb 1 (length (ch_auths c)).

Definition search_state := (list chain * list (list auth))%type.

(** Body of the [while] loop, trust_graph.rs 289-322; identity on an empty queue. *)
Definition search_step (roots : list public_key) (s : search_state) : M graph_error search_state :=
  match fst s with
  | [] => ret s
  | c :: q =>
      let! auths := st (get_authorizations C (issued_by (ch_last c))) in
      let! new := extend_chain c auths in
      ret (q ++ new, if chain_terminates roots c then snd s ++ [ch_auths c] else snd s)
  end.

(** The [while] loop: at most 2^n iterations. *)
Fixpoint search_run (n : nat) (roots : list public_key) (s : search_state) : M graph_error search_state :=
  match n with
  | O => search_step roots s
  | S n' =>
      let! s' := search_run n' roots s in
      match fst s' with
      | [] => ret s'
      | _ => search_run n' roots s'
      end
  end.

(** Fuel for a database; artefact of the model, proved sufficient in SearchFacts.v. For the loop of trust_graph.rs 289-322. *)
Definition search_fuel (d : db) : nat :=
  let m := S (length (tbl_relations d)) in (2 * m + 3) * m.

(** [bf_search_paths], trust_graph.rs 269-326. *)
Definition bf_search_paths (pk : public_key) (roots : list public_key) : M graph_error (list (list auth)) :=
  let! node_auths := st (get_authorizations C pk) in
  let! node_revocations := st (get_revocations C pk) in
  let queue := map (fun a => ch_new a node_revocations) node_auths in
  let! s := (fun w => search_run (search_fuel (w_db w)) roots (queue, []) w) in
  match fst s with
  | [] => ret (snd s)
  | _ => lift OutOfFuel
  end.

(** [get_all_certs], trust_graph.rs 351-382. The [debug_assert!] that every certificate has more
    than one trust is the same test as the filter; a debug build would panic where
    the filter drops (never, see theorem get_all_certs_filter_idle). *)
Definition get_all_certs (pk : public_key) (cur_time : duration) : M graph_error (list certificate) :=
  let! _ := st (remove_expired cur_time) in
  let! roots := st (root_keys C) in
  let! paths := bf_search_paths pk roots in
  ret (filter (fun c : certificate => Nat.ltb 1 (length c)) (map (fun p => rev (map auth_trust p)) paths)).

(** [get_all_certs_from], trust_graph.rs 331-347. *)
Definition get_all_certs_from (pk issuer : public_key) (cur_time : duration) : M graph_error (list certificate) :=
  let! cs := get_all_certs pk cur_time in
  ret (filter (fun c : certificate => existsb (fun t => pk_eqb (issued_for t) issuer) c) cs).

(** trust_graph.rs 246-263: running minimum over the certificates. *)
Fixpoint certs_min_factor (cs : list certificate) (acc : N) : M graph_error N :=
  match cs with
  | [] => ret acc
  | c :: cs' =>
      match c with
      | [] => throw (GE_CertificateCheck CE_CertificateLengthError)
      | first :: _ =>
          let! f := st (get_root_weight_factor (issued_for first)) in
          match f with
          | None => throw GE_NoRoot
          | Some rwf => certs_min_factor cs' (N.min acc (u32_sub (u32_add rwf (u32_of_nat (length c))) 1))
          end
      end
  end.

(** [certificates_weight_factor], trust_graph.rs 229-266. *)
Definition certificates_weight_factor (cs : list certificate) : M graph_error (option N) :=
  match cs with
  | [] => ret None
  | _ => let! f := certs_min_factor cs u32_max in ret (Some f)
  end.

(** [weight], trust_graph.rs 185-201. *)
Definition weight (pk : public_key) (cur_time : duration) : M graph_error N :=
  let! rf := st (get_root_weight_factor pk) in
  let max0 := match rf with Some wf => get_weight_from_factor wf | None => 0 end in
  let! cs := get_all_certs pk cur_time in
  let! cf := certificates_weight_factor cs in
  ret (match cf with Some wf => N.max max0 (get_weight_from_factor wf) | None => max0 end).

(** [weight_from], trust_graph.rs 205-224. *)
Definition weight_from (pk issuer : public_key) (cur_time : duration) : M graph_error N :=
  let! cs := get_all_certs_from pk issuer cur_time in
  let! cf := certificates_weight_factor cs in
  ret (match cf with Some wf => N.max 0 (get_weight_from_factor wf) | None => 0 end).

(** [get_next_weight], trust_graph.rs 168-182. *)
Definition get_next_weight (by_pk for_pk : public_key) (cur_time : duration) : M graph_error N :=
  let! w := weight by_pk cur_time in
  ret (if pk_eqb by_pk for_pk then w else w / 2).

(** [add_trust], trust_graph.rs 120-149. *)
Definition add_trust (t : trust) (by_pk : public_key) (cur_time : duration) : M graph_error N :=
  let! _ := lift (map_err GE_TrustVerification (trust_verify C t by_pk cur_time)) in
  let! next_weight := get_next_weight by_pk (issued_for t) cur_time in
  if next_weight =? 0 then ret 0
  else
    let! _ := st (update_auth C (mk_auth t by_pk) cur_time) in
    ret next_weight.

(** trust_graph.rs 160-163. *)
Fixpoint add_chain (chain : list trust) (by_pk : public_key) (cur_time : duration) : M graph_error unit :=
  match chain with
  | [] => ret tt
  | t :: chain' =>
      let! _ := add_trust t by_pk cur_time in
      add_chain chain' (issued_for t) cur_time
  end.

(** [add], trust_graph.rs 152-166. *)
Definition add (c : certificate) (cur_time : duration) : M graph_error unit :=
  match c with
  | [] => throw GE_EmptyChain
  | t0 :: _ => add_chain c (issued_for t0) cur_time
  end.

(** [revoke], trust_graph.rs 387-391. *)
Definition revoke (v : revocation) : M graph_error unit :=
  let! _ := lift (map_err GE_RevokeCheck (revocation_verify C v)) in
  st (storage_revoke C v).

(** [get_revocations], trust_graph.rs 393-398. *)
Definition graph_get_revocations (pk : public_key) : M graph_error (list revocation) :=
  st (get_revocations C pk).

(** Library calls on a [TrustGraph<SQLiteStorage>] and their results. The methods of trust_graph.rs 105-399. *)
Inductive graph_call :=
| G_set_root (pk : public_key) (max_chain_len : N)
| G_add_trust (t : trust) (by_pk : public_key) (now : duration)
| G_add (c : certificate) (now : duration)
| G_weight (pk : public_key) (now : duration)
| G_weight_from (pk issuer : public_key) (now : duration)
| G_get_all_certs (pk : public_key) (now : duration)
| G_get_all_certs_from (pk issuer : public_key) (now : duration)
| G_revoke (v : revocation)
| G_get_revocations (pk : public_key).

Inductive graph_reply :=
| GR_unit | GR_weight (w : N) | GR_certs (cs : list certificate) | GR_revs (vs : list revocation).

Definition mmap {E A B} (f : A -> B) (m : M E A) : M E B := let! a := m in ret (f a).

Definition graph_do (c : graph_call) : M graph_error graph_reply :=
  match c with
  | G_set_root pk n => mmap (fun _ => GR_unit) (set_root pk n)
  | G_add_trust t b now => mmap GR_weight (add_trust t b now)
  | G_add c now => mmap (fun _ => GR_unit) (add c now)
  | G_weight pk now => mmap GR_weight (weight pk now)
  | G_weight_from pk i now => mmap GR_weight (weight_from pk i now)
  | G_get_all_certs pk now => mmap GR_certs (get_all_certs pk now)
  | G_get_all_certs_from pk i now => mmap GR_certs (get_all_certs_from pk i now)
  | G_revoke v => mmap (fun _ => GR_unit) (revoke v)
  | G_get_revocations pk => mmap GR_revs (graph_get_revocations pk)
  end.

(** One call with its own fuse. A method of trust_graph.rs 105-399; the fuse is that of Storage.v. *)
Definition graph_step (d : db) (e : graph_call * option nat) : result graph_error graph_reply * db :=
  match graph_do (fst e) (mk_world d (snd e)) with (r, w) => (r, w_db w) end.

(** A history of calls, each with a possible failing statement, from a given database. Calls of the methods of trust_graph.rs 105-399 on one graph. *)
Definition graph_history (d : db) (es : list (graph_call * option nat)) : db :=
  fold_left (fun d e => snd (graph_step d e)) es d.

End WithCrypto.
