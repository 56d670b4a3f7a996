(** The library over a database that returns the rows of a [SELECT] in any order. Storage.v and Graph.v read the rows
    in the order of the table; SQL promises no order without [ORDER BY], and SQLite may go through the index of the primary
    key instead. Here every query for relations of a key is answered in an order [o] of its own, which may depend on the
    whole database. The other statements are those of Storage.v: a relation is asked for by its primary key, the table of
    roots has no index, so it is read by row id. *)
From Coq Require Import List NArith ZArith Bool.
From Verif Require Import Base Text Keys Trust Certificate Relation Storage Graph Service.
Import ListNotations.
Open Scope N_scope.

(** The rows a database gives for [WHERE issued_for = ? and relation_type = ?], storage_impl.rs 94-99. *)
Definition scan := db -> text -> Z -> list row.

Section WithScan.
Variable C : crypto.
Variable o : scan.

(** [get_relations], storage_impl.rs 89-116. *)
Definition get_relations_o (for_pk : public_key) (ty : Z) : M storage_error (list relation) :=
  let! rs := sql (fun d => (o d (pk_display for_pk) ty, d)) in
  lift (parse_rows C rs).
(** [get_authorizations], storage_impl.rs 221-232; [get_revocations], 235-249. *)
Definition get_authorizations_o (for_pk : public_key) : M storage_error (list auth) :=
  let! l := get_relations_o for_pk AUTH_TYPE in ret (only_auths l).
Definition get_revocations_o (for_pk : public_key) : M storage_error (list revocation) :=
  let! l := get_relations_o for_pk REVOCATION_TYPE in ret (only_revs l).

(** trust_graph.rs 299-310. *)
Fixpoint extend_chain_o (c : chain) (auths : list auth) : M graph_error (list chain) :=
  match auths with
  | [] => ret []
  | a :: auths' =>
      if can_be_extended_by c (issued_by a) then
        let! rs := st (get_revocations_o (issued_by a)) in
        let! rest := extend_chain_o c auths' in
        ret (ch_push (ch_add_revocations c rs) a :: rest)
      else extend_chain_o c auths'
  end.
(** Body of the [while] loop, trust_graph.rs 289-322. *)
Definition search_step_o (roots : list public_key) (s : search_state) : M graph_error search_state :=
  match fst s with
  | [] => ret s
  | c :: q =>
      let! auths := st (get_authorizations_o (issued_by (ch_last c))) in
      let! new := extend_chain_o c auths in
      ret (q ++ new, if chain_terminates roots c then snd s ++ [ch_auths c] else snd s)
  end.
(** The loop, with the fuel of Graph.v. trust_graph.rs 289-322. *)
Fixpoint search_run_o (n : nat) (roots : list public_key) (s : search_state) : M graph_error search_state :=
  match n with
  | O => search_step_o roots s
  | S n' =>
      let! s' := search_run_o n' roots s in
      match fst s' with
      | [] => ret s'
      | _ => search_run_o n' roots s'
      end
  end.
(** [bf_search_paths], trust_graph.rs 269-326. *)
Definition bf_search_paths_o (pk : public_key) (roots : list public_key) : M graph_error (list (list auth)) :=
  let! node_auths := st (get_authorizations_o pk) in
  let! node_revocations := st (get_revocations_o pk) in
  let queue := map (fun a => ch_new a node_revocations) node_auths in
  let! s := (fun w => search_run_o (search_fuel (w_db w)) roots (queue, []) w) in
  match fst s with
  | [] => ret (snd s)
  | _ => lift OutOfFuel
  end.
(** [get_all_certs], trust_graph.rs 351-382. *)
Definition get_all_certs_o (pk : public_key) (cur_time : duration) : M graph_error (list certificate) :=
  let! _ := st (remove_expired cur_time) in
  let! roots := st (root_keys C) in
  let! paths := bf_search_paths_o pk roots in
  ret (filter (fun c : certificate => Nat.ltb 1 (length c)) (map (fun p => rev (map auth_trust p)) paths)).
(** [get_all_certs_from], trust_graph.rs 331-347. *)
Definition get_all_certs_from_o (pk issuer : public_key) (cur_time : duration) : M graph_error (list certificate) :=
  let! cs := get_all_certs_o pk cur_time in
  ret (filter (fun c : certificate => existsb (fun t => pk_eqb (issued_for t) issuer) c) cs).
(** [weight], trust_graph.rs 185-201. *)
Definition weight_o (pk : public_key) (cur_time : duration) : M graph_error N :=
  let! rf := st (get_root_weight_factor pk) in
  let max0 := match rf with Some wf => get_weight_from_factor wf | None => 0 end in
  let! cs := get_all_certs_o pk cur_time in
  let! cf := certificates_weight_factor cs in
  ret (match cf with Some wf => N.max max0 (get_weight_from_factor wf) | None => max0 end).
(** [weight_from], trust_graph.rs 205-224. *)
Definition weight_from_o (pk issuer : public_key) (cur_time : duration) : M graph_error N :=
  let! cs := get_all_certs_from_o pk issuer cur_time in
  let! cf := certificates_weight_factor cs in
  ret (match cf with Some wf => N.max 0 (get_weight_from_factor wf) | None => 0 end).
(** [get_next_weight], trust_graph.rs 168-182. *)
Definition get_next_weight_o (by_pk for_pk : public_key) (cur_time : duration) : M graph_error N :=
  let! w := weight_o by_pk cur_time in
  ret (if pk_eqb by_pk for_pk then w else w / 2).
(** [add_trust], trust_graph.rs 120-149. *)
Definition add_trust_o (t : trust) (by_pk : public_key) (cur_time : duration) : M graph_error N :=
  let! _ := lift (map_err GE_TrustVerification (trust_verify C t by_pk cur_time)) in
  let! next_weight := get_next_weight_o by_pk (issued_for t) cur_time in
  if next_weight =? 0 then ret 0
  else
    let! _ := st (update_auth C (mk_auth t by_pk) cur_time) in
    ret next_weight.
(** [add], trust_graph.rs 152-166. *)
Fixpoint add_chain_o (chain : list trust) (by_pk : public_key) (cur_time : duration) : M graph_error unit :=
  match chain with
  | [] => ret tt
  | t :: chain' =>
      let! _ := add_trust_o t by_pk cur_time in
      add_chain_o chain' (issued_for t) cur_time
  end.
Definition add_o (c : certificate) (cur_time : duration) : M graph_error unit :=
  match c with
  | [] => throw GE_EmptyChain
  | t0 :: _ => add_chain_o c (issued_for t0) cur_time
  end.
(** The calls, as [graph_do] and [graph_step] of Graph.v; get_revocations is trust_graph.rs 393-398. *)
Definition graph_do_o (c : graph_call) : M graph_error graph_reply :=
  match c with
  | G_set_root pk n => mmap (fun _ => GR_unit) (set_root pk n)
  | G_add_trust t b now => mmap GR_weight (add_trust_o t b now)
  | G_add c now => mmap (fun _ => GR_unit) (add_o c now)
  | G_weight pk now => mmap GR_weight (weight_o pk now)
  | G_weight_from pk i now => mmap GR_weight (weight_from_o pk i now)
  | G_get_all_certs pk now => mmap GR_certs (get_all_certs_o pk now)
  | G_get_all_certs_from pk i now => mmap GR_certs (get_all_certs_from_o pk i now)
  | G_revoke v => mmap (fun _ => GR_unit) (revoke C v)
  | G_get_revocations pk => mmap GR_revs (st (get_revocations_o pk))
  end.
Definition graph_step_o (d : db) (e : graph_call * option nat) : result graph_error graph_reply * db :=
  match graph_do_o (fst e) (mk_world d (snd e)) with (r, w) => (r, w_db w) end.
End WithScan.

(** The functions of the service that ask the library something whose answer is read with such queries, as in Service.v. *)
Section Served.
Variable C : crypto.
Variable o : scan.

(** service_api.rs 40-48. *)
Definition api_insert_cert_raw_o (c : text) (timestamp_sec : N) : M Empty_set response :=
  into (fun _ => P_none) P_none
    (let! c := lift (map_err SVE_CertError (cert_from_str C c)) in
     tg (add_o C o c (from_secs timestamp_sec))).

(** service_api.rs 53-63. *)
Definition api_insert_cert_o (c : dto_certificate) (timestamp_sec : N) : M Empty_set response :=
  into (fun _ => P_none) P_none
    (let! c := lift (map_err SVE_DtoError (cert_of_dto C c)) in
     tg (add_o C o c (from_secs timestamp_sec))).

(** service_api.rs 65-73. *)
Definition get_certs_o (p : text) (timestamp_sec : N) : M service_error (list dto_certificate) :=
  let! k := lift (extract_public_key C p) in
  let! cs := tg (get_all_certs_o C o k (from_secs timestamp_sec)) in
  ret (map (dto_of_cert C) cs).

(** service_api.rs 75-86. *)
Definition get_certs_from_o (p issuer : text) (timestamp_sec : N) : M service_error (list dto_certificate) :=
  let! k := lift (extract_public_key C p) in
  let! i := lift (extract_public_key C issuer) in
  let! cs := tg (get_all_certs_from_o C o k i (from_secs timestamp_sec)) in
  ret (map (dto_of_cert C) cs).

(** service_api.rs 89-95. *)
Definition api_get_all_certs_o (cp : call_params) (p : text) (timestamp_sec : N) : M Empty_set response :=
  into P_certs (P_certs [])
    (let! _ := lift (check_timestamp_tetraplets cp 1) in get_certs_o p timestamp_sec).

(** service_api.rs 98-105. *)
Definition api_get_all_certs_from_o (cp : call_params) (p issuer : text) (timestamp_sec : N) : M Empty_set response :=
  into P_certs (P_certs [])
    (let! _ := lift (check_timestamp_tetraplets cp 2) in get_certs_from_o p issuer timestamp_sec).

(** service_api.rs 108-115. *)
Definition api_get_host_certs_o (cp : call_params) (timestamp_sec : N) : M Empty_set response :=
  into P_certs (P_certs [])
    (let! _ := lift (check_timestamp_tetraplets cp 0) in get_certs_o (host_id cp) timestamp_sec).

(** service_api.rs 118-125. *)
Definition api_get_host_certs_from_o (cp : call_params) (issuer : text) (timestamp_sec : N) : M Empty_set response :=
  into P_certs (P_certs [])
    (let! _ := lift (check_timestamp_tetraplets cp 1) in get_certs_from_o (host_id cp) issuer timestamp_sec).

(** service_api.rs 128-137. *)
Definition api_get_weight_o (cp : call_params) (p : text) (timestamp_sec : N) : M Empty_set response :=
  into (fun w => P_weight w p) (P_weight 0 [])
    (let! _ := lift (check_timestamp_tetraplets cp 1) in
     let! k := lift (extract_public_key C p) in
     tg (weight_o C o k (from_secs timestamp_sec))).

(** service_api.rs 140-151. The checked argument number is 1, the issuer. *)
Definition api_get_weight_from_o (cp : call_params) (p issuer : text) (timestamp_sec : N) : M Empty_set response :=
  into (fun w => P_weight w p) (P_weight 0 [])
    (let! _ := lift (check_timestamp_tetraplets cp 1) in
     let! k := lift (extract_public_key C p) in
     let! i := lift (extract_public_key C issuer) in
     tg (weight_from_o C o k i (from_secs timestamp_sec))).

(** service_api.rs 210-226. *)
Definition api_add_trust_o (cp : call_params) (t : dto_trust) (issuer : text) (timestamp_sec : N)
  : M Empty_set response :=
  into P_added (P_added 0)
    (let! k := lift (extract_public_key C issuer) in
     let! _ := lift (check_timestamp_tetraplets cp 2) in
     if timestamp_sec <? dt_issued_at t then throw SVE_InvalidTimestamp
     else
       let! t := lift (map_err SVE_DtoError (trust_of_dto C t)) in
       tg (add_trust_o C o t k (from_secs timestamp_sec))).

(** service_api.rs 273-283. *)
Definition api_export_revocations_o (p : text) : M Empty_set response :=
  into P_revocations (P_revocations [])
    (let! k := lift (extract_public_key C p) in
     let! vs := tg (st (get_revocations_o C o k)) in
     ret (map (dto_of_revocation C) vs)).

Definition service_do_o (cp : call_params) (c : service_call) : M Empty_set response :=
  match c with
  | S_insert_cert_raw c ts => api_insert_cert_raw_o c ts
  | S_insert_cert c ts => api_insert_cert_o c ts
  | S_get_all_certs p ts => api_get_all_certs_o cp p ts
  | S_get_all_certs_from p i ts => api_get_all_certs_from_o cp p i ts
  | S_get_host_certs ts => api_get_host_certs_o cp ts
  | S_get_host_certs_from i ts => api_get_host_certs_from_o cp i ts
  | S_get_weight p ts => api_get_weight_o cp p ts
  | S_get_weight_from p i ts => api_get_weight_from_o cp p i ts
  | S_add_trust t i ts => api_add_trust_o cp t i ts
  | S_export_revocations p => api_export_revocations_o p
  | _ => service_do C cp c
  end.
Definition service_step_o (d : db) (e : service_event) : result Empty_set response * db :=
  match e with
  | (cp, c, f) => match service_do_o cp c (mk_world d f) with (r, w) => (r, w_db w) end
  end.
End Served.
