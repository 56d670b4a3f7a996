(** Model of service/src/storage_impl.rs: the SQLite tables and the statements run on them. *)
From Coq Require Import List NArith ZArith Bool.
From Verif Require Import Base Text Keys Trust Relation.
Import ListNotations.
Open Scope N_scope.

(** One row of [trust_relations] (storage_impl.rs 33-41). Columns always hold the type that
    [insert] binds, so [as_integer()]/[as_string()]/[as_binary()] never fail. *)
Record row := mk_row {
  r_type : Z;            (* relation_type INTEGER *)
  r_for : text;          (* issued_for TEXT *)
  r_by : text;           (* issued_by TEXT *)
  r_issued_at : Z;       (* INTEGER (i64) *)
  r_expires_at : Z;      (* INTEGER (i64) *)
  r_sig : bytes          (* signature, bound as binary *)
}.

(** The database: both tables in row order. [roots] (storage_impl.rs 46-49) has no key. *)
Record db := mk_db { tbl_relations : list row; tbl_roots : list (text * Z) }.

(** storage_impl.rs 28-52 [create_tables] on a fresh file. *)
Definition empty_db : db := mk_db [] [].

(** State of the service: the database and a fuse. Every statement burns one unit of the
    fuse; a statement reached with fuse [Some 0] fails without effect. [None]: no failure. *)
Record world := mk_world { w_db : db; w_fuse : option nat }.

Definition M (E A : Type) : Type := world -> result E A * world.
Definition ret {E A} (a : A) : M E A := fun w => (Ok a, w).
Definition throw {E A} (e : E) : M E A := fun w => (Err e, w).
Definition lift {E A} (r : result E A) : M E A := fun w => (r, w).
Definition mbind {E A B} (m : M E A) (f : A -> M E B) : M E B := fun w =>
  match m w with
  | (Ok a, w') => f a w'
  | (Err e, w') => (Err e, w')
  | (Panic, w') => (Panic, w')
  | (OutOfFuel, w') => (OutOfFuel, w')
  end.
Definition mmap_err {E F A} (f : E -> F) (m : M E A) : M F A := fun w =>
  match m w with (r, w') => (map_err f r, w') end.
Notation "'let!' x := m 'in' k" := (mbind m (fun x => k))
  (at level 200, x name, m at level 100, k at level 200).

(** storage_impl.rs 119-155. *)
Inductive storage_error :=
| SE_SQLite
| SE_PublicKeyFromStr (e : decoding_error)
| SE_WeightFactorConversionDB
| SE_Decode (e : decoding_error).       (* SignatureDecodeError, #[from] DecodingError *)

(** Run one SQL statement. A [prepare], [bind], [next] of storage_impl.rs 94-108, 200-213, 252-274, 279-286, 301-311, 316-323, 342-352. The constants: 24-25. *)
Definition sql {A} (f : db -> A * db) : M storage_error A := fun w =>
  match w_fuse w with
  | Some O => (Err SE_SQLite, w)
  | Some (S k) => let (a, d) := f (w_db w) in (Ok a, mk_world d (Some k))
  | None => let (a, d) := f (w_db w) in (Ok a, mk_world d None)
  end.

Definition AUTH_TYPE : Z := 0.
Definition REVOCATION_TYPE : Z := 1.

Section WithCrypto.
Variable C : crypto.

(** [parse_relation], storage_impl.rs 156-182. *)
Definition parse_relation (r : row) : result storage_error relation :=
  let? for_pk := map_err SE_Decode (pk_from_str C (r_for r)) in
  let? by_pk := map_err SE_Decode (pk_from_str C (r_by r)) in
  let issued := from_secs (u64_of_i64 (r_issued_at r)) in
  let expires := from_secs (u64_of_i64 (r_expires_at r)) in
  let? sg := map_err SE_Decode (sig_decode C (r_sig r)) in
  if (r_type r =? AUTH_TYPE)%Z
  then Ok (RAuth (mk_auth (mk_trust for_pk expires sg issued) by_pk))
  else Ok (RRev (mk_rev for_pk issued by_pk sg)).

(** storage_impl.rs 106-113: parse rows, log and skip the ones that fail. *)
Fixpoint parse_rows (rs : list row) : result storage_error (list relation) :=
  match rs with
  | [] => Ok []
  | r :: rs' =>
      match parse_relation r with
      | Ok x => let? xs := parse_rows rs' in Ok (x :: xs)
      | Err _ => parse_rows rs'
      | Panic => Panic
      | OutOfFuel => OutOfFuel
      end
  end.

(** [get_relations], storage_impl.rs 89-116. *)
Definition get_relations (for_pk : public_key) (ty : Z) : M storage_error (list relation) :=
  let! rs := sql (fun d =>
     (filter (fun r => bytes_eqb (r_for r) (pk_display for_pk) && (r_type r =? ty)%Z) (tbl_relations d), d)) in
  lift (parse_rows rs).

(** [get_relation], storage_impl.rs 195-218. *)
Definition get_relation (for_pk by_pk : public_key) : M storage_error (option relation) :=
  let! r := sql (fun d =>
     (find (fun r => bytes_eqb (r_by r) (pk_display by_pk) && bytes_eqb (r_for r) (pk_display for_pk))
        (tbl_relations d), d)) in
  match r with
  | Some r => lift (map_ok Some (parse_relation r))
  | None => ret None
  end.

(** [get_authorizations], storage_impl.rs 221-232; [get_revocations], 235-249. *)
Definition only_auths (l : list relation) : list auth :=
  flat_map (fun r => match r with RAuth a => [a] | RRev _ => [] end) l.
Definition only_revs (l : list relation) : list revocation :=
  flat_map (fun r => match r with RRev v => [v] | RAuth _ => [] end) l.
Definition get_authorizations (for_pk : public_key) : M storage_error (list auth) :=
  let! l := get_relations for_pk AUTH_TYPE in ret (only_auths l).
Definition get_revocations (for_pk : public_key) : M storage_error (list revocation) :=
  let! l := get_relations for_pk REVOCATION_TYPE in ret (only_revs l).

(** The row bound by [insert], storage_impl.rs 256-272. *)
Definition row_of_relation (x : relation) : row :=
  mk_row (match x with RAuth _ => AUTH_TYPE | RRev _ => REVOCATION_TYPE end)
         (pk_display (rel_issued_for x)) (pk_display (rel_issued_by x))
         (i64_of_u64 (secs (rel_issued_at x))) (i64_of_u64 (secs (rel_expires_at x)))
         (sig_encode (rel_signature x)).

(** [INSERT OR REPLACE INTO trust_relations]: primary key (issued_for, issued_by). storage_impl.rs 40, 254. *)
Definition same_key (a b : row) : bool := bytes_eqb (r_for a) (r_for b) && bytes_eqb (r_by a) (r_by b).
Definition insert_row (r : row) (rs : list row) : list row :=
  filter (fun x => negb (same_key r x)) rs ++ [r].

(** [insert], storage_impl.rs 251-276. *)
Definition insert (x : relation) : M storage_error unit :=
  sql (fun d => (tt, mk_db (insert_row (row_of_relation x) (tbl_relations d)) (tbl_roots d))).

(** [update_relation], storage_impl.rs 64-87. *)
Definition update_relation (x : relation) : M storage_error unit :=
  let! old := get_relation (rel_issued_for x) (rel_issued_by x) in
  match old with
  | Some (RAuth a) =>
      if duration_ltb (issued_at (auth_trust a)) (rel_issued_at x) then insert x else ret tt
  | Some (RRev v) =>
      if duration_ltb (revoked_at v) (rel_issued_at x) then insert x else ret tt
  | None => insert x
  end.

(** [get_root_weight_factor], storage_impl.rs 278-294: first matching row; [u32::try_from(i64)]. *)
Definition get_root_weight_factor (pk : public_key) : M storage_error (option N) :=
  let! r := sql (fun d => (find (fun r => bytes_eqb (fst r) (pk_display pk)) (tbl_roots d), d)) in
  match r with
  | Some (_, w) =>
      if ((0 <=? w) && (w <? Z.of_N u32_bound))%Z then ret (Some (Z.to_N w))
      else throw SE_WeightFactorConversionDB
  | None => ret None
  end.

(** [set_root_weight_factor], storage_impl.rs 296-313. [INSERT OR REPLACE] on a table without
    any uniqueness constraint never replaces: it appends. *)
Definition set_root_weight_factor (pk : public_key) (wf : N) : M storage_error unit :=
  sql (fun d => (tt, mk_db (tbl_relations d) (tbl_roots d ++ [(pk_display pk, Z.of_N wf)]))).

(** [root_keys], storage_impl.rs 315-331. *)
Definition root_keys : M storage_error (list public_key) :=
  let! rs := sql (fun d => (tbl_roots d, d)) in
  lift (collect (fun r => map_err SE_PublicKeyFromStr (pk_from_str C (fst r))) rs).

(** [revoke], storage_impl.rs 333-335; [update_auth], 337-339. *)
Definition storage_revoke (v : revocation) : M storage_error unit := update_relation (RRev v).
Definition update_auth (a : auth) (_cur_time : duration) : M storage_error unit := update_relation (RAuth a).

(** [remove_expired], storage_impl.rs 341-355. *)
Definition expired_row (cur_time : duration) (r : row) : bool :=
  (r_expires_at r <=? i64_of_u64 (secs cur_time))%Z && (r_type r =? AUTH_TYPE)%Z.
Definition remove_expired (cur_time : duration) : M storage_error unit :=
  sql (fun d => (tt, mk_db (filter (fun r => negb (expired_row cur_time r)) (tbl_relations d)) (tbl_roots d))).

End WithCrypto.
