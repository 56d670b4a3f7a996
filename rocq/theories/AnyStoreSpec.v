(** What the library needs of a storage. *)
From Coq Require Import List NArith ZArith Bool Permutation.
From Verif Require Import Base Text Keys Trust Certificate Relation Storage Graph Spec AnyStore.
Import ListNotations.
Open Scope N_scope.

(** A time in whole seconds, below 2^63 seconds, as every storage can keep it. *)
Definition plain_time (d : duration) : Prop := nanos d = 0 /\ secs d < i64_bound.
Definition plain_trust (t : trust) : Prop := plain_time (expires_at t) /\ plain_time (issued_at t).
Definition plain (x : relation) : Prop :=
  match x with RAuth a => plain_trust (auth_trust a) | RRev v => plain_time (revoked_at v) end.

(** The trusts given to [k] and the revocations of [k], in the order of a list of relations. *)
Definition trusts_to (k : public_key) (l : list relation) : list auth :=
  flat_map (fun x => match x with RAuth a => if pk_eqb (issued_for (auth_trust a)) k then [a] else [] | RRev _ => [] end) l.
Definition revocations_of (k : public_key) (l : list relation) : list revocation :=
  flat_map (fun x => match x with RRev v => if pk_eqb (rev_pk v) k then [v] else [] | RAuth _ => [] end) l.

Section Contract.
Variable C : crypto.
Variables St Er : Type.
Variable T : storage St Er.
(** The states that can occur; what a state holds, in the order it is read in; the number kept for a root; a bound on what it holds. *)
Variable good : St -> Prop.
Variable contents : St -> list relation.
Variable factor : St -> public_key -> option N.
Variable size : St -> nat.

(** The same relations and the same roots. *)
Definition holds_same (s s' : St) : Prop :=
  (forall x, In x (contents s') <-> In x (contents s)) /\ forall k, factor s' k = factor s k.
(** A method that reads fails or gives a right answer, and either way leaves everything in place. *)
Definition reads {A} (m : St -> result Er A * St) (right : St -> A -> Prop) : Prop := forall s, good s ->
  match m s with
  | (Ok a, s') => right s a /\ good s' /\ contents s' = contents s /\ forall k, factor s' k = factor s k
  | (Err _, s') => good s' /\ contents s' = contents s /\ forall k, factor s' k = factor s k
  | _ => False
  end.
(** A method that writes fails and changes nothing of what is held, or does what it should. *)
Definition writes (m : St -> result Er unit * St) (may : St -> Prop) (right : St -> St -> Prop) : Prop := forall s, good s -> may s ->
  match m s with
  | (Ok _, s') => good s' /\ right s s'
  | (Err _, s') => good s' /\ holds_same s s'
  | _ => False
  end.
(** [x] is imported: other pairs of keys stay; of this pair, the relation held if it is not older than [x], else [x]. *)
Definition took (x : relation) (s s' : St) : Prop :=
  (forall y, In y (contents s') <->
    (~ same_keys x y /\ In y (contents s)) \/
    (same_keys x y /\ In y (contents s) /\ ~ before (rel_issued_at y) (rel_issued_at x)) \/
    (y = x /\ forall z, In z (contents s) -> same_keys x z -> before (rel_issued_at z) (rel_issued_at x))) /\
  forall k, factor s' k = factor s k.
(** The trusts that have expired at [now] are gone. *)
Definition purged (now : duration) (s s' : St) : Prop :=
  (forall y, In y (contents s') <-> In y (contents s) /\ forall a, y = RAuth a -> secs now < secs (expires_at (auth_trust a))) /\
  forall k, factor s' k = factor s k.

Record keeps : Prop := mk_keeps {
  (** one relation for a pair of keys *)
  k_pairs : forall s, good s -> NoDup (map (fun x => (rel_issued_for x, rel_issued_by x)) (contents s));
  k_size : forall s, good s -> (length (contents s) <= size s)%nat;
  k_trusts : forall k, pk_valid C k -> reads (s_get_authorizations T k) (fun s l => l = trusts_to k (contents s));
  k_revocations : forall k, pk_valid C k -> reads (s_get_revocations T k) (fun s l => l = revocations_of k (contents s));
  k_factor : forall k, pk_valid C k -> reads (s_get_root_weight_factor T k) (fun s f => f = factor s k);
  k_roots : reads (s_root_keys T) (fun s l => forall k, In k l <-> factor s k <> None);
  (** a second setting of a root need only be right with the number it has *)
  k_set_root : forall k f, pk_valid C k -> f <= 16 -> writes (s_set_root_weight_factor T k f)
    (fun s => factor s k = None \/ factor s k = Some f)
    (fun s s' => (forall x, In x (contents s') <-> In x (contents s)) /\ factor s' k = Some f /\ forall k', k' <> k -> factor s' k' = factor s k');
  k_revoke : forall v, revocation_typed C v -> plain (RRev v) -> writes (s_revoke T v) (fun _ => True) (took (RRev v));
  k_update : forall t b now, trust_typed C t -> pk_valid C b -> plain_trust t -> writes (s_update_auth T (mk_auth t b) now) (fun _ => True) (took (RAuth (mk_auth t b)));
  k_expired : forall now, secs now < i64_bound -> writes (s_remove_expired T now) (fun s => Forall plain (contents s)) (purged now)
}.
End Contract.

(** Calls whose times are in whole seconds below 2^63, but for the time of the call, which may have nanoseconds. *)
Definition plain_call (c : graph_call) : Prop :=
  match c with
  | G_add_trust t _ now => plain_trust t /\ secs now < i64_bound
  | G_add c now => Forall plain_trust c /\ secs now < i64_bound
  | G_weight _ now | G_weight_from _ _ now | G_get_all_certs _ now | G_get_all_certs_from _ _ now => secs now < i64_bound
  | G_revoke v => plain_time (revoked_at v)
  | G_set_root _ _ | G_get_revocations _ => True
  end.
(** Every root is set with the length [len] has for it. *)
Definition lengths_as (len : public_key -> N) (c : graph_call) : Prop :=
  match c with G_set_root k n => n = len k | _ => True end.

(** The same answer: lists in any order; an error of the storage for an error of the database. *)
Definition same_outcome {Er} (r : result (any_error Er) graph_reply) (r' : result graph_error graph_reply) : Prop :=
  match r with
  | Ok a => same_answer (Ok a) r'
  | Err (X_other e) => r' = Err e
  | Err (X_storage _) => r' = Err (GE_InternalStorage SE_SQLite)
  | Panic => r' = Panic
  | OutOfFuel => r' = OutOfFuel
  end.
(** The call met a failure of the storage. *)
Definition storage_failed {Er} (r : result (any_error Er) graph_reply) : Prop := exists e, r = Err (X_storage e).
(** What a database keeps for a root. *)
Definition kept_factor (d : db) (k : public_key) : option N := option_map Z.to_N (first_row (tbl_roots d) (key_text k)).

(** A storage in memory: the newest relation first, the last number given to a root, times compared to the nanosecond. *)
Record memory := mk_memory { m_relations : list relation; m_roots : list (public_key * N) }.
Definition pair_is (x y : relation) : bool := pk_eqb (rel_issued_for x) (rel_issued_for y) && pk_eqb (rel_issued_by x) (rel_issued_by y).
Definition m_update (x : relation) (m : memory) : result Empty_set unit * memory :=
  match find (pair_is x) (m_relations m) with
  | Some old => if duration_ltb (rel_issued_at old) (rel_issued_at x)
                then (Ok tt, mk_memory (x :: filter (fun y => negb (pair_is x y)) (m_relations m)) (m_roots m)) else (Ok tt, m)
  | None => (Ok tt, mk_memory (x :: m_relations m) (m_roots m))
  end.
Definition m_factor (m : memory) (k : public_key) : option N := option_map snd (find (fun kf => pk_eqb (fst kf) k) (m_roots m)).
Definition in_memory : storage memory Empty_set := mk_storage memory Empty_set
  (fun k m => (Ok (trusts_to k (m_relations m)), m))
  (fun k m => (Ok (revocations_of k (m_relations m)), m))
  (fun k m => (Ok (m_factor m k), m))
  (fun k f m => (Ok tt, mk_memory (m_relations m) ((k, f) :: filter (fun kf => negb (pk_eqb (fst kf) k)) (m_roots m))))
  (fun m => (Ok (map fst (m_roots m)), m))
  (fun v => m_update (RRev v))
  (fun a _ => m_update (RAuth a))
  (fun now m => (Ok tt, mk_memory (filter (fun x => match x with RAuth a => duration_ltb now (expires_at (auth_trust a)) | RRev _ => true end) (m_relations m)) (m_roots m))).
(** The states it can be in: one relation for a pair of keys, and times in whole seconds. *)
Definition m_good (m : memory) : Prop :=
  NoDup (map (fun x => (rel_issued_for x, rel_issued_by x)) (m_relations m)) /\ forall x, In x (m_relations m) -> plain x.
(** What the SQLite storage holds, and the states it can be in. *)
Definition sqlite_contents (C : crypto) (w : world) : list relation := match parse_rows C (tbl_relations (w_db w)) with Ok l => l | _ => [] end.
Definition sqlite_good (C : crypto) (w : world) : Prop := exists rs roots,
  w_db w = mk_db (map row_of_relation rs) (map (fun kf => (key_text (fst kf), Z.of_N (snd kf))) roots) /\
  Forall (fun x => pk_valid C (rel_issued_for x) /\ pk_valid C (rel_issued_by x) /\ sig_valid C (rel_signature x) /\ whole_secs (rel_issued_at x) /\ whole_secs (rel_expires_at x)) rs /\
  NoDup (map (fun x => (rel_issued_for x, rel_issued_by x)) rs) /\
  Forall (fun kf => pk_valid C (fst kf) /\ snd kf < u32_bound) roots.
