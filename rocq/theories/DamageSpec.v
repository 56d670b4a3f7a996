(** Databases that hold anything: rows that cannot be read, forged rows. *)
From Coq Require Import List NArith ZArith Bool.
From Verif Require Import Base Text Keys Trust Certificate Relation Storage Graph Spec.
Import ListNotations.
Open Scope N_scope.

(** The row holds the texts of two keys, the bytes of a signature, and is a trust or a revocation. *)
Definition readable (C : crypto) (r : row) : Prop :=
  (exists k, pk_from_str C (r_for r) = Ok k) /\ (exists k, pk_from_str C (r_by r) = Ok k) /\ (exists s, sig_decode C (r_sig r) = Ok s).
Definition counts (C : crypto) (r : row) : Prop := readable C r /\ (r_type r = 0%Z \/ r_type r = 1%Z).
(** No row lacks its issuer or its signature, no root its key. *)
Definition no_blanks (d : db) : Prop :=
  (forall r, In r (tbl_relations d) -> r_by r <> [] /\ r_sig r <> []) /\ (forall x, In x (tbl_roots d) -> fst x <> []).
(** [d'] is [d] without the rows that do not count. *)
Definition cleaned (C : crypto) (d d' : db) : Prop :=
  tbl_roots d' = tbl_roots d /\
  exists keep, tbl_relations d' = filter keep (tbl_relations d) /\ forall r, In r (tbl_relations d) -> (keep r = true <-> counts C r).
(** The row is about this pair of keys. *)
Definition row_of_pair (r : row) (for_pk by_pk : public_key) : Prop := r_for r = key_text for_pk /\ r_by r = key_text by_pk.
(** The pairs of keys whose relation a call may set. *)
Fixpoint chain_pairs (c : list trust) (by_pk : public_key) : list (public_key * public_key) :=
  match c with [] => [] | t :: c' => (issued_for t, by_pk) :: chain_pairs c' (issued_for t) end.
Definition call_pairs (c : graph_call) : list (public_key * public_key) :=
  match c with
  | G_add_trust t b _ => [(issued_for t, b)]
  | G_add (t :: c) _ => chain_pairs (t :: c) (issued_for t)
  | G_revoke v => [(rev_pk v, revoked_by v)]
  | _ => []
  end.
(** None of these pairs has a row that does not count. *)
Definition clear_of (C : crypto) (d : db) (c : graph_call) : Prop :=
  forall r f b, In (f, b) (call_pairs c) -> In r (tbl_relations d) -> row_of_pair r f b -> counts C r.
(** Every root's key can be read. *)
Definition roots_readable (C : crypto) (d : db) : Prop := forall x, In x (tbl_roots d) -> exists k, pk_from_str C (fst x) = Ok k.
(** The table is keyed by the pair, as its declaration says. *)
Definition pairs_unique (d : db) : Prop := NoDup (map (fun r => (r_for r, r_by r)) (tbl_relations d)).
(** The row is a trust whose time is up. *)
Definition row_expired (now : duration) (r : row) : Prop := r_type r = 0%Z /\ (r_expires_at r <= i64_of_u64 (secs now))%Z.
(** What a row says, if it is of a trust: this trust, given by this key. *)
Definition row_says (C : crypto) (r : row) (t : trust) (by_pk : public_key) : Prop :=
  r_type r = 0%Z /\ pk_from_str C (r_for r) = Ok (issued_for t) /\ pk_from_str C (r_by r) = Ok by_pk /\ sig_decode C (r_sig r) = Ok (trust_sig t) /\
  expires_at t = from_secs (u64_of_i64 (r_expires_at r)) /\ issued_at t = from_secs (u64_of_i64 (r_issued_at r)).
