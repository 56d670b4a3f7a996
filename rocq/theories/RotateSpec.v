(** Replacing a key by another. *)
From Coq Require Import List NArith ZArith Bool.
From Verif Require Import Base Text Keys Trust Certificate Relation Storage Graph Spec InfluenceSpec MachineSpec.
Import ListNotations.
Open Scope N_scope.

(** [k'] is [k], but the new key stands for the old one. *)
Definition stands_for (old new k k' : public_key) : Prop := (k = old /\ k' = new) \/ (k <> old /\ k' = k).
(** The store knows nothing of the key. *)
Definition unknown (d : db) (k : public_key) : Prop := ~ is_root d k /\ forall x, stored d x -> rel_issued_by x <> k /\ rel_issued_for x <> k.

(** Trusts, each with the key that gives it and the time it is added. *)
Definition giving (ts : list (trust * public_key * duration)) : list graph_call := map (fun x => G_add_trust (fst (fst x)) (snd (fst x)) (snd x)) ts.
(** They are given to the new key or by it, none to the old one, at most one by each key to each, at times not after [now], and hold at [now]. *)
Definition for_the_new (old new : public_key) (now : duration) (ts : list (trust * public_key * duration)) : Prop :=
  NoDup (map (fun x => (snd (fst x), issued_for (fst (fst x)))) ts) /\
  forall t b s, In (t, b, s) ts -> (b = new \/ issued_for t = new) /\ issued_for t <> old /\ in_order s now /\ secs now < secs (expires_at t) < i64_bound.
(** Whoever trusts the old key at [now] gives a trust to the new one, and the new key gives a trust to whomever the old one trusts. *)
Definition hands_over (d : db) (now : duration) (old new : public_key) (ts : list (trust * public_key * duration)) : Prop :=
  forall b t, live d now b t -> b = old \/ issued_for t = old ->
    exists t' b' s, In (t', b', s) ts /\ stands_for old new b b' /\ stands_for old new (issued_for t) (issued_for t').
(** All are taken on: the answer to each is a weight that is not zero. *)
Definition all_taken (C : crypto) (d : db) (ts : list (trust * public_key * duration)) : Prop :=
  Forall (fun r => exists w, r = Ok (GR_weight w) /\ w <> 0) (answers C d (no_failures (giving ts))).
(** First the trusts are added, then revocations of the old key. *)
Definition rotation (ts : list (trust * public_key * duration)) (vs : list revocation) : list (graph_call * option nat) :=
  no_failures (giving ts ++ map G_revoke vs).
