(** Words for how many certificates a key can be given. *)
From Coq Require Import List NArith Bool.
From Verif Require Import Base Text Keys Trust Certificate Relation Storage Graph Spec InfluenceSpec.
Import ListNotations.
Open Scope N_scope.

(** [c] goes from a root's own trust of itself down to [pk] over distinct keys, all its trusts are stored and live at [now], and no
    key on it has revoked a later one. *)
Definition clear_path (d : db) (now : duration) (pk : public_key) (c : certificate) : Prop :=
  NoDup (map issued_for c) /\
  key_at c (length c - 1) pk /\
  (forall t, at_pos c 0 t -> is_root d (issued_for t) /\ live d now (issued_for t) t) /\
  (forall i g t, at_pos c i g -> at_pos c (S i) t -> live d now (issued_for g) t) /\
  (forall i j, ~ revokes_at d c i j).
(** No stored relation is by or for the key. *)
Definition unknown_to (d : db) (k : public_key) : Prop :=
  forall x, stored d x -> rel_issued_by x <> k /\ rel_issued_for x <> k.

(** Every element with every later one. *)
Fixpoint each_later {A} (l : list A) : list (A * A) :=
  match l with [] => [] | a :: r => map (fun x => (a, x)) r ++ each_later r end.
(** Each key of the list gives each later one a trust: [T a k] is the trust of [a] in [k]. *)
Definition trust_each_later (T : public_key -> public_key -> trust) (now : duration) (ks : list public_key) : list graph_call :=
  map (fun x => G_add_trust (T (fst x) (snd x)) (fst x) now) (each_later ks).
