(** A clock that was wrong for a while. *)
From Coq Require Import List NArith ZArith Bool.
From Verif Require Import Base Text Keys Trust Certificate Relation Storage Graph Spec MachineSpec CopySpec.
Import ListNotations.
Open Scope N_scope.

(** Only questions, about any keys, at any times, failing anywhere. *)
Definition only_questions (es : list (graph_call * option nat)) : Prop := Forall (fun e => is_query (fst e)) es.
(** No key of one of the certificates is revoked by a key before it. *)
Definition unrevoked (d : db) (cs : list certificate) : Prop :=
  forall c i j v, In c cs -> (i < j)%nat -> key_at c i (revoked_by v) -> key_at c j (rev_pk v) -> ~ stored_revocation d v.
(** The certificates the store told of the keys [ks] at [asked], added again at [now]. *)
Definition adding_again (C : crypto) (d : db) (asked now : duration) (ks : list public_key) : list (graph_call * option nat) :=
  no_failures (map (fun c => G_add c now) (told C d asked ks)).
