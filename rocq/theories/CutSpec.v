(** Keys that are cut off by revocations. *)
From Coq Require Import List NArith ZArith Bool.
From Verif Require Import Base Text Keys Trust Certificate Relation Storage Graph Spec RenewSpec.
Import ListNotations.
Open Scope N_scope.

(** Every trust that a key outside [ks] gives to one of [ks], stored in [d] or signed and brought in by a call of [es], was made in an
    earlier second than a revocation of [vs] of the same two keys. *)
Definition cut_off_by (C : crypto) (d : db) (es : list (graph_call * option nat)) (vs : list revocation) (ks : list public_key) : Prop :=
  forall b t, ~ In b ks -> In (issued_for t) ks -> ever_offered C d es b t ->
    exists v, In v vs /\ revoked_by v = b /\ rev_pk v = issued_for t /\ secs (issued_at t) < secs (revoked_at v).
(** First the revocations, in which no statement fails, then whatever else. *)
Definition revoking (vs : list revocation) (es : list (graph_call * option nat)) : list (graph_call * option nat) :=
  map (fun v => (G_revoke v, None)) vs ++ es.
(** None of the keys is a root or made one. *)
Definition never_roots (d : db) (es : list (graph_call * option nat)) (ks : list public_key) : Prop :=
  (forall k, In k ks -> ~ is_root d k) /\ forall k n fu, In (G_set_root k n, fu) es -> ~ In k ks.
