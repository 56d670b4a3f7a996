(** Taking a revocation back, and replacing a key by another. *)
From Coq Require Import List NArith ZArith Bool.
From Verif Require Import Base Text Keys Trust Certificate Relation Storage Graph Spec InfluenceSpec.
Import ListNotations.
Open Scope N_scope.

(** A trust or a revocation by [b] of [k]. *)
Definition between (b k : public_key) (x : relation) : Prop := rel_issued_by x = b /\ rel_issued_for x = k.
(** The trust was made in a later second than whatever else [b] ever signed about its key, in the store or in the calls. *)
Definition last_word (d : db) (es : list (graph_call * option nat)) (t : trust) (b : public_key) : Prop :=
  forall z, stored d z \/ (exists c fu, In (c, fu) es /\ offers c z) -> between b (issued_for t) z -> secs (rel_issued_at z) < secs (issued_at t).
