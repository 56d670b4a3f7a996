(** Two nodes, one of which hears of more trusts and of fewer revocations. *)
From Coq Require Import List NArith ZArith Bool.
From Verif Require Import Base Text Keys Trust Certificate Relation Storage Graph Spec.
Import ListNotations.
Open Scope N_scope.

(** The second history is the first, except that some revocations and questions are missing, and that some questions are
    replaced by trusts or certificates brought, or by other questions, at the same time. *)
Inductive trusts_more : list graph_call -> list graph_call -> Prop :=
| tm_end : trusts_more [] []
| tm_same : forall c cs cs', trusts_more cs cs' -> trusts_more (c :: cs) (c :: cs')
| tm_misses : forall v cs cs', trusts_more cs cs' -> trusts_more (G_revoke v :: cs) cs'
| tm_not_asked : forall q cs cs', is_query q -> trusts_more cs cs' -> trusts_more (q :: cs) cs'
| tm_hears : forall q c now cs cs', is_query q -> call_time q = Some now -> call_time c = Some now -> trusts_more cs cs' -> trusts_more (q :: cs) (c :: cs').

(** A trust of [b] that the store holds or a call brings, signed. *)
Definition known (C : crypto) (d : db) (cs : list graph_call) (b : public_key) (t : trust) : Prop :=
  stored_trust d b t \/ exists c, In c cs /\ offers_trust c t b /\ signed_trust C b t.
(** Trusts expire before 2^63 seconds, and of two trusts of one key for another the one made later expires no earlier. *)
Definition renewals_extend (C : crypto) (d : db) (cs : list graph_call) : Prop :=
  (forall b t, known C d cs b t -> secs (expires_at t) < i64_bound) /\
  forall b t t', known C d cs b t -> known C d cs b t' -> issued_for t = issued_for t' ->
    secs (issued_at t) <= secs (issued_at t') -> secs (expires_at t) <= secs (expires_at t').

(** [l'] is what remains of [l], in the order of [l], when just the elements that are [P] are kept. *)
Inductive picks {A : Type} (P : A -> Prop) : list A -> list A -> Prop :=
| picks_end : picks P [] []
| picks_keep : forall x l l', P x -> picks P l l' -> picks P (x :: l) (x :: l')
| picks_drop : forall x l l', ~ P x -> picks P l l' -> picks P (x :: l) l'.
