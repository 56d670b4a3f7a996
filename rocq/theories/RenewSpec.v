(** Chains of trusts that are renewed in time. *)
From Coq Require Import List NArith ZArith Bool.
From Verif Require Import Base Text Keys Trust Certificate Relation Storage Graph Spec.
Import ListNotations.
Open Scope N_scope.

(** On the chain [ks] the key [a] is to trust [b]: [b] comes next, or both are the first key. *)
Definition on_chain (ks : list public_key) (a b : public_key) : Prop :=
  (nth_error ks 0 = Some a /\ b = a) \/ exists i, nth_error ks i = Some a /\ nth_error ks (S i) = Some b.
(** A trust of [a] that the store holds, or that an add_trust in which no statement fails brings, signed. *)
Definition given (C : crypto) (d : db) (es : list (graph_call * option nat)) (a : public_key) (t : trust) : Prop :=
  stored_trust d a t \/ exists now, In (G_add_trust t a now, None) es /\ signed_trust C a t.
(** For every step of the chain a trust was given that expires after [now]. *)
Definition covered (C : crypto) (d : db) (es : list (graph_call * option nat)) (ks : list public_key) (now : duration) : Prop :=
  forall a b, on_chain ks a b -> exists t, given C d es a t /\ issued_for t = b /\ secs now < secs (expires_at t).
(** At every call that has a time this was so before the call. *)
Definition renewed_in_time (C : crypto) (d : db) (es : list (graph_call * option nat)) (ks : list public_key) : Prop :=
  forall earlier c fu later now, es = earlier ++ (c, fu) :: later -> call_time c = Some now -> covered C d earlier ks now.
(** A trust of [a] that the store holds or that any call brings, signed. *)
Definition ever_offered (C : crypto) (d : db) (es : list (graph_call * option nat)) (a : public_key) (t : trust) : Prop :=
  stored_trust d a t \/ exists c fu, In (c, fu) es /\ offers_trust c t a /\ signed_trust C a t.
(** The trusts for a step of the chain expire before 2^63 seconds, and those made later expire no earlier. *)
Definition renewals_last (C : crypto) (d : db) (es : list (graph_call * option nat)) (ks : list public_key) : Prop :=
  forall a t, on_chain ks a (issued_for t) -> ever_offered C d es a t ->
    secs (expires_at t) < i64_bound /\
    forall t', ever_offered C d es a t' -> issued_for t' = issued_for t -> secs (issued_at t) <= secs (issued_at t') -> secs (expires_at t) <= secs (expires_at t').
(** No key of the chain revokes another. *)
Definition no_revocation_among (C : crypto) (d : db) (es : list (graph_call * option nat)) (ks : list public_key) : Prop :=
  forall v, stored_revocation d v \/ ((exists fu, In (G_revoke v, fu) es) /\ signed_revocation C v) -> ~ (In (revoked_by v) ks /\ In (rev_pk v) ks).
