(** Renewed trusts and keys that are cut off, through the service. *)
From Coq Require Import List NArith ZArith Bool.
From Verif Require Import Base Text Keys Trust Certificate Relation Storage Graph Service Spec ServiceSpec RenewSpec.
Import ListNotations.
Open Scope N_scope.

(** A trust of [a] that the store holds, or that an admitted add_trust in which no statement fails brings, signed. *)
Definition s_given (C : crypto) (d : db) (es : list service_event) (a : public_key) (t : trust) : Prop :=
  stored_trust d a t \/ exists cp r i ts, In (cp, S_add_trust r i ts, None) es /\ admitted cp (S_add_trust r i ts) /\
    trust_record C r t /\ peer_key C i a /\ signed_trust C a t.
(** For every step of the chain a trust was given that expires after [now]. *)
Definition s_covered (C : crypto) (d : db) (es : list service_event) (ks : list public_key) (now : duration) : Prop :=
  forall a b, on_chain ks a b -> exists t, s_given C d es a t /\ issued_for t = b /\ secs now < secs (expires_at t).
(** At every admitted call that asks the graph for something at a time this was so before the call. *)
Definition s_renewed_in_time (C : crypto) (d : db) (es : list service_event) (ks : list public_key) : Prop :=
  forall earlier cp c fu later g now, es = earlier ++ (cp, c, fu) :: later -> admitted cp c -> requests C cp c g -> call_time g = Some now ->
    s_covered C d earlier ks now.
(** A trust of [a] that the store holds or that any call brings, signed. *)
Definition s_offered_ever (C : crypto) (d : db) (es : list service_event) (a : public_key) (t : trust) : Prop :=
  stored_trust d a t \/ exists cp c fu g, In (cp, c, fu) es /\ admitted cp c /\ requests C cp c g /\ offers_trust g t a /\ signed_trust C a t.
(** The trusts for a step of the chain expire before 2^63 seconds, and those made later expire no earlier. *)
Definition s_renewals_last (C : crypto) (d : db) (es : list service_event) (ks : list public_key) : Prop :=
  forall a t, on_chain ks a (issued_for t) -> s_offered_ever C d es a t ->
    secs (expires_at t) < i64_bound /\
    forall t', s_offered_ever C d es a t' -> issued_for t' = issued_for t -> secs (issued_at t) <= secs (issued_at t') -> secs (expires_at t) <= secs (expires_at t').
(** No key of the chain revokes another. *)
Definition s_no_revocation_among (C : crypto) (d : db) (es : list service_event) (ks : list public_key) : Prop :=
  forall v, stored_revocation d v \/ ((exists cp r ts fu, In (cp, S_revoke r ts, fu) es /\ revocation_record C r v) /\ signed_revocation C v) ->
    ~ (In (revoked_by v) ks /\ In (rev_pk v) ks).

(** Calls that bring in revocations: circumstances, record, time. *)
Definition revoke_calls (rs : list (call_params * dto_revocation * N)) : list service_event :=
  map (fun x => (fst (fst x), S_revoke (snd (fst x)) (snd x), None)) rs.
(** The record is of the signed revocation [v], and the time is that of the host and not before it. *)
Definition good_revocation (C : crypto) (x : call_params * dto_revocation * N) (v : revocation) : Prop :=
  host_time (fst (fst x)) 1 /\ dr_revoked_at (snd (fst x)) <= snd x < u64_bound /\ revocation_record C (snd (fst x)) v /\ signed_revocation C v.
(** Every trust that a key outside [ks] gives to one of [ks], stored in [d] or signed and brought in by a call of [es], was made in an
    earlier second than a revocation of [vs] of the same two keys. *)
Definition s_cut_off_by (C : crypto) (d : db) (es : list service_event) (vs : list revocation) (ks : list public_key) : Prop :=
  forall b t, ~ In b ks -> In (issued_for t) ks -> s_offered_ever C d es b t ->
    exists v, In v vs /\ revoked_by v = b /\ rev_pk v = issued_for t /\ secs (issued_at t) < secs (revoked_at v).
(** None of the keys is a root or made one by the owner. *)
Definition s_never_roots (C : crypto) (d : db) (es : list service_event) (ks : list public_key) : Prop :=
  (forall k, In k ks -> ~ is_root d k) /\
  forall cp p n fu k, In (cp, S_set_root p n, fu) es -> init_peer_id cp = service_creator_peer_id cp -> peer_key C p k -> ~ In k ks.
