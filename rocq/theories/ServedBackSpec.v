(** Taking a revocation back and replacing a key, through the service. *)
From Coq Require Import List NArith ZArith Bool.
From Verif Require Import Base Text Keys Trust Certificate Relation Storage Graph Service Spec ServiceSpec ServiceMachine InfluenceSpec ServedSpec BackSpec RotateSpec.
Import ListNotations.
Open Scope N_scope.

(** The admitted calls set no roots, are made at times not after [now], and all they bring satisfies [P]. *)
Definition s_only_offers (C : crypto) (P : relation -> Prop) (now : duration) (es : list service_event) : Prop :=
  forall cp c fu g, In (cp, c, fu) es -> admitted cp c -> requests C cp c g ->
    (forall k n, g <> G_set_root k n) /\ (forall t, call_time g = Some t -> in_order t now) /\ (forall x, offers g x -> P x).
(** The trust was made in a later second than whatever else [b] ever signed about its key, in the store or in the calls. *)
Definition s_last_word (C : crypto) (d : db) (es : list service_event) (t : trust) (b : public_key) : Prop :=
  forall z, stored d z \/ (exists cp c fu g, In (cp, c, fu) es /\ admitted cp c /\ requests C cp c g /\ offers g z) ->
    between b (issued_for t) z -> secs (rel_issued_at z) < secs (issued_at t).
(** No statement fails. *)
Definition unfailing (es : list service_event) : Prop := forall cp c fu, In (cp, c, fu) es -> fu = None.

(** Calls of add_trust: circumstances, record, issuer, time. *)
Definition gift := (call_params * dto_trust * text * N)%type.
Definition give_calls (gs : list gift) : list service_event :=
  map (fun x => (fst (fst (fst x)), S_add_trust (snd (fst (fst x))) (snd (fst x)) (snd x), None)) gs.
(** The record is of the trust [t], the issuer the peer of [b], and the time [s] that of the host and not before the trust was made. *)
Definition good_gift (C : crypto) (x : gift) (y : trust * public_key * duration) : Prop :=
  host_time (fst (fst (fst x))) 2 /\ dt_issued_at (snd (fst (fst x))) <= snd x < u64_bound /\ dto_trust_typed (snd (fst (fst x))) /\
  trust_record C (snd (fst (fst x))) (fst (fst y)) /\ peer_key C (snd (fst x)) (snd (fst y)) /\ snd y = from_secs (snd x).
(** Each is answered with a weight that is not zero. *)
Definition gifts_taken (C : crypto) (d : db) (gs : list gift) : Prop :=
  Forall (fun r => exists w, r = Ok (mk_response true None (P_added w)) /\ w <> 0) (responses C d (give_calls gs)).
