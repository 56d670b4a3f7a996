(** What callers of the service cannot do without the signatures of others. *)
From Coq Require Import List NArith ZArith Bool Permutation.
From Verif Require Import Base Text Keys Trust Certificate Relation Storage Graph Service Spec ServiceSpec InfluenceSpec.
Import ListNotations.
Open Scope N_scope.

(** The store holds a relation of the same keys that is not expired at [now] and not older than [x]. *)
Definition superseded (d : db) (now : duration) (x : relation) : Prop :=
  exists y, stored d y /\ ~ db_expired now y /\ same_keys x y /\ ~ before (rel_issued_at y) (rel_issued_at x).

(** The service does not check where the time of the call comes from: [insert_cert], [insert_cert_raw], [get_weight_from]. *)
Definition unchecked_time (c : service_call) : bool := inserts_cert c || is_get_weight_from c.

(** Calls by visitors up to the time [now]. None is by the owner of the service to set a root; the host's clock does not go
    beyond [now], nor do the times that the service does not check; and of all records and texts in the calls, those whose
    signatures are good satisfy [P] or are superseded in the store [d]. Whatever else the visitors make up is allowed. *)
Definition visits (C : crypto) (P : relation -> Prop) (d : db) (now : duration) (es : list service_event) : Prop :=
  forall cp c fu, In (cp, c, fu) es ->
    (forall p n, c = S_set_root p n -> init_peer_id cp <> service_creator_peer_id cp) /\
    (forall ts i, given_time c = Some (ts, i) -> host_time cp i \/ unchecked_time c = true -> in_order (from_secs ts) now) /\
    (forall g x, requests C cp c g -> offers g x -> genuine C g x -> P x \/ superseded d now x).

(** The same response, certificates up to their order. *)
Definition same_response (r r' : result Empty_set response) : Prop :=
  match r, r' with
  | Ok (mk_response s e (P_certs cs)), Ok (mk_response s' e' (P_certs cs')) => s = s' /\ e = e' /\ Permutation cs cs'
  | _, _ => r = r'
  end.
