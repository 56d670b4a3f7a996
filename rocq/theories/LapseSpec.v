(** How long certificates last. Used in C211. *)
From Coq Require Import List NArith.
From Verif Require Import Base Keys Trust Certificate Storage Graph Spec Service ServiceSpec JumpServedSpec ExtendSpec.
Import ListNotations.
Open Scope N_scope.

(** No trust of the certificate has expired at [b]. *)
Definition lasting (b : duration) (c : certificate) : Prop := forall t, In t c -> secs b < secs (expires_at t).
(** Only questions, about any keys, failing anywhere, none of them at a time after [b]. *)
Definition asked_until (b : duration) (es : list (graph_call * option nat)) : Prop :=
  forall c fu, In (c, fu) es -> is_query c /\ forall n, call_time c = Some n -> secs n <= secs b.
(** The same of the records of the service and its calls. *)
Definition s_lasting (ts : N) (x : dto_certificate) : Prop := forall r, In r x -> ts < dt_expires_at r.
Definition s_asked_until (ts : N) (es : list service_event) : Prop :=
  forall cp c fu, In (cp, c, fu) es -> brings_nothing c /\ forall n i, given_time c = Some (n, i) -> n <= ts.
(** [v] is the weight the records of a certificate give to their last peer. *)
Definition record_weight (C : crypto) (d : db) (x : dto_certificate) (v : N) : Prop :=
  exists root m, names C x 0 root /\ root_max_len d root m /\ v = chain_weight m (length x - 1).
