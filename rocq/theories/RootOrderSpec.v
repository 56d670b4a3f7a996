(** Roots set one after the other. Used in C216. *)
From Coq Require Import List NArith.
From Verif Require Import Base Text Keys Graph GraphFacts Service ServiceSpec.
Import ListNotations.

(** The keys are made roots with their lengths, in this order. *)
Definition set_roots (l : list (public_key * N)) : list graph_call := map (fun r => G_set_root (fst r) (snd r)) l.
(** The same at the service, by the caller [cp]. *)
Definition s_set_roots (cp : call_params) (l : list (text * N)) : list service_event := map (fun r => (cp, S_set_root (fst r) (snd r), None)) l.
(** The peers of [l] have the keys of [ks], one by one, with the same lengths. *)
Definition keys_of_peers (C : crypto) (l : list (text * N)) (ks : list (public_key * N)) : Prop :=
  Forall2 (fun r k => peer_key C (fst r) (fst k) /\ snd k = snd r) l ks.
