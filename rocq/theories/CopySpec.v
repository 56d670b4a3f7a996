(** Copying the standing of keys from one store to another. *)
From Coq Require Import List NArith ZArith Bool.
From Verif Require Import Base Text Keys Trust Certificate Relation Storage Graph Spec MachineSpec.
Import ListNotations.
Open Scope N_scope.

(** What a store tells when asked for the certificates and the revocations of a key. *)
Definition certs_told (C : crypto) (d : db) (now : duration) (k : public_key) : list certificate :=
  match fst (graph_step C d (G_get_all_certs k now, None)) with Ok (GR_certs cs) => cs | _ => [] end.
Definition revocations_told (C : crypto) (d : db) (k : public_key) : list revocation :=
  match fst (graph_step C d (G_get_revocations k, None)) with Ok (GR_revs vs) => vs | _ => [] end.
(** The calls that copy: first all certificates of the keys [ks], as the store tells them at [asked], are added at [now], then
    for every key in one of them all its revocations. *)
Definition told (C : crypto) (d : db) (asked : duration) (ks : list public_key) : list certificate := flat_map (certs_told C d asked) ks.
Definition copying (C : crypto) (d : db) (asked now : duration) (ks : list public_key) : list graph_call :=
  map (fun c => G_add c now) (told C d asked ks) ++
  map G_revoke (flat_map (revocations_told C d) (flat_map (map issued_for) (told C d asked ks))).

(** Every certificate is within the length of its root. *)
Definition within (d : db) (cs : list certificate) : Prop :=
  forall c t l, In c cs -> at_pos c 0 t -> root_max_len d (issued_for t) l -> N.of_nat (length c - 1) <= l.
(** All their trusts are unexpired at [now]. *)
Definition fresh (now : duration) (cs : list certificate) : Prop :=
  forall c t, In c cs -> In t c -> before now (expires_at t).
(** The questions about one key at one time. *)
Inductive question (k : public_key) (now : duration) : graph_call -> Prop :=
| q_weight : question k now (G_weight k now)
| q_weight_from : forall i, question k now (G_weight_from k i now)
| q_certs : question k now (G_get_all_certs k now)
| q_certs_from : forall i, question k now (G_get_all_certs_from k i now).
(** The store has the same roots as the other, with the same lengths, and no relations. *)
Definition blank_copy (d d' : db) : Prop :=
  (forall k l, root_max_len d' k l <-> root_max_len d k l) /\ forall x, ~ stored d' x.
