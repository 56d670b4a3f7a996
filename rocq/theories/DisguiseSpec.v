(** Two runs of the library in which only the names of the keys, the readings of the clock and the signatures differ. *)
From Coq Require Import List NArith ZArith Bool Permutation.
From Verif Require Import Base Text Keys Trust Certificate Relation Storage Graph Spec MachineSpec.
Import ListNotations.
Open Scope N_scope.

(** Which keys and seconds of the second run stand for which of the first, and which trusts may stand for which as far as their
    signatures are concerned. *)
Record disguise := mk_disguise {
  names : public_key -> public_key -> Prop; clock : N -> N -> Prop; seals : trust -> trust -> Prop }.
(** Different keys have different names, the seconds keep their order and stay below 2^63, and fractions of seconds do not matter for
    signatures. *)
Definition faithful (D : disguise) : Prop :=
  (forall a a' b b', names D a a' -> names D b b' -> (a = b <-> a' = b')) /\
  (forall s s' r r', clock D s s' -> clock D r r' -> (s < r <-> s' < r')) /\
  (forall s s', clock D s s' -> s < i64_bound /\ s' < i64_bound) /\
  (forall t t', seals D t t' -> seals D (whole_trust t) (whole_trust t')).

(** Two times, trusts, revocations, relations and certificates that stand for each other. *)
Definition same_time (D : disguise) (a a' : duration) : Prop := clock D (secs a) (secs a') /\ nanos a = nanos a'.
Definition same_trust (D : disguise) (t t' : trust) : Prop :=
  names D (issued_for t) (issued_for t') /\ same_time D (expires_at t) (expires_at t') /\
  same_time D (issued_at t) (issued_at t') /\ seals D t t'.
Definition same_revocation (D : disguise) (v v' : revocation) : Prop :=
  names D (rev_pk v) (rev_pk v') /\ names D (revoked_by v) (revoked_by v') /\
  same_time D (revoked_at v) (revoked_at v').
Definition same_relation (D : disguise) (x x' : relation) : Prop :=
  match x, x' with
  | RAuth a, RAuth a' => same_trust D (auth_trust a) (auth_trust a') /\ names D (issued_by a) (issued_by a')
  | RRev v, RRev v' => same_revocation D v v'
  | _, _ => False
  end.
Definition same_certificate (D : disguise) (c c' : certificate) : Prop := Forall2 (same_trust D) c c'.

(** Two calls that stand for each other. What is well signed in one is well signed in the other. *)
Definition same_call (D : disguise) (C C' : crypto) (c c' : graph_call) : Prop :=
  match c, c' with
  | G_set_root k n, G_set_root k' n' => names D k k' /\ n = n'
  | G_add_trust t b now, G_add_trust t' b' now' => same_trust D t t' /\ names D b b' /\ same_time D now now' /\
      (signed_trust C b t <-> signed_trust C' b' t')
  | G_add ch now, G_add ch' now' => same_certificate D ch ch' /\ same_time D now now' /\
      forall i t k t' k', at_pos ch i t -> key_at ch (i - 1) k -> at_pos ch' i t' -> key_at ch' (i - 1) k' ->
        (signed_trust C k t <-> signed_trust C' k' t')
  | G_weight k now, G_weight k' now' => names D k k' /\ same_time D now now'
  | G_weight_from k i now, G_weight_from k' i' now' => names D k k' /\ names D i i' /\ same_time D now now'
  | G_get_all_certs k now, G_get_all_certs k' now' => names D k k' /\ same_time D now now'
  | G_get_all_certs_from k i now, G_get_all_certs_from k' i' now' => names D k k' /\ names D i i' /\ same_time D now now'
  | G_revoke v, G_revoke v' => same_revocation D v v' /\ (signed_revocation C v <-> signed_revocation C' v')
  | G_get_revocations k, G_get_revocations k' => names D k k'
  | _, _ => False
  end.

(** Two stores that stand for each other. *)
Definition same_store (D : disguise) (d d' : db) : Prop :=
  (forall x, stored d x -> exists x', same_relation D x x' /\ stored d' x') /\
  (forall x', stored d' x' -> exists x, same_relation D x x' /\ stored d x) /\
  (forall k m, root_max_len d k m -> exists k', names D k k' /\ root_max_len d' k' m) /\
  (forall k' m, root_max_len d' k' m -> exists k, names D k k' /\ root_max_len d k m).

(** One list holds what stands for what the other holds, in another order perhaps. *)
Definition same_list {A} (R : A -> A -> Prop) (l l' : list A) : Prop := exists p, Permutation p l' /\ Forall2 R l p.
(** Two answers that stand for each other: both succeed or both fail, with the same weight, with certificates and revocations that
    stand for each other. *)
Definition same_outcome (D : disguise) (r r' : result graph_error graph_reply) : Prop :=
  match r, r' with
  | Ok GR_unit, Ok GR_unit => True
  | Ok (GR_weight w), Ok (GR_weight w') => w = w'
  | Ok (GR_certs cs), Ok (GR_certs cs') => same_list (same_certificate D) cs cs'
  | Ok (GR_revs vs), Ok (GR_revs vs') => same_list (same_revocation D) vs vs'
  | Err _, Err _ => True
  | _, _ => False
  end.
