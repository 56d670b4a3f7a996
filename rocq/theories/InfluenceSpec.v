(** Who can influence whose certificates and weight, in terms of what the store contains. *)
From Coq Require Import List NArith ZArith Bool.
From Verif Require Import Base Text Keys Trust Certificate Relation Storage Graph Spec.
Import ListNotations.
Open Scope N_scope.

(** The store holds the trust [t] given by [b], and it is not expired at [now]. *)
Definition live (d : db) (now : duration) (b : public_key) (t : trust) : Prop := stored_trust d b t /\ ~ db_expired now (RAuth (mk_auth t b)).

(** There is a path of live trusts from a root to the key. Revocations play no part. *)
Inductive linked (d : db) (now : duration) : public_key -> Prop :=
| linked_root : forall k, is_root d k -> linked d now k
| linked_by : forall b t, linked d now b -> live d now b t -> linked d now (issued_for t).

(** There is a path of live trusts from the key to [pk], maybe of no trusts. *)
Inductive leads (d : db) (now : duration) (pk : public_key) : public_key -> Prop :=
| leads_here : leads d now pk pk
| leads_over : forall b t, live d now b t -> leads d now pk (issued_for t) -> leads d now pk b.

(** A question about [pk] at [now]. *)
Definition about (pk : public_key) (now : duration) (q : graph_call) : Prop :=
  q = G_weight pk now \/ q = G_get_all_certs pk now \/ (exists i, q = G_weight_from pk i now) \/ (exists i, q = G_get_all_certs_from pk i now).

(** The calls set no roots, are made at times not after [now], and all they offer for import satisfies [P]. *)
Definition only_offers (P : relation -> Prop) (now : duration) (es : list (graph_call * option nat)) : Prop :=
  forall c fu, In (c, fu) es ->
    (forall k n, c <> G_set_root k n) /\ (forall t, call_time c = Some t -> in_order t now) /\ (forall x, offers c x -> P x).

(** The certificate holds no trust given by [k]. *)
Definition not_through (k : public_key) (c : certificate) : Prop := forall i, (S i < length c)%nat -> ~ key_at c i k.
