(** Nodes whose services are sent the same records of trusts. *)
From Coq Require Import List NArith ZArith Bool.
From Verif Require Import Base Text Keys Trust Certificate Relation Storage Graph Service Spec ServiceSpec GossipSpec.
Import ListNotations.
Open Scope N_scope.

(** A record of a trust and the peer that gives it. *)
Definition notice := (dto_trust * text)%type.
Definition stands_for (C : crypto) (x : notice) (p : piece) : Prop := trust_record C (fst x) (fst p) /\ peer_key C (snd x) (snd p).
(** Records of signed trusts that are still good at [hi]. Of one key for another there is one for every time. *)
Definition notices (C : crypto) (hi : N) (ns : list notice) : Prop := exists T, Forall2 (stands_for C) ns T /\ news C (from_secs hi) T.
(** A call that passes [x] on to a service, with the time of that node. The record is not ahead of that time, and that time is between [lo] and [hi]. *)
Definition posts (lo hi : N) (x : notice) (e : service_event) : Prop :=
  exists cp ts, e = (cp, S_add_trust (fst x) (snd x) ts, None) /\ host_time cp 2 /\ dt_issued_at (fst x) <= ts /\ lo <= ts <= hi.
(** Calls that pass on each of the records at least once, in any order, and nothing else. *)
Definition posting (ns : list notice) (lo hi : N) (es : list service_event) : Prop :=
  (forall e, In e es -> exists x, In x ns /\ posts lo hi x e) /\ (forall x, In x ns -> exists e, In e es /\ posts lo hi x e).
(** Nothing in the store runs out after [lo] and before or at [hi]. *)
Definition steady (d : db) (lo hi : N) : Prop := forall x, stored d x -> db_expired (from_secs hi) x -> db_expired (from_secs lo) x.
(** There is room for [n] more relations. *)
Definition room (d : db) (n : nat) : Prop := N.of_nat (length (tbl_relations d) + n) + 17 < u32_bound.
