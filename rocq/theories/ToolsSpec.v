(** The vocabulary of the properties of the example and of the admin tool. *)
From Coq Require Import List NArith ZArith Bool.
From Verif Require Import Base Text Keys Trust Certificate Relation Storage Graph Service Spec ServiceSpec Aqua AquaSpec Boot BootSpec Tools.
Import ListNotations.
Open Scope N_scope.

(** Some certificate for [k] has the key [b] in it: a chain of stored trusts from a root, in which nobody has revoked a
    later key, except the direct issuer of [k]. *)
Definition trusted_by (d : db) (b k : public_key) : Prop :=
  exists c, root_chain d k c /\ (forall i j, revokes_at d c i j -> direct_issuer_pos c j) /\ exists n, key_at c n b.

(** Key [b] has the chain [c], shorter than its root allows; nobody in it has revoked another key of it and nobody but [b]
    has revoked one of the keys [ks], which are not in it. *)
Record can_grant (d : db) (b : public_key) (c : certificate) (ks : list public_key) : Prop := mk_can_grant {
  cg_chain : root_chain d b c;
  cg_short : exists k0 m, key_at c 0 k0 /\ root_max_len d k0 m /\ N.of_nat (length c - 1) < m;
  cg_fresh : forall k, In k ks -> ~ In k (map issued_for c);
  cg_quiet : forall v, stored_revocation d v -> In (revoked_by v) (map issued_for c) -> ~ In (rev_pk v) (map issued_for c);
  cg_open : forall v, stored_revocation d v -> In (revoked_by v) (map issued_for c) -> In (rev_pk v) ks -> revoked_by v = b
}.
(** No trust of [c] expires until second [now]. *)
Definition alive_until (c : certificate) (now : N) : Prop := forall t, In t c -> now < secs (expires_at t) < i64_bound.
(** Everything stored that [b] said about [k] was said before second [i]. *)
Definition said_before (d : db) (b k : public_key) (i : N) : Prop :=
  forall z, stored d z -> rel_issued_by z = b -> rel_issued_for z = k -> secs (rel_issued_at z) < i.

(** The two answers of the computation. *)
Definition ran : list N * list computation_error := ([5], []).
Definition refused : list N * list computation_error := ([], [CE_no_certs]).

(** The clock of the relay does not go back, and the two waits of one second are between its answers. *)
Definition example_clock (t : nat -> N) (current_time : N) : Prop :=
  (forall i j, (i <= j)%nat -> t i <= t j) /\ t 5%nat < t 6%nat /\ t 15%nat < t 16%nat /\
  t 20%nat < current_time + 9999999 /\ current_time + 9999999 < i64_bound.

(** The key pairs and node keys the admin tool works with. *)
Record admin_input (C : crypto) (root issuer example : keypair) (peers : list text) (ks : list public_key) : Prop := mk_admin_input {
  ai_pairs : kp_valid C root /\ kp_valid C issuer /\ kp_valid C example;
  ai_peers : Forall2 (peer_key C) peers ks;
  ai_keys : NoDup (kp_public C root :: kp_public C issuer :: kp_public C example :: ks)
}.
(** The certificates it should write: [e] is the expiry, [i] the time. *)
Definition admin_output (C : crypto) (root issuer example : keypair) (ks : list public_key) (e i : N) (cs : list certificate) : Prop :=
  exists tr ti te ts,
    trust_asked C (kp_public C root) (kp_public C root) e i tr /\
    trust_asked C (kp_public C root) (kp_public C issuer) e i ti /\
    trust_asked C (kp_public C root) (kp_public C example) e i te /\
    Forall2 (fun k t => trust_asked C (kp_public C issuer) k e i t) ks ts /\
    cs = [tr; te] :: map (fun t => [tr; ti; t]) ts.
(** A start of a node with the records [cs], at times before second [e], without database failures. *)
Definition started_with (cs : list dto_certificate) (e : N) (boots : list (dto_certificate * N * option nat)) : Prop :=
  map (fun x => fst (fst x)) boots = cs /\ forall i now fu, In (i, now, fu) boots -> now < e /\ fu = None.
