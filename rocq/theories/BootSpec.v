(** The vocabulary of the properties of the start script. *)
From Coq Require Import List NArith ZArith Bool.
From Verif Require Import Base Text Keys Trust Certificate Relation Storage Graph Service Spec ServiceSpec Aqua AquaSpec Boot.
Import ListNotations.
Open Scope N_scope.

(** Trust [t] of certificate [c] stands below key [b] (below its own key if it is the first). *)
Definition in_chain (c : certificate) (t : trust) (b : public_key) : Prop :=
  exists i, at_pos c i t /\ key_at c (i - 1) b.

(** Certificates with the times at which they are to be added to store [d], in which key [k0] is or will be a root with
    maximal length [m]. *)
Record good_family (C : crypto) (d : db) (k0 : public_key) (m : N) (l : list (certificate * duration)) : Prop := mk_family {
  (* at least two trusts, at most [m] after the first, the first for [k0], no key twice *)
  gf_shape : forall c now, In (c, now) l -> (2 <= length c)%nat /\ N.of_nat (length c - 1) <= m /\ key_at c 0 k0 /\ NoDup (map issued_for c);
  (* signed and not expired *)
  gf_good : forall c now i, In (c, now) l -> (i < length c)%nat -> good_at C c now i;
  gf_alive : forall c now c' now' t, In (c, now) l -> In (c', now') l -> In t c -> secs now' < secs (expires_at t) < i64_bound;
  (* two trusts of one key for another are the same *)
  gf_agree : forall c now c' now' t t' b, In (c, now) l -> In (c', now') l -> in_chain c t b -> in_chain c' t' b -> issued_for t = issued_for t' -> t = t';
  (* what is stored for the same keys is older or the same, and no key of a certificate has revoked another of it *)
  gf_newer : forall c now t b z, In (c, now) l -> in_chain c t b -> stored d z -> same_keys (RAuth (mk_auth t b)) z ->
     before (rel_issued_at z) (issued_at t) \/ z = whole (RAuth (mk_auth t b));
  gf_unrevoked : forall c now v, In (c, now) l -> stored_revocation d v -> In (revoked_by v) (map issued_for c) -> In (rev_pk v) (map issued_for c) -> False
}.

(** Adding the certificates one after the other, without database failures. *)
Definition adding (l : list (certificate * duration)) : list (graph_call * option nat) :=
  map (fun cn => (G_add (fst cn) (snd cn), None)) l.

(** The records of the start data stand for these certificates, and the clock gave these times. *)
Definition boot_input (C : crypto) (certs : list (dto_certificate * N * option nat)) (l : list (certificate * duration)) : Prop :=
  Forall2 (fun x cn => certificate_record C (fst (fst x)) (fst cn) /\ snd cn = from_secs (snd (fst x)) /\ snd x = None) certs l.
Definition boot_typed (certs : list (dto_certificate * N * option nat)) : Prop :=
  Forall (fun x => Forall dto_trust_typed (fst (fst x)) /\ snd (fst x) < u64_bound) certs.

(** A start with certificates that are good for store [d], in which the root is unset or has length 5. *)
Definition good_boot (C : crypto) (d : db) (certs : list (dto_certificate * N * option nat)) (l : list (certificate * duration)) : Prop :=
  service_reachable C d /\ boot_typed certs /\ boot_input C certs l /\ good_family C d root_key 5 l /\ forall n, root_max_len d root_key n -> n = 5.

(** The shipped certificates, read: a peer id is six bytes and the key, a signature its bytes. *)
Definition decoded (s : text) : bytes := match b58_decode s with Ok b => b | _ => [] end.
Definition read_key (p : text) : public_key := mk_pk Ed25519 (skipn 6 (decoded p)).
Definition read_trust (x : dto_trust) : trust :=
  mk_trust (read_key (dt_issued_for x)) (from_secs (dt_expires_at x)) (mk_sig Ed25519 (decoded (dt_signature x))) (from_secs (dt_issued_at x)).
Definition shipped_certs : list certificate := map (map read_trust) shipped.
(** Their keys are points of the curve and every trust is signed by the key before it. *)
Definition shipped_genuine (C : crypto) : Prop :=
  (forall c t, In c shipped_certs -> In t c -> ed_point C (pk_raw (issued_for t)) = true) /\
  (forall c i, In c shipped_certs -> (i < length c)%nat -> exists t k, at_pos c i t /\ key_at c (i - 1) k /\ signed_trust C k t).
(** The nodes they label. *)
Definition shipped_nodes : list text :=
  map dt_issued_for [shipped_trust_3; shipped_trust_4; shipped_trust_5; shipped_trust_6; shipped_trust_7; shipped_trust_8; shipped_trust_9;
    shipped_trust_10; shipped_trust_11; shipped_trust_12; shipped_trust_13].
