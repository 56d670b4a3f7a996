(** The whole library as an abstract machine. Its state is a set of relations and a map of roots; no tables, rows,
    texts, statements or search appear in it. *)
From Coq Require Import List NArith ZArith Bool.
From Verif Require Import Base Text Keys Trust Certificate Relation Storage Graph Spec.
Import ListNotations.
Open Scope N_scope.

(** The relations held, and the roots with their maximal chain lengths. *)
Record machine := mk_machine { holds : relation -> Prop; root_of : public_key -> N -> Prop }.
Definition empty_machine : machine := mk_machine (fun _ => False) (fun _ _ => False).
Definition same_machine (m n : machine) : Prop :=
  (forall x, holds m x <-> holds n x) /\ (forall k l, root_of m k l <-> root_of n k l).

(** A key becomes a root, with at most 16, unless it is one. *)
Definition m_set_root (m : machine) (k : public_key) (n : N) : machine :=
  mk_machine (holds m) (fun k' l => root_of m k' l \/ (k' = k /\ l = N.min n 16 /\ forall l', ~ root_of m k l')).
(** Trusts whose expiry is not after [now] go. *)
Definition m_collect (m : machine) (now : duration) : machine :=
  mk_machine (fun x => holds m x /\ ~ db_expired now x) (root_of m).
(** [x] comes in, in whole seconds, instead of the relation of the same keys, unless that one is not older. *)
Definition m_import (m : machine) (x : relation) : machine :=
  mk_machine (fun y => (~ same_keys x y /\ holds m y) \/
                       (same_keys x y /\ holds m y /\ ~ before (rel_issued_at y) (rel_issued_at x)) \/
                       (y = whole x /\ forall z, holds m z -> same_keys x z -> before (rel_issued_at z) (rel_issued_at x)))
             (root_of m).

(** [c] is a certificate of [pk]: from the self-signed trust of a root every trust is given by the key before; no key comes
    twice, but for a key below the root followed by its own trust of itself; and who is revoked by a key before is
    the last but one. *)
Definition m_chain (m : machine) (pk : public_key) (c : certificate) : Prop :=
  (2 <= length c)%nat /\
  key_at c (length c - 1) pk /\
  (forall t, at_pos c 0 t -> (exists l, root_of m (issued_for t) l) /\ holds m (RAuth (mk_auth t (issued_for t)))) /\
  (forall i g t, at_pos c i g -> at_pos c (S i) t -> holds m (RAuth (mk_auth t (issued_for g)))) /\
  (forall i j k, (i < j)%nat -> key_at c i k -> key_at c j k -> j = S i /\ (0 < i)%nat) /\
  (forall i j v, (i < j)%nat -> holds m (RRev v) -> key_at c i (revoked_by v) -> key_at c j (rev_pk v) -> (j + 2)%nat = length c).

(** What the certificate is worth: 2 to the length of its root less the number of trusts below, at least 1. *)
Definition m_worth (m : machine) (c : certificate) (v : N) : Prop :=
  exists t l, at_pos c 0 t /\ root_of m (issued_for t) l /\ v = 2 ^ (l - N.of_nat (length c - 1)).
Definition m_weight (m : machine) (pk : public_key) (w : N) : Prop :=
  greatest (fun v => (exists l, root_of m pk l /\ v = 2 ^ l) \/ (exists c, m_chain m pk c /\ m_worth m c v)) w.
Definition m_weight_from (m : machine) (pk i : public_key) (w : N) : Prop :=
  greatest (fun v => exists c, m_chain m pk c /\ (exists n, key_at c n i) /\ m_worth m c v) w.
(** [b] passes [p] on to [k]. *)
Definition m_passes (m : machine) (b k : public_key) (p : N) : Prop :=
  exists w, m_weight m b w /\ ((b = k /\ p = w) \/ (b <> k /\ p = w / 2)).

Inductive answer :=
| A_done
| A_refused
| A_weight (w : N)
| A_certs (P : certificate -> Prop)
| A_revs (P : revocation -> Prop).

Definition acceptable (C : crypto) (b : public_key) (t : trust) (now : duration) : Prop :=
  signed_trust C b t /\ ~ before (expires_at t) now.

(** A call, its answer, and the states the machine passes through. *)
Inductive m_add_trust (C : crypto) (m : machine) (t : trust) (b : public_key) (now : duration) : answer -> list machine -> Prop :=
| at_refused : ~ acceptable C b t now -> m_add_trust C m t b now A_refused []
| at_ignored : acceptable C b t now -> m_passes (m_collect m now) b (issued_for t) 0 ->
    m_add_trust C m t b now (A_weight 0) [m_collect m now]
| at_stored : forall p, acceptable C b t now -> m_passes (m_collect m now) b (issued_for t) p -> 0 < p ->
    m_add_trust C m t b now (A_weight p) [m_collect m now; m_import (m_collect m now) (RAuth (mk_auth t b))].
Inductive m_add_all (C : crypto) (now : duration) : machine -> list trust -> public_key -> answer -> list machine -> Prop :=
| all_none : forall m b, m_add_all C now m [] b A_done []
| all_stop : forall m t c b ms, m_add_trust C m t b now A_refused ms -> m_add_all C now m (t :: c) b A_refused ms
| all_next : forall m t c b p ms a ms', m_add_trust C m t b now (A_weight p) ms ->
    m_add_all C now (last ms m) c (issued_for t) a ms' -> m_add_all C now m (t :: c) b a (ms ++ ms').
Inductive m_call (C : crypto) (m : machine) : graph_call -> answer -> list machine -> Prop :=
| c_set_root : forall k n, m_call C m (G_set_root k n) A_done [m_set_root m k n]
| c_add_trust : forall t b now a ms, m_add_trust C m t b now a ms -> m_call C m (G_add_trust t b now) a ms
| c_add_empty : forall now, m_call C m (G_add [] now) A_refused []
| c_add : forall t c now a ms, m_add_all C now m (t :: c) (issued_for t) a ms -> m_call C m (G_add (t :: c) now) a ms
| c_weight : forall pk now w, m_weight (m_collect m now) pk w -> m_call C m (G_weight pk now) (A_weight w) [m_collect m now]
| c_weight_from : forall pk i now w, m_weight_from (m_collect m now) pk i w ->
    m_call C m (G_weight_from pk i now) (A_weight w) [m_collect m now]
| c_certs : forall pk now, m_call C m (G_get_all_certs pk now) (A_certs (m_chain (m_collect m now) pk)) [m_collect m now]
| c_certs_from : forall pk i now, m_call C m (G_get_all_certs_from pk i now)
    (A_certs (fun c => m_chain (m_collect m now) pk c /\ exists n, key_at c n i)) [m_collect m now]
| c_revoke : forall v, signed_revocation C v -> m_call C m (G_revoke v) A_done [m_import m (RRev v)]
| c_revoke_refused : forall v, ~ signed_revocation C v -> m_call C m (G_revoke v) A_refused []
| c_revocations : forall pk, m_call C m (G_get_revocations pk) (A_revs (fun v => holds m (RRev v) /\ rev_pk v = pk)) [].

(** A history. A call the database fails in leaves one of the states the machine passes through. *)
Inductive m_run (C : crypto) : machine -> list (graph_call * option nat) -> list answer -> machine -> Prop :=
| run_none : forall m, m_run C m [] [] m
| run_call : forall m c fu es a ms as_ m', m_call C m c a ms -> m_run C (last ms m) es as_ m' -> m_run C m ((c, fu) :: es) (a :: as_) m'
| run_fail : forall m c n es a ms m1 as_ m', m_call C m c a ms -> In m1 (m :: ms) -> m_run C m1 es as_ m' ->
    m_run C m ((c, Some n) :: es) (A_refused :: as_) m'.

(** ** The library *)
(** What a store contains. *)
Definition contents (d : db) : machine := mk_machine (stored d) (root_max_len d).
(** What the library answered is the machine's answer. Lists have no repetitions, certificates come shorter ones first. *)
Definition shows (r : result graph_error graph_reply) (a : answer) : Prop :=
  match a with
  | A_done => r = Ok GR_unit
  | A_refused => exists e, r = Err e
  | A_weight w => r = Ok (GR_weight w)
  | A_certs P => exists cs, r = Ok (GR_certs cs) /\ NoDup cs /\ (forall c, In c cs <-> P c) /\
      forall i j x y, (i < j)%nat -> nth_error cs i = Some x -> nth_error cs j = Some y -> (length x <= length y)%nat
  | A_revs P => exists vs, r = Ok (GR_revs vs) /\ NoDup vs /\ forall v, In v vs <-> P v
  end.
(** The answers to a history of calls. *)
Fixpoint answers (C : crypto) (d : db) (es : list (graph_call * option nat)) : list (result graph_error graph_reply) :=
  match es with
  | [] => []
  | e :: es' => fst (graph_step C d e) :: answers C (snd (graph_step C d e)) es'
  end.
(** So few relations are offered that the arithmetic on chain lengths does not wrap (about four thousand million). *)
Definition offered (c : graph_call) : nat :=
  match c with G_add_trust _ _ _ | G_revoke _ => 1 | G_add c _ => length c | _ => 0 end%nat.
Definition few (d : db) (es : list (graph_call * option nat)) : Prop :=
  N.of_nat (length (tbl_relations d) + list_sum (map (fun e => offered (fst e)) es)) + 17 < u32_bound.

(** Two answers of the machine say the same. *)
Definition same_reply (a b : answer) : Prop :=
  match a, b with
  | A_certs P, A_certs Q => forall c, P c <-> Q c
  | A_revs P, A_revs Q => forall v, P v <-> Q v
  | _, _ => a = b
  end.
