(** Who can make a store grow. Every proof is a lemma of FillThms.v. *)
From Coq Require Import List NArith ZArith Bool.
From Verif Require Import Base Text Keys Trust Certificate Relation Storage Graph Service Spec ServiceSpec FillSpec.
From Verif Require Import Toy Witness ServiceWitness FillThms.
Import ListNotations.
Open Scope N_scope.

(** ** C190 *)
(** Whoever brings only trusts of keys that no path of stored trusts leads to from a root gets no trust stored and changes no root,
    whatever they revoke and whatever fails. *)
Theorem C190_no_trusts : forall C d es, reachable C d -> typed_history C es ->
  (forall c fu, In (c, fu) es -> (forall k n, c <> G_set_root k n) /\ forall t b, offers_trust c t b -> genuine C c (RAuth (mk_auth t b)) -> ~ reached d b) ->
  tbl_roots (graph_history C d es) = tbl_roots d /\ forall b t, stored_trust (graph_history C d es) b t -> stored_trust d b t.
Proof. exact p_C190_no_trusts. Qed.
Print Assumptions C190_no_trusts.

(** The same of the service. Its calls may come from anyone and bring anything. *)
Theorem C190_service : forall C d es, crypto_laws C -> service_reachable C d -> service_events_typed es -> strangers C d es ->
  tbl_roots (service_history C d es) = tbl_roots d /\ forall b t, stored_trust (service_history C d es) b t -> stored_trust d b t.
Proof. exact p_C190_service. Qed.
Print Assumptions C190_service.

(** But any number of revocations, of any keys by any keys, however unknown to the store, are accepted, and each adds a row. *)
Theorem C190_any_number : forall C d cp ts rvs, crypto_laws C -> service_reachable C d -> host_time cp 1 -> ts < u64_bound ->
  (forall r v, In (r, v) rvs -> revocation_record C r v /\ signed_revocation C v /\ dr_revoked_at r <= ts) ->
  NoDup (map (fun rv => (rev_pk (snd rv), revoked_by (snd rv))) rvs) ->
  (forall r v y, In (r, v) rvs -> stored d y -> ~ same_keys (RRev v) y) ->
  (forall y, stored (service_history C d (flood cp ts rvs)) y <-> stored d y \/ exists r v, In (r, v) rvs /\ y = RRev v) /\
  rows (service_history C d (flood cp ts rvs)) = (rows d + length rvs)%nat /\
  (forall l r v l', rvs = l ++ (r, v) :: l' ->
     fst (service_step C (service_history C d (flood cp ts l)) (cp, S_revoke r ts, None)) = Ok (mk_response true None P_none)).
Proof. exact p_C190_any_number. Qed.
Print Assumptions C190_any_number.

(** And they never leave: whoever calls the service with whatever, at any times and whatever fails, a stored revocation stays
    unless something newer signed by the same key comes. Roots and owners cannot remove it. *)
Theorem C190_for_good : forall C d v es, crypto_laws C -> service_reachable C d -> service_events_typed es -> stored_revocation d v ->
  (forall cp c fu g x, In (cp, c, fu) es -> requests C cp c g -> admitted cp c -> offers g x -> genuine C g x -> rel_issued_by x <> revoked_by v) ->
  stored_revocation (service_history C d es) v.
Proof. exact p_C190_for_good. Qed.
Print Assumptions C190_for_good.

(** So strangers can make the store grow. *)
Theorem C190_refuted : ~ (forall C d es, crypto_laws C -> service_reachable C d -> service_events_typed es -> strangers C d es ->
  (rows (service_history C d es) <= rows d)%nat).
Proof. exact p_C190_refuted. Qed.
Print Assumptions C190_refuted.

(** The three revocations meet the hypotheses, and the store has five rows where it had two. *)
Example C190_example_vandal : service_reachable (toy true) base_store /\ host_time (timed_call 1) 1 /\ strangers (toy true) base_store (flood (timed_call 1) 6 vandal) /\
  (forall r v, In (r, v) vandal -> revocation_record (toy true) r v /\ signed_revocation (toy true) v /\ dr_revoked_at r <= 6) /\
  NoDup (map (fun rv => (rev_pk (snd rv), revoked_by (snd rv))) vandal) /\
  (forall r v y, In (r, v) vandal -> stored base_store y -> ~ same_keys (RRev v) y) /\
  rows base_store = 2%nat /\ rows (service_history (toy true) base_store (flood (timed_call 1) 6 vandal)) = 5%nat.
Proof. exact e_C190_vandal. Qed.

(** A stranger inserts their own certificate and passes their own trust off as one of the root: the hypotheses are met, and nothing is stored. *)
Example C190_example_knockers : service_events_typed knockers /\ strangers (toy true) base_store knockers /\ service_history (toy true) base_store knockers = base_store.
Proof. exact e_C190_knockers. Qed.
