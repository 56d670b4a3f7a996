(** Certificates one trust longer. Every proof is a lemma of ExtendThms.v. *)
From Coq Require Import List NArith ZArith Bool.
From Verif Require Import Base Text Keys Trust Certificate Relation Storage Graph Spec InfluenceSpec.
From Verif Require Import Toy Witness GraphFacts GraphThms StateFacts InfluenceSpec ExtendThms.
Import ListNotations.
Open Scope N_scope.

(** ** C209 *)
(** A certificate of a key and a trust it gives another key make a certificate of the other exactly if the other is not in it and no key in it
    has revoked the other or the direct issuer of the first. *)
Theorem C209_extends : forall C d b now fu cs d1 c t fu' cs' d2, reachable C d -> call_typed C (G_get_all_certs b now) -> call_typed C (G_get_all_certs (issued_for t) now) ->
  graph_step C d (G_get_all_certs b now, fu) = (Ok (GR_certs cs), d1) -> In c cs -> live d now b t -> issued_for t <> b ->
  graph_step C d (G_get_all_certs (issued_for t) now, fu') = (Ok (GR_certs cs'), d2) ->
  (In (c ++ [t]) cs' <->
   (forall i, ~ key_at c i (issued_for t)) /\ (forall i, ~ revokes_at d c i (length c - 2)) /\ (forall v i, stored_revocation d v -> rev_pk v = issued_for t -> ~ key_at c i (revoked_by v))).
Proof. exact p_C209_extends. Qed.
Print Assumptions C209_extends.

(** The trust of a root for itself and one it gives another key always make a certificate. *)
Theorem C209_below_root : forall C d b now u t fu' cs' d2, reachable C d -> call_typed C (G_get_all_certs (issued_for t) now) ->
  is_root d b -> live d now b u -> issued_for u = b -> live d now b t -> issued_for t <> b ->
  graph_step C d (G_get_all_certs (issued_for t) now, fu') = (Ok (GR_certs cs'), d2) -> In [u; t] cs'.
Proof. exact p_C209_below_root. Qed.
Print Assumptions C209_below_root.

(** So once a trust was taken on, every certificate of its issuer in which that is the case, but for what the issuer said itself before, gives one of the trusted key. *)
Theorem C209_added : forall C d t b now w d' fu cs d1 c fu' cs' d2, reachable C d -> small d -> call_typed C (G_add_trust t b now) ->
  graph_step C d (G_add_trust t b now, None) = (Ok (GR_weight w), d') -> w <> 0 -> secs now < secs (expires_at t) < i64_bound ->
  (forall z, stored d z -> same_keys (RAuth (mk_auth t b)) z -> before (rel_issued_at z) (issued_at t)) ->
  graph_step C d (G_get_all_certs b now, fu) = (Ok (GR_certs cs), d1) -> In c cs -> issued_for t <> b ->
  (forall i, ~ key_at c i (issued_for t)) -> (forall i, ~ revokes_at d c i (length c - 2)) ->
  (forall v i, stored_revocation d v -> rev_pk v = issued_for t -> revoked_by v <> b -> ~ key_at c i (revoked_by v)) ->
  graph_step C d' (G_get_all_certs (issued_for t) now, fu') = (Ok (GR_certs cs'), d2) -> In (c ++ [whole_trust t]) cs'.
Proof. exact p_C209_added. Qed.
Print Assumptions C209_added.

(** The weight that [add_trust] told is then real, if it comes from such a certificate or if the issuer is a root with a trust for itself; it does not matter
    whether the trusted key was in the certificate already. *)
Theorem C209_told_weight_is_real : forall C d t b now w d' w' d'' wb d0, reachable C d -> small d -> small d' -> call_typed C (G_add_trust t b now) ->
  graph_step C d (G_add_trust t b now, None) = (Ok (GR_weight w), d') -> secs now < secs (expires_at t) < i64_bound ->
  (forall z, stored d z -> same_keys (RAuth (mk_auth t b)) z -> before (rel_issued_at z) (issued_at t)) ->
  graph_step C d (G_weight b now, None) = (Ok (GR_weight wb), d0) ->
  (exists u m, issued_for u = b /\ live d now b u /\ root_max_len d b m /\ wb = 2 ^ m) \/
  (exists cs d1 c, graph_step C d (G_get_all_certs b now, None) = (Ok (GR_certs cs), d1) /\ In c cs /\ cert_weight d c wb /\ (forall i, ~ revokes_at d c i (length c - 2)) /\
     (forall v i, stored_revocation d v -> rev_pk v = issued_for t -> revoked_by v <> b -> ~ key_at c i (revoked_by v))) ->
  graph_step C d' (G_weight (issued_for t) now, None) = (Ok (GR_weight w'), d'') -> w <= w'.
Proof. exact p_C209_told_weight_is_real. Qed.
Print Assumptions C209_told_weight_is_real.

(** B trusts D after all: the certificate of B and the new trust are a certificate of D. *)
Example C209_example_added : reachable W (db_of (after regret)) /\ small (db_of (after regret)) /\ call_typed W (G_add_trust (toy_trust B D 700 50) (toy_key B) (at_ 60)) /\
  fst (graph_step W (db_of (after regret)) (G_get_all_certs (toy_key B) (at_ 60), None)) = Ok (GR_certs [regret_cert]) /\
  fst (graph_step W (db_of (after regret)) (G_add_trust (toy_trust B D 700 50) (toy_key B) (at_ 60), None)) = Ok (GR_weight 4) /\
  (forall z, stored (db_of (after regret)) z -> same_keys (RAuth (mk_auth (toy_trust B D 700 50) (toy_key B))) z -> before (rel_issued_at z) (at_ 50)) /\
  (forall i, ~ key_at regret_cert i (toy_key D)) /\ (forall i, ~ revokes_at (db_of (after regret)) regret_cert i (length regret_cert - 2)) /\
  (forall v i, stored_revocation (db_of (after regret)) v -> rev_pk v = toy_key D -> revoked_by v <> toy_key B -> ~ key_at regret_cert i (revoked_by v)) /\
  answer_after W (db_of (after regret)) [G_add_trust (toy_trust B D 700 50) (toy_key B) (at_ 60)] (G_get_all_certs (toy_key D) (at_ 60)) = Ok (GR_certs [regret_cert ++ [toy_trust B D 700 50]]) /\
  answer_after W (db_of (after regret)) [G_add_trust (toy_trust B D 700 50) (toy_key B) (at_ 60)] (G_weight (toy_key D) (at_ 60)) = Ok (GR_weight 4).
Proof. exact e_C209_added. Qed.

(** The condition on the direct issuer is needed: the root has revoked B, who trusts D. D weighs 4 and gives another key a trust; [add_trust] tells the weight 2, but the key weighs nothing. *)
Example C209_example_issuer_revoked : reachable W (db_of (after long)) /\ call_typed W (G_add_trust (toy_trust D 9 700 10) (toy_key D) (at_ 20)) /\
  fst (graph_step W (db_of (after long)) (G_add_trust (toy_trust D 9 700 10) (toy_key D) (at_ 20), None)) = Ok (GR_weight 2) /\
  answer_after W (db_of (after long)) [G_add_trust (toy_trust D 9 700 10) (toy_key D) (at_ 20)] (G_weight (toy_key 9) (at_ 20)) = Ok (GR_weight 0).
Proof. exact e_C209_issuer_revoked. Qed.
