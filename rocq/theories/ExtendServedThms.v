(** What the service tells of certificates one trust longer (C209). *)
From Coq Require Import List NArith ZArith Bool Lia.
From Verif Require Import Base BaseFacts Text Keys KeysFacts Trust Certificate CertFacts Relation Storage Graph Spec SpecFacts GraphFacts StateFacts Toy ToyFacts Witness GraphThms InfluenceSpec InfluenceThms PartsThms.
From Verif Require Import Service ServiceSpec ServiceFacts ServiceThms ServedThms ServiceWitness PartsServedThms ExtendThms ExtendSpec.
Import ListNotations.
Open Scope N_scope.

(** ** C209 *)
(** At the service: a record that [add_trust] has accepted with a weight stands at the end of a certificate that is told of its peer, behind the records of each certificate of its issuer
    that does not name the peer, and in which nobody has revoked the direct issuer or, but for the issuer, the peer. *)
Lemma p_C209_service_added : forall C d r t i b cp ts w d' cp1 rs x cp2, crypto_laws C -> wasm32 C = true -> service_reachable C d -> small d ->
  trust_record C r t -> peer_key C i b -> host_time cp 2 -> dto_trust_typed r -> dt_issued_at r <= ts -> ts < dt_expires_at r < i64_bound ->
  service_step C d (cp, S_add_trust r i ts, None) = (Ok (mk_response true None (P_added w)), d') -> w <> 0 ->
  (forall z, stored d z -> same_keys (RAuth (mk_auth t b)) z -> before (rel_issued_at z) (issued_at t)) ->
  fst (service_step C d (cp1, S_get_all_certs i ts, None)) = Ok (mk_response true None (P_certs rs)) -> In x rs -> issued_for t <> b ->
  (forall j, ~ names C x j (issued_for t)) ->
  (forall v j, stored_revocation d v -> names C x (length x - 2) (rev_pk v) -> (j < length x - 2)%nat -> ~ names C x j (revoked_by v)) ->
  (forall v j, stored_revocation d v -> rev_pk v = issued_for t -> revoked_by v <> b -> ~ names C x j (revoked_by v)) ->
  host_time cp2 1 ->
  exists rs' r', fst (service_step C d' (cp2, S_get_all_certs (dt_issued_for r) ts, None)) = Ok (mk_response true None (P_certs rs')) /\ In (x ++ [r']) rs' /\ trust_record C r' t.
Proof.
  intros C d r t i b cp ts w d' cp1 rs x cp2 L W R Sm Tr Pk Ht Tt Bt Bx E Nz Nw Er Hx Ne N1 N2 N3 Ht2.
  pose proof (p_C66_service_stores C d L R) as Rd. assert (Hs : ts < u64_bound) by (unfold i64_bound, u64_bound in *; lia).
  assert (Rq : requests C cp (S_add_trust r i ts) (G_add_trust t b (from_secs ts))) by (split; [exact Tr|split; [exact Pk|reflexivity]]).
  assert (Ad : admitted cp (S_add_trust r i ts)) by (split; [exact Ht|exact Bt]).
  assert (Ty : service_typed (S_add_trust r i ts)) by (split; [exact Tt|exact Hs]).
  assert (Tc : call_typed C (G_add_trust t b (from_secs ts))) by (apply (requests_typed C cp (S_add_trust r i ts) _ L); [exact Ty|exact Rq]).
  assert (R' : service_reachable C d').
  { assert (X : service_reachable C (service_history C d [(cp, S_add_trust r i ts, None)])) by (apply service_history_reachable; [exact R|constructor; [exact Ty|constructor]]).
    cbn [service_history fold_left] in X. rewrite E in X. exact X. }
  assert (Eg : graph_step C d (G_add_trust t b (from_secs ts), None) = (Ok (GR_weight w), d')).
  { rewrite service_plan, (plan_complete C cp _ _ Rq Ad) in E. cbn [carry_out] in E. destruct (graph_step C d (G_add_trust t b (from_secs ts), None)) as [[y|e| |] d2]; try discriminate E.
    destruct y; try discriminate E. injection E as -> ->. reflexivity. }
  destruct (certs_asked C d cp1 i ts rs L R Hs Er) as (k & cs & d1 & K & Ec & Ers). pose proof (peer_key_fun C _ _ _ Pk K) as <-.
  pose proof Hx as Hx0. rewrite Ers in Hx. apply in_map_iff in Hx. destruct Hx as (c & Ex & Hc).
  assert (Nm : forall j q, key_at c j q -> names C x j q).
  { intros j q (u & Hu & Eu). rewrite <- Ex. exists (dto_of_trust C u). unfold at_pos in Hu. split; [unfold dto_of_cert; rewrite nth_error_map, Hu; reflexivity|]. rewrite <- Eu.
    apply (certs_keys C d cp1 i ts rs b cs d1 c j u); auto. }
  assert (Ln : length x = length c) by (rewrite <- Ex; unfold dto_of_cert; apply map_length).
  destruct Tr as (Trk & Tre & Tri & Trs).
  destruct (certs_told C d' cp2 (dt_issued_for r) (issued_for t) ts L R' Hs Trk Ht2) as (cs' & d2 & Ec' & Er').
  assert (Wt : whole_trust t = t) by (destruct t as [tk te tsg ti]; cbn in Tre, Tri; subst; reflexivity).
  assert (G : In (c ++ [t]) cs').
  { rewrite <- Wt at 1. apply (p_C209_added C d t b (from_secs ts) w d' None cs d1 c None cs' d2 Rd Sm Tc Eg Nz); auto.
    - rewrite Tre. exact Bx.
    - intros j H. exact (N1 j (Nm j _ H)).
    - intros j (Lj & v & Sv & H1 & H2). rewrite <- Ln in *. exact (N2 v j Sv (Nm _ _ H2) Lj (Nm _ _ H1)).
    - intros v j Sv V1 V2 H. exact (N3 v j Sv V1 V2 (Nm _ _ H)). }
  exists (map (dto_of_cert C) cs'), (dto_of_trust C t). split; [exact Er'|]. split.
  - apply in_map_iff. exists (c ++ [t]). split; [|exact G]. unfold dto_of_cert in *. rewrite map_app, Ex. reflexivity.
  - destruct (certs_response C d' cp2 (dt_issued_for r) (issued_for t) ts cs' L W R' Hs Trk Ht2) as (rs2 & E2 & F); [rewrite Ec'; reflexivity|]. rewrite Er' in E2. injection E2 as <-.
    apply In_nth_error in G. destruct G as (n & Hn).
    assert (Q : certificate_record C (dto_of_cert C (c ++ [t])) (c ++ [t])).
    { clear - F Hn. revert n Hn. induction cs' as [|c0 cs' IH]; intros [|n] Hn; try discriminate Hn; inversion F; subst; [injection Hn as <-; assumption|eapply IH; eassumption]. }
    unfold certificate_record, dto_of_cert in Q. rewrite map_app in Q. apply Forall2_app_inv_l in Q. destruct Q as (l1 & l2 & Q1 & Q2 & Q3).
    inversion Q2 as [|a y l l' Q4 Q5 Q6]; subst. inversion Q5; subst. apply app_inj_tail in Q3. destruct Q3 as [_ <-]. exact Q4.
Qed.
(** Key 3 has the certificate 1 -> 1 -> 2 -> 3 and trusts key 4 anew. *)
Definition shorter_store : db := service_history (toy true) base_store [(timed_call 2, S_add_trust (trust_rec 2 3 3000 20) (pid 2) 21, None)].
Example e_C209_service_added : service_reachable (toy true) shorter_store /\ small shorter_store /\ host_time (timed_call 2) 2 /\ host_time (timed_call 1) 1 /\
  (forall v, ~ stored_revocation shorter_store v) /\
  fst (service_step (toy true) shorter_store (timed_call 1, S_get_all_certs (pid 3) 23, None)) = Ok (mk_response true None (P_certs [firstn 3 longer_cert])) /\
  fst (service_step (toy true) shorter_store (timed_call 2, S_add_trust (trust_rec 3 4 3000 22) (pid 3) 23, None)) = Ok (mk_response true None (P_added 4)) /\
  fst (service_step (toy true) longer_store (timed_call 1, S_get_all_certs (pid 4) 23, None)) = Ok (mk_response true None (P_certs [firstn 3 longer_cert ++ [trust_rec 3 4 3000 22]])).
Proof.
  split; [apply service_history_reachable; [exact base_reachable|repeat constructor]|]. split; [vm_compute; auto 10|]. split; [apply timed_host|]. split; [apply timed_host|].
  split. { intros v [_ H]. assert (X : map r_type (tbl_relations shorter_store) = [0; 0; 0]%Z) by (vm_compute; reflexivity). apply (in_map r_type) in H. rewrite X in H. cbn [r_type] in H. destruct H as [H|[H|[H|[]]]]; discriminate H. }
  split; [vm_compute; reflexivity|]. split; vm_compute; reflexivity.
Qed.
