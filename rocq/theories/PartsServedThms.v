(** What the service tells of the parts of a certificate (C207). *)
From Coq Require Import List NArith ZArith Bool Lia.
From Verif Require Import Base BaseFacts Text Keys KeysFacts Trust Certificate CertFacts Relation Storage Graph Spec SpecFacts GraphFacts StateFacts Toy ToyFacts Witness GraphThms InfluenceSpec InfluenceThms PartsThms.
From Verif Require Import Service ServiceSpec ServiceFacts ServiceThms ServedThms ServiceWitness.
Import ListNotations.
Open Scope N_scope.

Section Parts.
Context (C : crypto).
Lemma certs_told : forall d cp p k ts, crypto_laws C -> service_reachable C d -> ts < u64_bound -> peer_key C p k -> host_time cp 1 ->
  exists cs d', graph_step C d (G_get_all_certs k (from_secs ts), None) = (Ok (GR_certs cs), d') /\
  fst (service_step C d (cp, S_get_all_certs p ts, None)) = Ok (mk_response true None (P_certs (map (dto_of_cert C) cs))).
Proof.
  intros d cp p k ts L R Hs K Ht.
  assert (T : call_typed C (G_get_all_certs k (from_secs ts))) by (split; [eapply peer_key_valid; eassumption|apply from_secs_wf; exact Hs]).
  destruct (p_C23_queries_succeed C d _ (p_C66_service_stores C d L R) T I) as (x & d' & E & X). destruct x as [| |cs|]; try contradiction X.
  exists cs, d'. split; [exact E|]. rewrite service_plan, (plan_complete C cp (S_get_all_certs p ts) (G_get_all_certs k (from_secs ts)) (conj K eq_refl) Ht). cbn [carry_out]. rewrite E. reflexivity.
Qed.
Lemma certs_asked : forall d cp p ts rs, crypto_laws C -> service_reachable C d -> ts < u64_bound ->
  fst (service_step C d (cp, S_get_all_certs p ts, None)) = Ok (mk_response true None (P_certs rs)) ->
  exists k cs d', peer_key C p k /\ graph_step C d (G_get_all_certs k (from_secs ts), None) = (Ok (GR_certs cs), d') /\ rs = map (dto_of_cert C) cs.
Proof.
  intros d cp p ts rs L R Hs E. pose proof E as E0. rewrite service_plan in E. destruct (plan C cp (S_get_all_certs p ts)) as [[g|a]|e| |] eqn:P.
  - pose proof (plan_requests C cp _ _ P) as Q. pose proof (plan_admitted C cp _ _ P) as A. destruct g; cbn [requests] in Q; try contradiction. destruct Q as [K ->].
    destruct (certs_told d cp p _ ts L R Hs K A) as (cs & d' & Eg & Er). rewrite E0 in Er. injection Er as ->. eauto 8.
  - cbn [carry_out] in E. exfalso. revert P. cbn [plan]. unfold gcall. destruct (check_timestamp_tetraplets cp 1); try discriminate. destruct (extract_public_key C p); discriminate.
  - discriminate E.
  - discriminate E.
  - discriminate E.
Qed.
Lemma certs_keys : forall d cp p ts rs k cs d' c i t, crypto_laws C -> wasm32 C = true -> service_reachable C d -> ts < u64_bound ->
  fst (service_step C d (cp, S_get_all_certs p ts, None)) = Ok (mk_response true None (P_certs rs)) -> peer_key C p k ->
  graph_step C d (G_get_all_certs k (from_secs ts), None) = (Ok (GR_certs cs), d') -> rs = map (dto_of_cert C) cs -> In c cs -> nth_error c i = Some t ->
  peer_key C (dt_issued_for (dto_of_trust C t)) (issued_for t).
Proof.
  intros d cp p ts rs k cs d' c i t L W R Hs E K Eg -> Hc Ht.
  assert (A : host_time cp 1).
  { rewrite service_plan in E. destruct (plan C cp (S_get_all_certs p ts)) as [[g|a]|e| |] eqn:P; try discriminate E; [exact (plan_admitted C cp _ _ P)|].
    exfalso. revert P. cbn [plan]. unfold gcall. destruct (check_timestamp_tetraplets cp 1); try discriminate. destruct (extract_public_key C p); discriminate. }
  destruct (certs_response C d cp p k ts cs L W R Hs K A) as (rs' & E' & F); [rewrite Eg; reflexivity|]. rewrite E in E'. injection E' as <-.
  apply In_nth_error in Hc. destruct Hc as (j & Hj).
  assert (G : certificate_record C (dto_of_cert C c) c).
  { clear - F Hj. revert j Hj. induction cs as [|c0 cs IH]; intros [|j] Hj; try discriminate Hj; inversion F; subst; [injection Hj as <-; assumption|eapply IH; eassumption]. }
  clear - G Ht. unfold certificate_record, dto_of_cert in G. revert i Ht. induction c as [|t0 c IH]; intros [|i] Hi; try discriminate Hi; inversion G; subst; [injection Hi as <-; exact (proj1 H2)|eapply IH; eassumption].
Qed.
End Parts.

(** ** C207 *)
(** At the service: the first records of a certificate that is told of a peer, up to any but the last two, are a certificate that is told of the peer of the last of them. *)
Lemma p_C207_service_parts : forall C d cp p ts rs x n r cp', crypto_laws C -> wasm32 C = true -> service_reachable C d -> ts < u64_bound ->
  fst (service_step C d (cp, S_get_all_certs p ts, None)) = Ok (mk_response true None (P_certs rs)) -> In x rs -> (2 <= n)%nat -> (n + 1 < length x)%nat -> nth_error x (n - 1) = Some r ->
  host_time cp' 1 -> exists rs', fst (service_step C d (cp', S_get_all_certs (dt_issued_for r) ts, None)) = Ok (mk_response true None (P_certs rs')) /\ In (firstn n x) rs'.
Proof.
  intros C d cp p ts rs x n r cp' L W R Hs E Hx N2 Hn Hr Ht.
  destruct (certs_asked C d cp p ts rs L R Hs E) as (k & cs & d1 & K & Eg & ->). apply in_map_iff in Hx. destruct Hx as (c & <- & Hc).
  unfold dto_of_cert in *. rewrite map_length in Hn. rewrite nth_error_map in Hr. destruct (nth_error c (n - 1)) as [t|] eqn:Et; [|discriminate Hr]. injection Hr as <-.
  pose proof (p_C66_service_stores C d L R) as Rd.
  assert (T : call_typed C (G_get_all_certs k (from_secs ts))) by (split; [eapply peer_key_valid; eassumption|apply from_secs_wf; exact Hs]).
  assert (K' : peer_key C (dt_issued_for (dto_of_trust C t)) (issued_for t)).
  { apply (certs_keys C d cp p ts (map (dto_of_cert C) cs) k cs d1 c (n - 1)); auto. }
  destruct (certs_told C d cp' _ _ ts L R Hs K' Ht) as (cs' & d2 & Eg' & Er). exists (map (dto_of_cert C) cs'). split; [exact Er|].
  apply in_map_iff. exists (firstn n c). split; [unfold dto_of_cert; symmetry; apply firstn_map|].
  apply (p_C207_parts C d k (from_secs ts) None cs d1 c n (issued_for t) None cs' d2 Rd T (conj (peer_key_valid C _ _ L K') (from_secs_wf _ Hs)) Eg Hc N2 Hn); [|exact Eg'].
  unfold key_at. exists t. auto.
Qed.
(** So the peers before the direct issuer are told at least the weight that their places in the certificate give. *)
Lemma p_C207_service_weights : forall C d cp p ts rs x i r r0 root m cp', crypto_laws C -> wasm32 C = true -> service_reachable C d -> small d -> ts < u64_bound ->
  fst (service_step C d (cp, S_get_all_certs p ts, None)) = Ok (mk_response true None (P_certs rs)) -> In x rs -> (i + 2 < length x)%nat -> nth_error x i = Some r ->
  nth_error x 0 = Some r0 -> peer_key C (dt_issued_for r0) root -> root_max_len d root m -> host_time cp' 1 ->
  exists w, fst (service_step C d (cp', S_get_weight (dt_issued_for r) ts, None)) = Ok (mk_response true None (P_weight w (dt_issued_for r))) /\ chain_weight m i <= w.
Proof.
  intros C d cp p ts rs x i r r0 root m cp' L W R Sm Hs E Hx Hn Hr Hr0 K0 Rm Ht.
  destruct (certs_asked C d cp p ts rs L R Hs E) as (k & cs & d1 & K & Eg & ->). apply in_map_iff in Hx. destruct Hx as (c & <- & Hc).
  unfold dto_of_cert in *. rewrite map_length in Hn. rewrite nth_error_map in Hr, Hr0. destruct (nth_error c i) as [t|] eqn:Et; [|discriminate Hr]. injection Hr as <-.
  destruct (nth_error c 0) as [t0|] eqn:Et0; [|discriminate Hr0]. injection Hr0 as <-.
  pose proof (p_C66_service_stores C d L R) as Rd.
  assert (T : call_typed C (G_get_all_certs k (from_secs ts))) by (split; [eapply peer_key_valid; eassumption|apply from_secs_wf; exact Hs]).
  assert (K' : peer_key C (dt_issued_for (dto_of_trust C t)) (issued_for t)).
  { apply (certs_keys C d cp p ts (map (dto_of_cert C) cs) k cs d1 c i); auto. }
  assert (K0' : peer_key C (dt_issued_for (dto_of_trust C t0)) (issued_for t0)).
  { apply (certs_keys C d cp p ts (map (dto_of_cert C) cs) k cs d1 c 0); auto. }
  pose proof (peer_key_fun C _ _ _ K0 K0') as ->.
  assert (Tw : call_typed C (G_weight (issued_for t) (from_secs ts))) by (split; [eapply peer_key_valid; eassumption|apply from_secs_wf; exact Hs]).
  destruct (p_C23_queries_succeed C d _ Rd Tw I) as (y & d2 & Ew & X). destruct y as [|w| |]; try contradiction X. clear X. exists w. split.
  - apply (weight_response C d cp' _ (issued_for t)); [exact K'|exact Ht|]. rewrite Ew. reflexivity.
  - apply (p_C207_weights C d k (from_secs ts) None cs d1 c i (issued_for t) (issued_for t0) m None w d2 Rd Sm T Tw Eg Hc Hn); [|exists t0; auto|exact Rm|exact Ew]. exists t; auto.
Qed.

Definition longer : list service_event :=
  [(timed_call 2, S_add_trust (trust_rec 2 3 3000 20) (pid 2) 21, None); (timed_call 2, S_add_trust (trust_rec 3 4 3000 22) (pid 3) 23, None)].
Definition longer_store : db := service_history (toy true) base_store longer.
Definition longer_cert : dto_certificate := [trust_rec 1 1 1000 1; trust_rec 1 2 900 1; trust_rec 2 3 3000 20; trust_rec 3 4 3000 22].
(** Key 2 trusts key 3 and key 3 trusts key 4; the certificate of key 4 has four records, and key 2 is told the first two. *)
Example e_C207_service_parts : service_reachable (toy true) longer_store /\ small longer_store /\ host_time (timed_call 1) 1 /\
  fst (service_step (toy true) longer_store (timed_call 1, S_get_all_certs (pid 4) 30, None)) = Ok (mk_response true None (P_certs [longer_cert])) /\
  fst (service_step (toy true) longer_store (timed_call 1, S_get_all_certs (pid 2) 30, None)) = Ok (mk_response true None (P_certs [firstn 2 longer_cert])) /\
  told_weight (service_step (toy true) longer_store (timed_call 1, S_get_weight (pid 2) 30, None)) = Some (chain_weight 5 1).
Proof.
  split; [apply service_history_reachable; [exact base_reachable|repeat constructor]|]. split; [vm_compute; auto 10|]. split; [apply timed_host|].
  split; [vm_compute; reflexivity|]. split; vm_compute; reflexivity.
Qed.
