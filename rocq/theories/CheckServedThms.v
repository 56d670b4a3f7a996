(** Certificates told by the service can be checked by anyone: C26. *)
From Coq Require Import List NArith ZArith Bool Lia.
From Verif Require Import Base BaseFacts Text Keys KeysFacts Trust Certificate CertFacts Relation Storage Graph Spec SpecFacts GraphFacts StateFacts GraphThms InfluenceSpec InfluenceThms CopyThms Toy ToyFacts Witness.
From Verif Require Import Service ServiceSpec ServiceFacts ServiceThms ServedThms ServiceWitness PartsServedThms ExtendSpec.
Import ListNotations.
Open Scope N_scope.

(** ** C26 *)
(** The records of a certificate that the service tells are read as a certificate, which can be written as a text and read again, and which verifies for everybody
    who holds its first key for a root, at every time at which none of its records has expired. *)
Lemma p_C26_service : forall C d cp p ts rs x, crypto_laws C -> wasm32 C = true -> service_reachable C d -> ts < u64_bound ->
  fst (service_step C d (cp, S_get_all_certs p ts, None)) = Ok (mk_response true None (P_certs rs)) -> In x rs ->
  exists c, cert_of_dto C x = Ok c /\ cert_from_str C (cert_to_string c) = Ok c /\
    (forall rks now, (forall k, names C x 0 k -> In k rks) -> now < u64_bound -> (forall r, In r x -> now <= dt_expires_at r) -> cert_verify C c rks (from_secs now) = Ok tt) /\
    (ts < i64_bound -> forall r, In r x -> ts < dt_expires_at r).
Proof.
  intros C d cp p ts rs x L W R Hs E Hx.
  destruct (certs_asked C d cp p ts rs L R Hs E) as (k & cs & d1 & K & Eg & Ers). pose proof Hx as Hx0. rewrite Ers in Hx. apply in_map_iff in Hx. destruct Hx as (c & Ex & Hc).
  pose proof (p_C66_service_stores C d L R) as Rd.
  assert (T : call_typed C (G_get_all_certs k (from_secs ts))) by (split; [eapply peer_key_valid; eassumption|apply from_secs_wf; exact Hs]).
  pose proof (proj1 (certs_are C d k (from_secs ts) None cs d1 Rd T Eg c) Hc) as [(C1 & C2 & C3 & C4 & C5) _].
  assert (Each : forall i t, nth_error c i = Some t -> exists b, live d (from_secs ts) b t /\ ((i = 0%nat /\ b = issued_for t) \/ exists j g, i = S j /\ nth_error c j = Some g /\ b = issued_for g)).
  { intros [|i] t Ht.
    - exists (issued_for t). split; [apply C3; exact Ht|left; auto].
    - destruct (nth_error c i) as [g|] eqn:Hg; [exists (issued_for g); split; [exact (C4 i g t Hg Ht)|right; exists i, g; auto]|]. apply nth_error_None in Hg.
      assert (X : nth_error c (S i) <> None) by (rewrite Ht; discriminate). apply nth_error_Some in X. lia. }
  destruct (p_C29_stored_is_authentic C d Rd) as [Au _].
  exists c.
  assert (Rc : certificate_record C x c).
  { destruct (certs_response C d cp p k ts cs L W R Hs K) as (rs' & E' & F); [|rewrite Eg; reflexivity|].
    - rewrite service_plan in E. destruct (plan C cp (S_get_all_certs p ts)) as [[g|a]|e| |] eqn:P; try discriminate E; [exact (plan_admitted C cp _ _ P)|].
      exfalso. revert P. cbn [plan]. unfold gcall. destruct (check_timestamp_tetraplets cp 1); try discriminate. destruct (extract_public_key C p); discriminate.
    - rewrite E in E'. injection E' as <-. rewrite Ers in F. apply In_nth_error in Hc. destruct Hc as (j & Hj). rewrite <- Ex. clear - F Hj.
      revert j Hj. induction cs as [|c0 cs IH]; intros [|j] Hj; try discriminate Hj; inversion F; subst; [injection Hj as <-; assumption|eapply IH; eassumption]. }
  split; [apply cert_of_dto_ok; exact Rc|]. split; [|split].
  - apply cert_text_roundtrip. intros t It. apply In_nth_error in It. destruct It as (i & Hi). destruct (Each i t Hi) as (b & [Sb _] & _).
    destruct (held_rel C d (RAuth (mk_auth t b)) Rd Sb) as (_ & Wf). pose proof Sb as (W1 & W2 & _). destruct Wf as (V1 & V2 & V3 & _). split; [exact V1|]. split; [exact V3|]. split; [exact W1|exact W2].
  - intros rks now Hr Hn Hl. apply cert_verify_exact. split; [intros ->; cbn in C1; lia|]. split; [|split].
    + intros t Ht. destruct (C3 t Ht) as [_ [Sb _]]. split; [|exact (Au _ t Sb)]. apply Hr. rewrite <- Ex. exists (dto_of_trust C t). unfold dto_of_cert. rewrite nth_error_map, Ht. split; [reflexivity|].
      exact (certs_keys C d cp p ts rs k cs d1 c 0 t L W R Hs E K Eg Ers Hc Ht).
    + intros i g t Hg Ht. destruct (C4 i g t Hg Ht) as [Sb _]. exact (Au _ t Sb).
    + intros i t Ht B. assert (It : In (dto_of_trust C t) x) by (rewrite <- Ex; unfold dto_of_cert; apply in_map; exact (nth_error_In _ _ Ht)). specialize (Hl _ It). cbn [dto_of_trust dt_expires_at] in Hl.
      destruct B as [B|[B1 B2]]; cbn [from_secs secs nanos] in *; lia.
  - intros Hi r Ir. rewrite <- Ex in Ir. unfold dto_of_cert in Ir. apply in_map_iff in Ir. destruct Ir as (t & <- & It). apply In_nth_error in It. destruct It as (i & Hi').
    destruct (Each i t Hi') as (b & [Sb Nb] & _). destruct (held_rel C d (RAuth (mk_auth t b)) Rd Sb) as (_ & (_ & _ & _ & _ & (V & _))).
    apply (unexpired_secs (from_secs ts) (RAuth (mk_auth t b)) Hi V ltac:(eauto)) in Nb. apply Nb.
Qed.
(** The certificate of key 4 in a store of the service is read, written as a text, read again, and verified with the key of the root until second 900. *)
Example e_C26_served : service_reachable (toy true) longer_store /\
  fst (service_step (toy true) longer_store (timed_call 1, S_get_all_certs (pid 4) 30, None)) = Ok (mk_response true None (P_certs [longer_cert])) /\
  exists c, cert_of_dto (toy true) longer_cert = Ok c /\ cert_from_str (toy true) (cert_to_string c) = Ok c /\ names (toy true) longer_cert 0 (toy_key 1) /\
    cert_verify (toy true) c [toy_key 1] (from_secs 900) = Ok tt /\ cert_verify (toy true) c [toy_key 1] (from_secs 901) <> Ok tt.
Proof.
  split; [apply service_history_reachable; [exact base_reachable|repeat constructor]|]. split; [vm_compute; reflexivity|].
  exists [toy_trust 1 1 1000 1; toy_trust 1 2 900 1; toy_trust 2 3 3000 20; toy_trust 3 4 3000 22]. split; [vm_compute; reflexivity|]. split; [vm_compute; reflexivity|].
  split; [eexists; split; [reflexivity|apply extract_ok; vm_compute; reflexivity]|]. split; [vm_compute; reflexivity|]. vm_compute. discriminate.
Qed.
