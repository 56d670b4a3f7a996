(** Witnesses of the properties of the Aqua scripts. *)
From Coq Require Import String List NArith ZArith Bool Lia.
From Verif Require Import Base Text Keys Trust Certificate Relation Storage Graph Service Spec ServiceSpec Aqua AquaSpec.
From Verif Require Import BaseFacts KeysFacts TrustFacts SpecFacts StorageFacts GraphFacts StateFacts ChainFacts HistFacts ServiceFacts AquaFacts.
From Verif Require Import Toy ToyFacts ServiceWitness GraphThms MoreThms ServiceThms AquaThms AquaTrace AquaWitness.
Import ListNotations.
Open Scope N_scope.

Lemma toy_signer : forall who p k, peer_key (toy true) p k -> pk_fmt k = Ed25519 -> signer (toy true) (toy_net who) p (mk_kp Ed25519 (pk_raw k)).
Proof.
  intros who p k K F. pose proof (peer_key_valid (toy true) p k (toy_laws true) K) as V.
  assert (E : mk_pk Ed25519 (pk_raw k) = k) by (destruct k as [f r]; cbn in F; subst f; reflexivity).
  split; [|split].
  - destruct V as [_ V]. rewrite F in V. cbn [raw_key_ok] in V. apply Bool.andb_true_iff in V. destruct V as [V _]. apply N.eqb_eq in V.
    split; [reflexivity|exact V].
  - change (peer_key (toy true) p (mk_pk Ed25519 (pk_raw k))). rewrite E. exact K.
  - intros m s H. cbn in H. injection H as <-. cbn [sign_with toy_net sig_raw]. unfold toy_sign. apply extract_ok in K. rewrite K. reflexivity.
Qed.
Lemma toy_stores_ok : network_state (toy true) toy_stores.
Proof.
  intros n. unfold toy_stores, Aqua.put. destruct (bytes_eqb host_peer n); [exact base_reachable|apply empty_state_ok].
Qed.
Lemma no_trust_row : forall d b k, (forall r, In r (tbl_relations d) -> r_for r = key_text k -> r_by r = key_text b -> False) ->
  ~ exists t, issued_for t = k /\ stored_trust d b t.
Proof. intros d b k H (t & <- & _ & _ & X). exact (H _ X eq_refl eq_refl). Qed.

(** ** C88 *)
(** The toy network has a Sig service for key 1 and peer id 4 has a key. *)
Example e_C88_signs : signer (toy true) (toy_net stranger_peer) (pid 1) (toy_kp 1) /\ peer_key (toy true) (pid 4) (toy_key 4) /\
  told (aq_issue_trust (toy true) (toy_net stranger_peer) typed_in (pid 1) (pid 4) 800 5 toy_stores) = Some ([trust_rec 1 4 800 5], []).
Proof.
  split; [exact (toy_signer stranger_peer (pid 1) (toy_key 1) (pid_key 1) eq_refl)|]. split; [apply pid_key|]. vm_compute. reflexivity.
Qed.
Example e_C88_revokes : told (aq_issue_revocation (toy true) (toy_net stranger_peer) typed_in (pid 1) (pid 4) 5 toy_stores) = Some ([rev_rec 1 4 5], []).
Proof. vm_compute. reflexivity. Qed.

(** ** C89 *)
Example e_C89_hypotheses : network_state (toy true) toy_stores /\ signer (toy true) (toy_net stranger_peer) (pid 1) (toy_kp 1) /\
  no_faults (toy_net stranger_peer) /\ peer_key (toy true) (pid 4) (toy_key 4) /\
  told (aq_add_trust (toy true) (toy_net stranger_peer) typed_in host_peer (pid 1) (pid 4) 800 5 6 toy_stores) = Some [] /\
  told (aq_add_trust (toy true) (toy_net stranger_peer) typed_in host_peer (pid 1) (pid 4) 800 7 6 toy_stores) = Some [AE_service (Some SVE_InvalidTimestamp)].
Proof.
  split; [exact toy_stores_ok|]. split; [exact (toy_signer stranger_peer (pid 1) (toy_key 1) (pid_key 1) eq_refl)|].
  split; [intros n c; reflexivity|]. split; [apply pid_key|]. split; vm_compute; reflexivity.
Qed.
(** No error does not mean that the trust is stored: the graph drops a trust of an issuer without weight. *)
Lemma p_C96_done_means_stored_refuted : exists C net src node issuer kp p k e i now st st', crypto_laws C /\ wasm32 C = true /\ network_state C st /\
  signer C net issuer kp /\ no_faults net /\ peer_key C p k /\ i <= now /\ now <= e /\
  aq_add_trust C net src node issuer p e i now st = (Ok [], st') /\ ~ exists t, issued_for t = k /\ stored_trust (st' node) (kp_public C kp) t.
Proof.
  exists (toy true), (toy_net stranger_peer), typed_in, host_peer, (pid 3), (toy_kp 3), (pid 4), (toy_key 4), 800, 5, 6, toy_stores. eexists.
  split; [apply toy_laws|]. split; [reflexivity|]. split; [exact toy_stores_ok|].
  split; [exact (toy_signer stranger_peer (pid 3) (toy_key 3) (pid_key 3) eq_refl)|]. split; [intros n c; reflexivity|]. split; [apply pid_key|].
  split; [lia|]. split; [lia|]. split.
  - match goal with |- ?x = _ => rewrite (surjective_pairing x) end. apply pair_equal_spec. split; [vm_compute; reflexivity|reflexivity].
  - apply no_trust_row. intros r Hr. vm_compute in Hr. repeat destruct Hr as [<-|Hr]; try contradiction; vm_compute; discriminate.
Qed.
(** Nor does the script succeed whenever everyone cooperates: the clock of the relay may be ahead of the clock of the node. *)
Lemma p_C96_cooperation_suffices_refuted : exists C net src node issuer kp p k e i now st st' x, crypto_laws C /\ wasm32 C = true /\ network_state C st /\
  signer C net issuer kp /\ no_faults net /\ peer_key C p k /\ i < e /\ now < e /\
  aq_add_trust C net src node issuer p e i now st = (Ok [x], st').
Proof.
  exists (toy true), (toy_net stranger_peer), typed_in, host_peer, (pid 1), (toy_kp 1), (pid 4), (toy_key 4), 800, 7, 6, toy_stores. eexists. eexists.
  split; [apply toy_laws|]. split; [reflexivity|]. split; [exact toy_stores_ok|].
  split; [exact (toy_signer stranger_peer (pid 1) (toy_key 1) (pid_key 1) eq_refl)|]. split; [intros n c; reflexivity|]. split; [apply pid_key|].
  split; [lia|]. split; [lia|].
  match goal with |- ?x = _ => rewrite (surjective_pairing x) end. apply pair_equal_spec. split; [vm_compute; reflexivity|reflexivity].
Qed.

(** ** C90 *)
Example e_C90_hypotheses : owns (toy_net owner_peer) host_peer /\ ~ owns (toy_net stranger_peer) host_peer /\
  signer (toy true) (toy_net owner_peer) (pid 3) (toy_kp 3) /\
  told (aq_add_root_trust (toy true) (toy_net owner_peer) typed_in host_peer (pid 3) 4 800 5 6 toy_stores) = Some [] /\
  told (aq_add_root_trust (toy true) (toy_net stranger_peer) typed_in host_peer (pid 3) 4 800 5 6 toy_stores) = Some [AE_service (Some SVE_NotOwner)].
Proof.
  split; [reflexivity|]. split; [intros X; vm_compute in X; discriminate X|].
  split; [exact (toy_signer owner_peer (pid 3) (toy_key 3) (pid_key 3) eq_refl)|]. split; vm_compute; reflexivity.
Qed.
(** Not all or nothing: with the clock of the relay ahead it reports an error and yet the key is now a root. *)
Lemma p_C97_all_or_nothing_refuted : exists C net src node p k n e i now st st' x, crypto_laws C /\ wasm32 C = true /\ network_state C st /\
  no_faults net /\ peer_key C p k /\ aq_add_root_trust C net src node p n e i now st = (Ok [x], st') /\
  ~ is_root (st node) k /\ is_root (st' node) k.
Proof.
  exists (toy true), (toy_net owner_peer), typed_in, host_peer, (pid 3), (toy_key 3), 4, 800, 7, 6, toy_stores. eexists. eexists.
  split; [apply toy_laws|]. split; [reflexivity|]. split; [exact toy_stores_ok|]. split; [intros n c; reflexivity|]. split; [apply pid_key|].
  split; [match goal with |- ?x = _ => rewrite (surjective_pairing x) end; apply pair_equal_spec; split; [vm_compute; reflexivity|reflexivity]|].
  split.
  - intros X. vm_compute in X. repeat destruct X as [X|X]; try contradiction; discriminate X.
  - vm_compute. right. left. reflexivity.
Qed.

(** ** C91 *)
Example e_C91_hypotheses : signer (toy true) (toy_net stranger_peer) (pid 1) (toy_kp 1) /\
  told (aq_revoke (toy true) (toy_net stranger_peer) typed_in host_peer (pid 1) (pid 2) 5 6 toy_stores) = Some [] /\
  told (aq_revoke (toy true) (toy_net stranger_peer) typed_in host_peer (pid 1) (pid 2) 7 6 toy_stores) = Some [AE_service (Some SVE_InvalidTimestamp)].
Proof.
  split; [exact (toy_signer stranger_peer (pid 1) (toy_key 1) (pid_key 1) eq_refl)|]. split; vm_compute; reflexivity.
Qed.

(** ** C92 *)
Example e_C92_asks : network_state (toy true) toy_stores /\ peer_key (toy true) (pid 2) (toy_key 2) /\
  option_map reply (told (aq_get_weight (toy true) (toy_net stranger_peer) typed_in host_peer (pid 2) 6 toy_stores)) = Some (P_weight 16 (pid 2)).
Proof. split; [exact toy_stores_ok|]. split; [apply pid_key|]. vm_compute. reflexivity. Qed.
(** The example of the README: weight of one peer as given by another, both literals. *)
Lemma p_C98_get_weight_from_answers_refuted : exists C net src node p k q b now st st', crypto_laws C /\ wasm32 C = true /\ network_state C st /\
  no_faults net /\ peer_key C p k /\ peer_key C q b /\
  aq_get_weight_from C net src node p q now st = (Ok (mk_response false (Some SVE_InvalidTimestampTetraplet) (P_weight 0 [])), st').
Proof.
  exists (toy true), (toy_net stranger_peer), typed_in, host_peer, (pid 2), (toy_key 2), (pid 1), (toy_key 1), 6, toy_stores. eexists.
  split; [apply toy_laws|]. split; [reflexivity|]. split; [exact toy_stores_ok|]. split; [intros n c; reflexivity|]. split; [apply pid_key|]. split; [apply pid_key|].
  match goal with |- ?x = _ => rewrite (surjective_pairing x) end. apply pair_equal_spec. split; [vm_compute; reflexivity|reflexivity].
Qed.

(** It answers only if the issuer itself came from the clock of the node, which a peer id does not. *)
Example e_C98_odd_origin : option_map reply (told (aq_get_weight_from (toy true) (toy_net stranger_peer) (fun _ => clock_of host_peer) host_peer (pid 2) (pid 1) 6 toy_stores)) =
  Some (P_weight 16 (pid 2)).
Proof. vm_compute. reflexivity. Qed.

(** ** C93 *)
Lemma label_stores_ok : network_state (toy true) label_stores.
Proof.
  apply uses_state; [|apply empty_state_ok]. unfold labelling, uses_typed. repeat constructor; cbn; try discriminate; try (intros now E; injection E as <-; reflexivity).
Qed.
(** The labelled host is a Fluence peer until second 799 and not from second 800 on; the relay is none. *)
Example e_C93_labelled : network_state (toy true) label_stores /\ literal_keys (toy true) /\ peer_key (toy true) host_peer (toy_key 9) /\
  told (is_fluence_peer (toy true) (toy_net stranger_peer) host_peer 799 label_stores) = Some ([true], []) /\
  told (is_fluence_peer (toy true) (toy_net stranger_peer) host_peer 800 label_stores) = Some ([false], []) /\
  told (is_fluence_peer (toy true) (toy_net stranger_peer) (pid 6) 5 label_stores) = Some ([false], []).
Proof.
  split; [exact label_stores_ok|]. split; [split; reflexivity|]. split; [apply pid_key|]. repeat split; vm_compute; reflexivity.
Qed.

(** ** C94 *)
Example e_C94_uses : uses_typed labelling /\ root_max_len (label_stores host_peer) root_key 5 /\ target (A_set_root host_peer fluence_root_peer_id 5) = Some host_peer.
Proof.
  split; [unfold labelling, uses_typed; repeat constructor; cbn; try discriminate; try (intros now E; injection E as <-; reflexivity)|]. split; [|reflexivity].
  exists 11%Z. split; [vm_compute; reflexivity|reflexivity].
Qed.

(** ** C95 *)
(** Asking for a weight at second 901 removes the trust of key 2 from the store of the host. *)
Example e_C95_leaves : stored (toy_stores host_peer) (RAuth (mk_auth (toy_trust 1 2 900 1) (toy_key 1))) /\
  ~ stored (run (toy true) (toy_net stranger_peer) typed_in (A_get_weight host_peer (pid 2) 901) toy_stores host_peer) (RAuth (mk_auth (toy_trust 1 2 900 1) (toy_key 1))).
Proof.
  split.
  - split; [split; reflexivity|]. split; [split; reflexivity|]. vm_compute. right. left. reflexivity.
  - intros (_ & _ & X). vm_compute in X. repeat destruct X as [X|X]; try contradiction; discriminate X.
Qed.
(** The owner's certificate arrives. *)
Example e_C95_arrives : ~ stored (empty_network host_peer) (RAuth (mk_auth (toy_given label_pair (toy_key 9) 800 1) label_key)) /\
  stored (label_stores host_peer) (RAuth (mk_auth (toy_given label_pair (toy_key 9) 800 1) label_key)).
Proof.
  split; [intros (_ & _ & [])|]. split; [split; reflexivity|]. split; [split; reflexivity|]. vm_compute. right. right. left. reflexivity.
Qed.
