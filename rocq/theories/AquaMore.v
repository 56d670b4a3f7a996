(** The functions of the Aqua interface that write once. *)
From Coq Require Import String List NArith ZArith Bool Lia.
From Verif Require Import Base Text Keys Trust Certificate Relation Storage Graph Service Spec ServiceSpec Aqua AquaSpec.
From Verif Require Import BaseFacts KeysFacts ServiceFacts AquaFacts GraphThms MoreThms ServiceThms AquaThms AquaTrace Toy ToyFacts ServiceWitness AquaWitness AquaEx.
Import ListNotations.
Open Scope N_scope.

(** ** C120 *)
(** [set_root] run by the owner for a peer id with a key does what the graph of the node does; otherwise it reports an error and
    changes nothing. *)
Lemma p_C120_set_root : forall C net src node p n st r st', crypto_laws C -> wasm32 C = true -> network_state C st -> n < u32_bound ->
  aq_set_root C net src node p n st = (r, st') ->
  (forall k, owns net node -> peer_key C p k -> answers_as C net node (S_set_root p n) (G_set_root k n) st st' r) /\
  (~ owns net node -> unchanged st st' /\ r = Ok (mk_response false (Some SVE_NotOwner) P_none)) /\
  (owns net node -> (forall k, ~ peer_key C p k) -> unchanged st st' /\ exists e, r = Ok (mk_response false (Some e) P_none)).
Proof.
  intros C net src node p n st r st' L W N Bn E. unfold aq_set_root in E. split; [|split].
  - intros k O K. eapply graph_call_step; try eassumption; [apply N|cbn; auto].
  - intros O. rewrite call_step in E. cbn [plan service_creator_peer_id init_peer_id] in E. destruct (bytes_eqb (creator_on net node) (initiator net)) eqn:B.
    + exfalso. apply O. apply bytes_eqb_eq in B. symmetry. exact B.
    + cbn [carry_out fst snd] in E. apply pair_equal_spec in E. destruct E as [<- <-]. split; [apply put_unchanged; reflexivity|reflexivity].
  - intros O Nk. rewrite call_step in E. cbn [plan service_creator_peer_id init_peer_id] in E. unfold owns in O. rewrite O, (proj2 (bytes_eqb_eq _ _) eq_refl) in E.
    destruct (extract_cases C p) as [(k & _ & K)|(e & X)]; [exfalso; exact (Nk k K)|]. rewrite X in E. cbn [bind carry_out fst snd] in E.
    apply pair_equal_spec in E. destruct E as [<- <-]. split; [apply put_unchanged; reflexivity|]. eexists. reflexivity.
Qed.
(** [insert_cert] adds the given certificate at the time of the node's clock; a record that is no certificate changes nothing. *)
Lemma p_C120_insert_cert : forall C net src node c now st r st', crypto_laws C -> wasm32 C = true -> network_state C st -> Forall dto_trust_typed c -> now < u64_bound ->
  aq_insert_cert C net src node c now st = (r, st') ->
  (forall ch, certificate_record C c ch -> answers_as C net node (S_insert_cert c now) (G_add ch (from_secs now)) st st' r) /\
  ((forall ch, ~ certificate_record C c ch) -> unchanged st st' /\ exists e, r = Ok (mk_response false (Some e) P_none)).
Proof.
  intros C net src node c now st r st' L W N Tc Bn E. unfold aq_insert_cert in E. split.
  - intros ch R. eapply graph_call_step; try eassumption; [apply N|split; assumption|exact I|cbn; auto].
  - intros Nc. rewrite call_step in E. cbn [plan] in E. destruct (cert_of_dto_cases C c) as [(ch & X)|(e & X)]; [exfalso; apply cert_of_dto_ok in X; exact (Nc ch X)|].
    rewrite X in E. cbn [map_err bind carry_out fst snd] in E. apply pair_equal_spec in E. destruct E as [<- <-].
    split; [apply put_unchanged; reflexivity|]. eexists. reflexivity.
Qed.
(** [import_trust] adds the given trust of the given issuer if it was not made after the time of the node's clock; otherwise, and if
    the records are none, it reports an error and changes nothing. *)
Lemma p_C120_import_trust : forall C net node o oi x issuer now st r st', crypto_laws C -> wasm32 C = true -> network_state C st -> dto_trust_typed x -> now < u64_bound ->
  aq_import_trust C net node o oi x issuer now st = (r, st') ->
  (forall t b, trust_record C x t -> peer_key C issuer b -> dt_issued_at x <= now ->
    only_at node st st' /\
    ((r = Ok [] /\ exists w, graph_step C (st node) (G_add_trust t b (from_secs now), None) = (Ok (GR_weight w), st' node)) \/
     (exists e, r = Ok [AE_service (Some (SVE_TGError e))] /\ graph_step C (st node) (G_add_trust t b (from_secs now), fault net node (S_add_trust x issuer now)) = (Err e, st' node)))) /\
  (~ (dt_issued_at x <= now /\ (exists t, trust_record C x t) /\ exists b, peer_key C issuer b) -> unchanged st st' /\ exists e, r = Ok [AE_service (Some e)]).
Proof.
  intros C net node o oi x issuer now st r st' L W N T Bn E. apply import_trust_step in E; try assumption; [|apply N].
  destruct E as [O [(-> & t0 & b0 & w & R0 & B0 & Le0 & _ & G)|[(t0 & b0 & e & -> & R0 & B0 & Le0 & _ & G)|(U & (e & ->) & No)]]].
  - split; [|intros No; exfalso; apply No; eauto]. intros t b R B Le. apply trust_of_dto_ok in R, R0. rewrite R in R0. injection R0 as <-.
    rewrite (peer_key_fun C issuer _ _ B B0). split; [exact O|]. left. split; [reflexivity|]. exists w. exact G.
  - split; [|intros No; exfalso; apply No; eauto]. intros t b R B Le. apply trust_of_dto_ok in R, R0. rewrite R in R0. injection R0 as <-.
    rewrite (peer_key_fun C issuer _ _ B B0). split; [exact O|]. right. exists e. split; [reflexivity|exact G].
  - split; [intros t b R B Le; exfalso; apply No; eauto|]. intros _. split; [exact U|]. exists e. reflexivity.
Qed.
(** The same for [import_revocation]. *)
Lemma p_C120_import_revocation : forall C net node o x now st r st', crypto_laws C -> wasm32 C = true -> network_state C st -> dr_revoked_at x < u64_bound -> now < u64_bound ->
  aq_import_revocation C net node o x now st = (r, st') ->
  (forall v, revocation_record C x v -> dr_revoked_at x <= now ->
    only_at node st st' /\
    ((r = Ok [] /\ graph_step C (st node) (G_revoke v, None) = (Ok GR_unit, st' node)) \/
     (exists e, r = Ok [AE_service (Some (SVE_TGError e))] /\ graph_step C (st node) (G_revoke v, fault net node (S_revoke x now)) = (Err e, st' node)))) /\
  (~ (dr_revoked_at x <= now /\ exists v, revocation_record C x v) -> unchanged st st' /\ exists e, r = Ok [AE_service (Some e)]).
Proof.
  intros C net node o x now st r st' L W N T Bn E. apply import_revocation_step in E; try assumption; [|apply N].
  destruct E as [O [(-> & v0 & R0 & Le0 & _ & G)|[(v0 & e & -> & R0 & Le0 & _ & G)|(U & (e & ->) & No)]]].
  - split; [|intros No; exfalso; apply No; eauto]. intros v R Le. apply revocation_of_dto_ok in R, R0. rewrite R in R0. injection R0 as <-. split; [exact O|]. left. auto.
  - split; [|intros No; exfalso; apply No; eauto]. intros v R Le. apply revocation_of_dto_ok in R, R0. rewrite R in R0. injection R0 as <-. split; [exact O|]. right. exists e. auto.
  - split; [intros v R Le; exfalso; apply No; eauto|]. intros _. split; [exact U|]. exists e. reflexivity.
Qed.
(** All four succeed on the toy network; the stranger may not set a root, and a trust of second 7 is refused at second 6. *)
Example e_C120_succeed : network_state (toy true) toy_stores /\ owns (toy_net owner_peer) host_peer /\ ~ owns (toy_net stranger_peer) host_peer /\
  option_map success (told (aq_set_root (toy true) (toy_net owner_peer) typed_in host_peer (pid 3) 4 toy_stores)) = Some true /\
  option_map success (told (aq_set_root (toy true) (toy_net stranger_peer) typed_in host_peer (pid 3) 4 toy_stores)) = Some false /\
  option_map success (told (aq_insert_cert (toy true) (toy_net stranger_peer) typed_in host_peer [trust_rec 1 1 900 2; trust_rec 1 4 800 3] 6 toy_stores)) = Some true /\
  told (aq_import_trust (toy true) (toy_net stranger_peer) host_peer [from_script] [from_script] (trust_rec 1 4 800 5) (pid 1) 6 toy_stores) = Some [] /\
  told (aq_import_trust (toy true) (toy_net stranger_peer) host_peer [from_script] [from_script] (trust_rec 1 4 800 7) (pid 1) 6 toy_stores) = Some [AE_service (Some SVE_InvalidTimestamp)] /\
  told (aq_import_revocation (toy true) (toy_net stranger_peer) host_peer [from_script] (rev_rec 1 2 5) 6 toy_stores) = Some [].
Proof.
  split; [exact toy_stores_ok|]. split; [reflexivity|]. split; [intros X; vm_compute in X; discriminate X|]. repeat split; vm_compute; reflexivity.
Qed.
