(** Facts about the Aqua scripts. *)
From Coq Require Import List NArith ZArith Bool Lia ZifyBool ZifyNat ZifyN Setoid.
From Coq Require String.
Import String.StringSyntax.
From Verif Require Import Base BaseFacts Text TextFacts Keys KeysFacts Trust TrustFacts Certificate CertFacts Relation
  Storage StorageFacts Graph PathFacts Service Spec SpecFacts GraphFacts StateFacts ChainFacts ImportFacts HistFacts
  ServiceSpec ServiceFacts Toy ToyFacts GraphThms ServiceWitness ServiceThms Aqua AquaSpec.
Import ListNotations.
Open Scope N_scope.

(** * Stores *)
Lemma put_same : forall st n d, put st n d n = d.
Proof. intros st n d. unfold put. rewrite (proj2 (bytes_eqb_eq n n) eq_refl). reflexivity. Qed.
Lemma put_other : forall st n d m, m <> n -> put st n d m = st m.
Proof.
  intros st n d m H. unfold put. destruct (bytes_eqb n m) eqn:E; [|reflexivity].
  apply bytes_eqb_eq in E. congruence.
Qed.
Lemma put_only : forall st n d, only_at n st (put st n d).
Proof. intros st n d m H. apply put_other. exact H. Qed.
Lemma put_unchanged : forall st n d, d = st n -> unchanged st (put st n d).
Proof.
  intros st n d -> m. unfold put. destruct (bytes_eqb n m) eqn:E; [|reflexivity]. apply bytes_eqb_eq in E. congruence.
Qed.
Lemma unchanged_refl : forall st, unchanged st st.
Proof. intros st n. reflexivity. Qed.
Lemma unchanged_trans : forall a b c, unchanged a b -> unchanged b c -> unchanged a c.
Proof. intros a b c H1 H2 n. rewrite H2. apply H1. Qed.
Lemma only_refl : forall n st, only_at n st st.
Proof. intros n st m _. reflexivity. Qed.
Lemma only_trans : forall n a b c, only_at n a b -> only_at n b c -> only_at n a c.
Proof. intros n a b c H1 H2 m H. rewrite H2 by exact H. apply H1. exact H. Qed.
Lemma unchanged_only : forall n a b, unchanged a b -> only_at n a b.
Proof. intros n a b H m _. apply H. Qed.
Lemma network_unchanged : forall C a b, unchanged a b -> network_state C a -> network_state C b.
Proof. intros C a b H N n. rewrite H. apply N. Qed.

Section WithCrypto.
Variable C : crypto.
Variable net : network.

Lemma call_step : forall node args c st,
  call_on C net node args c st =
  (fst (carry_out C (st node) (fault net node c) c (plan C (mk_params (initiator net) (creator_on net node) node args) c)),
   put st node (snd (carry_out C (st node) (fault net node c) c (plan C (mk_params (initiator net) (creator_on net node) node args) c)))).
Proof.
  intros node args c st. unfold call_on. rewrite service_plan. destruct (carry_out _ _ _ _ _) as [r d]. reflexivity.
Qed.

(** Clocks *)
Lemma clock_host : forall node args i, nth_error args i = Some (clock_of node) ->
  host_time (mk_params (initiator net) (creator_on net node) node args) i.
Proof.
  intros node args i H. exists (mk_tetraplet node (str "peer") (str "timestamp_sec")), []. cbn [tetraplets host_id].
  split; [exact H|]. repeat split.
Qed.

(** Calls that only compute. *)
Lemma local_step : forall node args c st r st', local_call c = true -> call_on C net node args c st = (r, st') ->
  unchanged st st' /\ exists resp, r = Ok resp /\
    ((exists a, plan C (mk_params (initiator net) (creator_on net node) node args) c = Ok (inr a) /\ resp = mk_response true None a) \/
     (exists e, plan C (mk_params (initiator net) (creator_on net node) node args) c = Err e /\ resp = mk_response false (Some e) (empty_payload c))).
Proof.
  intros node args c st r st' L E. rewrite call_step in E. apply pair_equal_spec in E. destruct E as [<- <-].
  destruct (plan C _ c) as [[g|a]|e| |] eqn:P; cbn [carry_out fst snd].
  - exfalso. apply plan_requests in P. destruct c; try discriminate L; destruct g; exact P.
  - split; [apply put_unchanged; reflexivity|]. eexists. split; [reflexivity|]. left. exists a. auto.
  - split; [apply put_unchanged; reflexivity|]. eexists. split; [reflexivity|]. right. exists e. auto.
  - exfalso. destruct (plan_total C _ _ (or_introl P)) as (s & ts & -> & _). discriminate L.
  - exfalso. destruct (plan_total C _ _ (or_intror P)) as (s & ts & -> & _). discriminate L.
Qed.

(** Admitted calls. *)
Lemma graph_call_step : forall node args c g st r st', crypto_laws C -> wasm32 C = true -> service_reachable C (st node) -> service_typed c ->
  admitted (mk_params (initiator net) (creator_on net node) node args) c ->
  requests C (mk_params (initiator net) (creator_on net node) node args) c g ->
  call_on C net node args c st = (r, st') -> answers_as C net node c g st st' r.
Proof.
  intros node args c g st r st' L W R T A Q E. unfold call_on in E.
  destruct (service_step C (st node) _) as [r' d'] eqn:S1. apply pair_equal_spec in E. destruct E as [<- <-].
  split; [apply put_only|]. rewrite put_same. exact (p_C66_admitted_calls C _ _ _ _ _ _ _ L W R T A Q S1).
Qed.

(** Calls leave stores a service can leave. *)
Lemma call_network : forall node args c st r st', service_typed c -> network_state C st -> call_on C net node args c st = (r, st') ->
  network_state C st' /\ only_at node st st'.
Proof.
  intros node args c st r st' T N E. unfold call_on in E.
  destruct (service_step C (st node) _) as [r' d'] eqn:S1. apply pair_equal_spec in E. destruct E as [_ <-].
  split; [|apply put_only]. intros m. unfold put. destruct (bytes_eqb node m) eqn:B; [|apply N].
  replace d' with (snd (service_step C (st node) (mk_params (initiator net) (creator_on net node) node args, c, fault net node c)))
    by (rewrite S1; reflexivity).
  apply service_reachable_step; [exact T|apply N].
Qed.

(** * Issuing *)
Variable src : nat -> origin.

Lemma issue_trust_step : forall issuer p e t st r st', aq_issue_trust C net src issuer p e t st = (r, st') ->
  unchanged st st' /\
  ((exists k s, peer_key C p k /\
     sign_with net issuer (trust_signature_bytes C k (from_secs e) (from_secs t)) = Some s /\
     r = Ok ([dto_of_trust C (mk_trust k (from_secs e) (sig_from_bytes (pk_fmt k) s) (from_secs t))], [])) \/
   (exists k, peer_key C p k /\ sign_with net issuer (trust_signature_bytes C k (from_secs e) (from_secs t)) = None /\ r = Ok ([], [AE_sign])) \/
   ((forall k, ~ peer_key C p k) /\ exists x, r = Ok ([], [AE_service (Some x)]))).
Proof.
  intros issuer p e t st r st' E. unfold aq_issue_trust, sbind in E.
  destruct (call_on C net (relay net) _ (S_get_trust_bytes p e t) st) as [r1 st1] eqn:E1.
  apply local_step in E1; [|reflexivity]. destruct E1 as (U1 & resp1 & -> & H1). cbn [plan] in H1.
  destruct (extract_cases C p) as [(k & X & K)|(x & X)]; rewrite X in H1; cbn [bind] in H1.
  2:{ destruct H1 as [(a & H1 & _)|(x1 & H1 & ->)]; [discriminate H1|]. cbn [success] in E. unfold sret, error_in in E. cbn [error] in E.
      apply pair_equal_spec in E. destruct E as [<- <-]. split; [exact U1|]. right. right. split; [|exists x1; reflexivity].
      intros k K. apply extract_ok in K. congruence. }
  destruct H1 as [(a & H1 & ->)|(x1 & H1 & _)]; [|discriminate H1]. injection H1 as <-. cbn [success] in E. unfold bytes_in in E at 1. cbn [reply] in E.
  destruct (sign_with net issuer _) as [s|] eqn:G.
  2:{ unfold sret in E. apply pair_equal_spec in E. destruct E as [<- <-]. split; [exact U1|]. right. left. exists k. auto. }
  destruct (call_on C net (relay net) _ (S_issue_trust p e t s) st1) as [r2 st2] eqn:E2.
  apply local_step in E2; [|reflexivity]. destruct E2 as (U2 & resp2 & -> & H2). cbn [plan] in H2. rewrite X in H2. cbn [bind] in H2.
  destruct H2 as [(a & H2 & ->)|(x1 & H2 & _)]; [|discriminate H2]. injection H2 as <-. cbn [success] in E. unfold trust_in, sret in E. cbn [reply] in E.
  apply pair_equal_spec in E. destruct E as [<- <-]. split; [eapply unchanged_trans; eassumption|]. left. exists k, s. auto.
Qed.

Lemma issue_revocation_step : forall q p t st r st', aq_issue_revocation C net src q p t st = (r, st') ->
  unchanged st st' /\
  ((exists k b s, peer_key C p k /\ peer_key C q b /\
     sign_with net q (revocation_signature_bytes C k (from_secs t)) = Some s /\
     r = Ok ([dto_of_revocation C (mk_rev k (from_secs t) b (sig_from_bytes (pk_fmt b) s))], [])) \/
   (exists k, peer_key C p k /\ sign_with net q (revocation_signature_bytes C k (from_secs t)) = None /\ r = Ok ([], [AE_sign])) \/
   (((forall k, ~ peer_key C p k) \/ (forall k, ~ peer_key C q k)) /\ exists x, r = Ok ([], [AE_service (Some x)]))).
Proof.
  intros q p t st r st' E. unfold aq_issue_revocation, sbind in E.
  destruct (call_on C net (relay net) _ (S_get_revocation_bytes p t) st) as [r1 st1] eqn:E1.
  apply local_step in E1; [|reflexivity]. destruct E1 as (U1 & resp1 & -> & H1). cbn [plan] in H1.
  destruct (extract_cases C p) as [(k & X & K)|(x & X)]; rewrite X in H1; cbn [bind] in H1.
  2:{ destruct H1 as [(a & H1 & _)|(x1 & H1 & ->)]; [discriminate H1|]. cbn [success] in E. unfold sret, error_in in E. cbn [error] in E.
      apply pair_equal_spec in E. destruct E as [<- <-]. split; [exact U1|]. right. right. split; [|exists x1; reflexivity].
      left. intros k K. apply extract_ok in K. congruence. }
  destruct H1 as [(a & H1 & ->)|(x1 & H1 & _)]; [|discriminate H1]. injection H1 as <-. cbn [success] in E. unfold bytes_in in E at 1. cbn [reply] in E.
  destruct (sign_with net q _) as [s|] eqn:G.
  2:{ unfold sret in E. apply pair_equal_spec in E. destruct E as [<- <-]. split; [exact U1|]. right. left. exists k. auto. }
  destruct (call_on C net (relay net) _ (S_issue_revocation q p t s) st1) as [r2 st2] eqn:E2.
  apply local_step in E2; [|reflexivity]. destruct E2 as (U2 & resp2 & -> & H2). cbn [plan] in H2. rewrite X in H2. cbn [bind] in H2.
  destruct (extract_cases C q) as [(b & Y & B)|(x & Y)]; rewrite Y in H2; cbn [bind] in H2.
  - destruct H2 as [(a & H2 & ->)|(x1 & H2 & _)]; [|discriminate H2]. injection H2 as <-. cbn [success] in E. unfold revocation_in, sret in E. cbn [reply] in E.
    apply pair_equal_spec in E. destruct E as [<- <-]. split; [eapply unchanged_trans; eassumption|]. left. exists k, b, s. auto.
  - destruct H2 as [(a & H2 & _)|(x1 & H2 & ->)]; [discriminate H2|]. cbn [success] in E. unfold sret, error_in in E. cbn [error] in E.
    apply pair_equal_spec in E. destruct E as [<- <-]. split; [eapply unchanged_trans; eassumption|]. right. right. split; [|exists x1; reflexivity].
    right. intros b B. apply extract_ok in B. congruence.
Qed.

End WithCrypto.
