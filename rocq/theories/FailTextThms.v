(** Proofs about the text of failures of the database. *)
From Coq Require Import List NArith ZArith Bool Lia.
From Coq Require Import Strings.Byte.
From Coq Require String.
Import String.StringSyntax.
From Verif Require Import Base BaseFacts Text TextFacts Keys Trust TrustFacts Certificate CertFacts Relation Storage Graph SearchFacts Service Spec SpecFacts GraphFacts StateFacts
  ServiceSpec ServiceFacts ServiceThms Toy ToyFacts Witness ServiceWitness ErrorText ErrorTextSpec ErrorTextFacts ErrorTextThms.
Import ListNotations.
Open Scope N_scope.

Definition inner (e : graph_error) : bool := match e with GE_InternalStorage _ => true | _ => false end.
Lemma add_trust_outer : forall C s t b now e, fst (add_trust_sem C s t b now) = Err e -> inner e = false.
Proof.
  intros C s t b now e H. unfold add_trust_sem in H. destruct (trust_verify C t b now) as [[]|x| |]; try discriminate H.
  - cbv zeta in H. destruct (_ =? 0); discriminate H.
  - injection H as <-. reflexivity.
Qed.
Lemma add_chain_outer : forall C c s b now e, fst (add_chain_sem C s c b now) = Err e -> inner e = false.
Proof.
  intros C. induction c as [|t c IH]; intros s b now e H; cbn [add_chain_sem] in H; [discriminate H|].
  destruct (add_trust_sem C s t b now) as [[x|x| |] ws] eqn:E; try discriminate H.
  - destruct (add_chain_sem C (run_ws ws s) c (issued_for t) now) as [r ws'] eqn:E2. cbn [fst] in H. subst r. apply (IH (run_ws ws s) (issued_for t) now e). rewrite E2. reflexivity.
  - injection H as <-. apply (add_trust_outer C s t b now x). rewrite E. reflexivity.
Qed.
Lemma sem_outer : forall C s c e, fst (sem C s c) = Err e -> inner e = false.
Proof.
  intros C s c e H. destruct c; cbn [sem] in H; try discriminate H.
  - destruct (add_trust_sem C s t by_pk now) as [r ws] eqn:E. cbn [fst] in H. destruct r; cbn [map_ok] in H; try discriminate H. injection H as <-.
    apply (add_trust_outer C s t by_pk now e0). rewrite E. reflexivity.
  - destruct (add_sem C s c now) as [r ws] eqn:E. cbn [fst] in H. destruct r; cbn [map_ok] in H; try discriminate H. injection H as <-.
    unfold add_sem in E. destruct c as [|t c]; [injection E as <- _; reflexivity|]. apply (add_chain_outer C (t :: c) s (issued_for t) now e0). rewrite E. reflexivity.
  - destruct (revoke_sem C v) as [r ws] eqn:E. cbn [fst] in H. destruct r; cbn [map_ok] in H; try discriminate H. injection H as <-.
    unfold revoke_sem in E. destruct (revocation_verify C v); try discriminate E. injection E as <- _. reflexivity.
Qed.
Lemma begins_storage : forall s, begins storage_words (s ++ str " Key format is not supported") -> begins storage_words s.
Proof.
  intros s (rest & H). apply app_eq_app in H. destruct H as (l & [[H _]|[H1 H2]]); [exists l; exact H|].
  destruct l as [|c l]; [exists []; rewrite app_nil_r in *; symmetry; exact H1|]. exfalso. injection H2 as <- H2.
  destruct l as [|c l].
  - apply (f_equal (@rev byte)) in H1. rewrite rev_unit in H1. vm_compute in H1. discriminate H1.
  - injection H2 as <- H2.
    assert (I : In x4b storage_words) by (rewrite H1; apply in_or_app; right; right; left; reflexivity).
    revert I. vm_compute. intuition discriminate.
Qed.
Lemma text_storage : forall F w e, (w = [] \/ w = str "trust" \/ w = str "revoke") -> begins storage_words (service_error_text F w e) ->
  (exists x, e = SVE_TGError (GE_InternalStorage x)) \/ exists s, e = SVE_DtoError (DTO_InvalidKeyFormat (InvalidKeyFormat s)) /\ begins storage_words s.
Proof.
  intros F w e W (rest & T). destruct e as [|x|x|x|x|x| | |]; cbn [service_error_text] in T; try discriminate T.
  - destruct x; discriminate T.
  - destruct x; try discriminate T. left. eexists. reflexivity.
  - destruct x; discriminate T.
  - destruct x as [x| |[s]]; try discriminate T. right. exists s. split; [reflexivity|]. apply begins_storage. exists rest. exact T.
  - destruct x as [? ?|x|x|? ?|? ?|x|?]; try destruct x; discriminate T.
  - destruct W as [-> |[-> | ->]]; discriminate T.
Qed.
Lemma kind_given : forall C cp c s, plan C cp c = Err (SVE_DtoError (DTO_InvalidKeyFormat (InvalidKeyFormat s))) -> In s (kinds_given c).
Proof.
  intros C cp c s P. apply plan_cause in P. cbn [cause] in P. destruct c; try contradiction; cbn [kinds_given].
  - apply (cert_of_dto_kind C). exact P.
  - left. symmetry. apply (trust_of_dto_kind C). exact P.
  - left. symmetry. apply (trust_of_dto_kind C). exact P.
  - left. symmetry. apply (revocation_of_dto_kind C). exact P.
Qed.
(** With and without the failure of a statement: the same, or the error of the database. *)
Lemma fail_cases : forall C d cp c f, crypto_laws C -> service_reachable C d -> service_typed c ->
  (service_step C d (cp, c, f) = service_step C d (cp, c, None) /\ forall r d' x, service_step C d (cp, c, None) = (Ok r, d') -> error r <> Some (SVE_TGError (GE_InternalStorage x))) \/
  (f <> None /\ exists d', service_step C d (cp, c, f) = (Ok (mk_response false (Some (SVE_TGError (GE_InternalStorage SE_SQLite))) (empty_payload c)), d')).
Proof.
  intros C d cp c f L R T. rewrite !service_plan. destruct (plan C cp c) as [[g|a]|e| |] eqn:P; cbn [carry_out].
  2-5: left; split; [reflexivity|]; intros r d' x H; try discriminate H.
  2: injection H as <- _; discriminate.
  2: { injection H as <- _. cbn [error]. intros H. injection H as ->. apply plan_cause in P. exact P. }
  pose proof (plan_requests C cp c g P) as Rq. pose proof (requests_typed C cp c g L T Rq) as Tg.
  destruct (reachable_inv C d (service_reachable_graph C d L R)) as (s & -> & I).
  pose proof (step_none C s g I Tg) as E0. destruct (graph_step_sem C s g f (inv_wf C s I) Tg) as [E|(N & k & E)].
  - left. rewrite E, E0. split; [reflexivity|]. intros r d' x H. destruct (fst (sem C s g)) as [y|y| |] eqn:S; try discriminate H; injection H as <- _; cbn [error]; [discriminate|].
    intros H. injection H as ->. apply sem_outer in S. discriminate S.
  - right. split; [exact N|]. rewrite E. eexists. reflexivity.
Qed.

(** ** C192 *)
(** If a failing statement makes any difference to a response, the response is a failure with the words and what SQLite said. *)
Lemma p_C192_told : forall C F d cp c f r d' r0 d0, crypto_laws C -> service_reachable C d -> service_typed c ->
  service_step C d (cp, c, None) = (Ok r0, d0) -> service_step C d (cp, c, f) = (Ok r, d') ->
  (r, d') = (r0, d0) \/ success r = false /\ answer_text F c r = storage_words ++ str " " ++ F H_sqlite.
Proof.
  intros C F d cp c f r d' r0 d0 L R T E0 E. destruct (fail_cases C d cp c f L R T) as [[S _]|(_ & d1 & S)].
  - left. rewrite S, E0 in E. injection E as <- <-. reflexivity.
  - right. rewrite S in E. injection E as <- <-. split; reflexivity.
Qed.
(** A text with these words means that a failing statement made a difference, unless a kind of signature in the call begins with them. *)
Lemma p_C192_means : forall C F d cp c f r d' r0 d0, crypto_laws C -> service_reachable C d -> service_typed c ->
  (forall s, In s (kinds_given c) -> ~ begins storage_words s) ->
  service_step C d (cp, c, None) = (Ok r0, d0) -> service_step C d (cp, c, f) = (Ok r, d') ->
  (begins storage_words (answer_text F c r) <-> r <> r0).
Proof.
  intros C F d cp c f r d' r0 d0 L R T K E0 E.
  assert (X : forall x, error r0 <> Some (SVE_TGError (GE_InternalStorage x))).
  { intros x. destruct (fail_cases C d cp c None L R T) as [[_ S]|[N _]]; [exact (S r0 d0 x E0)|congruence]. }
  split.
  - intros B ->. destruct (answer_cases C _ _ _ _ _ _ E0) as [[S1 Q]|(S1 & e & Q & P)]; unfold answer_text in B; rewrite Q in B; [destruct B as (? & B); discriminate B|].
    apply text_storage in B; [|apply call_words]. destruct B as [(x & ->)|(s & -> & B)]; [exact (X x Q)|].
    destruct P as [P|(g & ge & _ & _ & P)]; [|discriminate P]. exact (K s (kind_given C cp c s P) B).
  - intros N. destruct (p_C192_told C F d cp c f r d' r0 d0 L R T E0 E) as [H|[_ ->]]; [injection H as -> _; contradiction N; reflexivity|]. eexists. reflexivity.
Qed.

(** * Cases *)
(** Asked for a weight while its second statement fails, the service answers with the words and what SQLite said; a trust with a kind of
    signature of these words gets them too, though no statement failed. *)
Example e_C192_failure : service_reachable (toy true) base_store /\ (forall s, In s (kinds_given (S_get_weight (pid 2) 6)) -> ~ begins storage_words s) /\
  (exists r d', service_step (toy true) base_store (timed_call 1, S_get_weight (pid 2) 6, Some 1%nat) = (Ok r, d') /\
     forall F, answer_text F (S_get_weight (pid 2) 6) r = str "Internal storage error: " ++ F H_sqlite) /\
  (exists r d', service_step (toy true) base_store (timed_call 1, S_get_weight (pid 2) 6, None) = (Ok r, d') /\ success r = true).
Proof.
  split; [exact base_reachable|]. split; [intros s []|].
  split; do 2 eexists; (split; [vm_compute; reflexivity|]); [intros F|]; reflexivity.
Qed.
Definition forger : service_call := S_verify_trust (mk_dto_trust (pid 2) 9000 (str "1") (str "Internal storage error: disk full.") 1) (pid 1) 6.
(** The condition on kinds is needed. *)
Lemma p_C192_forged : exists C F d cp c r d', crypto_laws C /\ service_reachable C d /\ service_typed c /\ service_step C d (cp, c, None) = (Ok r, d') /\
  begins storage_words (answer_text F c r).
Proof.
  exists (toy true), (fun _ => []), base_store, (timed_call 2), forger.
  exists (mk_response false (Some (SVE_DtoError (DTO_InvalidKeyFormat (InvalidKeyFormat (str "Internal storage error: disk full."))))) P_none), base_store.
  split; [apply toy_laws|]. split; [exact base_reachable|]. split; [split; [split|]; reflexivity|]. split; [vm_compute; reflexivity|]. eexists. reflexivity.
Qed.
