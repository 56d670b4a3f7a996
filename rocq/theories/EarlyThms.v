(** Setting a root early or late: C217. *)
From Coq Require Import List NArith ZArith Bool Lia.
From Verif Require Import Base BaseFacts Text Keys KeysFacts Trust Certificate CertFacts Relation Storage StorageFacts Graph Spec SpecFacts GraphFacts StateFacts GraphThms ReadmeThms InfluenceSpec InfluenceThms Toy ToyFacts Witness.
From Verif Require Import ExtendThms Service ServiceSpec ServiceFacts ServiceThms ServiceWitness ServedBackThms RootOrderThms CrownThms CrownSpec ServedBackSpec EarlySpec.
Import ListNotations.
Open Scope N_scope.

Lemma inv_crowned : forall C s k n, inv C s -> call_typed C (G_set_root k n) -> inv C (apply_w s (W_root k (get_weight_factor n))).
Proof.
  intros C s k n I T. apply (inv_step C s _ (G_set_root k n) I); [cbn; exists n; auto|]. pose proof (sem_writes C s (G_set_root k n) T) as F. cbn [sem snd] in F. inversion F. assumption.
Qed.
(** A root never lowers the weight of a key. *)
Lemma root_raises : forall C s k n b now, reachable C (db_of s) -> inv C s -> small (db_of s) -> call_typed C (G_set_root k n) -> call_typed C (G_weight b now) ->
  weight_of (apply_w s (W_gc now)) b <= weight_of (apply_w (apply_w s (W_root k (get_weight_factor n))) (W_gc now)) b.
Proof.
  intros C s k n b now R I Sm Tr T.
  pose proof (step_none C s (G_set_root k n) I Tr) as Er. cbn [sem fst snd run_ws fold_left] in Er. pose proof (inv_crowned C s k n I Tr) as I1. set (s1 := apply_w s (W_root k (get_weight_factor n))) in *.
  pose proof (step_none C s (G_weight b now) I T) as E1. pose proof (step_none C s1 (G_weight b now) I1 T) as E2. cbn [sem fst snd] in E1, E2.
  destruct (p_C214_weights C (db_of s) k n None (db_of s1) b now None None _ _ _ _ R Sm Tr T Er E1 E2) as [H1 H2].
  destruct (N.le_gt_cases (weight_of (apply_w s (W_gc now)) b) (weight_of (apply_w s1 (W_gc now)) b)) as [H|H]; [exact H|exfalso].
  assert (Nr : ~ is_root (db_of s) k) by (intros X; specialize (H1 X); lia). destruct (H2 Nr) as [G _]. specialize (G _ (or_introl eq_refl)). lia.
Qed.
Lemma no_root_commutes : forall ws s k f, (forall k' f', ~ In (W_root k' f') ws) -> run_ws ws (apply_w s (W_root k f)) = apply_w (run_ws ws s) (W_root k f).
Proof.
  induction ws as [|w ws IH]; intros s k f H; [reflexivity|]. cbn [run_ws fold_left]. destruct w as [now|x|k' f']; [| |destruct (H k' f' (or_introl eq_refl))].
  - refine (IH (apply_w s (W_gc now)) k f _). intros k' f' X. exact (H k' f' (or_intror X)).
  - refine (IH (apply_w s (W_upd x)) k f _). intros k' f' X. exact (H k' f' (or_intror X)).
Qed.
(** The writes of such a call are the same with one root more, and no roots. *)
Lemma same_writes : forall C s c k n, reachable C (db_of s) -> inv C s -> small (db_of s) -> call_typed C c -> call_typed C (G_set_root k n) -> not_turned_away c (fst (sem C s c)) ->
  snd (sem C (apply_w s (W_root k (get_weight_factor n))) c) = snd (sem C s c) /\ forall k' f', ~ In (W_root k' f') (snd (sem C s c)).
Proof.
  intros C s c k n R I Sm T Tr Na. destruct c as [pk m|t b now|x now|pk now|pk i now|pk now|pk i now|v|pk]; try exact (False_ind _ Na); cbn [sem] in *;
    try (cbn [snd]; split; [reflexivity|]; intros k' f' X; cbn in X; intuition discriminate).
  - unfold add_trust_sem in *. destruct (trust_verify C t b now) as [u|e| |] eqn:Ev; cbn [fst snd map_ok] in *; try (split; [reflexivity|intros k' f' []]).
    assert (Nz : next_weight_of (apply_w s (W_gc now)) b (issued_for t) <> 0).
    { intros X. rewrite X in Na. apply Na. reflexivity. }
    assert (Tw : call_typed C (G_weight b now)) by (split; apply T).
    pose proof (root_raises C s k n b now R I Sm Tr Tw) as Up.
    assert (Nz1 : next_weight_of (apply_w (apply_w s (W_root k (get_weight_factor n))) (W_gc now)) b (issued_for t) <> 0).
    { unfold next_weight_of in *. destruct (pk_eqb b (issued_for t)); [lia|]. pose proof (N.div_le_mono _ _ 2 ltac:(discriminate) Up). lia. }
    apply N.eqb_neq in Nz. apply N.eqb_neq in Nz1. rewrite Nz. rewrite Nz1. cbn [fst snd]. split; [reflexivity|]. intros k' f' [X|[X|[]]]; discriminate X.
  - unfold revoke_sem. destruct (revocation_verify C v); cbn [fst snd]; (split; [reflexivity|]); intros k' f' X; cbn in X; intuition discriminate.
Qed.
(** ** C217 *)
(** The store is the same whether a root is set before or after a call that is not turned away. *)
Lemma p_C217_either_order : forall C d c k n, reachable C d -> small d -> call_typed C c -> call_typed C (G_set_root k n) -> not_turned_away c (fst (graph_step C d (c, None))) ->
  graph_history C d (no_failures [c; G_set_root k n]) = graph_history C d (no_failures [G_set_root k n; c]).
Proof.
  intros C d c k n R Sm T Tr Na. pose proof R as R0. apply reachable_inv in R0. destruct R0 as (s & -> & I).
  unfold graph_history, no_failures. cbn [map fold_left].
  pose proof (step_none C s c I T) as E. rewrite E in *. cbn [fst snd] in *. destruct (same_writes C s c k n R I Sm T Tr Na) as [W1 W2].
  assert (I' : inv C (run_ws (snd (sem C s c)) s)).
  { exact (sem_inv_all C s c I T). }
  rewrite (step_none C _ (G_set_root k n) I' Tr), (step_none C s (G_set_root k n) I Tr). cbn [sem fst snd]. cbn [run_ws fold_left].
  rewrite (step_none C _ c (inv_crowned C s k n I Tr) T). cbn [snd]. rewrite W1. f_equal. symmetry. exact (no_root_commutes (snd (sem C s c)) s k (get_weight_factor n) W2).
Qed.
(** So it is the same for any number of calls none of which is turned away. *)
Lemma p_C217_early_or_late : forall C d cs k n, reachable C d -> Forall (call_typed C) cs -> call_typed C (G_set_root k n) -> none_turned_away C d cs ->
  graph_history C d (no_failures (cs ++ [G_set_root k n])) = graph_history C d (no_failures (G_set_root k n :: cs)).
Proof.
  intros C d cs. revert d. induction cs as [|c cs IH]; intros d k n R F Tr N; [reflexivity|]. cbn [none_turned_away] in N. destruct N as (Sm & Na & N). inversion F as [|x y T F' Ex]; subst.
  pose proof (IH _ k n (reachable_step C d c None R T) F' Tr N) as H. pose proof (p_C217_either_order C d c k n R Sm T Tr Na) as O.
  unfold graph_history, no_failures in *. cbn [map fold_left app] in *. rewrite H, <- O. reflexivity.
Qed.
(** What the owner does with a root is what the graph does. *)
Lemma owner_sets_one : forall C d cp p k n, crypto_laws C -> service_reachable C d -> init_peer_id cp = service_creator_peer_id cp -> service_typed (S_set_root p n) -> peer_key C p k ->
  call_typed C (G_set_root k n) /\ snd (service_step C d (cp, S_set_root p n, None)) = snd (graph_step C d (G_set_root k n, None)).
Proof.
  intros C d cp p k n L R Ow T Pk.
  assert (Rq : requests C cp (S_set_root p n) (G_set_root k n)) by (split; [exact Pk|reflexivity]).
  split; [exact (requests_typed C cp (S_set_root p n) (G_set_root k n) L T Rq)|].
  rewrite service_plan, (plan_complete C cp _ _ Rq Ow). cbn [carry_out]. destruct (graph_step C d (G_set_root k n, None)) as [[u|e| |] d1]; reflexivity.
Qed.
Lemma s_either_order : forall C d cp p k n cp' c, crypto_laws C -> service_reachable C d -> small d -> init_peer_id cp = service_creator_peer_id cp -> service_typed (S_set_root p n) -> peer_key C p k ->
  service_typed c -> s_not_turned_away c (fst (service_step C d (cp', c, None))) ->
  service_history C d [(cp', c, None); (cp, S_set_root p n, None)] = service_history C d [(cp, S_set_root p n, None); (cp', c, None)].
Proof.
  intros C d cp p k n cp' c L R Sm Ow T Pk Tc Na. unfold service_history. cbn [fold_left].
  destruct (owner_sets_one C d cp p k n L R Ow T Pk) as [Tr E1].
  destruct (owner_sets_one C _ cp p k n L (service_reachable_step C d cp' c None Tc R) Ow T Pk) as [_ E2]. rewrite E2, E1. clear E1 E2.
  rewrite !service_plan in *. destruct (plan C cp' c) as [[g|a]|e| |] eqn:Ep; try reflexivity.
  pose proof (plan_requests C cp' c g Ep) as Rq. pose proof (requests_typed C cp' c g L Tc Rq) as Tg.
  assert (Nt : not_turned_away g (fst (graph_step C d (g, None)))).
  { destruct c, g; cbn [requests s_not_turned_away not_turned_away] in *; try contradiction; try exact I; try exact (False_ind _ Na).
    intros X. apply Na. cbn [carry_out]. destruct (graph_step C d _) as [r d1]. cbn [fst] in X. subst r. reflexivity. }
  pose proof (p_C217_either_order C d g k n (p_C66_service_stores C d L R) Sm Tg Tr Nt) as H. unfold graph_history, no_failures in H. cbn [map fold_left] in H.
  assert (Ec : forall d', snd (carry_out C d' None c (Ok (inl g))) = snd (graph_step C d' (g, None))).
  { intros d'. cbn [carry_out]. destruct (graph_step C d' (g, None)) as [[u|e| |] d1]; reflexivity. }
  rewrite !Ec. exact H.
Qed.
(** At the service: the owner may set a root before or after any calls none of which is turned away. *)
Lemma p_C217_service : forall C d cp p k n es, crypto_laws C -> service_reachable C d -> init_peer_id cp = service_creator_peer_id cp -> service_typed (S_set_root p n) -> peer_key C p k ->
  service_events_typed es -> unfailing es -> s_none_turned_away C d es ->
  service_history C d (es ++ [(cp, S_set_root p n, None)]) = service_history C d ((cp, S_set_root p n, None) :: es).
Proof.
  intros C d cp p k n es L R Ow T Pk. revert d R. induction es as [|[[cp' c] f] es IH]; intros d R Te Un N; [reflexivity|]. cbn [s_none_turned_away fst snd] in N.
  inversion Te as [|x y T1 T2 Ex]; subst. pose proof (Un cp' c f (or_introl eq_refl)) as U1. subst f. assert (U2 : unfailing es) by (intros q1 q2 q3 X; exact (Un q1 q2 q3 (or_intror X))). cbn [fst snd] in T1. destruct N as (Sm & Na & N).
  pose proof (IH _ (service_reachable_step C d cp' c None T1 R) T2 U2 N) as H.
  pose proof (s_either_order C d cp p k n cp' c L R Sm Ow T Pk T1 Na) as O.
  unfold service_history in *. cbn [fold_left app] in *. rewrite H, <- O. reflexivity.
Qed.
Definition late_calls : list graph_call := [G_add_trust (toy_trust A A 600 1) (toy_key A) (at_ 5); G_add_trust (toy_trust A D 600 1) (toy_key A) (at_ 5)].
(** A, which has weight, issues trusts for itself and for D before or after A is made a root. When no root is set yet, the trusts of A are turned away, and making A a root late is not the same as making it a root early. *)
Example e_C217_both : reachable W (db_of (after faq)) /\ Forall (call_typed W) late_calls /\ call_typed W (G_set_root (toy_key A) 9) /\ none_turned_away W (db_of (after faq)) late_calls /\
  answer_after W (db_of (after faq)) (late_calls ++ [G_set_root (toy_key A) 9]) (G_weight (toy_key D) (at_ 10)) = Ok (GR_weight 256) /\
  answer_after W (db_of (after faq)) (G_set_root (toy_key A) 9 :: late_calls) (G_weight (toy_key D) (at_ 10)) = Ok (GR_weight 256) /\
  answer_after W (db_of (after [])) (late_calls ++ [G_set_root (toy_key A) 9]) (G_weight (toy_key D) (at_ 10)) = Ok (GR_weight 0) /\
  answer_after W (db_of (after [])) (G_set_root (toy_key A) 9 :: late_calls) (G_weight (toy_key D) (at_ 10)) = Ok (GR_weight 256).
Proof.
  split; [apply after_reachable; exact faq_typed|]. split; [unfold late_calls; typed1|]. split; [typed1|]. split.
  - unfold late_calls. cbn [none_turned_away]. split; [vm_compute; reflexivity|].
    rewrite (after_step faq (G_add_trust (toy_trust A A 600 1) (toy_key A) (at_ 5)) (Ok (GR_weight 8)) faq_typed ltac:(typed1) ltac:(vm_compute; reflexivity)). cbn [fst snd not_turned_away]. split; [discriminate|].
    split; [vm_compute; reflexivity|]. split; [|exact I].
    rewrite (after_answer (faq ++ [G_add_trust (toy_trust A A 600 1) (toy_key A) (at_ 5)]) (G_add_trust (toy_trust A D 600 1) (toy_key A) (at_ 5)) (Ok (GR_weight 4)) ltac:(apply Forall_app; split; [exact faq_typed|typed1]) ltac:(typed1) ltac:(vm_compute; reflexivity)). discriminate.
  - unfold late_calls. cbn [app]. split; [|split; [|split]]; (apply after_then; [first [exact faq_typed|constructor]|typed1|typed1|vm_compute; reflexivity]).
Qed.
(** At the service key 2, which has weight, issues a trust for itself before or after the owner makes it a root. *)
Example e_C217_served : let es := [(timed_call 2, S_add_trust (trust_rec 2 2 700 90) (pid 2) 95, None)] in let r := (owner_call, S_set_root (pid 2) 9, None) in
  service_reachable (toy true) grown_store /\ init_peer_id owner_call = service_creator_peer_id owner_call /\ service_typed (S_set_root (pid 2) 9) /\ peer_key (toy true) (pid 2) (toy_key 2) /\
  service_events_typed es /\ unfailing es /\ s_none_turned_away (toy true) grown_store es /\
  map (fun es => fst (service_step (toy true) (service_history (toy true) grown_store es) (timed_call 1, S_get_weight (pid 4) 96, None))) [es ++ [r]; r :: es; es] =
    [Ok (mk_response true None (P_weight 256 (pid 4))); Ok (mk_response true None (P_weight 256 (pid 4))); Ok (mk_response true None (P_weight 8 (pid 4)))].
Proof.
  cbv zeta. split; [exact grown_reachable|]. split; [reflexivity|]. split; [vm_compute; reflexivity|]. split; [apply pid_key|]. split; [repeat constructor|].
  split. { intros q1 q2 q3 [X|[]]. injection X as _ _ <-. reflexivity. }
  split. { cbn [s_none_turned_away fst snd s_not_turned_away]. split; [vm_compute; reflexivity|]. split; [|exact I]. intros X. revert X. vm_compute. discriminate. }
  vm_compute. reflexivity.
Qed.
