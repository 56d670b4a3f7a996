(** The order in which roots are set: C216. *)
From Coq Require Import List NArith ZArith Bool Lia Permutation.
From Verif Require Import Base BaseFacts Text Keys KeysFacts Trust Certificate CertFacts Relation Storage StorageFacts Graph Spec SpecFacts GraphFacts StateFacts GraphThms MoreThms ReadmeThms InfluenceSpec InfluenceThms Toy ToyFacts Witness.
From Verif Require Import Service ServiceSpec ServiceFacts ServiceThms ServedThms ServiceWitness ServedBackThms ServedBackSpec JoinThms ScanSpec RootOrderSpec.
Import ListNotations.
Open Scope N_scope.

Lemma set_root_sets : forall C d k n, reachable C d -> call_typed C (G_set_root k n) -> exists d', graph_step C d (G_set_root k n, None) = (Ok GR_unit, d') /\ reachable C d' /\ root_set d k (N.min n 16) d'.
Proof.
  intros C d k n R T. exists (snd (graph_step C d (G_set_root k n, None))).
  assert (E : graph_step C d (G_set_root k n, None) = (Ok GR_unit, snd (graph_step C d (G_set_root k n, None)))).
  { pose proof R as R0. apply reachable_inv in R0. destruct R0 as (s & -> & I). rewrite (step_none C s _ I T). reflexivity. }
  split; [exact E|]. split; [apply reachable_step; assumption|]. exact (p_C40_set_root_exact C d k n None _ R T E).
Qed.
(** What the store holds after a list of new roots of different keys. *)
Lemma roots_held : forall C l d, reachable C d -> Forall (call_typed C) (set_roots l) -> NoDup (map fst l) ->
  let d' := graph_history C d (no_failures (set_roots l)) in
  reachable C d' /\ tbl_relations d' = tbl_relations d /\ forall k m, root_max_len d' k m <-> root_max_len d k m \/ (~ is_root d k /\ exists n, In (k, n) l /\ m = N.min n 16).
Proof.
  intros C l. induction l as [|[k n] l IH]; intros d R F Nd; cbv zeta.
  - split; [exact R|]. split; [reflexivity|]. intros k m. split; [intros H; left; exact H|]. intros [H|(_ & n & [] & _)]. exact H.
  - cbn [set_roots map] in F. inversion F as [|x y T F' Ex]; subst. cbn [map fst] in Nd. inversion Nd as [|x y Ni Nd' Ex]; subst. cbn [fst snd] in T.
    destruct (set_root_sets C d k n R T) as (d1 & E & R1 & Rl & Ir & Rm). destruct (IH d1 R1 F' Nd') as (R2 & Rl2 & Rm2).
    assert (Eh : graph_history C d (no_failures (set_roots ((k, n) :: l))) = graph_history C d1 (no_failures (set_roots l))).
    { unfold graph_history, no_failures, set_roots. cbn [map fold_left fst snd]. rewrite E. reflexivity. }
    rewrite Eh. split; [exact R2|]. split; [rewrite Rl2; exact Rl|]. intros q m. rewrite Rm2, Rm, Ir. split.
    + intros [[H|(-> & H1 & ->)]|(H1 & n' & H2 & H3)]; [left; exact H|right; split; [exact H1|]; exists n; split; [left; reflexivity|reflexivity]|].
      right. split; [intros X; apply H1; left; exact X|]. exists n'. split; [right; exact H2|exact H3].
    + intros [H|(H1 & n' & [H2|H2] & H3)]; [left; left; exact H| |].
      * injection H2 as -> ->. left. right. auto.
      * right. split; [|exists n'; auto]. intros [X|X]; [exact (H1 X)|]. subst q. apply Ni. apply in_map_iff. exists (k, n'). auto.
Qed.
Lemma set_roots_typed : forall C l l', Permutation l l' -> Forall (call_typed C) (set_roots l) -> Forall (call_typed C) (set_roots l').
Proof. intros C l l' P F. apply Forall_forall. intros c H. rewrite Forall_forall in F. apply F. apply in_map_iff in H. destruct H as (r & <- & H). apply (in_map (fun r => G_set_root (fst r) (snd r))). exact (Permutation_in _ (Permutation_sym P) H). Qed.
(** ** C216 *)
(** The store holds the same whatever the order in which different keys are made roots. *)
Lemma p_C216_contents : forall C d l l', reachable C d -> Forall (call_typed C) (set_roots l) -> NoDup (map fst l) -> Permutation l l' ->
  same_contents (graph_history C d (no_failures (set_roots l))) (graph_history C d (no_failures (set_roots l'))).
Proof.
  intros C d l l' R F Nd P. destruct (roots_held C l d R F Nd) as (_ & Rl & Rm).
  destruct (roots_held C l' d R (set_roots_typed C l l' P F) (Permutation_NoDup (Permutation_map fst P) Nd)) as (_ & Rl' & Rm'). split.
  - intros x. destruct x as [a|v]; cbn [stored]; [unfold stored_trust|unfold stored_revocation]; rewrite Rl, Rl'; reflexivity.
  - intros k m. rewrite Rm, Rm'. split; (intros [H|(H1 & n & H2 & H3)]; [left; exact H|right; split; [exact H1|]; exists n; split; [|exact H3]]); [exact (Permutation_in _ P H2)|exact (Permutation_in _ (Permutation_sym P) H2)].
Qed.
(** So every later call is answered alike. *)
Lemma p_C216_answers : forall C d l l' cs c, reachable C d -> Forall (call_typed C) (set_roots l) -> NoDup (map fst l) -> Permutation l l' -> Forall (call_typed C) cs -> call_typed C c ->
  same_answer (answer_after C d (set_roots l ++ cs) c) (answer_after C d (set_roots l' ++ cs) c).
Proof.
  intros C d l l' cs c R F Nd P Fc Tc. destruct (roots_held C l d R F Nd) as (R1 & _).
  destruct (roots_held C l' d R (set_roots_typed C l l' P F) (Permutation_NoDup (Permutation_map fst P) Nd)) as (R2 & _).
  pose proof (proj1 (p_C86_answers_depend_on_contents C _ _ cs c R1 R2 (p_C216_contents C d l l' R F Nd P) Fc Tc)) as H.
  assert (Eh : forall q, answer_after C d (set_roots q ++ cs) c = answer_after C (graph_history C d (no_failures (set_roots q))) cs c).
  { intros q. unfold answer_after, graph_history, no_failures. rewrite map_app, fold_left_app. reflexivity. }
  rewrite !Eh. exact H.
Qed.
Lemma owner_sets : forall C d cp l ks, crypto_laws C -> service_reachable C d -> init_peer_id cp = service_creator_peer_id cp -> service_events_typed (s_set_roots cp l) -> keys_of_peers C l ks ->
  Forall (call_typed C) (set_roots ks) /\ service_history C d (s_set_roots cp l) = graph_history C d (no_failures (set_roots ks)).
Proof.
  intros C d cp l ks L R Ow T K. revert d R T. induction K as [|[p n] [k n'] l ks [Pk En] K IH]; intros d R T; [split; [constructor|reflexivity]|]. cbn [fst snd] in Pk, En. subst n'.
  inversion T as [|x y T1 T2 Ex]; subst. cbn [fst snd] in T1.
  assert (Rq : requests C cp (S_set_root p n) (G_set_root k n)) by (split; [exact Pk|reflexivity]).
  assert (Tv : call_typed C (G_set_root k n)) by (apply (requests_typed C cp (S_set_root p n) (G_set_root k n) L T1); exact Rq).
  destruct (set_root_sets C d k n (p_C66_service_stores C d L R) Tv) as (d1 & E & _ & _).
  assert (Es : snd (service_step C d (cp, S_set_root p n, None)) = d1) by (rewrite service_plan, (plan_complete C cp _ _ Rq Ow); cbn [carry_out]; rewrite E; reflexivity).
  assert (R1 : service_reachable C d1) by (rewrite <- Es; apply service_reachable_step; assumption).
  destruct (IH d1 R1 T2) as [F Eh]. split; [constructor; assumption|].
  unfold service_history, graph_history, s_set_roots, set_roots, no_failures in *. cbn [map fold_left fst snd]. rewrite Es, E. exact Eh.
Qed.
(** At the service: whatever the order in which the owner makes different peers roots, every later call is answered alike. *)
Lemma p_C216_service : forall C d cp l l' ks es cp' c, crypto_laws C -> service_reachable C d -> init_peer_id cp = service_creator_peer_id cp -> service_events_typed (s_set_roots cp l) ->
  keys_of_peers C l ks -> NoDup (map fst ks) -> Permutation l l' -> service_events_typed es -> unfailing es -> service_typed c ->
  same_told (fst (service_step C (service_history C d (s_set_roots cp l ++ es)) (cp', c, None))) (fst (service_step C (service_history C d (s_set_roots cp l' ++ es)) (cp', c, None))).
Proof.
  intros C d cp l l' ks es cp' c L R Ow T K Nd P Te Un Tc.
  destruct (Permutation_Forall2 P K) as (ks' & Pk & K').
  assert (T' : service_events_typed (s_set_roots cp l')).
  { apply Forall_forall. intros e H. unfold service_events_typed in T. rewrite Forall_forall in T. apply T. apply in_map_iff in H. destruct H as (r & <- & H). apply (in_map (fun r => (cp, S_set_root (fst r) (snd r), None))). exact (Permutation_in _ (Permutation_sym P) H). }
  destruct (owner_sets C d cp l ks L R Ow T K) as [F Eh]. destruct (owner_sets C d cp l' ks' L R Ow T' K') as [F' Eh'].
  assert (Sc : same_contents (service_history C d (s_set_roots cp l)) (service_history C d (s_set_roots cp l'))).
  { rewrite Eh, Eh'. exact (p_C216_contents C d ks ks' (p_C66_service_stores C d L R) F Nd Pk). }
  assert (Ea : forall q, service_history C d (q ++ es) = service_history C (service_history C d q) es) by (intros q; unfold service_history; apply fold_left_app).
  rewrite !Ea. apply (p_C206_contents C _ _ es cp' c L); try assumption; apply service_history_reachable; assumption.
Qed.
(** A and B are made roots in either order, and then trust D. With two lengths for one key the order matters: the first one counts. *)
Example e_C216_orders : Forall (call_typed W) (set_roots [(toy_key A, 6); (toy_key B, 4)]) /\ NoDup (map fst [(toy_key A, 6); (toy_key B, 4)]) /\
  map (fun l => answer_after W (db_of (after [])) (set_roots l ++ [G_add_trust (toy_trust A A 900 1) (toy_key A) (at_ 5); G_add_trust (toy_trust A D 900 1) (toy_key A) (at_ 5); G_add_trust (toy_trust B B 900 1) (toy_key B) (at_ 5); G_add_trust (toy_trust B D 900 1) (toy_key B) (at_ 5)]) (G_weight (toy_key D) (at_ 10)))
    [[(toy_key A, 6); (toy_key B, 4)]; [(toy_key B, 4); (toy_key A, 6)]] = [Ok (GR_weight 32); Ok (GR_weight 32)] /\
  map (fun l => answer_after W (db_of (after [])) (set_roots l) (G_weight (toy_key A) (at_ 10))) [[(toy_key A, 6); (toy_key A, 4)]; [(toy_key A, 4); (toy_key A, 6)]] = [Ok (GR_weight 64); Ok (GR_weight 16)].
Proof.
  split; [unfold set_roots; cbn [map fst snd]; typed1|]. split.
  - constructor; [|constructor; [intros []|constructor]]. intros [X|[]]. revert X. vm_compute. discriminate.
  - unfold set_roots. cbn [map app fst snd]. split; vm_compute; reflexivity.
Qed.
(** The owner of the service makes key 1 and key 2 roots in either order. *)
Example e_C216_served : let l := [(pid 1, 6); (pid 2, 4)] in let l' := [(pid 2, 4); (pid 1, 6)] in
  init_peer_id owner_call = service_creator_peer_id owner_call /\ service_events_typed (s_set_roots owner_call l) /\ keys_of_peers (toy true) l [(toy_key 1, 6); (toy_key 2, 4)] /\ Permutation l l' /\
  map (fun l => fst (service_step (toy true) (service_history (toy true) empty_db (s_set_roots owner_call l)) (timed_call 1, S_get_weight (pid 2) 9, None))) [l; l'] = [Ok (mk_response true None (P_weight 16 (pid 2))); Ok (mk_response true None (P_weight 16 (pid 2)))].
Proof.
  cbv zeta. split; [reflexivity|]. split; [repeat constructor|].
  split. { constructor; [split; [apply extract_ok; vm_compute; reflexivity|reflexivity]|]. constructor; [split; [apply extract_ok; vm_compute; reflexivity|reflexivity]|constructor]. }
  split; [apply perm_swap|]. vm_compute. reflexivity.
Qed.
