(** Stores with the roots of two others: C215. *)
From Coq Require Import List NArith ZArith Bool Lia.
From Verif Require Import Base BaseFacts Text Keys KeysFacts Trust Certificate CertFacts Relation Storage StorageFacts Graph Spec SpecFacts GraphFacts StateFacts ChainFacts GraphThms ReadmeThms InfluenceSpec InfluenceThms ExtendThms Toy ToyFacts Witness.
From Verif Require Import Service ServiceSpec ServiceFacts ServiceThms ServedThms ServiceWitness CopyServiceThms PartsServedThms SeverThms ExtendSpec JoinSpec.
Import ListNotations.
Open Scope N_scope.

Lemma root_has_len : forall C d k, reachable C d -> is_root d k -> exists m, root_max_len d k m.
Proof. intros C d k R H. apply reachable_inv in R. destruct R as (s & -> & I). apply (is_root_max_len C s k I). exact H. Qed.
(** A chain that counts counts wherever the relations are the same and its first key is a root. *)
Lemma counts_alike : forall d d' now pk c, same_relations d d' -> counting d now pk c -> (forall k, key_at c 0 k -> is_root d' k) -> counting d' now pk c.
Proof.
  intros d d' now pk c Sr [(C1 & C2 & C3 & C4 & C5) Rv] Hr.
  assert (Lv : forall a t, live d now a t -> live d' now a t) by (intros a t [H1 H2]; split; [apply (Sr (RAuth (mk_auth t a))); exact H1|exact H2]).
  split; [split; [exact C1|]; split; [exact C2|]; split; [|split; [|exact C5]]|].
  - intros t Ht. destruct (C3 t Ht) as [_ G]. split; [apply Hr; exists t; auto|apply Lv; exact G].
  - intros i g t Hg Ht. apply Lv. exact (C4 i g t Hg Ht).
  - intros i j (Lij & v & Sv & K). apply (Rv i j). split; [exact Lij|]. exists v. split; [apply (Sr (RRev v)); exact Sv|exact K].
Qed.
Lemma same_relations_sym : forall d d', same_relations d d' -> same_relations d' d.
Proof. intros d d' H x. symmetry. apply H. Qed.
(** ** C215 *)
(** The certificates that begin with a root depend on the trusts and revocations only, not on the other roots. *)
Lemma p_C215_alone : forall C d d' k pk now fu fu' cs cs' e e', reachable C d -> reachable C d' -> call_typed C (G_get_all_certs pk now) -> same_relations d d' -> is_root d k -> is_root d' k ->
  graph_step C d (G_get_all_certs pk now, fu) = (Ok (GR_certs cs), e) -> graph_step C d' (G_get_all_certs pk now, fu') = (Ok (GR_certs cs'), e') ->
  forall c, key_at c 0 k -> (In c cs <-> In c cs').
Proof.
  intros C d d' k pk now fu fu' cs cs' e e' R R' T Sr Hk Hk' E E' c K. rewrite (certs_are C d pk now fu cs e R T E), (certs_are C d' pk now fu' cs' e' R' T E').
  assert (Only : forall q, key_at c 0 q -> q = k) by (intros q (t & Ht & Et); destruct K as (u & Hu & Eu); unfold at_pos in *; congruence).
  split; intros H; [apply (counts_alike d d' now pk c Sr H)|apply (counts_alike d' d now pk c (same_relations_sym d d' Sr) H)]; intros q Hq; rewrite (Only q Hq); assumption.
Qed.
(** With the roots of two stores that hold the same relations the certificates are those of the two. *)
Lemma p_C215_joined : forall C d1 d2 d pk now fu1 fu2 fu cs1 cs2 cs e1 e2 e, reachable C d1 -> reachable C d2 -> reachable C d -> call_typed C (G_get_all_certs pk now) ->
  same_relations d1 d -> same_relations d2 d -> roots_joined d1 d2 d ->
  graph_step C d1 (G_get_all_certs pk now, fu1) = (Ok (GR_certs cs1), e1) -> graph_step C d2 (G_get_all_certs pk now, fu2) = (Ok (GR_certs cs2), e2) ->
  graph_step C d (G_get_all_certs pk now, fu) = (Ok (GR_certs cs), e) -> forall c, In c cs <-> In c cs1 \/ In c cs2.
Proof.
  intros C d1 d2 d pk now fu1 fu2 fu cs1 cs2 cs e1 e2 e R1 R2 R T S1 S2 J E1 E2 E c.
  rewrite (certs_are C d pk now fu cs e R T E), (certs_are C d1 pk now fu1 cs1 e1 R1 T E1), (certs_are C d2 pk now fu2 cs2 e2 R2 T E2). split.
  - intros H. pose proof H as [(C1 & _ & C3 & _) _]. destruct c as [|u r]; [cbn in C1; lia|]. destruct (C3 u eq_refl) as [Hr _]. destruct (root_has_len C d _ R Hr) as (m & Hm). apply J in Hm.
    destruct Hm as [Hm|Hm]; [left; apply (counts_alike d d1 now pk _ (same_relations_sym d1 d S1) H)|right; apply (counts_alike d d2 now pk _ (same_relations_sym d2 d S2) H)];
      (intros k (t & Ht & Et); injection Ht as <-; rewrite <- Et; exact (root_max_len_root _ _ _ Hm)).
  - intros [H|H]; [apply (counts_alike d1 d now pk c S1 H)|apply (counts_alike d2 d now pk c S2 H)]; (intros k (t & Ht & Et); destruct H as [(_ & _ & C3 & _) _]; destruct (C3 t Ht) as [Hr _]; rewrite Et in Hr).
    + destruct (root_has_len C d1 k R1 Hr) as (m & Hm). apply (root_max_len_root d k m). apply J. left. exact Hm.
    + destruct (root_has_len C d2 k R2 Hr) as (m & Hm). apply (root_max_len_root d k m). apply J. right. exact Hm.
Qed.
(** The weight of a key is the greater of the two. *)
Lemma p_C215_weights : forall C d1 d2 d pk now fu1 fu2 fu w1 w2 w e1 e2 e, reachable C d1 -> reachable C d2 -> reachable C d -> small d1 -> small d2 -> small d -> call_typed C (G_weight pk now) ->
  same_relations d1 d -> same_relations d2 d -> roots_joined d1 d2 d ->
  graph_step C d1 (G_weight pk now, fu1) = (Ok (GR_weight w1), e1) -> graph_step C d2 (G_weight pk now, fu2) = (Ok (GR_weight w2), e2) ->
  graph_step C d (G_weight pk now, fu) = (Ok (GR_weight w), e) -> w = N.max w1 w2.
Proof.
  intros C d1 d2 d pk now fu1 fu2 fu w1 w2 w e1 e2 e R1 R2 R Sm1 Sm2 Sm T S1 S2 J E1 E2 E.
  destruct (weight_is C d1 pk now fu1 w1 e1 R1 T Sm1 E1) as [A1 B1]. destruct (weight_is C d2 pk now fu2 w2 e2 R2 T Sm2 E2) as [A2 B2]. destruct (weight_is C d pk now fu w e R T Sm E) as [A B].
  assert (U : forall d0 w0, same_relations d0 d -> (forall k m, root_max_len d0 k m -> root_max_len d k m) ->
    ((exists m, root_max_len d0 pk m /\ w0 = 2 ^ m) \/ (exists c, counting d0 now pk c /\ cert_weight d0 c w0)) -> w0 <= w).
  { intros d0 w0 S0 J0 [(m & H1 & H2)|(c & H1 & t & m & H2 & H3 & H4)]; apply A; [left; exists m; auto|right]. exists c. split; [|exists t, m; auto].
    apply (counts_alike d0 d now pk c S0 H1). intros k (u & Hu & Eu). unfold at_pos in *. rewrite H2 in Hu. injection Hu as <-. rewrite <- Eu. exact (root_max_len_root d _ m (J0 _ _ H3)). }
  apply N.le_antisymm.
  - destruct B as [[(m & H1 & H2)|(c & H1 & t & m & H2 & H3 & H4)]|[-> _]]; [| |apply N.le_0_l].
    + apply J in H1. destruct H1 as [H1|H1]; [apply N.max_le_iff; left; apply A1|apply N.max_le_iff; right; apply A2]; left; exists m; auto.
    + apply J in H3. assert (Q : forall d0, same_relations d0 d -> root_max_len d0 (issued_for t) m -> counting d0 now pk c).
      { intros d0 S0 H0. apply (counts_alike d d0 now pk c (same_relations_sym d0 d S0) H1). intros k (u & Hu & Eu). unfold at_pos in *. rewrite H2 in Hu. injection Hu as <-. rewrite <- Eu. exact (root_max_len_root d0 _ m H0). }
      destruct H3 as [H3|H3]; [apply N.max_le_iff; left; apply A1|apply N.max_le_iff; right; apply A2]; right; exists c; (split; [apply Q; assumption|exists t, m; auto]).
  - apply N.max_lub.
    + destruct B1 as [H|[-> _]]; [|apply N.le_0_l]. apply (U d1 w1 S1); [intros k m Hm; apply J; left; exact Hm|exact H].
    + destruct B2 as [H|[-> _]]; [|apply N.le_0_l]. apply (U d2 w2 S2); [intros k m Hm; apply J; right; exact Hm|exact H].
Qed.
(** The certificates of a key through an issuer, by what counts. *)
Lemma certs_from_are : forall C d pk i now fu cs e, reachable C d -> call_typed C (G_get_all_certs_from pk i now) ->
  graph_step C d (G_get_all_certs_from pk i now, fu) = (Ok (GR_certs cs), e) -> forall c, In c cs <-> counting d now pk c /\ exists n, key_at c n i.
Proof.
  intros C d pk i now fu cs e R T E c. pose proof T as (Tk & _ & Tn). destruct (certs_answer C d pk now R (conj Tk Tn)) as (al & e' & Ea).
  rewrite (p_C46_from_is_filter C d pk i now None fu al cs e' e R T Ea E c), (certs_are C d pk now None al e' R (conj Tk Tn) Ea c). reflexivity.
Qed.
(** The weight of a key through an issuer, by what counts. *)
Lemma weight_from_is : forall C d pk i now fu w e, reachable C d -> call_typed C (G_weight_from pk i now) -> small d -> graph_step C d (G_weight_from pk i now, fu) = (Ok (GR_weight w), e) ->
  greatest (fun v => exists c, (counting d now pk c /\ exists n, key_at c n i) /\ cert_weight d c v) w.
Proof.
  intros C d pk i now fu w e R T Sm E. destruct (certs_from_answer C d pk i now R T) as (cs & e' & Ec).
  destruct (p_C46_weight_from_exact C d pk i now None fu cs w e' e R T Sm Ec E) as [G1 G2]. pose proof (certs_from_are C d pk i now None cs e' R T Ec) as X. split.
  - intros v (c & Hc & Hv). apply G1. exists c. split; [apply X; exact Hc|exact Hv].
  - destruct G2 as [(c & Hc & Hv)|[-> Z]]; [left; exists c; split; [apply X; exact Hc|exact Hv]|right]. split; [reflexivity|]. intros v (c & Hc & Hv). apply (Z v). exists c. split; [apply X; exact Hc|exact Hv].
Qed.
(** A chain that counts in the joined store counts in the one that has its root, and the other way round. *)
Lemma counts_joined : forall C d1 d2 d now pk c, reachable C d1 -> reachable C d2 -> reachable C d -> same_relations d1 d -> same_relations d2 d -> roots_joined d1 d2 d ->
  (counting d now pk c <-> counting d1 now pk c \/ counting d2 now pk c).
Proof.
  intros C d1 d2 d now pk c R1 R2 R S1 S2 J. split.
  - intros H. pose proof H as [(C1 & _ & C3 & _) _]. destruct c as [|u r]; [cbn in C1; lia|]. destruct (C3 u eq_refl) as [Hr _]. destruct (root_has_len C d _ R Hr) as (m & Hm). apply J in Hm.
    destruct Hm as [Hm|Hm]; [left; apply (counts_alike d d1 now pk _ (same_relations_sym d1 d S1) H)|right; apply (counts_alike d d2 now pk _ (same_relations_sym d2 d S2) H)];
      (intros k (t & Ht & Et); injection Ht as <-; rewrite <- Et; exact (root_max_len_root _ _ _ Hm)).
  - intros [H|H]; [apply (counts_alike d1 d now pk c S1 H)|apply (counts_alike d2 d now pk c S2 H)]; (intros k (t & Ht & Et); destruct H as [(_ & _ & C3 & _) _]; destruct (C3 t Ht) as [Hr _]; rewrite Et in Hr).
    + destruct (root_has_len C d1 k R1 Hr) as (m & Hm). apply (root_max_len_root d k m). apply J. left. exact Hm.
    + destruct (root_has_len C d2 k R2 Hr) as (m & Hm). apply (root_max_len_root d k m). apply J. right. exact Hm.
Qed.
(** The same for the certificates through an issuer. *)
Lemma p_C215_from : forall C d1 d2 d pk i now fu1 fu2 fu cs1 cs2 cs e1 e2 e, reachable C d1 -> reachable C d2 -> reachable C d -> call_typed C (G_get_all_certs_from pk i now) ->
  same_relations d1 d -> same_relations d2 d -> roots_joined d1 d2 d ->
  graph_step C d1 (G_get_all_certs_from pk i now, fu1) = (Ok (GR_certs cs1), e1) -> graph_step C d2 (G_get_all_certs_from pk i now, fu2) = (Ok (GR_certs cs2), e2) ->
  graph_step C d (G_get_all_certs_from pk i now, fu) = (Ok (GR_certs cs), e) -> forall c, In c cs <-> In c cs1 \/ In c cs2.
Proof.
  intros C d1 d2 d pk i now fu1 fu2 fu cs1 cs2 cs e1 e2 e R1 R2 R T S1 S2 J E1 E2 E c.
  rewrite (certs_from_are C d pk i now fu cs e R T E), (certs_from_are C d1 pk i now fu1 cs1 e1 R1 T E1), (certs_from_are C d2 pk i now fu2 cs2 e2 R2 T E2).
  rewrite (counts_joined C d1 d2 d now pk c R1 R2 R S1 S2 J). tauto.
Qed.
(** The weight of a key through an issuer is the greater of the two. *)
Lemma p_C215_weights_from : forall C d1 d2 d pk i now fu1 fu2 fu w1 w2 w e1 e2 e, reachable C d1 -> reachable C d2 -> reachable C d -> small d1 -> small d2 -> small d -> call_typed C (G_weight_from pk i now) ->
  same_relations d1 d -> same_relations d2 d -> roots_joined d1 d2 d ->
  graph_step C d1 (G_weight_from pk i now, fu1) = (Ok (GR_weight w1), e1) -> graph_step C d2 (G_weight_from pk i now, fu2) = (Ok (GR_weight w2), e2) ->
  graph_step C d (G_weight_from pk i now, fu) = (Ok (GR_weight w), e) -> w = N.max w1 w2.
Proof.
  intros C d1 d2 d pk i now fu1 fu2 fu w1 w2 w e1 e2 e R1 R2 R Sm1 Sm2 Sm T S1 S2 J E1 E2 E.
  pose proof (fun d0 fu0 w0 e0 R0 Sm0 => weight_from_is C d0 pk i now fu0 w0 e0 R0 T Sm0) as G.
  destruct (G d1 fu1 w1 e1 R1 Sm1 E1) as [A1 B1]. destruct (G d2 fu2 w2 e2 R2 Sm2 E2) as [A2 B2]. destruct (G d fu w e R Sm E) as [A B].
  apply N.le_antisymm.
  - destruct B as [(c & (H1 & Hi) & t & m & H2 & H3 & H4)|[-> _]]; [|apply N.le_0_l]. apply J in H3.
    assert (Q : forall d0, same_relations d0 d -> root_max_len d0 (issued_for t) m -> counting d0 now pk c).
    { intros d0 S0 H0. apply (counts_alike d d0 now pk c (same_relations_sym d0 d S0) H1). intros k (u & Hu & Eu). unfold at_pos in *. rewrite H2 in Hu. injection Hu as <-. rewrite <- Eu. exact (root_max_len_root d0 _ m H0). }
    destruct H3 as [H3|H3]; [apply N.max_le_iff; left; apply A1|apply N.max_le_iff; right; apply A2]; exists c; (split; [split; [apply Q; assumption|exact Hi]|exists t, m; auto]).
  - apply N.max_lub.
    + destruct B1 as [(c & (H1 & Hi) & t & m & H2 & H3 & H4)|[-> _]]; [|apply N.le_0_l]. apply A. exists c.
      split; [split; [apply (counts_joined C d1 d2 d now pk c R1 R2 R S1 S2 J); left; exact H1|exact Hi]|]. exists t, m. split; [exact H2|]. split; [apply J; left; exact H3|exact H4].
    + destruct B2 as [(c & (H1 & Hi) & t & m & H2 & H3 & H4)|[-> _]]; [|apply N.le_0_l]. apply A. exists c.
      split; [split; [apply (counts_joined C d1 d2 d now pk c R1 R2 R S1 S2 J); right; exact H1|exact Hi]|]. exists t, m. split; [exact H2|]. split; [apply J; right; exact H3|exact H4].
Qed.
(** At the service: the records told of a key are those told at the two. *)
Lemma p_C215_service : forall C d1 d2 d p ts cp1 cp2 cp rs1 rs2, crypto_laws C -> service_reachable C d1 -> service_reachable C d2 -> service_reachable C d -> ts < u64_bound ->
  same_relations d1 d -> same_relations d2 d -> roots_joined d1 d2 d ->
  fst (service_step C d1 (cp1, S_get_all_certs p ts, None)) = Ok (mk_response true None (P_certs rs1)) -> fst (service_step C d2 (cp2, S_get_all_certs p ts, None)) = Ok (mk_response true None (P_certs rs2)) ->
  host_time cp 1 ->
  exists rs, fst (service_step C d (cp, S_get_all_certs p ts, None)) = Ok (mk_response true None (P_certs rs)) /\ forall x, In x rs <-> In x rs1 \/ In x rs2.
Proof.
  intros C d1 d2 d p ts cp1 cp2 cp rs1 rs2 L R1 R2 R Hs S1 S2 J E1 E2 Ht.
  destruct (certs_asked C d1 cp1 p ts rs1 L R1 Hs E1) as (k & cs1 & e1 & K & Ec1 & Er1). destruct (certs_asked C d2 cp2 p ts rs2 L R2 Hs E2) as (k' & cs2 & e2 & K' & Ec2 & Er2).
  pose proof (peer_key_fun C _ _ _ K K') as <-. destruct (certs_told C d cp p k ts L R Hs K Ht) as (cs & e & Ec & Er).
  exists (map (dto_of_cert C) cs). split; [exact Er|].
  assert (T : call_typed C (G_get_all_certs k (from_secs ts))) by (split; [eapply peer_key_valid; eassumption|apply from_secs_wf; exact Hs]).
  pose proof (p_C215_joined C d1 d2 d k (from_secs ts) None None None cs1 cs2 cs e1 e2 e (p_C66_service_stores C d1 L R1) (p_C66_service_stores C d2 L R2) (p_C66_service_stores C d L R) T S1 S2 J Ec1 Ec2 Ec) as H.
  intros x. rewrite Er1, Er2, !in_map_iff. split.
  - intros (c & <- & Hc). apply H in Hc. destruct Hc as [Hc|Hc]; [left|right]; exists c; auto.
  - intros [(c & <- & Hc)|(c & <- & Hc)]; exists c; (split; [reflexivity|apply H; auto]).
Qed.
(** A and B trust themselves and each other, and B trusts D. One store has A for a root, one has B, and one has both. *)
Definition root_a : list graph_call := [G_set_root (toy_key A) 6; G_add_trust (toy_trust A A 900 1) (toy_key A) (at_ 5); G_add_trust (toy_trust A B 900 1) (toy_key A) (at_ 5);
  G_add_trust (toy_trust B B 900 1) (toy_key B) (at_ 5); G_add_trust (toy_trust B A 900 1) (toy_key B) (at_ 5); G_add_trust (toy_trust B D 900 1) (toy_key B) (at_ 5)].
Definition root_b : list graph_call := [G_set_root (toy_key B) 4; G_add_trust (toy_trust B B 900 1) (toy_key B) (at_ 5); G_add_trust (toy_trust B A 900 1) (toy_key B) (at_ 5);
  G_add_trust (toy_trust A A 900 1) (toy_key A) (at_ 5); G_add_trust (toy_trust A B 900 1) (toy_key A) (at_ 5); G_add_trust (toy_trust B D 900 1) (toy_key B) (at_ 5)].
Definition root_ab : list graph_call := root_a ++ [G_set_root (toy_key B) 4].
Lemma root_a_typed : Forall (call_typed W) root_a.
Proof. unfold root_a. typed1. Qed.
Lemma root_b_typed : Forall (call_typed W) root_b.
Proof. unfold root_b. typed1. Qed.
Lemma root_ab_typed : Forall (call_typed W) root_ab.
Proof. unfold root_ab, root_a. cbn [app]. typed1. Qed.
Definition mutual_rels : list relation := [RAuth (mk_auth (toy_trust A A 900 1) (toy_key A)); RAuth (mk_auth (toy_trust A B 900 1) (toy_key A)); RAuth (mk_auth (toy_trust B B 900 1) (toy_key B));
  RAuth (mk_auth (toy_trust B A 900 1) (toy_key B)); RAuth (mk_auth (toy_trust B D 900 1) (toy_key B))].
Lemma root_a_rels : rels (after root_a) = mutual_rels.
Proof. vm_compute. reflexivity. Qed.
Lemma root_ab_rels : rels (after root_ab) = mutual_rels.
Proof. vm_compute. reflexivity. Qed.
Lemma root_b_rels : rels (after root_b) = [RAuth (mk_auth (toy_trust B B 900 1) (toy_key B)); RAuth (mk_auth (toy_trust B A 900 1) (toy_key B)); RAuth (mk_auth (toy_trust A A 900 1) (toy_key A));
  RAuth (mk_auth (toy_trust A B 900 1) (toy_key A)); RAuth (mk_auth (toy_trust B D 900 1) (toy_key B))].
Proof. vm_compute. reflexivity. Qed.
Example e_C215_mutual : reachable W (db_of (after root_a)) /\ reachable W (db_of (after root_b)) /\ reachable W (db_of (after root_ab)) /\
  small (db_of (after root_a)) /\ small (db_of (after root_b)) /\ small (db_of (after root_ab)) /\
  same_relations (db_of (after root_a)) (db_of (after root_ab)) /\ same_relations (db_of (after root_b)) (db_of (after root_ab)) /\ roots_joined (db_of (after root_a)) (db_of (after root_b)) (db_of (after root_ab)) /\
  fst (graph_step W (db_of (after root_a)) (G_weight (toy_key D) (at_ 10), None)) = Ok (GR_weight 16) /\
  fst (graph_step W (db_of (after root_b)) (G_weight (toy_key D) (at_ 10), None)) = Ok (GR_weight 8) /\
  fst (graph_step W (db_of (after root_ab)) (G_weight (toy_key D) (at_ 10), None)) = Ok (GR_weight 16).
Proof.
  split; [apply after_reachable; exact root_a_typed|]. split; [apply after_reachable; exact root_b_typed|]. split; [apply after_reachable; exact root_ab_typed|].
  split; [vm_compute; reflexivity|]. split; [vm_compute; reflexivity|]. split; [vm_compute; reflexivity|].
  split. { intros x. rewrite (after_stored root_a x root_a_typed), (after_stored root_ab x root_ab_typed), root_a_rels, root_ab_rels. reflexivity. }
  split. { intros x. rewrite (after_stored root_b x root_b_typed), (after_stored root_ab x root_ab_typed), root_b_rels, root_ab_rels. unfold mutual_rels. cbn [In]. tauto. }
  split. { intros k m. rewrite !root_max_len_factor.
    change (roots (after root_a)) with [(toy_key A, 10)]. change (roots (after root_b)) with [(toy_key B, 12)]. change (roots (after root_ab)) with [(toy_key A, 10); (toy_key B, 12)].
    unfold root_factor. cbn [find fst]. destruct (pk_eqb (toy_key A) k) eqn:Ea; destruct (pk_eqb (toy_key B) k) eqn:Eb; cbn [option_map snd].
    - apply pk_eqb_eq in Ea. apply pk_eqb_eq in Eb. exfalso. rewrite <- Ea in Eb. revert Eb. vm_compute. discriminate.
    - split; [intros H; left; exact H|intros [H|(f & H & _)]; [exact H|discriminate H]].
    - split; [intros H; right; exact H|intros [(f & H & _)|H]; [discriminate H|exact H]].
    - split; [intros (f & H & _); discriminate H|intros [(f & H & _)|(f & H & _)]; discriminate H]. }
  split; [apply after_answer; [exact root_a_typed|typed1|vm_compute; reflexivity]|]. split; [apply after_answer; [exact root_b_typed|typed1|vm_compute; reflexivity]|].
  apply after_answer; [exact root_ab_typed|typed1|vm_compute; reflexivity].
Qed.
(** The weight of D through A in the three stores. *)
Example e_C215_through : call_typed W (G_weight_from (toy_key D) (toy_key A) (at_ 10)) /\
  fst (graph_step W (db_of (after root_a)) (G_weight_from (toy_key D) (toy_key A) (at_ 10), None)) = Ok (GR_weight 16) /\
  fst (graph_step W (db_of (after root_b)) (G_weight_from (toy_key D) (toy_key A) (at_ 10), None)) = Ok (GR_weight 0) /\
  fst (graph_step W (db_of (after root_ab)) (G_weight_from (toy_key D) (toy_key A) (at_ 10), None)) = Ok (GR_weight 16).
Proof.
  split; [typed1|].
  split; [apply after_answer; [exact root_a_typed|typed1|vm_compute; reflexivity]|]. split; [apply after_answer; [exact root_b_typed|typed1|vm_compute; reflexivity]|].
  apply after_answer; [exact root_ab_typed|typed1|vm_compute; reflexivity].
Qed.
(** The same at the service, with the keys 1, 2 and 4. *)
Definition gives (i k : N) : service_event := (timed_call 2, S_add_trust (trust_rec i k 900 1) (pid i) 5, None).
Definition one_root : list service_event := [(owner_call, S_set_root (pid 1) 6, None); gives 1 1; gives 1 2; gives 2 2; gives 2 1; gives 2 4].
Definition other_root : list service_event := [(owner_call, S_set_root (pid 2) 4, None); gives 2 2; gives 2 1; gives 1 1; gives 1 2; gives 2 4].
Definition both_roots : list service_event := one_root ++ [(owner_call, S_set_root (pid 2) 4, None)].
Lemma served_rows : exists a b c e f, tbl_relations (service_history (toy true) empty_db one_root) = [a; b; c; e; f] /\ tbl_relations (service_history (toy true) empty_db both_roots) = [a; b; c; e; f] /\
  tbl_relations (service_history (toy true) empty_db other_root) = [c; e; a; b; f].
Proof. do 5 eexists. split; [vm_compute; reflexivity|]. split; vm_compute; reflexivity. Qed.
Lemma rows_relations : forall d d', (forall r, In r (tbl_relations d) <-> In r (tbl_relations d')) -> same_relations d d'.
Proof. intros d d' H [a|v]; cbn [stored]; [unfold stored_trust|unfold stored_revocation]; rewrite H; reflexivity. Qed.
Example e_C215_served : let d1 := service_history (toy true) empty_db one_root in let d2 := service_history (toy true) empty_db other_root in let d := service_history (toy true) empty_db both_roots in
  service_reachable (toy true) d1 /\ service_reachable (toy true) d2 /\ service_reachable (toy true) d /\ same_relations d1 d /\ same_relations d2 d /\ roots_joined d1 d2 d /\ host_time (timed_call 1) 1 /\
  map (fun d => told_certs (service_step (toy true) d (timed_call 1, S_get_all_certs (pid 4) 9, None))) [d1; d2; d] = [2; 1; 3]%nat.
Proof.
  cbv zeta.
  split; [eexists; (split; [|reflexivity]); repeat (constructor; [cbn; repeat split; vm_compute; reflexivity|]); constructor|].
  split; [eexists; (split; [|reflexivity]); repeat (constructor; [cbn; repeat split; vm_compute; reflexivity|]); constructor|].
  split; [eexists; (split; [|reflexivity]); repeat (constructor; [cbn; repeat split; vm_compute; reflexivity|]); constructor|].
  destruct served_rows as (a & b & c & e & f & H1 & H & H2).
  split; [apply rows_relations; intros r; rewrite H1, H; reflexivity|]. split; [apply rows_relations; intros r; rewrite H2, H; cbn [In]; tauto|].
  split. { intros k m. unfold root_max_len.
    assert (T1 : tbl_roots (service_history (toy true) empty_db one_root) = [(key_text (toy_key 1), 10%Z)]) by (vm_compute; reflexivity).
    assert (T2 : tbl_roots (service_history (toy true) empty_db other_root) = [(key_text (toy_key 2), 12%Z)]) by (vm_compute; reflexivity).
    assert (T : tbl_roots (service_history (toy true) empty_db both_roots) = [(key_text (toy_key 1), 10%Z); (key_text (toy_key 2), 12%Z)]) by (vm_compute; reflexivity).
    rewrite T1, T2, T. cbn [first_row]. destruct (bytes_eqb (key_text (toy_key 1)) (key_text k)) eqn:Ea; destruct (bytes_eqb (key_text (toy_key 2)) (key_text k)) eqn:Eb.
    - exfalso. apply bytes_eqb_eq in Ea. apply bytes_eqb_eq in Eb. rewrite <- Ea in Eb. revert Eb. vm_compute. discriminate.
    - split; [intros X; left; exact X|intros [X|(w & X & _)]; [exact X|discriminate X]].
    - split; [intros X; right; exact X|intros [(w & X & _)|X]; [discriminate X|exact X]].
    - split; [intros (w & X & _); discriminate X|intros [(w & X & _)|(w & X & _)]; discriminate X]. }
  split; [apply timed_host|]. vm_compute. reflexivity.
Qed.
