(** Proofs about the parts of a certificate: C207. *)
From Coq Require Import List NArith ZArith Bool Lia.
From Verif Require Import Base BaseFacts Text Keys KeysFacts Trust Certificate CertFacts Relation Storage Graph Spec SpecFacts GraphFacts StateFacts Toy ToyFacts Witness GraphThms InfluenceSpec InfluenceThms.
Import ListNotations.
Open Scope N_scope.

Lemma first_at : forall (c : certificate) n i t, at_pos (firstn n c) i t <-> (i < n)%nat /\ at_pos c i t.
Proof.
  intros c n i t. unfold at_pos. split.
  - intros H. assert (L : (i < length (firstn n c))%nat) by (apply nth_error_Some; rewrite H; discriminate). rewrite firstn_length in L.
    split; [lia|]. rewrite <- H. symmetry. apply nth_error_firstn. lia.
  - intros [L H]. rewrite nth_error_firstn by exact L. exact H.
Qed.
Lemma first_key : forall (c : certificate) n i k, key_at (firstn n c) i k <-> (i < n)%nat /\ key_at c i k.
Proof.
  intros c n i k. unfold key_at. split.
  - intros (t & H & E). apply first_at in H. destruct H as [L H]. split; [exact L|]. exists t. auto.
  - intros (L & t & H & E). exists t. split; [apply first_at; auto|exact E].
Qed.
Lemma first_revokes : forall d (c : certificate) n i j, revokes_at d (firstn n c) i j <-> (j < n)%nat /\ revokes_at d c i j.
Proof.
  intros d c n i j. unfold revokes_at. split.
  - intros (L & v & S & K1 & K2). apply first_key in K1. apply first_key in K2. split; [apply K2|]. split; [exact L|]. exists v. split; [exact S|]. split; [apply K1|apply K2].
  - intros (Lj & L & v & S & K1 & K2). split; [exact L|]. exists v. split; [exact S|]. split; apply first_key; (split; [lia|assumption]).
Qed.
Lemma part_counts : forall d now pk c n k, counting d now pk c -> (2 <= n < length c)%nat -> key_at c (n - 1) k ->
  (counting d now k (firstn n c) <-> ((n + 1)%nat = length c -> forall i, ~ revokes_at d c i (n - 1))).
Proof.
  intros d now pk c n k [(H1 & H2 & H3 & H4 & H5) Rv] [Ln Lc] K.
  assert (Len : length (firstn n c) = n) by (apply firstn_length_le; lia). split.
  - intros [_ Q] E i X. assert (Y : revokes_at d (firstn n c) i (n - 1)) by (apply first_revokes; split; [lia|exact X]).
    apply Q in Y. unfold direct_issuer_pos in Y. rewrite Len in Y. lia.
  - intros Q. split; [split; [rewrite Len; exact Ln|]; split; [rewrite Len; apply first_key; split; [lia|exact K]|]; split; [|split]|].
    + intros t Ht. apply first_at in Ht. apply H3. apply Ht.
    + intros i g t Hg Ht. apply first_at in Hg. apply first_at in Ht. apply (H4 i g t); [apply Hg|apply Ht].
    + intros i j k' Lij Ki Kj. apply first_key in Ki. apply first_key in Kj. apply (H5 i j k' Lij); [apply Ki|apply Kj].
    + intros i j X. apply first_revokes in X. destruct X as [Lj X]. pose proof (Rv i j X) as Y. unfold direct_issuer_pos in *. rewrite Len.
      exfalso. assert (E : (n + 1)%nat = length c) by lia. apply (Q E i). replace (n - 1)%nat with j by lia. exact X.
Qed.

(** ** C207 *)
(** What is told of a key is told in part of the keys before it: the part of a certificate that ends at any key but the last two is a certificate of that key. *)
Lemma p_C207_parts : forall C d pk now fu cs d1 c n k fu' cs' d2, reachable C d -> call_typed C (G_get_all_certs pk now) -> call_typed C (G_get_all_certs k now) ->
  graph_step C d (G_get_all_certs pk now, fu) = (Ok (GR_certs cs), d1) -> In c cs -> (2 <= n)%nat -> (n + 1 < length c)%nat -> key_at c (n - 1) k ->
  graph_step C d (G_get_all_certs k now, fu') = (Ok (GR_certs cs'), d2) -> In (firstn n c) cs'.
Proof.
  intros C d pk now fu cs d1 c n k fu' cs' d2 R T T' E Hc Ln Lc K E'. apply (certs_are C d pk now fu cs d1 R T E) in Hc.
  apply (certs_are C d k now fu' cs' d2 R T' E'). apply (part_counts d now pk c n k Hc); [lia|exact K|]. intros X. lia.
Qed.
(** The part that ends at the direct issuer is one exactly if no key in it has revoked the direct issuer. *)
Lemma p_C207_direct_issuer : forall C d pk now fu cs d1 c n k fu' cs' d2, reachable C d -> call_typed C (G_get_all_certs pk now) -> call_typed C (G_get_all_certs k now) ->
  graph_step C d (G_get_all_certs pk now, fu) = (Ok (GR_certs cs), d1) -> In c cs -> (2 <= n)%nat -> (n + 1)%nat = length c -> key_at c (n - 1) k ->
  graph_step C d (G_get_all_certs k now, fu') = (Ok (GR_certs cs'), d2) ->
  (In (firstn n c) cs' <-> forall i v, (i < n - 1)%nat -> stored_revocation d v -> rev_pk v = k -> ~ key_at c i (revoked_by v)).
Proof.
  intros C d pk now fu cs d1 c n k fu' cs' d2 R T T' E Hc Ln Lc K E'. apply (certs_are C d pk now fu cs d1 R T E) in Hc.
  rewrite (certs_are C d k now fu' cs' d2 R T' E'), (part_counts d now pk c n k Hc ltac:(lia) K). split.
  - intros H i v Li Sv Ev Ki. apply (H Lc i). split; [exact Li|]. exists v. split; [exact Sv|]. split; [exact Ki|]. rewrite Ev. exact K.
  - intros H _ i (Li & v & Sv & Ki & Kj). apply (H i v Li Sv); [|exact Ki]. destruct K as (t & Et & <-), Kj as (u & Eu & Fu). unfold at_pos in *. rewrite Et in Eu. injection Eu as <-. symmetry. exact Fu.
Qed.
(** So the keys before the direct issuer weigh at least what their places in the certificate give, each twice the next as long as the length of the root lasts. *)
Lemma p_C207_weights : forall C d pk now fu cs d1 c i k root m fu' w d2, reachable C d -> small d -> call_typed C (G_get_all_certs pk now) -> call_typed C (G_weight k now) ->
  graph_step C d (G_get_all_certs pk now, fu) = (Ok (GR_certs cs), d1) -> In c cs -> (i + 2 < length c)%nat -> key_at c i k -> key_at c 0 root -> root_max_len d root m ->
  graph_step C d (G_weight k now, fu') = (Ok (GR_weight w), d2) -> chain_weight m i <= w.
Proof.
  intros C d pk now fu cs d1 c i k root m fu' w d2 R Sm T T' E Hc Lc K K0 Rm E'. apply (certs_are C d pk now fu cs d1 R T E) in Hc.
  destruct (weight_is C d k now fu' w d2 R T' Sm E') as [G _]. destruct i as [|i].
  - unfold chain_weight. rewrite N.sub_0_r. apply G. left. exists m. split; [|reflexivity].
    destruct K as (t & Et & <-), K0 as (u & Eu & <-). unfold at_pos in *. rewrite Et in Eu. injection Eu as <-. exact Rm.
  - apply G. right. exists (firstn (S (S i)) c). assert (K' : key_at c (S (S i) - 1) k) by (replace (S (S i) - 1)%nat with (S i) by lia; exact K). split.
    + apply (part_counts d now pk c (S (S i)) k Hc); [lia|exact K'|lia].
    + destruct K0 as (u & Eu & Fu). exists u, m. split; [apply first_at; split; [lia|exact Eu]|]. rewrite Fu. split; [exact Rm|].
      rewrite firstn_length_le by lia. replace (S (S i) - 1)%nat with (S i) by lia. reflexivity.
Qed.
(** Refuted for the direct issuer: a key that weighs nothing, and of which nothing is told, vouches for another, which weighs something. *)
Lemma p_C207_parts_refuted : exists C d pk now cs c n k w, crypto_laws C /\ reachable C d /\
  fst (graph_step C d (G_get_all_certs pk now, None)) = Ok (GR_certs cs) /\ In c cs /\ (2 <= n < length c)%nat /\ key_at c (n - 1) k /\
  fst (graph_step C d (G_get_all_certs k now, None)) = Ok (GR_certs []) /\ fst (graph_step C d (G_weight k now, None)) = Ok (GR_weight 0) /\
  fst (graph_step C d (G_weight pk now, None)) = Ok (GR_weight w) /\ w <> 0.
Proof.
  exists W, (db_of (after long)), (toy_key D), (at_ 10), [long_cert], long_cert, 3%nat, (toy_key B), 4.
  split; [apply toy_laws|]. split; [apply after_reachable; exact long_typed|].
  split; [vm_compute; reflexivity|]. split; [left; reflexivity|]. split; [cbn; lia|].
  split; [eexists; split; reflexivity|].
  split; [vm_compute; reflexivity|]. split; [vm_compute; reflexivity|]. split; [vm_compute; reflexivity|discriminate].
Qed.
(** In the same store key 2, the first after the root in the certificate of key 4, has the part that ends at it. *)
Example e_C207_parts : reachable W (db_of (after long)) /\ small (db_of (after long)) /\ call_typed W (G_get_all_certs (toy_key D) (at_ 10)) /\ call_typed W (G_get_all_certs (toy_key A) (at_ 10)) /\
  fst (graph_step W (db_of (after long)) (G_get_all_certs (toy_key D) (at_ 10), None)) = Ok (GR_certs [long_cert]) /\ key_at long_cert (2 - 1) (toy_key A) /\
  root_max_len (db_of (after long)) (toy_key R) 5 /\
  fst (graph_step W (db_of (after long)) (G_get_all_certs (toy_key A) (at_ 10), None)) = Ok (GR_certs [firstn 2 long_cert]) /\
  fst (graph_step W (db_of (after long)) (G_weight (toy_key A) (at_ 10), None)) = Ok (GR_weight (chain_weight 5 1)).
Proof.
  split; [apply after_reachable; exact long_typed|]. split; [vm_compute; reflexivity|]. split; [typed1|]. split; [typed1|]. split; [vm_compute; reflexivity|].
  split; [eexists; split; reflexivity|]. split; [apply root_max_len_factor; exists 11; split; [vm_compute; reflexivity|reflexivity]|]. split; vm_compute; reflexivity.
Qed.
