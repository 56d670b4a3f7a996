(** Proofs of the properties of the example and of the admin tool. PropsTools.v restates them. *)
From Coq Require Import List NArith ZArith Bool Lia.
From Verif Require Import Base BaseFacts Text Keys KeysFacts Trust TrustFacts Certificate Relation Storage Graph Service Spec SpecFacts ServiceSpec
  StorageFacts SearchFacts PathFacts GraphFacts StateFacts ChainFacts AddFacts GraphThms MoreThms ServiceFacts ServiceThms Aqua AquaSpec AquaFacts AquaThms Boot BootSpec BootFacts BootThms
  AquaTrace Tools ToolsSpec.
Import ListNotations.
Open Scope N_scope.

(** * The computation *)
Lemma Forall2_len : forall A B (R : A -> B -> Prop) l l', Forall2 R l l' -> length l = length l'.
Proof. intros A B R l l' H. induction H as [|x y l l' _ _ IH]; [reflexivity|]. cbn [length]. rewrite IH. reflexivity. Qed.
Lemma trusted_by_certs : forall C s b k, inv C s -> trusted_by (db_of s) b k <-> certs_from_of s k b <> [].
Proof.
  intros C s b k I. assert (W := inv_wf C s I). split.
  - intros (c & H1 & H2 & n & t & H3 & H4) E.
    assert (In c (certs_from_of s k b)); [|rewrite E in H; destruct H].
    apply in_certs_from. split; [apply (certs_of_exact C); [exact W|auto]|]. exists t. split; [eapply nth_error_In; exact H3|exact H4].
  - intros H. destruct (certs_from_of s k b) as [|c cs] eqn:E; [contradiction|].
    assert (Hc : In c (certs_from_of s k b)) by (rewrite E; left; reflexivity). apply in_certs_from in Hc. destruct Hc as [Hc (t & Ht & Et)].
    apply (certs_of_exact C) in Hc; [|exact W]. exists c. destruct Hc as [H1 H2]. split; [exact H1|]. split; [exact H2|].
    apply In_nth_error in Ht. destruct Ht as (n & Hn). exists n, t. auto.
Qed.

(** Exactly one of a result and an error. The computation runs exactly if the relay, at the time of its clock, has a
    certificate for the node with the key of the client in it. Only a failure of the database gives another error. *)
Lemma p_C109_runs_exactly : forall C net o node k b now st r st', crypto_laws C -> wasm32 C = true -> network_state C st -> now < u64_bound ->
  peer_key C node k -> peer_key C (initiator net) b -> trusted_computation C net o node now st = (r, st') ->
  only_at (relay net) st st' /\
  ((collected (st (relay net)) (from_secs now) (st' (relay net)) /\
    ((r = Ok ran /\ trusted_by (st' (relay net)) b k) \/ (r = Ok refused /\ ~ trusted_by (st' (relay net)) b k))) \/
   (exists e, r = Ok ([], [CE_failed e]) /\ exists c, fault net (relay net) c <> None)).
Proof.
  intros C net o node k b now st r st' L W N Bn Hk Hb E. unfold trusted_computation, sbind, sret in E.
  destruct (aq_get_all_certs_from C net _ (relay net) node (initiator net) now st) as [r0 st0] eqn:E0.
  pose proof (p_C92_get_all_certs_from C net _ (relay net) node k (initiator net) b now st r0 st0 L W N Bn Hk Hb E0) as A.
  destruct A as [O [(x & p & G & -> & T)|(e & G & ->)]].
  - apply pair_equal_spec in E. destruct E as [<- <-]. split; [exact O|]. left. cbn [success].
    pose proof (service_reachable_graph C _ L (N (relay net))) as Rg. apply reachable_inv in Rg. destruct Rg as (s & Es & Inv).
    assert (Vk := peer_key_valid C _ _ L Hk). assert (Vb := peer_key_valid C _ _ L Hb).
    assert (Ty : call_typed C (G_get_all_certs_from k b (from_secs now))) by (split; [exact Vk|split; [exact Vb|apply from_secs_wf; exact Bn]]).
    rewrite Es in G. apply step_ok in G; [|exact Inv|exact Ty]. destruct G as [G1 G2]. cbn [sem fst snd run_ws fold_left] in G1, G2.
    injection G1 as <-. set (s' := apply_w s (W_gc (from_secs now))) in *. pose proof (inv_gc C s (from_secs now) Inv) as Inv'. fold s' in Inv'.
    rewrite G2. split; [rewrite Es; apply (collected_gc C); apply Inv|].
    cbn [tells] in T. destruct p as [| |l| | | | |]; try (destruct T; fail). rename T into F. unfold certs_in. cbn [reply].
    assert (Len : length l = length (certs_from_of s' k b)) by exact (Forall2_len _ _ _ _ _ F).
    pose proof (trusted_by_certs C s' b k Inv') as Q. rewrite Len. destruct (certs_from_of s' k b) as [|c cs]; cbn [length Nat.eqb negb].
    + right. split; [reflexivity|]. intros X. apply Q in X. contradiction.
    + left. split; [reflexivity|]. apply Q. discriminate.
  - apply pair_equal_spec in E. destruct E as [<- <-]. split; [exact O|]. right. cbn [success]. eexists. split; [reflexivity|].
    exists (S_get_all_certs_from node (initiator net) now). intros F. rewrite F in G.
    pose proof (service_reachable_graph C _ L (N (relay net))) as Rg. apply reachable_inv in Rg. destruct Rg as (s & Es & Inv).
    assert (Vk := peer_key_valid C _ _ L Hk). assert (Vb := peer_key_valid C _ _ L Hb).
    rewrite Es in G. rewrite step_none in G; [discriminate G|exact Inv|split; [exact Vk|split; [exact Vb|apply from_secs_wf; exact Bn]]].
Qed.

(** * What keeps a client able to grant *)
Lemma chain_keys : forall d pk c, root_chain d pk c -> In pk (map issued_for c).
Proof.
  intros d pk c (_ & (t & H & <-) & _). apply in_map. eapply nth_error_In. exact H.
Qed.
Lemma key_at_in : forall c i k, key_at c i k -> In k (map issued_for c).
Proof. intros c i k (t & H & <-). apply in_map. eapply nth_error_In. exact H. Qed.
(** A chain stays if its trusts and its root stay. *)
Lemma chain_stays : forall d d' pk c, root_chain d pk c ->
  (forall k, is_root d k -> is_root d' k) ->
  (forall b t, In t c -> In b (map issued_for c) -> stored_trust d b t -> stored_trust d' b t) -> root_chain d' pk c.
Proof.
  intros d d' pk c (L & K & H0 & H1 & H2) R T. split; [exact L|]. split; [exact K|]. split; [|split; [|exact H2]].
  - intros t Ht. destruct (H0 t Ht) as [A B]. split; [apply R; exact A|]. apply T; [eapply nth_error_In; exact Ht| |exact B].
    apply in_map. eapply nth_error_In. exact Ht.
  - intros i g t Hg Ht. apply T; [eapply nth_error_In; exact Ht|apply in_map; eapply nth_error_In; exact Hg|]. eapply H1; eassumption.
Qed.
Lemma same_roots : forall d d', tbl_roots d' = tbl_roots d -> (forall k, is_root d k -> is_root d' k) /\ (forall k m, root_max_len d k m -> root_max_len d' k m).
Proof. intros d d' E. unfold is_root, root_max_len. rewrite E. auto. Qed.

Lemma grant_collected : forall d d' b c ks now, can_grant d b c ks -> now < i64_bound -> alive_until c now -> collected d (from_secs now) d' -> can_grant d' b c ks.
Proof.
  intros d d' b c ks now [A B Fr Q O] Bn Al [E St]. destruct (same_roots _ _ E) as [R1 R2].
  assert (V : forall v, stored_revocation d' v -> stored_revocation d v) by (intros v H; apply (St (RRev v)) in H; apply H).
  split; [| |exact Fr| |].
  - eapply chain_stays; [exact A|exact R1|]. intros q t Ht _ S. apply (St (RAuth (mk_auth t q))). split; [exact S|].
    destruct (Al t Ht). intros X. apply db_expired_small in X; cbn [from_secs secs] in *; try assumption. lia.
  - destruct B as (k0 & m & B1 & B2 & B3). exists k0, m. auto.
  - intros v Hv. apply Q. apply V. exact Hv.
  - intros v Hv. apply O. apply V. exact Hv.
Qed.
(** Importing what the client says about one of the keys. *)
Lemma grant_imported : forall d d' b c ks x, can_grant d b c ks -> rel_issued_by x = b -> In (rel_issued_for x) ks -> imported d x d' -> can_grant d' b c ks.
Proof.
  intros d d' b c ks x [A B Fr Q O] Eb Ek [E St]. destruct (same_roots _ _ E) as [R1 R2].
  assert (V : forall v, stored_revocation d' v -> stored_revocation d v \/ RRev v = whole x).
  { intros v H. apply (St (RRev v)) in H. destruct H as [[_ H]|[(_ & H & _)|[H _]]]; [left; exact H|left; exact H|right; exact H]. }
  assert (P : forall v, RRev v = whole x -> revoked_by v = b /\ In (rev_pk v) ks).
  { intros v H. destruct x as [a|w]; [discriminate H|]. cbn [whole] in H. injection H as ->. cbn in *. auto. }
  split; [| |exact Fr| |].
  - eapply chain_stays; [exact A|exact R1|]. intros q t Ht _ S. apply (St (RAuth (mk_auth t q))). left. split; [|exact S].
    intros [K _]. cbn in K. rewrite K in Ek. apply (Fr _ Ek). apply in_map. exact Ht.
  - destruct B as (k0 & m & B1 & B2 & B3). exists k0, m. auto.
  - intros v Hv H1 H2. destruct (V v Hv) as [H|H]; [exact (Q v H H1 H2)|]. destruct (P v H) as [_ X]. exact (Fr _ X H2).
  - intros v Hv H1 H2. destruct (V v Hv) as [H|H]; [exact (O v H H1 H2)|]. apply P. exact H.
Qed.

(** What is stored about a key by the client. *)
Inductive status := Said (i : N) | Revoked (i : N) | Trusted (i e : N).
Definition has_status (d : db) (b k : public_key) (s : status) : Prop :=
  match s with
  | Said i => said_before d b k i
  | Revoked i => exists v, stored_revocation d v /\ revoked_by v = b /\ rev_pk v = k /\ secs (revoked_at v) = i
  | Trusted i e => exists t, stored_trust d b t /\ issued_for t = k /\ secs (issued_at t) = i /\ secs (expires_at t) = e
  end.
Definition status_time (s : status) : N := match s with Said i => i | Revoked i => i | Trusted i _ => i end.
Definition status_alive (s : status) (now : N) : Prop := match s with Trusted _ e => now < e < i64_bound | _ => True end.
Lemma status_collected : forall d d' b k s now, has_status d b k s -> now < i64_bound -> status_alive s now -> collected d (from_secs now) d' -> has_status d' b k s.
Proof.
  intros d d' b k s now H Bn Al [_ St]. destruct s as [i|i|i e]; cbn [has_status status_alive] in *.
  - intros z Hz. apply H. apply St in Hz. apply Hz.
  - destruct H as (v & H1 & H2). exists v. split; [|exact H2]. apply (St (RRev v)). split; [exact H1|]. intros [].
  - destruct H as (t & H1 & H2 & H3 & H4). exists t. split; [|auto]. apply (St (RAuth (mk_auth t b))). split; [exact H1|].
    intros X. apply db_expired_small in X; cbn [from_secs secs] in *; try lia; rewrite ?H4; lia.
Qed.
Lemma status_imported : forall d d' b k s x, has_status d b k s -> rel_issued_for x <> k -> imported d x d' -> has_status d' b k s.
Proof.
  intros d d' b k s x H N [_ St]. destruct s as [i|i|i e]; cbn [has_status] in *.
  - intros z Hz Z1 Z2. apply St in Hz. destruct Hz as [[_ Hz]|[(_ & Hz & _)|[Hz _]]]; [apply H; assumption|apply H; assumption|].
    exfalso. apply N. rewrite <- Z2, Hz. destruct x; reflexivity.
  - destruct H as (v & H1 & H2 & H3 & H4). exists v. split; [|auto]. apply (St (RRev v)). left. split; [|exact H1].
    intros [X _]. apply N. rewrite X. exact H3.
  - destruct H as (t & H1 & H2 & H3). exists t. split; [|auto]. apply (St (RAuth (mk_auth t b))). left. split; [|exact H1].
    intros [X _]. apply N. rewrite X. exact H2.
Qed.
(** One relation per pair: everything the client said about the key is not after the status. *)
Lemma status_said : forall C d b k s i, reachable C d -> has_status d b k s -> status_time s < i -> said_before d b k i.
Proof.
  intros C d b k s i R H Hi z Hz Z1 Z2. destruct s as [j|j|j e]; cbn [has_status status_time] in *.
  - specialize (H z Hz Z1 Z2). lia.
  - destruct H as (v & H1 & H2 & H3 & H4).
    assert (Q : z = RRev v) by (apply (p_C30_one_relation_per_pair C d); [exact R|exact Hz|exact H1|split; cbn; congruence]). subst z. cbn. lia.
  - destruct H as (t & H1 & H2 & H3 & H4).
    assert (Q : z = RAuth (mk_auth t b)) by (apply (p_C30_one_relation_per_pair C d); [exact R|exact Hz|exact H1|split; cbn; congruence]). subst z. cbn. lia.
Qed.
Lemma said_new : forall d b k i x, said_before d b k i -> rel_issued_by x = b -> rel_issued_for x = k -> rel_issued_at x = from_secs i ->
  forall z, stored d z -> same_keys x z -> before (rel_issued_at z) (rel_issued_at x).
Proof.
  intros d b k i x S E1 E2 E3 z Hz [K1 K2]. rewrite E3. left. cbn [from_secs secs]. apply S; [exact Hz|congruence|congruence].
Qed.

Lemma snoc_key : forall c t i k, key_at (c ++ [t]) i k -> (i < length c)%nat /\ key_at c i k \/ i = length c /\ k = issued_for t.
Proof.
  intros c t i k (u & H & E). unfold at_pos in H. apply nth_error_snoc in H. destruct H as [H|[-> ->]]; [left|right; auto].
  split; [apply nth_error_Some; congruence|]. exists u. auto.
Qed.
Lemma trusted_runs : forall C d b c ks k i e, reachable C d -> can_grant d b c ks -> In k ks -> has_status d b k (Trusted i e) -> trusted_by d b k.
Proof.
  intros C d b c ks k i e R [A B Fr Q O] Hk (t & T1 & T2 & T3 & T4). exists (c ++ [t]).
  assert (Len : length (c ++ [t]) = S (length c)) by (rewrite app_length; cbn; lia).
  assert (Old : forall j u, at_pos (c ++ [t]) j u -> (j < length c)%nat -> at_pos c j u).
  { intros j u H Hj. unfold at_pos in *. rewrite nth_error_app1 in H by exact Hj. exact H. }
  destruct A as (L & K & H0 & H1 & H2). split; [|split].
  - split; [lia|]. split.
    + exists t. split; [|exact T2]. unfold at_pos. rewrite Len. replace (S (length c) - 1)%nat with (length c) by lia. rewrite nth_error_app2 by lia.
      replace (length c - length c)%nat with 0%nat by lia. reflexivity.
    + split; [intros u Hu; apply H0; apply Old; [exact Hu|lia]|]. split.
      * intros j g u Hg Hu. unfold at_pos in Hu. apply nth_error_snoc in Hu. destruct Hu as [Hu|[E ->]].
        -- assert (S j < length c)%nat by (apply nth_error_Some; congruence). apply (H1 j); [apply Old; [exact Hg|lia]|exact Hu].
        -- destruct K as (l & Hl & El). apply Old in Hg; [|lia]. unfold at_pos in Hg, Hl. replace (length c - 1)%nat with j in Hl by lia.
           assert (g = l) by congruence. subst g. rewrite El. exact T1.
      * intros x y q Hxy Hx Hy. apply snoc_key in Hx, Hy. destruct Hx as [[Lx Hx]|[Ex Qx]], Hy as [[Ly Hy]|[Ey Qy]]; try lia; [apply (H2 x y q); assumption|].
        exfalso. apply (Fr k Hk). rewrite <- T2, <- Qy. eapply key_at_in. exact Hx.
  - intros x y (Hxy & v & V & Hx & Hy). exfalso. apply snoc_key in Hx, Hy. destruct Hx as [[Lx Hx]|[Ex Qx]], Hy as [[Ly Hy]|[Ey Qy]]; try lia.
    + apply (Q v V); eapply key_at_in; eassumption.
    + assert (Z : revoked_by v = b) by (apply O; [exact V|eapply key_at_in; exact Hx|rewrite Qy, T2; exact Hk]).
      assert (X : RRev v = RAuth (mk_auth t b)); [|discriminate X].
      apply (p_C30_one_relation_per_pair C d); [exact R|exact V|exact T1|split; cbn; congruence].
  - exists (length c - 1)%nat. destruct K as (l & Hl & El). exists l. split; [|exact El]. unfold at_pos in *. rewrite nth_error_app1 by lia. exact Hl.
Qed.
Lemma revoked_refused : forall d b k i, k <> b -> has_status d b k (Revoked i) -> ~ trusted_by d b k.
Proof.
  intros d b k i N (v & V1 & V2 & V3 & _) (c & (L & K & _) & Rv & n & Kn).
  assert (Hn : (n < length c)%nat) by (destruct Kn as (t & Ht & _); apply nth_error_Some; unfold at_pos in Ht; congruence).
  assert (n <> length c - 1)%nat.
  { intros ->. destruct Kn as (t & Ht & Et), K as (u & Hu & Eu). unfold at_pos in *. congruence. }
  assert (X : direct_issuer_pos c (length c - 1)); [|unfold direct_issuer_pos in X; lia].
  apply (Rv n). split; [lia|]. exists v. split; [exact V1|]. rewrite V2, V3. auto.
Qed.

(** * The steps of the example on the relay *)
Lemma small_times : forall n, n < i64_bound -> n < u64_bound.
Proof. intros n H. unfold i64_bound, u64_bound in *. lia. Qed.
Lemma do_compute : forall C net o node k b now st r st', crypto_laws C -> wasm32 C = true -> network_state C st -> now < u64_bound -> no_faults net ->
  peer_key C node k -> peer_key C (initiator net) b -> trusted_computation C net o node now st = (r, st') ->
  network_state C st' /\ collected (st (relay net)) (from_secs now) (st' (relay net)) /\
  ((r = Ok ran /\ trusted_by (st' (relay net)) b k) \/ (r = Ok refused /\ ~ trusted_by (st' (relay net)) b k)).
Proof.
  intros C net o node k b now st r st' L W N Bn NF Hk Hb E. split.
  - unfold trusted_computation, sbind, sret in E.
    set (src := fun n : nat => match n with O => o | S _ => literal net end) in E.
    pose proof (p_C94_one_node C net src (A_get_all_certs_from (relay net) node (initiator net) now) st) as P. cbn [run] in P.
    destruct (aq_get_all_certs_from C net src (relay net) node (initiator net) now st) as [[x| | |] st0]; apply pair_equal_spec in E; destruct E as [_ <-]; apply P;
      try exact N; (split; [intros n X; injection X as <-; exact Bn|exact I]).
  - destruct (p_C109_runs_exactly C net o node k b now st r st' L W N Bn Hk Hb E) as [_ [H|(e & _ & c & F)]]; [exact H|].
    exfalso. apply F. apply NF.
Qed.
Lemma do_revoke : forall C net src kp p k i now st r st', crypto_laws C -> wasm32 C = true -> network_state C st -> i < u64_bound -> now < u64_bound -> no_faults net ->
  signer C net (initiator net) kp -> peer_key C p k -> i <= now ->
  aq_revoke C net src (relay net) (initiator net) p i now st = (r, st') ->
  r = Ok [] /\ network_state C st' /\ exists v, revocation_asked C (kp_public C kp) k i v /\ imported (st (relay net)) (RRev v) (st' (relay net)).
Proof.
  intros C net src kp p k i now st r st' L W N Bi Bn NF Sg Hk Le E.
  destruct (p_C91_revoke_exact C net src (relay net) (initiator net) kp p k i now st r st' L W N Bi Bn Sg NF Hk E) as [[_ ->]|[X _]]; [|lia].
  split; [reflexivity|]. split.
  - pose proof (p_C94_one_node C net src (A_revoke (relay net) (initiator net) p i now) st) as P. cbn [run] in P. rewrite E in P. cbn [snd] in P. apply P; [|exact N].
    split; [intros n X; injection X as <-; exact Bn|exact Bi].
  - destruct (p_C91_revoke_done C net src (relay net) (initiator net) p i now st st' L W N Bi Bn E) as (_ & b & k' & v & H1 & H2 & H3 & _ & H4).
    rewrite (peer_key_fun C _ _ _ Hk H2). destruct Sg as (_ & Pb & _). rewrite (peer_key_fun C _ _ _ Pb H1). exists v. auto.
Qed.
Lemma grant_weight : forall C d b c ks now w d1, reachable C d -> pk_valid C b -> now < i64_bound -> can_grant d b c ks -> alive_until c now ->
  graph_step C d (G_weight b (from_secs now), None) = (Ok (GR_weight w), d1) -> 2 <= w.
Proof.
  intros C d b c ks now w d1 R V Bn G Al E. apply reachable_inv in R. destruct R as (s & -> & Inv).
  apply step_ok in E; [|exact Inv|split; [exact V|apply from_secs_wf; apply small_times; exact Bn]]. destruct E as [E _]. cbn [sem fst] in E. injection E as <-.
  set (s' := apply_w s (W_gc (from_secs now))). pose proof (inv_gc C s (from_secs now) Inv) as Inv'. fold s' in Inv'.
  pose proof (grant_collected _ _ _ _ _ _ G Bn Al (collected_gc C s (from_secs now) (inv_wf C s Inv))) as G'. fold s' in G'.
  destruct G' as [A (k0 & m & K0 & Rm & Sh) _ Q _].
  assert (In c (certs_of s' b)) as Hin.
  { apply (certs_of_exact C); [apply Inv'|]. split; [exact A|]. intros i j (_ & v & V1 & V2 & V3). exfalso. apply (Q v V1); eapply key_at_in; eassumption. }
  assert (m <= 16) by (eapply max_len_le; exact Rm).
  destruct c as [|t c]; [destruct K0 as (t & Ht & _); discriminate Ht|]. destruct K0 as (t' & Ht & <-). injection Ht as <-.
  assert (B : N.of_nat (length (t :: c)) + 16 < u32_bound) by (unfold u32_bound in *; cbn [length] in *; lia).
  pose proof (certs_weight_ge C s' _ t c m Inv' Hin Rm B) as X.
  assert (2 <= chain_weight m (length (t :: c) - 1)).
  { unfold chain_weight. change 2 with (2 ^ 1) at 1. apply N.pow_le_mono_r; lia. }
  change (2 <= weight_of s' b). etransitivity; [eassumption|]. etransitivity; [exact X|]. apply N.le_max_r.
Qed.
Lemma do_grant : forall C net src kp p k c ks e i now st r st', crypto_laws C -> wasm32 C = true -> network_state C st -> i <= now -> now < e -> e < i64_bound -> no_faults net ->
  signer C net (initiator net) kp -> peer_key C p k -> k <> kp_public C kp -> can_grant (st (relay net)) (kp_public C kp) c ks -> alive_until c now ->
  aq_add_trust C net src (relay net) (initiator net) p e i now st = (r, st') ->
  r = Ok [] /\ network_state C st' /\ exists t d1, trust_asked C (kp_public C kp) k e i t /\ collected (st (relay net)) (from_secs now) d1 /\
    imported d1 (RAuth (mk_auth t (kp_public C kp))) (st' (relay net)).
Proof.
  intros C net src kp p k c ks e i now st r st' L W N Li Le Be NF Sg Hk Ne G Al E.
  assert (Bn : now < u64_bound) by (apply small_times; lia). assert (Bi : i < u64_bound) by lia. assert (Be' := small_times e Be).
  destruct (p_C89_add_trust_exact C net src (relay net) (initiator net) kp p k e i now st r st' L W N Be' Bi Bn Sg NF Hk E) as [[_ ->]|[X _]]; [|exfalso; apply X; lia].
  split; [reflexivity|]. split.
  - pose proof (p_C94_one_node C net src (A_add_trust (relay net) (initiator net) p e i now) st) as P. cbn [run] in P. rewrite E in P. cbn [snd] in P. apply P; [|exact N].
    split; [intros n X; injection X as <-; exact Bn|]. split; assumption.
  - destruct (p_C89_add_trust_done C net src (relay net) (initiator net) p e i now st st' L W N Be' Bi Bn E) as (_ & b & k' & t & w & d1 & H1 & H2 & H3 & _ & _ & H4 & H5 & H6).
    rewrite (peer_key_fun C _ _ _ Hk H2) in *. destruct Sg as (_ & Pb & _). rewrite (peer_key_fun C _ _ _ Pb H1) in *.
    assert (2 <= w).
    { eapply (grant_weight C (st (relay net)) b c ks now w d1); try eassumption; [apply service_reachable_graph; [exact L|apply N]|apply (peer_key_valid C _ _ L H1)|lia]. }
    destruct H6 as [[[X|[X _]] _]|[_ H6]]; [lia|lia|]. exists t, d1. auto.
Qed.

(** * Scenes: what the relay holds about the nodes *)
Definition set_status (f : public_key -> status) (k : public_key) (s : status) : public_key -> status := fun q => if pk_eqb k q then s else f q.
Lemma set_same : forall f k s, set_status f k s k = s.
Proof. intros f k s. unfold set_status. rewrite (proj2 (pk_eqb_eq k k) eq_refl). reflexivity. Qed.
Lemma set_other : forall f k s q, q <> k -> set_status f k s q = f q.
Proof. intros f k s q N. unfold set_status. destruct (pk_eqb k q) eqn:E; [|reflexivity]. apply pk_eqb_eq in E. congruence. Qed.
Section Scene.
Variable C : crypto.
Hypothesis L : crypto_laws C.
Hypothesis W : wasm32 C = true.
Variable net : network.
Hypothesis NF : no_faults net.
Variable kp : keypair.
Hypothesis Sg : signer C net (initiator net) kp.
Variable c : certificate.
Variable ks : list public_key.
Notation b := (kp_public C kp).
Definition scene (st : stores) (f : public_key -> status) : Prop :=
  network_state C st /\ can_grant (st (relay net)) b c ks /\ forall k, In k ks -> has_status (st (relay net)) b k (f k).
Lemma scene_other : forall st f k, scene st f -> In k ks -> k <> b.
Proof.
  intros st f k (_ & [A _ Fr _ _] & _) Hk ->. apply (Fr _ Hk). eapply chain_keys. exact A.
Qed.
Lemma scene_compute : forall o node k now st f r st', scene st f -> In k ks -> peer_key C node k -> trusted_computation C net o node now st = (r, st') -> now < i64_bound -> alive_until c now ->
  (forall q, In q ks -> status_alive (f q) now) ->
  scene st' f /\ match f k with Said _ => True | Revoked _ => r = Ok refused | Trusted _ _ => r = Ok ran end.
Proof.
  intros o node k now st f r st' Sc Hk Pk E Bn Al As. pose proof (scene_other st f k Sc Hk) as Nk. destruct Sc as (N & G & H).
  destruct Sg as (_ & Pb & _).
  destruct (do_compute C net o node k b now st r st' L W N (small_times _ Bn) NF Pk Pb E) as (N' & Col & R).
  assert (Sc' : scene st' f).
  { split; [exact N'|]. split; [eapply grant_collected; eassumption|]. intros q Hq. eapply status_collected; [apply H; exact Hq|exact Bn|apply As; exact Hq|exact Col]. }
  split; [exact Sc'|]. destruct Sc' as (_ & G' & H'). specialize (H' k Hk). destruct (f k) as [i|i|i e] eqn:Ef; [exact I| |].
  - destruct R as [[_ X]|[-> _]]; [|reflexivity]. exfalso. exact (revoked_refused _ _ _ _ Nk H' X).
  - destruct R as [[-> _]|[_ X]]; [reflexivity|]. exfalso. apply X. eapply trusted_runs; [apply service_reachable_graph; [exact L|apply N']|exact G'|exact Hk|exact H'].
Qed.
Lemma scene_revoke : forall src p k i now st f r st', scene st f -> In k ks -> peer_key C p k -> aq_revoke C net src (relay net) (initiator net) p i now st = (r, st') ->
  i <= now -> now < i64_bound -> said_before (st (relay net)) b k i ->
  r = Ok [] /\ scene st' (set_status f k (Revoked i)).
Proof.
  intros src p k i now st f r st' (N & G & H) Hk Pk E Le Bn Sb. assert (Bi : i < i64_bound) by lia.
  destruct (do_revoke C net src kp p k i now st r st' L W N (small_times _ Bi) (small_times _ Bn) NF Sg Pk Le E) as (-> & N' & v & (V1 & V2 & V3 & V4) & Im).
  split; [reflexivity|]. split; [exact N'|]. split; [eapply (grant_imported _ _ _ _ _ (RRev v)); [exact G|exact V2|cbn; rewrite V1; exact Hk|exact Im]|].
  intros q Hq. destruct (pk_eqb k q) eqn:Eq.
  - apply pk_eqb_eq in Eq. subst q. rewrite set_same. destruct Im as [_ St]. exists (mk_rev k (from_secs i) b (rev_sig v)).
    split; [|auto]. apply (St (RRev _)). right. right. split; [cbn [whole]; rewrite V1, V2, V3; reflexivity|].
    apply (said_new _ b k i); [exact Sb|exact V2|exact V1|exact V3].
  - assert (q <> k) by (intros ->; rewrite (proj2 (pk_eqb_eq k k) eq_refl) in Eq; discriminate Eq). rewrite set_other by assumption.
    eapply status_imported; [apply H; exact Hq| |exact Im]. cbn. rewrite V1. auto.
Qed.
Lemma scene_grant : forall src p k e i now st f r st', scene st f -> In k ks -> peer_key C p k -> aq_add_trust C net src (relay net) (initiator net) p e i now st = (r, st') ->
  i <= now -> now < e -> e < i64_bound -> alive_until c now -> (forall q, In q ks -> status_alive (f q) now) -> said_before (st (relay net)) b k i ->
  r = Ok [] /\ scene st' (set_status f k (Trusted i e)).
Proof.
  intros src p k e i now st f r st' Sc Hk Pk E Le Lt Be Al As Sb. pose proof (scene_other st f k Sc Hk) as Nk. destruct Sc as (N & G & H).
  assert (Bn : now < i64_bound) by lia.
  destruct (do_grant C net src kp p k c ks e i now st r st' L W N Le Lt Be NF Sg Pk Nk G Al E) as (-> & N' & t & d1 & (T1 & T2 & T3 & T4) & Col & Im).
  split; [reflexivity|]. split; [exact N'|].
  split; [eapply (grant_imported _ _ _ _ _ (RAuth (mk_auth t b))); [eapply grant_collected; eassumption|reflexivity|cbn; rewrite T1; exact Hk|exact Im]|].
  intros q Hq. destruct (pk_eqb k q) eqn:Eq.
  - apply pk_eqb_eq in Eq. subst q. rewrite set_same. destruct Im as [_ St]. exists (whole_trust t).
    split; [|split; [exact T1|split; cbn [whole_trust issued_at expires_at from_secs secs]; [rewrite T3|rewrite T2]; reflexivity]].
    apply (St (RAuth (mk_auth (whole_trust t) b))). right. right. split; [reflexivity|].
    apply (said_new _ b k i); [|reflexivity|exact T1|exact T3]. intros z Hz. apply Sb. destruct Col as [_ Cl]. apply Cl in Hz. apply Hz.
  - assert (q <> k) by (intros ->; rewrite (proj2 (pk_eqb_eq k k) eq_refl) in Eq; discriminate Eq). rewrite set_other by assumption.
    eapply status_imported; [eapply status_collected; [apply H; exact Hq|exact Bn|apply As; exact Hq|exact Col]| |exact Im]. cbn. rewrite T1. auto.
Qed.
Lemma scene_said : forall st f k i, scene st f -> In k ks -> status_time (f k) < i -> said_before (st (relay net)) b k i.
Proof.
  intros st f k i (N & _ & H) Hk Lt. eapply (status_said C); [apply service_reachable_graph; [exact L|apply N]|apply H; exact Hk|exact Lt].
Qed.
End Scene.

(** ** C109 *)
(** A node the client has revoked is refused while the revocation is stored. *)
Lemma p_C109_revoked_is_refused : forall C net o node k b v now st, crypto_laws C -> wasm32 C = true -> network_state C st -> now < u64_bound -> no_faults net ->
  peer_key C node k -> peer_key C (initiator net) b -> stored_revocation (st (relay net)) v -> revoked_by v = b -> rev_pk v = k -> k <> b ->
  fst (trusted_computation C net o node now st) = Ok refused.
Proof.
  intros C net o node k b v now st L W N Bn NF Hk Hb V1 V2 V3 Ne. destruct (trusted_computation C net o node now st) as [r st'] eqn:E.
  destruct (do_compute C net o node k b now st r st' L W N Bn NF Hk Hb E) as (_ & [_ St] & [[_ X]|[-> _]]); [|reflexivity]. exfalso.
  apply (revoked_refused (st' (relay net)) b k (secs (revoked_at v))); [exact Ne| |exact X]. exists v. split; [|auto].
  apply (St (RRev v)). split; [exact V1|intros []].
Qed.
(** A node the client trusts runs the computation if the client is able to grant and the trusts have not expired. *)
Lemma p_C109_trusted_runs : forall C net o node k b t c now st, crypto_laws C -> wasm32 C = true -> network_state C st -> now < i64_bound -> no_faults net ->
  peer_key C node k -> peer_key C (initiator net) b -> can_grant (st (relay net)) b c [k] -> stored_trust (st (relay net)) b t -> issued_for t = k ->
  alive_until (t :: c) now -> fst (trusted_computation C net o node now st) = Ok ran.
Proof.
  intros C net o node k b t c now st L W N Bn NF Hk Hb G St Et Al. destruct (trusted_computation C net o node now st) as [r st'] eqn:E.
  destruct (do_compute C net o node k b now st r st' L W N (small_times _ Bn) NF Hk Hb E) as (N' & Col & [[-> _]|[_ X]]); [reflexivity|]. exfalso. apply X.
  eapply (trusted_runs C _ b c [k] k (secs (issued_at t)) (secs (expires_at t))); [apply service_reachable_graph; [exact L|apply N']| |left; reflexivity|].
  - eapply grant_collected; [exact G|exact Bn| |exact Col]. intros u Hu. apply Al. right. exact Hu.
  - eapply status_collected; [| exact Bn| |exact Col]; [exists t; auto|]. cbn. apply Al. left. reflexivity.
Qed.

(** ** C110 *)
(** After [add_trust] on the relay by a client that is able to grant, the computation runs until the trust or one above it
    expires. *)
Lemma p_C110_grant_takes_effect : forall C net src kp node k c e i now now' o st r st1, crypto_laws C -> wasm32 C = true -> network_state C st -> no_faults net ->
  signer C net (initiator net) kp -> peer_key C node k -> can_grant (st (relay net)) (kp_public C kp) c [k] ->
  said_before (st (relay net)) (kp_public C kp) k i -> i <= now -> now <= now' -> now' < e -> e < i64_bound -> alive_until c now' ->
  aq_add_trust C net src (relay net) (initiator net) node e i now st = (r, st1) ->
  r = Ok [] /\ fst (trusted_computation C net o node now' st1) = Ok ran.
Proof.
  intros C net src kp node k c e i now now' o st r st1 L W N NF Sg Hk G Sb Le1 Le2 Lt Be Al E.
  assert (Sc : scene C net kp c [k] st (fun _ => Said i)).
  { split; [exact N|]. split; [exact G|]. intros q [<-|[]]. exact Sb. }
  assert (Al' : alive_until c now) by (intros u Hu; specialize (Al u Hu); lia).
  destruct (scene_grant C L W net NF kp Sg c [k] src node k e i now st _ r st1 Sc (or_introl eq_refl) Hk E Le1) as [-> Sc1];
    [lia|exact Be|exact Al'|intros q _; exact I|exact Sb|].
  split; [reflexivity|]. destruct (trusted_computation C net o node now' st1) as [r2 st2] eqn:E2.
  destruct (scene_compute C L W net NF kp Sg c [k] o node k now' st1 _ r2 st2 Sc1 (or_introl eq_refl) Hk E2) as [_ X]; [lia|exact Al| |].
  - intros q [<-|[]]. rewrite set_same. cbn. lia.
  - rewrite set_same in X. subst r2. reflexivity.
Qed.
(** After [revoke] on the relay the computation is refused at any later time, until the client trusts the node anew. *)
Lemma p_C110_revoke_takes_effect : forall C net src kp node k i now now' o st r st1, crypto_laws C -> wasm32 C = true -> network_state C st -> no_faults net ->
  signer C net (initiator net) kp -> peer_key C node k -> k <> kp_public C kp -> said_before (st (relay net)) (kp_public C kp) k i ->
  i <= now -> now < u64_bound -> now' < u64_bound -> aq_revoke C net src (relay net) (initiator net) node i now st = (r, st1) ->
  r = Ok [] /\ fst (trusted_computation C net o node now' st1) = Ok refused.
Proof.
  intros C net src kp node k i now now' o st r st1 L W N NF Sg Hk Ne Sb Le Bn Bn' E.
  assert (Bi : i < u64_bound) by lia.
  destruct (do_revoke C net src kp node k i now st r st1 L W N Bi Bn NF Sg Hk Le E) as (-> & N1 & v & (V1 & V2 & V3 & V4) & Im).
  split; [reflexivity|]. assert (Pb : peer_key C (initiator net) (kp_public C kp)) by apply Sg.
  apply (p_C109_revoked_is_refused C net o node k (kp_public C kp) (mk_rev k (from_secs i) (kp_public C kp) (rev_sig v))); try assumption; try reflexivity.
  destruct Im as [_ St]. apply (St (RRev _)). right. right. split; [cbn [whole]; rewrite V1, V2, V3; reflexivity|].
  apply (said_new _ (kp_public C kp) k i); [exact Sb|exact V2|exact V1|exact V3].
Qed.
(** It does not change the answer for another node the client trusts. *)
Lemma p_C110_revoke_spares_others : forall C net src kp node k q node' k' t c i now now' o st r st1, crypto_laws C -> wasm32 C = true -> network_state C st -> no_faults net ->
  signer C net (initiator net) kp -> q = kp_public C kp -> peer_key C node k -> peer_key C node' k' -> k <> k' -> can_grant (st (relay net)) q c [k; k'] ->
  stored_trust (st (relay net)) q t -> issued_for t = k' -> i <= now -> now < i64_bound -> now' < i64_bound -> alive_until (t :: c) now' ->
  aq_revoke C net src (relay net) (initiator net) node i now st = (r, st1) ->
  r = Ok [] /\ fst (trusted_computation C net o node' now' st1) = Ok ran.
Proof.
  intros C net src kp node k q node' k' t c i now now' o st r st1 L W N NF Sg -> Hk Hk' Ne G St Et Le Bn Bn' Al E.
  assert (Bi : i < i64_bound) by lia. assert (Pb : peer_key C (initiator net) (kp_public C kp)) by apply Sg.
  destruct (do_revoke C net src kp node k i now st r st1 L W N (small_times _ Bi) (small_times _ Bn) NF Sg Hk Le E) as (-> & N1 & v & (V1 & V2 & V3 & V4) & Im).
  split; [reflexivity|].
  assert (G1 : can_grant (st1 (relay net)) (kp_public C kp) c [k; k']).
  { eapply (grant_imported _ _ _ _ _ (RRev v)); [exact G|exact V2|cbn [rel_issued_for]; rewrite V1; left; reflexivity|exact Im]. }
  apply (p_C109_trusted_runs C net o node' k' (kp_public C kp) t c); try assumption.
  - destruct G1 as [A B Fr Q O]. split; [exact A|exact B| |exact Q|].
    + intros x [<-|[]]. apply Fr. right. left. reflexivity.
    + intros w Hw H1 [H2|[]]. apply (O w Hw H1). right. left. exact H2.
  - destruct Im as [_ Im]. apply (Im (RAuth (mk_auth t (kp_public C kp)))). left. split; [|exact St]. intros [X _]. cbn in X. congruence.
Qed.

(** The output of the README of the example: if the relay holds a certificate for the client that is short enough and no
    revocation stands against it, then whatever else is stored, wherever the arguments come from and whatever the clock says
    (it does not go back), the nine computations are refused, refused, refused; refused, run, run; refused, refused, run. *)
Lemma p_C110_example_output : forall C net src t nodeB nodeC cur kp kA kB kC c st, crypto_laws C -> wasm32 C = true -> network_state C st -> no_faults net ->
  signer C net (initiator net) kp -> peer_key C (relay net) kA -> peer_key C nodeB kB -> peer_key C nodeC kC -> NoDup [kA; kB; kC] ->
  can_grant (st (relay net)) (kp_public C kp) c [kA; kB; kC] -> alive_until c (t 20%nat) -> example_clock t cur ->
  (forall k, In k [kA; kB; kC] -> said_before (st (relay net)) (kp_public C kp) k (t 0%nat)) ->
  fst (example_main C net src t nodeB nodeC cur st) = Ok [refused; refused; refused; refused; ran; ran; refused; refused; ran].
Proof.
  intros C net src t nodeB nodeC cur kp kA kB kC c st L W N NF Sg HA HB HC ND G Al (Mono & W1 & W2 & Fu & Bf) Sb.
  set (ks := [kA; kB; kC]) in *.
  assert (IA : In kA ks) by (left; reflexivity). assert (IB : In kB ks) by (right; left; reflexivity). assert (IC : In kC ks) by (right; right; left; reflexivity).
  assert (DAB : kA <> kB /\ kA <> kC /\ kB <> kC).
  { inversion ND as [|x l X1 X2]; subst. inversion X2 as [|x l X3 X4]; subst. split; [|split]; intros ->; [apply X1; left|apply X1; right; left|apply X3; left]; reflexivity. }
  destruct DAB as (DAB & DAC & DBC).
  set (far := cur + 9999999) in *.
  assert (T20 : forall i, (i <= 20)%nat -> t i <= t 20%nat) by (intros i Hi; apply Mono; exact Hi).
  assert (Bt : forall i, (i <= 20)%nat -> t i < i64_bound) by (intros i Hi; specialize (T20 i Hi); lia).
  assert (Lt : forall i, (i <= 20)%nat -> t i < far) by (intros i Hi; specialize (T20 i Hi); lia).
  assert (At : forall i, (i <= 20)%nat -> alive_until c (t i)) by (intros i Hi u Hu; specialize (T20 i Hi); specialize (Al u Hu); lia).
  assert (Sc0 : scene C net kp c ks st (fun _ => Said (t 0%nat))) by (split; [exact N|split; [exact G|exact Sb]]).
  assert (SL : forall f, (forall q, In q ks -> match f q with Trusted _ e => e = far | _ => True end) -> forall i, (i <= 20)%nat ->
     forall q, In q ks -> status_alive (f q) (t i)).
  { intros f H i Hi q Hq. specialize (H q Hq). destruct (f q) as [x|x|x e]; cbn; auto. subst e. split; [apply Lt; exact Hi|exact Bf]. }
  assert (Later : forall st0 k i j, said_before st0 (kp_public C kp) k (t i) -> (i <= j)%nat -> said_before st0 (kp_public C kp) k (t j)).
  { intros st0 k i j H Hij z Hz Z1 Z2. specialize (H z Hz Z1 Z2). specialize (Mono i j Hij). lia. }
  unfold example_main, sbind. fold far.
  pose (f0 := fun _ : public_key => Said (t 0%nat)). fold f0 in Sc0.
  destruct (aq_revoke C net (src 0%nat) (relay net) (initiator net) (relay net) (t 0%nat) (t 1%nat) st) as [r1 st1] eqn:E1.
  destruct (scene_revoke C L W net NF kp Sg c ks _ _ kA _ _ _ _ _ _ Sc0 IA HA E1) as [-> Sc1]; [apply Mono; lia|apply Bt; lia|apply Sb; exact IA|].
  pose (f1 := set_status f0 kA (Revoked (t 0%nat))). fold f1 in Sc1.
  assert (Sb1 : said_before (st1 (relay net)) (kp_public C kp) kB (t 2%nat)).
  { apply (Later _ kB 0%nat); [|lia]. pose proof (proj2 (proj2 Sc1) kB IB) as X. unfold f1 in X. rewrite set_other in X by congruence. exact X. }
  destruct (aq_revoke C net (src 1%nat) (relay net) (initiator net) nodeB (t 2%nat) (t 3%nat) st1) as [r2 st2] eqn:E2.
  destruct (scene_revoke C L W net NF kp Sg c ks _ _ kB _ _ _ _ _ _ Sc1 IB HB E2) as [-> Sc2]; [apply Mono; lia|apply Bt; lia|exact Sb1|].
  pose (f2 := set_status f1 kB (Revoked (t 2%nat))). fold f2 in Sc2.
  assert (Sb2 : said_before (st2 (relay net)) (kp_public C kp) kC (t 4%nat)).
  { apply (Later _ kC 0%nat); [|lia]. pose proof (proj2 (proj2 Sc2) kC IC) as X. unfold f2, f1 in X. rewrite !set_other in X by congruence. exact X. }
  destruct (aq_revoke C net (src 2%nat) (relay net) (initiator net) nodeC (t 4%nat) (t 5%nat) st2) as [r3 st3] eqn:E3.
  destruct (scene_revoke C L W net NF kp Sg c ks _ _ kC _ _ _ _ _ _ Sc2 IC HC E3) as [-> Sc3]; [apply Mono; lia|apply Bt; lia|exact Sb2|].
  pose (f3 := set_status f2 kC (Revoked (t 4%nat))). fold f3 in Sc3.
  assert (F3A : f3 kA = Revoked (t 0%nat)) by (unfold f3, f2, f1; rewrite !set_other by congruence; apply set_same).
  assert (F3B : f3 kB = Revoked (t 2%nat)) by (unfold f3, f2; rewrite !set_other by congruence; apply set_same).
  assert (F3C : f3 kC = Revoked (t 4%nat)) by (apply set_same).
  assert (SL3 := SL f3). specialize (SL3 ltac:(intros q [<-|[<-|[<-|[]]]]; rewrite ?F3A, ?F3B, ?F3C; exact I)).
  destruct (trusted_computation C net (src 3 0)%nat (relay net) (t 6%nat) st3) as [a1 st4] eqn:E4.
  destruct (scene_compute C L W net NF kp Sg c ks _ _ kA _ _ _ _ _ Sc3 IA HA E4) as [Sc4 X]; [apply Bt; lia|apply At; lia|apply SL3; lia|].
  rewrite F3A in X. subst a1.
  destruct (trusted_computation C net (src 4 0)%nat nodeB (t 7%nat) st4) as [a2 st5] eqn:E5.
  destruct (scene_compute C L W net NF kp Sg c ks _ _ kB _ _ _ _ _ Sc4 IB HB E5) as [Sc5 X]; [apply Bt; lia|apply At; lia|apply SL3; lia|].
  rewrite F3B in X. subst a2.
  destruct (trusted_computation C net (src 5 0)%nat nodeC (t 8%nat) st5) as [a3 st6] eqn:E6.
  destruct (scene_compute C L W net NF kp Sg c ks _ _ kC _ _ _ _ _ Sc5 IC HC E6) as [Sc6 X]; [apply Bt; lia|apply At; lia|apply SL3; lia|].
  rewrite F3C in X. subst a3.
  destruct (aq_add_trust C net (src 6%nat) (relay net) (initiator net) nodeB far (t 9%nat) (t 10%nat) st6) as [r7 st7] eqn:E7.
  destruct (scene_grant C L W net NF kp Sg c ks _ _ kB _ _ _ _ _ _ _ Sc6 IB HB E7) as [-> Sc7];
    [apply Mono; lia|apply Lt; lia|exact Bf|apply At; lia|apply SL3; lia| |].
  { apply (scene_said C L net kp c ks _ _ _ _ Sc6 IB). rewrite F3B. cbn [status_time]. pose proof (Mono 2%nat 5%nat). pose proof (Mono 6%nat 9%nat). lia. }
  pose (f7 := set_status f3 kB (Trusted (t 9%nat) far)). fold f7 in Sc7.
  assert (SL7 := SL f7). specialize (SL7 ltac:(intros q [<-|[<-|[<-|[]]]]; unfold f7; rewrite ?set_same, ?set_other by congruence; rewrite ?F3A, ?F3B, ?F3C; auto)).
  destruct (aq_add_trust C net (src 7%nat) (relay net) (initiator net) nodeC far (t 11%nat) (t 12%nat) st7) as [r8 st8] eqn:E8.
  destruct (scene_grant C L W net NF kp Sg c ks _ _ kC _ _ _ _ _ _ _ Sc7 IC HC E8) as [-> Sc8];
    [apply Mono; lia|apply Lt; lia|exact Bf|apply At; lia|apply SL7; lia| |].
  { apply (scene_said C L net kp c ks _ _ _ _ Sc7 IC). unfold f7. rewrite set_other by congruence. rewrite F3C. cbn [status_time].
    pose proof (Mono 4%nat 5%nat). pose proof (Mono 6%nat 11%nat). lia. }
  pose (f8 := set_status f7 kC (Trusted (t 11%nat) far)). fold f8 in Sc8.
  assert (F8A : f8 kA = Revoked (t 0%nat)) by (unfold f8, f7; rewrite !set_other by congruence; exact F3A).
  assert (F8B : f8 kB = Trusted (t 9%nat) far) by (unfold f8, f7; rewrite set_other by congruence; apply set_same).
  assert (F8C : f8 kC = Trusted (t 11%nat) far) by (apply set_same).
  assert (SL8 := SL f8). specialize (SL8 ltac:(intros q [<-|[<-|[<-|[]]]]; rewrite ?F8A, ?F8B, ?F8C; auto)).
  destruct (trusted_computation C net (src 8 0)%nat (relay net) (t 13%nat) st8) as [a4 st9] eqn:E9.
  destruct (scene_compute C L W net NF kp Sg c ks _ _ kA _ _ _ _ _ Sc8 IA HA E9) as [Sc9 X]; [apply Bt; lia|apply At; lia|apply SL8; lia|].
  rewrite F8A in X. subst a4.
  destruct (trusted_computation C net (src 9 0)%nat nodeB (t 14%nat) st9) as [a5 st10] eqn:E10.
  destruct (scene_compute C L W net NF kp Sg c ks _ _ kB _ _ _ _ _ Sc9 IB HB E10) as [Sc10 X]; [apply Bt; lia|apply At; lia|apply SL8; lia|].
  rewrite F8B in X. subst a5.
  destruct (trusted_computation C net (src 10 0)%nat nodeC (t 15%nat) st10) as [a6 st11] eqn:E11.
  destruct (scene_compute C L W net NF kp Sg c ks _ _ kC _ _ _ _ _ Sc10 IC HC E11) as [Sc11 X]; [apply Bt; lia|apply At; lia|apply SL8; lia|].
  rewrite F8C in X. subst a6.
  destruct (aq_revoke C net (src 11%nat) (relay net) (initiator net) nodeB (t 16%nat) (t 17%nat) st11) as [r12 st12] eqn:E12.
  destruct (scene_revoke C L W net NF kp Sg c ks _ _ kB _ _ _ _ _ _ Sc11 IB HB E12) as [-> Sc12]; [apply Mono; lia|apply Bt; lia| |].
  { apply (scene_said C L net kp c ks _ _ _ _ Sc11 IB). rewrite F8B. cbn [status_time]. pose proof (Mono 9%nat 15%nat). lia. }
  pose (f12 := set_status f8 kB (Revoked (t 16%nat))). fold f12 in Sc12.
  assert (F12A : f12 kA = Revoked (t 0%nat)) by (unfold f12; rewrite !set_other by congruence; exact F8A).
  assert (F12B : f12 kB = Revoked (t 16%nat)) by (apply set_same).
  assert (F12C : f12 kC = Trusted (t 11%nat) far) by (unfold f12; rewrite set_other by congruence; exact F8C).
  assert (SL12 := SL f12). specialize (SL12 ltac:(intros q [<-|[<-|[<-|[]]]]; rewrite ?F12A, ?F12B, ?F12C; auto)).
  destruct (trusted_computation C net (src 12 0)%nat (relay net) (t 18%nat) st12) as [a7 st13] eqn:E13.
  destruct (scene_compute C L W net NF kp Sg c ks _ _ kA _ _ _ _ _ Sc12 IA HA E13) as [Sc13 X]; [apply Bt; lia|apply At; lia|apply SL12; lia|].
  rewrite F12A in X. subst a7.
  destruct (trusted_computation C net (src 13 0)%nat nodeB (t 19%nat) st13) as [a8 st14] eqn:E14.
  destruct (scene_compute C L W net NF kp Sg c ks _ _ kB _ _ _ _ _ Sc13 IB HB E14) as [Sc14 X]; [apply Bt; lia|apply At; lia|apply SL12; lia|].
  rewrite F12B in X. subst a8.
  destruct (trusted_computation C net (src 14 0)%nat nodeC (t 20%nat) st14) as [a9 st15] eqn:E15.
  destruct (scene_compute C L W net NF kp Sg c ks _ _ kC _ _ _ _ _ Sc14 IC HC E15) as [Sc15 X]; [apply Bt; lia|apply At; lia|apply SL12; lia|].
  rewrite F12C in X. subst a9. reflexivity.
Qed.

(** * The admin tool *)
Lemma helper_step : forall C net s node kp p k e i st, crypto_laws C -> wasm32 C = true -> kp_valid C kp -> peer_key C p k ->
  exists x t st', issue_trust_helper C net s node kp p e i st = (Ok x, st') /\ unchanged st st' /\ trust_record C x t /\ trust_asked C (kp_public C kp) k e i t.
Proof.
  intros C net s node kp p k e i st L W V K. unfold issue_trust_helper, sbind.
  destruct (call_on C net node _ (S_get_trust_bytes p e i) st) as [r1 st1] eqn:E1.
  apply local_step in E1; [|reflexivity]. destruct E1 as (U1 & resp1 & -> & H1). cbn [plan] in H1.
  pose proof (proj2 (extract_ok C p k) K) as X. rewrite X in H1. cbn [bind] in H1.
  destruct H1 as [(a & H1 & ->)|(x1 & H1 & _)]; [|discriminate H1]. injection H1 as <-. unfold bytes_in. cbn [reply].
  assert (NR : kp_fmt kp <> Rsa) by (destruct V as [V _]; intros Y; rewrite Y in V; cbn in V; rewrite W in V; discriminate).
  destruct (kp_sign_total C kp (trust_signature_bytes C k (from_secs e) (from_secs i)) L NR) as (sg & Es).
  unfold pair_signs. rewrite Es.
  destruct (call_on C net node _ (S_issue_trust p e i (sig_raw sg)) st1) as [r2 st2] eqn:E2.
  apply local_step in E2; [|reflexivity]. destruct E2 as (U2 & resp2 & -> & H2). cbn [plan] in H2. rewrite X in H2. cbn [bind] in H2.
  destruct H2 as [(a & H2 & ->)|(x1 & H2 & _)]; [|discriminate H2]. injection H2 as <-. unfold trust_in, sret. cbn [reply].
  exists (dto_of_trust C (mk_trust k (from_secs e) (sig_from_bytes (pk_fmt k) (sig_raw sg)) (from_secs i))),
    (mk_trust k (from_secs e) (sig_from_bytes (pk_fmt k) (sig_raw sg)) (from_secs i)), st2.
  split; [reflexivity|]. split; [eapply unchanged_trans; eassumption|]. split; [apply made_record; try assumption; eapply peer_key_valid; eassumption|].
  repeat split. destruct (kp_sign_verify C kp _ sg L V Es) as [Y _]. revert Y.
  unfold signed_trust, trust_message. cbn [issued_for expires_at issued_at trust_sig]. unfold pk_verify, sig_from_bytes. cbn [sig_raw]. auto.
Qed.
Lemma pair_peer : forall C kp, crypto_laws C -> wasm32 C = true -> kp_valid C kp -> peer_key C (pair_peer_id C kp) (kp_public C kp).
Proof.
  intros C kp L W V. pose proof (kp_public_valid C kp L V) as P. apply peer_key_text; [exact L|exact P|apply wasm_no_rsa with (C := C); assumption].
Qed.
Lemma nodes_step : forall C net src node kp xr xi e i peers ks n st, crypto_laws C -> wasm32 C = true -> kp_valid C kp -> Forall2 (peer_key C) peers ks ->
  exists xs ts st', admin_nodes C net src n node kp xr xi e i peers st = (Ok (map (fun x => [xr; xi; x]) xs), st') /\ unchanged st st' /\
    Forall2 (trust_record C) xs ts /\ Forall2 (fun k t => trust_asked C (kp_public C kp) k e i t) ks ts.
Proof.
  intros C net src node kp xr xi e i peers ks n st L W V F. revert n st. induction F as [|p k peers ks Hk F IH]; intros n st.
  - exists [], [], st. split; [reflexivity|]. split; [apply unchanged_refl|]. split; constructor.
  - cbn [admin_nodes]. unfold sbind. destruct (helper_step C net (src n) node kp p k e i st L W V Hk) as (x & t & st1 & E1 & U1 & R1 & A1). rewrite E1.
    destruct (IH (S n) st1) as (xs & ts & st2 & E2 & U2 & R2 & A2). rewrite E2. exists (x :: xs), (t :: ts), st2.
    split; [reflexivity|]. split; [eapply unchanged_trans; eassumption|]. split; constructor; assumption.
Qed.

(** ** C111 *)
(** The tool always ends, changes no store and writes records of the right certificates: every trust signed by the key
    above it, with the time of the clock and an expiry two years (730 days) later. *)
Lemma p_C111_admin_writes : forall C net src node root issuer example peers ks cur st, crypto_laws C -> wasm32 C = true ->
  admin_input C root issuer example peers ks ->
  exists cs certs st', admin_main C net src node root issuer example peers cur st = (Ok cs, st') /\ unchanged st st' /\
    Forall2 (certificate_record C) cs certs /\ admin_output C root issuer example ks (cur + 63072000) cur certs.
Proof.
  intros C net src node root issuer example peers ks cur st L W [(V1 & V2 & V3) P _]. unfold admin_main, sbind.
  change (60 * 60 * 24 * 365 * 2) with 63072000. set (e := cur + 63072000).
  destruct (helper_step C net (src 0%nat) node root _ _ e cur st L W V1 (pair_peer C root L W V1)) as (xr & tr & st1 & E1 & U1 & R1 & A1). rewrite E1.
  destruct (helper_step C net (src 1%nat) node root _ _ e cur st1 L W V1 (pair_peer C issuer L W V2)) as (xi & ti & st2 & E2 & U2 & R2 & A2). rewrite E2.
  destruct (helper_step C net (src 2%nat) node root _ _ e cur st2 L W V1 (pair_peer C example L W V3)) as (xe & te & st3 & E3 & U3 & R3 & A3). rewrite E3.
  destruct (nodes_step C net src node issuer xr xi e cur peers ks 3 st3 L W V2 P) as (xs & ts & st4 & E4 & U4 & R4 & A4). rewrite E4.
  eexists _, ([tr; te] :: map (fun t => [tr; ti; t]) ts), st4. split; [reflexivity|].
  split; [exact (unchanged_trans _ _ _ U1 (unchanged_trans _ _ _ U2 (unchanged_trans _ _ _ U3 U4)))|]. split.
  - apply Forall2_cons; [apply Forall2_cons; [exact R1|apply Forall2_cons; [exact R3|apply Forall2_nil]]|]. clear E4 A4.
    induction R4 as [|x t xs ts Hx R4 IH]; [apply Forall2_nil|]. cbn [map]. apply Forall2_cons; [|exact IH].
    apply Forall2_cons; [exact R1|apply Forall2_cons; [exact R2|apply Forall2_cons; [exact Hx|apply Forall2_nil]]].
  - exists tr, ti, te, ts. auto.
Qed.

Lemma input_of : forall C boots certs, Forall2 (certificate_record C) (map (fun x => fst (fst x)) boots) certs -> (forall i now fu, In (i, now, fu) boots -> fu = None) ->
  exists l, boot_input C boots l /\ map fst l = certs /\ forall c n, In (c, n) l -> exists i now fu, In (i, now, fu) boots /\ n = from_secs now.
Proof.
  intros C boots. induction boots as [|[[i now] fu] boots IH]; intros certs F H; inversion F as [|x c xs cs Hc F']; subst.
  - exists []. split; [constructor|]. split; [reflexivity|]. intros c n [].
  - destruct (IH cs F') as (l & B & E & T); [intros i' now' fu' Hi; apply (H i' now' fu'); right; exact Hi|].
    exists ((c, from_secs now) :: l). split; [constructor; [|exact B]|].
    + cbn [fst snd]. split; [exact Hc|]. split; [reflexivity|]. apply (H i now fu). left. reflexivity.
    + split; [cbn; rewrite E; reflexivity|]. intros c' n [X|X].
      * injection X as <- <-. exists i, now, fu. split; [left; reflexivity|reflexivity].
      * destruct (T c' n X) as (i' & now' & fu' & Hi & En). exists i', now', fu'. split; [right; exact Hi|exact En].
Qed.
Lemma asked_keys : forall C s e i ks ts, Forall2 (fun k t => trust_asked C s k e i t) ks ts -> map issued_for ts = ks.
Proof. intros C s e i ks ts F. induction F as [|k t ks' ts' Hk F IH]; [reflexivity|]. cbn [map]. rewrite IH. destruct Hk as [-> _]. reflexivity. Qed.
Lemma asked_node : forall C s e i ks ts, Forall2 (fun k t => trust_asked C s k e i t) ks ts ->
  forall t, In t ts -> trust_asked C s (issued_for t) e i t /\ In (issued_for t) ks.
Proof.
  intros C s e i ks ts F. induction F as [|k t ks' ts' Hk F IH]; intros u Hu; [destruct Hu|]. destruct Hu as [<-|Hu].
  - destruct Hk as (E1 & E2). split; [|left; symmetry; exact E1]. rewrite E1. split; [exact E1|exact E2].
  - destruct (IH u Hu) as [H1 H2]. split; [exact H1|right; exact H2].
Qed.
Section Admin.
Variable C : crypto.
Variables root issuer example : keypair.
Variable ks : list public_key.
Variables e i : N.
Variables tr ti te : trust.
Variable ts : list trust.
Notation r := (kp_public C root).
Notation s := (kp_public C issuer).
Notation x := (kp_public C example).
Hypothesis ND : NoDup (r :: s :: x :: ks).
Hypothesis Ar : trust_asked C r r e i tr.
Hypothesis Ai : trust_asked C r s e i ti.
Hypothesis Ae : trust_asked C r x e i te.
Hypothesis As : Forall2 (fun k t => trust_asked C s k e i t) ks ts.
Notation certs := ([tr; te] :: map (fun t => [tr; ti; t]) ts).
Lemma out_keys : map issued_for ts = ks.
Proof. exact (asked_keys C s e i ks ts As). Qed.
Lemma out_all : map issued_for (tr :: ti :: te :: ts) = r :: s :: x :: ks.
Proof. cbn [map]. rewrite out_keys. destruct Ar as [-> _], Ai as [-> _], Ae as [-> _]. reflexivity. Qed.
Lemma out_node : forall t, In t ts -> trust_asked C s (issued_for t) e i t /\ In (issued_for t) ks.
Proof. exact (asked_node C s e i ks ts As). Qed.
Lemma out_cert : forall c, In c certs -> c = [tr; te] \/ exists t, In t ts /\ c = [tr; ti; t].
Proof. intros c [<-|H]; [left; reflexivity|right]. apply in_map_iff in H. destruct H as (t & <- & H). exists t. auto. Qed.
Lemma out_trust : forall c t, In c certs -> In t c -> In t (tr :: ti :: te :: ts).
Proof.
  intros c t Hc Ht. destruct (out_cert c Hc) as [->|(u & Hu & ->)]; cbn in Ht |- *; [destruct Ht as [<-|[<-|[]]]|destruct Ht as [<-|[<-|[<-|[]]]]]; auto.
Qed.
Lemma out_times : forall t, In t (tr :: ti :: te :: ts) -> expires_at t = from_secs e /\ issued_at t = from_secs i.
Proof.
  intros t [<-|[<-|[<-|Ht]]]; [destruct Ar as (_ & ? & ? & _)|destruct Ai as (_ & ? & ? & _)|destruct Ae as (_ & ? & ? & _)|]; auto.
  destruct (out_node t Ht) as [(_ & ? & ? & _) _]. auto.
Qed.
Lemma out_inj : forall t t', In t (tr :: ti :: te :: ts) -> In t' (tr :: ti :: te :: ts) -> issued_for t = issued_for t' -> t = t'.
Proof. intros t t' H H' E. apply (nodup_map_inj issued_for (tr :: ti :: te :: ts)); try assumption. rewrite out_all. exact ND. Qed.
(** What the certificates say. *)
Lemma out_says : forall c t b, In c certs -> in_chain c t b ->
  (t = tr /\ b = r) \/ (t = te /\ b = r) \/ (t = ti /\ b = r) \/ (In t ts /\ b = s).
Proof.
  intros c t b Hc (j & Ht & u & Hu & <-). destruct Ar as [Er _], Ai as [Ei _].
  destruct (out_cert c Hc) as [->|(w & Hw & ->)]; unfold at_pos in *.
  - destruct j as [|[|j]]; [| |destruct j; discriminate Ht]; cbn in Ht, Hu; injection Ht as <-; injection Hu as <-; auto.
  - destruct j as [|[|[|j]]]; [| | |destruct j; discriminate Ht]; cbn in Ht, Hu; injection Ht as <-; injection Hu as <-; auto 6.
Qed.
Lemma out_nodup : forall c, In c certs -> NoDup (map issued_for c).
Proof.
  intros c Hc. destruct Ar as [Er _], Ai as [Ei _], Ae as [Ee _]. inversion ND as [|? ? N1 M1]; subst. inversion M1 as [|? ? N2 M2]; subst.
  destruct (out_cert c Hc) as [->|(w & Hw & ->)]; cbn [map]; rewrite ?Er, ?Ei, ?Ee.
  - constructor; [|constructor; [intros []|constructor]]. intros [X|[]]. apply N1. right. left. exact X.
  - destruct (out_node w Hw) as [_ Kw]. constructor.
    + intros [X|[X|[]]]; apply N1; [left; exact X|right; right; rewrite <- X; exact Kw].
    + constructor; [|constructor; [intros []|constructor]]. intros [X|[]]. apply N2. right. rewrite <- X. exact Kw.
Qed.
Lemma out_family : forall l, map fst l = certs -> (forall c n, In (c, n) l -> secs n < e) -> e < i64_bound -> (forall c n, In (c, n) l -> exists now, n = from_secs now) ->
  good_family C empty_db r 5 l.
Proof.
  intros l El Lt Be Wh. assert (Hc : forall c n, In (c, n) l -> In c certs) by (intros c n H; rewrite <- El; exact (in_map fst l (c, n) H)).
  destruct Ar as (Er & _ & _ & Sr), Ai as (Ei & _ & _ & Si), Ae as (Ee & _ & _ & Se). split.
  - intros c n H. pose proof (out_nodup c (Hc c n H)) as D. destruct (out_cert c (Hc c n H)) as [->|(w & Hw & ->)]; cbn [length]; (split; [lia|]; split; [lia|]; split; [|exact D]);
      exists tr; (split; [reflexivity|exact Er]).
  - intros c n j H Hj. assert (Ex : forall t, In t c -> ~ before (expires_at t) n).
    { intros t Ht. destruct (out_times t (out_trust c t (Hc c n H) Ht)) as [-> _]. specialize (Lt c n H). intros [X|[X _]]; cbn [from_secs secs] in X; lia. }
    destruct (out_cert c (Hc c n H)) as [->|(w & Hw & ->)]; cbn [length] in Hj.
    + destruct j as [|[|j]]; [| |lia].
      * exists tr, r. split; [reflexivity|]. split; [exists tr; split; [reflexivity|exact Er]|]. split; [exact Sr|apply Ex; left; reflexivity].
      * exists te, r. split; [reflexivity|]. split; [exists tr; split; [reflexivity|exact Er]|]. split; [exact Se|apply Ex; right; left; reflexivity].
    + destruct (out_node w Hw) as [(_ & _ & _ & Sw) _]. destruct j as [|[|[|j]]]; [| | |lia].
      * exists tr, r. split; [reflexivity|]. split; [exists tr; split; [reflexivity|exact Er]|]. split; [exact Sr|apply Ex; left; reflexivity].
      * exists ti, r. split; [reflexivity|]. split; [exists tr; split; [reflexivity|exact Er]|]. split; [exact Si|apply Ex; right; left; reflexivity].
      * exists w, s. split; [reflexivity|]. split; [exists ti; split; [reflexivity|exact Ei]|]. split; [exact Sw|apply Ex; right; right; left; reflexivity].
  - intros c n c' n' t H H' Ht. destruct (out_times t (out_trust c t (Hc c n H) Ht)) as [-> _]. cbn [from_secs secs]. split; [apply (Lt c'); exact H'|exact Be].
  - intros c n c' n' t t' b H H' (j & Ht & _) (j' & Ht' & _) E. apply out_inj; [apply (out_trust c)|apply (out_trust c')|exact E];
      first [eapply Hc; eassumption|eapply nth_error_In; eassumption].
  - intros c n t b z _ _ Hz. destruct z as [a|v]; cbn in Hz; [destruct Hz as (_ & _ & [])|destruct Hz as (_ & [])].
  - intros c n v _ [_ []].
Qed.
End Admin.

Lemma literal_from : forall C kp k, crypto_laws C -> kp_valid C kp -> kp_public C kp = k -> pk_fmt k = Ed25519 -> ed_point C (pk_raw k) = true.
Proof.
  intros C kp k L V E F. pose proof (kp_public_valid C kp L V) as [_ P]. rewrite E, F in P. apply andb_prop in P. apply P.
Qed.
Lemma out_typed : forall C rs certs bound, bound <= u64_bound -> Forall2 (certificate_record C) rs certs -> (forall c t, In c certs -> In t c -> secs (expires_at t) < bound /\ secs (issued_at t) < bound) ->
  Forall (fun r => Forall dto_trust_typed r) rs.
Proof.
  intros C rs certs bound Le F H. induction F as [|r c rs certs Hr F IH]; [constructor|]. constructor; [|apply IH; intros c' t Hc Ht; apply (H c' t); [right; exact Hc|exact Ht]].
  assert (Hc : forall t, In t c -> secs (expires_at t) < bound /\ secs (issued_at t) < bound) by (intros t; apply H; left; reflexivity). clear -Hr Hc Le.
  unfold certificate_record in Hr. induction Hr as [|x t r c Hx Hr IH]; [constructor|]. constructor; [|apply IH; intros u Hu; apply Hc; right; exact Hu].
  destruct (Hc t (or_introl eq_refl)) as [A B]. destruct Hx as (_ & E1 & E2 & _). rewrite E1 in A. rewrite E2 in B. cbn [from_secs secs] in A, B. split; lia.
Qed.
(** A new node that is started with the tool's output. *)
Lemma admin_good : forall C root issuer example ks e i cs certs boots, crypto_laws C -> wasm32 C = true ->
  NoDup (kp_public C root :: kp_public C issuer :: kp_public C example :: ks) -> kp_valid C root -> kp_valid C issuer ->
  kp_public C root = root_key -> kp_public C issuer = label_key -> Forall2 (certificate_record C) cs certs ->
  admin_output C root issuer example ks e i certs -> i <= e -> e < i64_bound -> started_with cs e boots ->
  literal_keys C /\ exists l, good_boot C empty_db boots l /\ map fst l = certs.
Proof.
  intros C root issuer example ks e i cs certs boots L W ND V1 V2 Er Ei Rc (tr & ti & te & ts & A1 & A2 & A3 & A4 & ->) Le Be [Eb Hb].
  split; [split; [exact (literal_from C root root_key L V1 Er eq_refl)|exact (literal_from C issuer label_key L V2 Ei eq_refl)]|].
  rewrite <- Eb in Rc. destruct (input_of C boots _ Rc) as (l & I & El & T); [intros i' now fu Hi; apply (Hb _ _ _ Hi)|].
  exists l. split; [|exact El]. split; [exists []; split; [constructor|reflexivity]|]. split; [|split; [exact I|split]].
  - apply Forall_forall. intros [[x now] fu] Hi. destruct (Hb x now fu Hi) as [Lt _]. cbn [fst snd]. split; [|unfold i64_bound, u64_bound in *; lia].
    assert (Q := out_typed C _ _ i64_bound ltac:(unfold i64_bound, u64_bound; lia) Rc). rewrite Forall_forall in Q.
    apply Q; [|apply in_map_iff; exists (x, now, fu); auto]. intros c t Hc Ht.
    destruct (out_times C root issuer example ks e i tr ti te ts A1 A2 A3 A4 t (out_trust tr ti te ts c t Hc Ht)) as [-> ->]. cbn [from_secs secs]. lia.
  - rewrite <- Er. apply (out_family C root issuer example ks e i tr ti te ts ND A1 A2 A3 A4 l El); [|exact Be|].
    + intros c n Hc. destruct (T c n Hc) as (x & now & fu & Hi & ->). cbn [from_secs secs]. apply (Hb x now fu Hi).
    + intros c n Hc. destruct (T c n Hc) as (x & now & fu & Hi & ->). exists now. reflexivity.
  - intros n (f & E & _). discriminate E.
Qed.
(** A new node that is started with the tool's output comes up without an error, and until the expiry exactly the nodes
    the tool was given are labelled. *)
Lemma p_C111_admin_labels : forall C net net' src me anode node data root issuer example peers ks cur st0 cs st1 boots x st r st' k now, crypto_laws C -> wasm32 C = true ->
  admin_input C root issuer example peers ks -> kp_public C root = root_key -> kp_public C issuer = label_key ->
  admin_main C net src anode root issuer example peers cur st0 = (Ok cs, st1) -> cur + 63072000 < i64_bound -> started_with cs (cur + 63072000) boots ->
  boot C me me node data None boots empty_db = (x, st node) -> network_state C st -> (forall c, fault net' node c = None) -> peer_key C node k ->
  now < cur + 63072000 -> is_fluence_peer C net' node now st = (r, st') ->
  x = Ok [R_true] /\ exists b, r = Ok ([b], []) /\ (b = true <-> In k ks).
Proof.
  intros C net net' src me anode node data root issuer example peers ks cur st0 cs st1 boots x st r st' k now L W A Er Ei Ea Be Sw Eb N Nf Pk Bn Ef.
  destruct (p_C111_admin_writes C net src anode root issuer example peers ks cur st0 L W A) as (cs' & certs & st1' & Ea' & _ & Rc & Out).
  rewrite Ea in Ea'. injection Ea' as <- <-. destruct A as [(V1 & V2 & V3) _ ND].
  destruct (admin_good C root issuer example ks _ cur cs certs boots L W ND V1 V2 Er Ei Rc Out ltac:(lia) Be Sw) as (K & l & G & El).
  destruct (p_C106_good_start C me node data boots empty_db l x (st node) L W K G Eb) as [Ex _]. split; [exact Ex|].
  destruct Out as (tr & ti & te & ts & A1 & A2 & A3 & A4 & Ec). subst certs.
  assert (Hc : forall c n, In (c, n) l -> In c ([tr; te] :: map (fun t => [tr; ti; t]) ts)) by (intros c n H; rewrite <- El; exact (in_map fst l (c, n) H)).
  assert (Ne : l <> []) by (intros ->; discriminate El).
  destruct (p_C107_only_labelled C net' me node data boots empty_db l x st r st' k now L W K G eq_refl Ne Eb N Nf Pk) as (b & -> & Hb);
    [unfold i64_bound, u64_bound in *; lia| |exact Ef|].
  { intros c n t H Ht. destruct (out_times C root issuer example ks _ _ tr ti te ts A1 A2 A3 A4 t (out_trust tr ti te ts c t (Hc c n H) Ht)) as [-> _]. exact Bn. }
  exists b. split; [reflexivity|]. rewrite Hb. clear Hb. rewrite <- Er, <- Ei. pose proof A1 as [I1 _]. pose proof A2 as [I2 _]. pose proof A3 as [I3 _].
  inversion ND as [|? ? N1 M1]; subst. inversion M1 as [|? ? N2 M2]; subst.
  split.
  - intros (_ & _ & (c & n & t & H & Hi & <-)).
    destruct (out_says C root issuer _ _ tr ti te ts A1 A2 c t _ (Hc c n H) Hi) as [[_ X]|[[_ X]|[[_ X]|[Ht _]]]];
      [elim N1; left; exact X|elim N1; left; exact X|elim N1; left; exact X|]. apply (asked_node C _ _ _ ks ts A4 t Ht).
  - intros Hk. rewrite <- (asked_keys _ _ _ _ _ _ A4) in Hk. apply in_map_iff in Hk. destruct Hk as (t & Et & Ht).
    assert (X : In [tr; ti; t] (map fst l)) by (rewrite El; right; apply in_map_iff; exists t; auto). apply in_map_iff in X. destruct X as ([c n] & Ec & Hl). cbn in Ec. subst c.
    split; [|split].
    + intros ->. apply N1. right. right. rewrite <- Et. apply (asked_node C _ _ _ ks ts A4 t Ht).
    + exists [tr; ti; t], n, ti. split; [exact Hl|]. split; [|exact I2]. exists 1%nat. split; [reflexivity|]. exists tr. split; [reflexivity|exact I1].
    + exists [tr; ti; t], n, t. split; [exact Hl|]. split; [|exact Et]. exists 2%nat. split; [reflexivity|]. exists ti. split; [reflexivity|exact I2].
Qed.
(** And the client of the example can grant and revoke on it: the example prints what it should print. *)
Lemma p_C111_admin_example : forall C net net' src src' me anode data root issuer example peers ks cur st0 cs st1 boots x st t nodeB nodeC kA kB kC,
  crypto_laws C -> wasm32 C = true ->
  admin_input C root issuer example peers ks -> kp_public C root = root_key -> kp_public C issuer = label_key ->
  admin_main C net src anode root issuer example peers cur st0 = (Ok cs, st1) -> cur + 63072000 < i64_bound -> started_with cs (cur + 63072000) boots ->
  boot C me me (relay net') data None boots empty_db = (x, st (relay net')) -> network_state C st -> no_faults net' -> signer C net' (initiator net') example ->
  peer_key C (relay net') kA -> peer_key C nodeB kB -> peer_key C nodeC kC -> NoDup [root_key; kp_public C example; kA; kB; kC] ->
  example_clock t (t 0%nat) -> t 20%nat < cur + 63072000 ->
  fst (example_main C net' src' t nodeB nodeC (t 0%nat) st) = Ok [refused; refused; refused; refused; ran; ran; refused; refused; ran].
Proof.
  intros C net net' src src' me anode data root issuer example peers ks cur st0 cs st1 boots x st t nodeB nodeC kA kB kC L W A Er Ei Ea Be Sw Eb N Nf Sg PA PB PC ND3 Clk Bt.
  destruct (p_C111_admin_writes C net src anode root issuer example peers ks cur st0 L W A) as (cs' & certs & st1' & Ea' & _ & Rc & Out).
  rewrite Ea in Ea'. injection Ea' as <- <-. destruct A as [(V1 & V2 & V3) _ ND].
  destruct (admin_good C root issuer example ks _ cur cs certs boots L W ND V1 V2 Er Ei Rc Out ltac:(lia) Be Sw) as (K & l & G & El).
  destruct (p_C106_good_start C me _ data boots empty_db l x (st (relay net')) L W K G Eb) as (_ & Rm & Rr & St & Src).
  destruct Out as (tr & ti & te & ts & A1 & A2 & A3 & A4 & Ec). subst certs.
  assert (Hc : forall c n, In (c, n) l -> In c ([tr; te] :: map (fun t => [tr; ti; t]) ts)) by (intros c n H; rewrite <- El; exact (in_map fst l (c, n) H)).
  assert (X : In [tr; te] (map fst l)) by (rewrite El; left; reflexivity). apply in_map_iff in X. destruct X as ([c n] & Ec & Hl). cbn in Ec. subst c.
  pose proof A1 as (I1 & T1 & _). pose proof A3 as (I3 & T3 & _). inversion ND as [|? ? N1 M1]; subst. inversion M1 as [|? ? N2 M2]; subst. inversion M2 as [|? ? N3 M3]; subst.
  assert (Src' : forall z, stored (st (relay net')) z -> exists c n t b, In (c, n) l /\ in_chain c t b /\ z = whole (RAuth (mk_auth t b))).
  { intros z Hz. destruct (Src z Hz) as [Y|Y]; [|exact Y]. exfalso. destruct z as [a|v]; cbn in Y; [destruct Y as (_ & _ & [])|destruct Y as (_ & [])]. }
  assert (St1 : stored_trust (st (relay net')) (kp_public C root) (whole_trust tr)).
  { apply (St [tr; te] n tr _ Hl). exists 0%nat. split; [reflexivity|]. exists tr. split; [reflexivity|exact I1]. }
  assert (St3 : stored_trust (st (relay net')) (kp_public C root) (whole_trust te)).
  { apply (St [tr; te] n te _ Hl). exists 1%nat. split; [reflexivity|]. exists tr. split; [reflexivity|exact I1]. }
  assert (Nr : forall v, ~ stored_revocation (st (relay net')) v).
  { intros v Hv. destruct (Src' (RRev v) Hv) as (c & m & u & b & _ & _ & Y). discriminate Y. }
  assert (D : ~ In (kp_public C root) [kp_public C example; kA; kB; kC] /\ NoDup [kp_public C example; kA; kB; kC]) by (rewrite Er; inversion ND3; auto).
  destruct D as [D1 D2]. inversion D2 as [|? ? D3 D4]; subst.
  eapply (p_C110_example_output C net' src' t nodeB nodeC (t 0%nat) example kA kB kC [whole_trust tr; whole_trust te]); try eassumption.
  - split.
    + split; [cbn; lia|]. split; [exists (whole_trust te); split; [reflexivity|exact I3]|]. split; [|split].
      * intros u Hu. injection Hu as <-. cbn [whole_trust issued_for]. rewrite I1. split; [apply Rr; right; exact Er|exact St1].
      * intros [|[|j]] g u Hg Hu; [|discriminate Hu|destruct j; discriminate Hu]. injection Hg as <-. injection Hu as <-. cbn [whole_trust issued_for]. rewrite I1. exact St3.
      * intros a b k Lt (u & Hu & Eu) (w & Hw & Ew). destruct b as [|[|b]]; [lia| |destruct b; discriminate Hw]. destruct a as [|a]; [|lia]. exfalso.
        injection Hu as <-. injection Hw as <-. cbn [whole_trust issued_for] in Eu, Ew. apply D1. left. congruence.
    + exists (kp_public C root), 5. split; [exists (whole_trust tr); split; [reflexivity|exact I1]|]. split; [rewrite Er; exact Rm|cbn; lia].
    + intros k Hk [Z|[Z|[]]]; cbn [whole_trust issued_for] in Z; [apply D1; right; rewrite <- I1, Z; exact Hk|apply D3; rewrite <- I3, Z; exact Hk].
    + intros v Hv. elim (Nr v Hv).
    + intros v Hv. elim (Nr v Hv).
  - intros u [<-|[<-|[]]]; cbn [whole_trust expires_at from_secs secs]; [rewrite T1|rewrite T3]; cbn [from_secs secs]; lia.
  - intros k Hk z Hz Hb Hf. exfalso. destruct (Src' z Hz) as (c & m & u & b & Hm & Hi & ->). cbn in Hb. 
    destruct (out_says C root issuer _ _ tr ti te ts A1 A2 c u b (Hc c m Hm) Hi) as [[_ Y]|[[_ Y]|[[_ Y]|[_ Y]]]].
    + apply N1. right. left. congruence.
    + apply N1. right. left. congruence.
    + apply N1. right. left. congruence.
    + apply N2. left. congruence.
Qed.

(** ** C112 *)
Lemma no_trust_no_chain : forall d b k, ~ is_root d b -> (forall a t, stored_trust d a t -> issued_for t <> b) -> ~ trusted_by d b k.
Proof.
  intros d b k Nr Nt (c & (_ & _ & R0 & Rs & _) & _ & n & (t & Ht & Et)). destruct n as [|n].
  - apply Nr. destruct (R0 t Ht) as [X _]. rewrite <- Et. exact X.
  - destruct (nth_error c n) as [g|] eqn:G; [|apply nth_error_None in G; assert (nth_error c (S n) = None) by (apply nth_error_None; lia); unfold at_pos in Ht; congruence].
    exact (Nt _ t (Rs n g t G Ht) Et).
Qed.
(** The part that holds: if the one who revokes a client is the only one who trusts it and the client is not a root, then
    the client's computations are refused on every node from then on. *)
Lemma p_C112_only_issuer_partial : forall C net net' src kp client b i now now' o node k st r st1, crypto_laws C -> wasm32 C = true -> network_state C st ->
  no_faults net -> no_faults net' -> relay net' = relay net -> signer C net (initiator net) kp ->
  peer_key C client b -> initiator net' = client -> peer_key C node k -> ~ is_root (st (relay net)) b ->
  (forall a t, stored_trust (st (relay net)) a t -> issued_for t = b -> a = kp_public C kp) -> said_before (st (relay net)) (kp_public C kp) b i ->
  i <= now -> now < u64_bound -> now' < u64_bound -> aq_revoke C net src (relay net) (initiator net) client i now st = (r, st1) ->
  r = Ok [] /\ fst (trusted_computation C net' o node now' st1) = Ok refused.
Proof.
  intros C net net' src kp client b i now now' o node k st r st1 L W N NF NF' Rl Sg Hb Ci Hk Nr Only Sb Le Bn Bn' E.
  assert (Bi : i < u64_bound) by lia.
  destruct (do_revoke C net src kp client b i now st r st1 L W N Bi Bn NF Sg Hb Le E) as (-> & N1 & v & (V1 & V2 & V3 & V4) & Im).
  split; [reflexivity|]. destruct (trusted_computation C net' o node now' st1) as [r2 st2] eqn:E2. rewrite <- Ci in Hb.
  destruct (do_compute C net' o node k b now' st1 r2 st2 L W N1 Bn' NF' Hk Hb E2) as (_ & [Cr Cs] & [[_ X]|[-> _]]); [|reflexivity]. exfalso. revert X.
  rewrite Rl in *. destruct Im as [Ir Is]. apply no_trust_no_chain.
  - unfold is_root. rewrite Cr, Ir. exact Nr.
  - intros a t St Et. apply (Cs (RAuth (mk_auth t a))) in St. destruct St as [St _]. apply Is in St. destruct St as [[Nk St]|[[Kk [St Nb]]|[Z _]]].
    + apply Nk. pose proof (Only a t St Et) as ->. split; cbn; [rewrite V2; reflexivity|rewrite V1; symmetry; exact Et] || (split; cbn; congruence).
    + apply Nb. cbn. rewrite V3. left. apply (Sb (RAuth (mk_auth t a)) St); [exact (Only a t St Et)|exact Et].
    + discriminate Z.
Qed.
