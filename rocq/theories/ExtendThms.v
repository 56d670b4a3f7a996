(** Proofs about certificates one trust longer: C209. *)
From Coq Require Import List NArith ZArith Bool Lia.
From Verif Require Import Base BaseFacts Text Keys KeysFacts Trust TrustFacts Certificate CertFacts Relation Storage Graph Spec SpecFacts GraphFacts StateFacts Toy ToyFacts Witness GraphThms ImportFacts InfluenceSpec InfluenceThms PartsThms.
Import ListNotations.
Open Scope N_scope.

Lemma snoc_at : forall (c : certificate) t i x, at_pos (c ++ [t]) i x <-> at_pos c i x \/ (i = length c /\ x = t).
Proof.
  intros c t i x. unfold at_pos. destruct (Nat.lt_ge_cases i (length c)) as [L|L].
  - rewrite nth_error_app1 by exact L. split; [auto|]. intros [H|[-> _]]; [exact H|lia].
  - rewrite nth_error_app2 by exact L. assert (N0 : nth_error c i = None) by (apply nth_error_None; exact L). rewrite N0. split.
    + intros H. right. destruct (i - length c)%nat as [|m] eqn:Em; [|destruct m; discriminate H]. injection H as <-. split; [lia|reflexivity].
    + intros [H|[-> ->]]; [discriminate H|]. rewrite Nat.sub_diag. reflexivity.
Qed.
Lemma snoc_key : forall (c : certificate) t i k, key_at (c ++ [t]) i k <-> key_at c i k \/ (i = length c /\ k = issued_for t).
Proof.
  intros c t i k. unfold key_at. split.
  - intros (x & H & E). apply snoc_at in H. destruct H as [H|[-> ->]]; [left; exists x; auto|right; auto].
  - intros [(x & H & E)|[-> ->]]; [exists x|exists t]; (split; [apply snoc_at|]); auto.
Qed.
Lemma key_lt : forall (c : certificate) i k, key_at c i k -> (i < length c)%nat.
Proof. intros c i k (t & H & _). apply nth_error_Some. unfold at_pos in H. rewrite H. discriminate. Qed.
(** No key of the chain has revoked its direct issuer, or [k]; [k] does not occur. *)
Lemma extend_counts : forall d now b c t, counting d now b c -> live d now b t -> issued_for t <> b ->
  (counting d now (issued_for t) (c ++ [t]) <->
   (forall i, ~ key_at c i (issued_for t)) /\ (forall i, ~ revokes_at d c i (length c - 2)) /\ (forall v i, stored_revocation d v -> rev_pk v = issued_for t -> ~ key_at c i (revoked_by v))).
Proof.
  intros d now b c t [(H1 & H2 & H3 & H4 & H5) Rv] Lt Nb. split.
  - intros [(_ & _ & _ & _ & G5) Gr]. split; [|split].
    + intros i K. pose proof (key_lt c i _ K) as Li. destruct (G5 i (length c) (issued_for t) Li) as [E _]; [apply snoc_key; auto|apply snoc_key; auto|].
      replace i with (length c - 1)%nat in K by lia. apply Nb. apply (key_unique c _ _ _ K H2).
    + intros i (Li & v & Sv & K1 & K2). assert (X : direct_issuer_pos (c ++ [t]) (length c - 2)); [|unfold direct_issuer_pos in X; rewrite app_length in X; cbn in X; lia].
      apply (Gr i). split; [exact Li|]. exists v. split; [exact Sv|]. split; apply snoc_key; auto.
    + intros v i Sv Ev K. assert (X : direct_issuer_pos (c ++ [t]) (length c)); [|unfold direct_issuer_pos in X; rewrite app_length in X; cbn in X; lia].
      apply (Gr i). split; [exact (key_lt c i _ K)|]. exists v. split; [exact Sv|]. split; apply snoc_key; auto.
  - intros (N1 & N2 & N3). split.
    + split; [rewrite app_length; lia|]. split; [rewrite app_length; apply snoc_key; right; cbn [length]; split; [lia|reflexivity]|]. split; [|split].
      * intros u Hu. apply snoc_at in Hu. destruct Hu as [Hu|[Hu _]]; [apply H3; exact Hu|lia].
      * intros i g u Hg Hu. apply snoc_at in Hg. apply snoc_at in Hu. destruct Hg as [Hg|[Hg ->]].
        -- destruct Hu as [Hu|[Hu ->]]; [exact (H4 i g u Hg Hu)|]. assert (K : key_at c (length c - 1) (issued_for g)) by (exists g; split; [replace (length c - 1)%nat with i by lia; exact Hg|reflexivity]).
           rewrite (key_unique c _ _ _ K H2). exact Lt.
        -- exfalso. destruct Hu as [Hu|[Hu _]]; [|lia]. assert (nth_error c (S i) = None) by (apply nth_error_None; lia). unfold at_pos in Hu. congruence.
      * intros i j k Lij Ki Kj. apply snoc_key in Ki. apply snoc_key in Kj. destruct Ki as [Ki|[-> _]].
        -- destruct Kj as [Kj|[_ ->]]; [exact (H5 i j k Lij Ki Kj)|]. exfalso. exact (N1 i Ki).
        -- exfalso. destruct Kj as [Kj|[-> _]]; [apply key_lt in Kj; lia|lia].
    + intros i j (Lij & v & Sv & Ki & Kj). exfalso. apply snoc_key in Ki. apply snoc_key in Kj. destruct Ki as [Ki|[-> _]].
      * destruct Kj as [Kj|[_ Ev]]; [|exact (N3 v i Sv Ev Ki)]. assert (X : revokes_at d c i j) by (split; [exact Lij|]; exists v; auto).
        pose proof (Rv i j X) as Y. unfold direct_issuer_pos in Y. apply (N2 i). replace (length c - 2)%nat with j by lia. exact X.
      * destruct Kj as [Kj|[-> _]]; [apply key_lt in Kj; lia|lia].
Qed.
(** Below a root nothing is in the way. *)
Lemma root_extend_counts : forall C d now b u t, reachable C d -> is_root d b -> live d now b u -> issued_for u = b -> live d now b t -> issued_for t <> b ->
  counting d now (issued_for t) [u; t].
Proof.
  intros C d now b u t R Rb Lu Eu Lt Nb. split.
  - split; [apply le_n|]. split; [exists t; split; reflexivity|]. split; [|split].
    + intros x Hx. injection Hx as <-. rewrite Eu. split; assumption.
    + intros i g x Hg Hx. destruct i as [|[|i]]; cbn in Hg, Hx; try discriminate Hx. injection Hg as <-. injection Hx as <-. rewrite Eu. exact Lt.
    + intros i j k Lij (x & Hx & Ex) (y & Hy & Ey). exfalso. destruct i as [|[|i]], j as [|[|j]]; try lia; try (destruct j; discriminate Hy).
      unfold at_pos in Hx, Hy. injection Hx as <-. injection Hy as <-. congruence.
  - intros i j (Lij & v & Sv & (x & Hx & Ex) & (y & Hy & Ey)). exfalso. destruct i as [|[|i]], j as [|[|j]]; try lia; try (destruct j; discriminate Hy).
    unfold at_pos in Hx, Hy. injection Hx as <-. injection Hy as <-.
    assert (X : RRev v = RAuth (mk_auth t b)); [|discriminate X]. apply (p_C30_one_relation_per_pair C d (RRev v) (RAuth (mk_auth t b)) R Sv (proj1 Lt)). split; cbn; congruence.
Qed.
Lemma half_next : forall m a, chain_weight m a / 2 <= chain_weight m (S a).
Proof.
  intros m a. unfold chain_weight. destruct (N.eq_dec (m - N.of_nat a) 0) as [E|E].
  - rewrite E. replace (2 ^ 0 / 2) with 0 by reflexivity. apply N.le_0_l.
  - replace (m - N.of_nat a) with (N.succ (m - N.of_nat (S a))) by lia. rewrite N.pow_succ_r by apply N.le_0_l. rewrite N.mul_comm, N.div_mul by discriminate. apply N.le_refl.
Qed.
Lemma half_earlier : forall m a i, (i <= a)%nat -> chain_weight m a / 2 <= chain_weight m i.
Proof.
  intros m a i L. apply N.le_trans with (chain_weight m a); [apply N.div_le_upper_bound; lia|]. unfold chain_weight. apply N.pow_le_mono_r; lia.
Qed.
(** ** C209 *)
(** A certificate of a key and a trust it gives another key make a certificate of the other exactly if the other is not in it and no key in it
    has revoked the other or the direct issuer of the first. *)
Lemma p_C209_extends : forall C d b now fu cs d1 c t fu' cs' d2, reachable C d -> call_typed C (G_get_all_certs b now) -> call_typed C (G_get_all_certs (issued_for t) now) ->
  graph_step C d (G_get_all_certs b now, fu) = (Ok (GR_certs cs), d1) -> In c cs -> live d now b t -> issued_for t <> b ->
  graph_step C d (G_get_all_certs (issued_for t) now, fu') = (Ok (GR_certs cs'), d2) ->
  (In (c ++ [t]) cs' <->
   (forall i, ~ key_at c i (issued_for t)) /\ (forall i, ~ revokes_at d c i (length c - 2)) /\ (forall v i, stored_revocation d v -> rev_pk v = issued_for t -> ~ key_at c i (revoked_by v))).
Proof.
  intros C d b now fu cs d1 c t fu' cs' d2 R T T' E Hc Lt Nb E'. apply (certs_are C d b now fu cs d1 R T E) in Hc.
  rewrite (certs_are C d _ now fu' cs' d2 R T' E'). exact (extend_counts d now b c t Hc Lt Nb).
Qed.
(** The trust of a root for itself and one it gives another key always make a certificate. *)
Lemma p_C209_below_root : forall C d b now u t fu' cs' d2, reachable C d -> call_typed C (G_get_all_certs (issued_for t) now) ->
  is_root d b -> live d now b u -> issued_for u = b -> live d now b t -> issued_for t <> b ->
  graph_step C d (G_get_all_certs (issued_for t) now, fu') = (Ok (GR_certs cs'), d2) -> In [u; t] cs'.
Proof.
  intros C d b now u t fu' cs' d2 R T' Rb Lu Eu Lt Nb E'. rewrite (certs_are C d _ now fu' cs' d2 R T' E'). exact (root_extend_counts C d now b u t R Rb Lu Eu Lt Nb).
Qed.

(** What the store is after a trust was taken on. *)
Lemma taken_on : forall C d t b now w d', reachable C d -> small d -> call_typed C (G_add_trust t b now) ->
  graph_step C d (G_add_trust t b now, None) = (Ok (GR_weight w), d') -> w <> 0 -> secs now < secs (expires_at t) < i64_bound ->
  (forall z, stored d z -> same_keys (RAuth (mk_auth t b)) z -> before (rel_issued_at z) (issued_at t)) ->
  reachable C d' /\ tbl_roots d' = tbl_roots d /\ live d' now b (whole_trust t) /\
  (forall a x, live d now a x -> ~ (a = b /\ issued_for x = issued_for t) -> live d' now a x) /\
  (forall v, stored_revocation d' v -> stored_revocation d v /\ ~ (revoked_by v = b /\ rev_pk v = issued_for t)) /\
  exists wb d1, graph_step C d (G_weight b now, None) = (Ok (GR_weight wb), d1) /\ (b = issued_for t /\ w = wb \/ b <> issued_for t /\ w = wb / 2).
Proof.
  intros C d t b now w d' R Sm Tt Ea Nw Ex New.
  assert (R2 : reachable C d') by (pose proof (reachable_step C d (G_add_trust t b now) None R Tt) as X; rewrite Ea in X; exact X).
  pose proof Tt as (_ & Tb & Tn). assert (Twb : call_typed C (G_weight b now)) by (split; assumption).
  destruct (p_C38_add_trust_exact C d t b now R Tt) as [Hn Hs].
  destruct (trust_verify_total C t b now) as [V|(e & V)]; [|rewrite (Hn e V) in Ea; discriminate Ea].
  destruct (Hs V) as (wb & d1 & w2 & d2 & Eb & Ea' & Wd & _ & Nz). rewrite Ea in Ea'. injection Ea' as <- <-.
  destruct (certs_answer C d b now R Twb) as (cs & dc & Ec).
  destruct (p_C35_weight_is_best_chain C d b now None None cs wb dc d1 R Twb Sm Ec Eb) as (-> & _).
  destruct (p_C24_certificates_exact C d b now None cs d1 R Twb Ec) as [[Ro1 Col] _].
  destruct (Nz Nw) as [Ro2 Im].
  split; [exact R2|]. split; [congruence|].
  assert (Lw : live d' now b (whole_trust t)).
  { split.
    - apply (Im (RAuth (mk_auth (whole_trust t) b))). right. right. split; [reflexivity|]. intros z Hz. apply New. apply Col. exact Hz.
    - intros X. apply db_expired_small in X; cbn in *; lia. }
  split; [exact Lw|]. split; [|split].
  - intros a x [X Y] N. split; [|exact Y]. apply (Im (RAuth (mk_auth x a))). left. split; [|apply Col; split; assumption]. intros [K1 K2]. apply N. cbn in K1, K2. split; congruence.
  - intros v Hv. pose proof Hv as Hv0. apply (Im (RRev v)) in Hv. split.
    + destruct Hv as [[_ Hv]|[[_ [Hv _]]|[Hv _]]]; [apply (Col (RRev v)) in Hv; apply Hv|apply (Col (RRev v)) in Hv; apply Hv|discriminate Hv].
    + intros [E1 E2]. assert (X : RRev v = RAuth (mk_auth (whole_trust t) b)); [|discriminate X]. apply (p_C30_one_relation_per_pair C d' (RRev v) (RAuth (mk_auth (whole_trust t) b)) R2 Hv0 (proj1 Lw)). split; cbn; congruence.
  - exists wb, d1. split; [exact Eb|exact Wd].
Qed.

Lemma counts_after : forall C d t b now w d' c, reachable C d -> small d -> call_typed C (G_add_trust t b now) ->
  graph_step C d (G_add_trust t b now, None) = (Ok (GR_weight w), d') -> w <> 0 -> secs now < secs (expires_at t) < i64_bound ->
  (forall z, stored d z -> same_keys (RAuth (mk_auth t b)) z -> before (rel_issued_at z) (issued_at t)) ->
  counting d now b c -> issued_for t <> b -> (forall i, ~ key_at c i (issued_for t)) -> (forall i, ~ revokes_at d c i (length c - 2)) ->
  (forall v i, stored_revocation d v -> rev_pk v = issued_for t -> revoked_by v <> b -> ~ key_at c i (revoked_by v)) ->
  counting d' now (issued_for t) (c ++ [whole_trust t]).
Proof.
  intros C d t b now w d' c R Sm Tt Ea Nw Ex New [(H1 & H2 & H3 & H4 & H5) Rv] Nb N1 N2 N3.
  destruct (taken_on C d t b now w d' R Sm Tt Ea Nw Ex New) as (R2 & Ro & Lw & Lv & Vs & _).
  change (issued_for t) with (issued_for (whole_trust t)). apply extend_counts with (b := b); [|exact Lw|exact Nb|].
  - split.
    + split; [exact H1|]. split; [exact H2|]. split; [|split; [|exact H5]].
      * intros u Hu. destruct (H3 u Hu) as [X Y]. split; [unfold is_root in *; rewrite Ro; exact X|]. apply Lv; [exact Y|]. intros [_ K]. apply (N1 0%nat). exists u. auto.
      * intros i g u Hg Hu. apply Lv; [exact (H4 i g u Hg Hu)|]. intros [_ K]. apply (N1 (S i)). exists u. auto.
    + intros i j (Lij & v & Sv & K). apply (Rv i j). split; [exact Lij|]. exists v. split; [exact (proj1 (Vs v Sv))|exact K].
  - split; [exact N1|]. split.
    + intros i (Li & v & Sv & K). apply (N2 i). split; [exact Li|]. exists v. split; [exact (proj1 (Vs v Sv))|exact K].
    + intros v i Sv Ev K. destruct (Vs v Sv) as [Sd Ne]. apply (N3 v i Sd Ev); [|exact K]. intros X. exact (Ne (conj X Ev)).
Qed.
(** So once a trust was taken on, every certificate of its issuer in which that is the case, but for what the issuer said itself before, gives one of the trusted key. *)
Lemma p_C209_added : forall C d t b now w d' fu cs d1 c fu' cs' d2, reachable C d -> small d -> call_typed C (G_add_trust t b now) ->
  graph_step C d (G_add_trust t b now, None) = (Ok (GR_weight w), d') -> w <> 0 -> secs now < secs (expires_at t) < i64_bound ->
  (forall z, stored d z -> same_keys (RAuth (mk_auth t b)) z -> before (rel_issued_at z) (issued_at t)) ->
  graph_step C d (G_get_all_certs b now, fu) = (Ok (GR_certs cs), d1) -> In c cs -> issued_for t <> b ->
  (forall i, ~ key_at c i (issued_for t)) -> (forall i, ~ revokes_at d c i (length c - 2)) ->
  (forall v i, stored_revocation d v -> rev_pk v = issued_for t -> revoked_by v <> b -> ~ key_at c i (revoked_by v)) ->
  graph_step C d' (G_get_all_certs (issued_for t) now, fu') = (Ok (GR_certs cs'), d2) -> In (c ++ [whole_trust t]) cs'.
Proof.
  intros C d t b now w d' fu cs d1 c fu' cs' d2 R Sm Tt Ea Nw Ex New E Hc Nb N1 N2 N3 E'.
  pose proof Tt as (Tk & Tb & Tn). apply (certs_are C d b now fu cs d1 R (conj Tb Tn) E) in Hc.
  assert (R2 : reachable C d') by (pose proof (reachable_step C d (G_add_trust t b now) None R Tt) as X; rewrite Ea in X; exact X).
  apply (certs_are C d' _ now fu' cs' d2 R2 (conj (proj1 Tk) Tn) E'). exact (counts_after C d t b now w d' c R Sm Tt Ea Nw Ex New Hc Nb N1 N2 N3).
Qed.
(** The weight that [add_trust] told is then real, if it comes from such a certificate or if the issuer is a root with a trust for itself; it does not matter
    whether the trusted key was in the certificate already. *)
Lemma p_C209_told_weight_is_real : forall C d t b now w d' w' d'' wb d0, reachable C d -> small d -> small d' -> call_typed C (G_add_trust t b now) ->
  graph_step C d (G_add_trust t b now, None) = (Ok (GR_weight w), d') -> secs now < secs (expires_at t) < i64_bound ->
  (forall z, stored d z -> same_keys (RAuth (mk_auth t b)) z -> before (rel_issued_at z) (issued_at t)) ->
  graph_step C d (G_weight b now, None) = (Ok (GR_weight wb), d0) ->
  (exists u m, issued_for u = b /\ live d now b u /\ root_max_len d b m /\ wb = 2 ^ m) \/
  (exists cs d1 c, graph_step C d (G_get_all_certs b now, None) = (Ok (GR_certs cs), d1) /\ In c cs /\ cert_weight d c wb /\ (forall i, ~ revokes_at d c i (length c - 2)) /\
     (forall v i, stored_revocation d v -> rev_pk v = issued_for t -> revoked_by v <> b -> ~ key_at c i (revoked_by v))) ->
  graph_step C d' (G_weight (issued_for t) now, None) = (Ok (GR_weight w'), d'') -> w <= w'.
Proof.
  intros C d t b now w d' w' d'' wb d0 R Sm Sm' Tt Ea Ex New Eb Src E'. destruct (N.eq_dec w 0) as [->|Nw]; [apply N.le_0_l|].
  pose proof Tt as (Tk & Tb & Tn). assert (Twk : call_typed C (G_weight (issued_for t) now)) by (split; [exact (proj1 Tk)|exact Tn]).
  destruct (taken_on C d t b now w d' R Sm Tt Ea Nw Ex New) as (R2 & Ro & Lw & Lv & Vs & wb' & d1 & Eb' & Wd). rewrite Eb in Eb'. injection Eb' as <- <-.
  destruct Wd as [[Ek ->]|[Nb ->]].
  { rewrite <- Ek in E'. exact (p_C152_trust_raises C d t b now wb d' b None None wb w' d0 d'' R Tt Sm Sm' (conj Tb Tn) Ex Ea Eb E'). }
  assert (Nb' : issued_for t <> b) by (intros X; apply Nb; symmetry; exact X).
  assert (Rm : forall k m, root_max_len d k m -> root_max_len d' k m) by (intros k m; apply (len_same d d' Ro)).
  destruct (weight_is C d' _ now None w' d'' R2 Twk Sm' E') as [G _]. destruct Src as [(u & m & Eu & Lu & Hm & ->)|(cs & dc & c & Ec & Hc & (t0 & m & H0 & Hm & ->) & N2 & N3)].
  - apply N.le_trans with (chain_weight m 1); [pose proof (half_next m 0) as Hh; unfold chain_weight at 1 in Hh; rewrite N.sub_0_r in Hh; exact Hh|]. apply G. right. exists [u; whole_trust t]. split.
    + change (issued_for t) with (issued_for (whole_trust t)). apply (root_extend_counts C d' now b); try assumption.
      * apply root_max_len_root with m. apply Rm. exact Hm.
      * apply Lv; [exact Lu|]. rewrite Eu. intros [_ X]. exact (Nb X).
    + exists u, m. split; [reflexivity|]. split; [rewrite Eu; apply Rm; exact Hm|reflexivity].
  - apply (certs_are C d b now None cs dc R (conj Tb Tn) Ec) in Hc. pose proof Hc as [(H1 & H2 & _) _].
    destruct (in_dec pk_eq_dec (issued_for t) (map issued_for c)) as [Hk|Hk].
    + apply in_map_iff in Hk. destruct Hk as (x & Ek & Hx). apply In_nth_error in Hx. destruct Hx as (i & Hi).
      assert (K : key_at c i (issued_for t)) by (exists x; auto). pose proof (key_lt c i _ K) as Li.
      assert (Li2 : (i + 2 <= length c)%nat).
      { destruct (Nat.eq_dec i (length c - 1)) as [->|Ne]; [|lia]. exfalso. apply Nb'. exact (key_unique c _ _ _ K H2). }
      destruct (weight_answer C d _ now R Twk) as (wk & dk & Ewk).
      apply N.le_trans with wk; [|exact (p_C152_trust_raises C d t b now _ d' _ None None wk w' dk d'' R Tt Sm Sm' Twk Ex Ea Ewk E')].
      apply N.le_trans with (chain_weight m i); [apply half_earlier; lia|].
      destruct (weight_is C d _ now None wk dk R Twk Sm Ewk) as [Gk _]. apply Gk. destruct i as [|i].
      * left. exists m. unfold at_pos in H0. rewrite Hi in H0. injection H0 as <-. rewrite <- Ek. split; [exact Hm|]. unfold chain_weight. rewrite N.sub_0_r. reflexivity.
      * right. exists (firstn (S (S i)) c). assert (K' : key_at c (S (S i) - 1) (issued_for t)) by (replace (S (S i) - 1)%nat with (S i) by lia; exact K). split.
        -- apply (part_counts d now b c (S (S i)) _ Hc); [lia|exact K'|]. intros El j Rj. apply (N2 j). replace (length c - 2)%nat with (S (S i) - 1)%nat by lia. exact Rj.
        -- exists t0, m. split; [apply first_at; split; [lia|exact H0]|]. split; [exact Hm|]. rewrite firstn_length_le by lia. f_equal; lia.
    + apply N.le_trans with (chain_weight m (S (length c - 1))); [apply half_next|]. apply G. right. exists (c ++ [whole_trust t]). split.
      * apply (counts_after C d t b now _ d' c R Sm Tt Ea Nw Ex New Hc Nb'); [|exact N2|exact N3]. intros i (x & Hx & Ek). apply Hk. apply in_map_iff. exists x. split; [exact Ek|]. apply nth_error_In with i. exact Hx.
      * exists t0, m. split; [apply snoc_at; left; exact H0|]. split; [apply Rm; exact Hm|]. rewrite app_length. cbn [length]. f_equal; lia.
Qed.
Lemma after_then : forall s cs c r, Forall (call_typed W) s -> Forall (call_typed W) cs -> call_typed W c -> fst (sem W (after (s ++ cs)) c) = r ->
  answer_after W (db_of (after s)) cs c = r.
Proof.
  intros s cs c r Ts T Tc E. unfold answer_after.
  assert (X : graph_history W (db_of (after s)) (no_failures cs) = db_of (after (s ++ cs))).
  { unfold after at 2, run_calls. rewrite fold_left_app. exact (run_calls_history W cs (after s) (after_inv _ Ts) T). }
  rewrite X. apply after_answer; [|exact Tc|exact E]. apply Forall_app. split; [exact Ts|exact T].
Qed.
(** R -> A -> B, and B has revoked D. *)
Definition regret : list graph_call := base ++
  [G_add_trust (toy_trust R A 900 1) (toy_key R) (at_ 5); G_add_trust (toy_trust A B 800 1) (toy_key A) (at_ 5); G_revoke (toy_rev B D 20)].
Definition regret_cert : certificate := [toy_trust R R 1000 1; toy_trust R A 900 1; toy_trust A B 800 1].
Lemma regret_typed : Forall (call_typed W) regret.
Proof. unfold regret, base. cbn [app]. typed1. Qed.
Lemma regret_rels : rels (after regret) = [RAuth (mk_auth (toy_trust R R 1000 1) (toy_key R)); RAuth (mk_auth (toy_trust R A 900 1) (toy_key R));
  RAuth (mk_auth (toy_trust A B 800 1) (toy_key A)); RRev (toy_rev B D 20)].
Proof. vm_compute. reflexivity. Qed.
Lemma regret_revs : forall v, stored_revocation (db_of (after regret)) v -> v = toy_rev B D 20.
Proof.
  intros v H0. pose proof (proj1 (after_stored regret (RRev v) regret_typed) H0) as H. clear H0. rewrite regret_rels in H. destruct H as [H|[H|[H|[H|[]]]]]; try discriminate H. injection H as <-. reflexivity.
Qed.
(** B trusts D after all: the certificate of B and the new trust are a certificate of D. *)
Example e_C209_added : reachable W (db_of (after regret)) /\ small (db_of (after regret)) /\ call_typed W (G_add_trust (toy_trust B D 700 50) (toy_key B) (at_ 60)) /\
  fst (graph_step W (db_of (after regret)) (G_get_all_certs (toy_key B) (at_ 60), None)) = Ok (GR_certs [regret_cert]) /\
  fst (graph_step W (db_of (after regret)) (G_add_trust (toy_trust B D 700 50) (toy_key B) (at_ 60), None)) = Ok (GR_weight 4) /\
  (forall z, stored (db_of (after regret)) z -> same_keys (RAuth (mk_auth (toy_trust B D 700 50) (toy_key B))) z -> before (rel_issued_at z) (at_ 50)) /\
  (forall i, ~ key_at regret_cert i (toy_key D)) /\ (forall i, ~ revokes_at (db_of (after regret)) regret_cert i (length regret_cert - 2)) /\
  (forall v i, stored_revocation (db_of (after regret)) v -> rev_pk v = toy_key D -> revoked_by v <> toy_key B -> ~ key_at regret_cert i (revoked_by v)) /\
  answer_after W (db_of (after regret)) [G_add_trust (toy_trust B D 700 50) (toy_key B) (at_ 60)] (G_get_all_certs (toy_key D) (at_ 60)) = Ok (GR_certs [regret_cert ++ [toy_trust B D 700 50]]) /\
  answer_after W (db_of (after regret)) [G_add_trust (toy_trust B D 700 50) (toy_key B) (at_ 60)] (G_weight (toy_key D) (at_ 60)) = Ok (GR_weight 4).
Proof.
  split; [apply after_reachable; exact regret_typed|]. split; [vm_compute; reflexivity|]. split; [typed1|]. split; [apply after_answer; [exact regret_typed|typed1|vm_compute; reflexivity]|]. split; [apply after_answer; [exact regret_typed|typed1|vm_compute; reflexivity]|].
  split.
  { intros z H [K1 K2]. apply (after_stored regret) in H; [|exact regret_typed]. rewrite regret_rels in H. destruct H as [<-|[<-|[<-|[<-|[]]]]]; try (revert K1; vm_compute; discriminate). left. reflexivity. }
  split. { intros [|[|[|[|i]]]] (x & Hx & Ex); try discriminate Hx; injection Hx as <-; revert Ex; vm_compute; discriminate. }
  split. { intros i (_ & v & Sv & _ & K). apply regret_revs in Sv. subst v. destruct K as (x & Hx & Ex). injection Hx as <-. revert Ex. vm_compute. discriminate. }
  split. { intros v i Sv _ Nb. apply regret_revs in Sv. subst v. contradiction Nb. reflexivity. }
  split; (apply after_then; [exact regret_typed|typed1|typed1|vm_compute; reflexivity]).
Qed.
(** The condition on the direct issuer is needed: the root has revoked B, who trusts D. D weighs 4 and gives another key a trust; [add_trust] tells the weight 2, but the key weighs nothing. *)
Example e_C209_issuer_revoked : reachable W (db_of (after long)) /\ call_typed W (G_add_trust (toy_trust D 9 700 10) (toy_key D) (at_ 20)) /\
  fst (graph_step W (db_of (after long)) (G_add_trust (toy_trust D 9 700 10) (toy_key D) (at_ 20), None)) = Ok (GR_weight 2) /\
  answer_after W (db_of (after long)) [G_add_trust (toy_trust D 9 700 10) (toy_key D) (at_ 20)] (G_weight (toy_key 9) (at_ 20)) = Ok (GR_weight 0).
Proof. split; [apply after_reachable; exact long_typed|]. split; [typed1|]. split; [apply after_answer; [exact long_typed|typed1|vm_compute; reflexivity]|apply after_then; [exact long_typed|typed1|typed1|vm_compute; reflexivity]]. Qed.
