(** Proofs about chains of trusts that are renewed in time. *)
From Coq Require Import List NArith ZArith Bool Lia ZifyBool ZifyNat ZifyN Permutation.
From Verif Require Import Base BaseFacts Text TextFacts Keys KeysFacts Trust TrustFacts Certificate CertFacts Relation
  Storage StorageFacts Graph SearchFacts PathFacts Spec SpecFacts GraphFacts StateFacts ChainFacts AddFacts ImportFacts HistFacts
  Toy ToyFacts Witness GraphThms ReadmeSpec ReadmeThms InfluenceSpec InfluenceThms MachineSpec RenewSpec.
From Verif Require GossipThms ClockThms CopyThms MoreTrustThms.
Import ListNotations.
Open Scope N_scope.

Lemma build_chain : forall d now l g, (forall i a b, nth_error (g :: l) i = Some a -> nth_error (g :: l) (S i) = Some b -> exists t, live d now a t /\ issued_for t = b) ->
  exists c, map issued_for c = l /\ (forall t, at_pos c 0 t -> live d now g t) /\ (forall i h t, at_pos c i h -> at_pos c (S i) t -> live d now (issued_for h) t).
Proof.
  intros d now l. induction l as [|b l IH]; intros g H.
  - exists []. split; [reflexivity|]. split; [intros t X; discriminate X|]. intros [|i] h t X; discriminate X.
  - destruct (H 0%nat g b eq_refl eq_refl) as (t & L & E). destruct (IH b) as (c & Ec & H0 & Hs); [intros i a k Ha Hk; exact (H (S i) a k Ha Hk)|].
    exists (t :: c). split; [cbn [map]; rewrite E, Ec; reflexivity|]. split; [intros u X; injection X as <-; exact L|].
    intros [|i] h u X Y; [injection X as <-; rewrite E; exact (H0 u Y)|exact (Hs i h u X Y)].
Qed.
Lemma nth_firstn_lt : forall (A : Type) (l : list A) n i, (i < n)%nat -> nth_error (firstn n l) i = nth_error l i.
Proof. intros A l. induction l as [|x l IH]; intros [|n] [|i] H; try reflexivity; try lia. cbn. apply IH. lia. Qed.
Lemma key_at_map : forall c i k, key_at c i k <-> nth_error (map issued_for c) i = Some k.
Proof.
  intros c i k. unfold key_at, at_pos. rewrite nth_error_map. destruct (nth_error c i) as [t|]; cbn [option_map]; split.
  - intros (u & Hu & <-). injection Hu as ->. reflexivity.
  - intros E. injection E as <-. exists t. auto.
  - intros (u & Hu & _). discriminate Hu.
  - discriminate.
Qed.

Section Stands.
Variable C : crypto.
Variables (ks : list public_key) (k : public_key) (m : N).
Hypotheses (First : nth_error ks 0 = Some k) (Distinct : NoDup ks) (Long : N.of_nat (length ks) <= m + 1).
(** The whole chain stands at [now]. *)
Definition stands (d : db) (now : duration) : Prop :=
  root_max_len d k m /\ (forall v, stored_revocation d v -> ~ (In (revoked_by v) ks /\ In (rev_pk v) ks)) /\
  forall a b, on_chain ks a b -> exists t, live d now a t /\ issued_for t = b.

Lemma stands_counting : forall d now n pk, stands d now -> (1 <= n)%nat -> nth_error ks n = Some pk -> exists c, map issued_for c = firstn (S n) ks /\ counting d now pk c.
Proof.
  intros d now n pk (Hr & Hv & Hl) Hn Hk. destruct ks as [|k0 l] eqn:Eks; [discriminate First|]. injection First as ->.
  destruct (Hl k k) as (t0 & L0 & E0); [left; split; reflexivity|].
  destruct (build_chain d now (firstn n l) k) as (c & Ec & H0 & Hs).
  { intros i a b Ha Hb. apply Hl. right. exists i. assert (Hi : (S i < length (k :: firstn n l))%nat) by (apply nth_error_Some; congruence).
    cbn [length] in Hi. rewrite firstn_length in Hi. change (k :: firstn n l) with (firstn (S n) (k :: l)) in Ha, Hb.
    rewrite nth_firstn_lt in Ha, Hb by lia. split; assumption. }
  assert (Em : map issued_for (t0 :: c) = firstn (S n) (k :: l)) by (cbn [map firstn]; rewrite E0, Ec; reflexivity).
  assert (Hlen : (S n <= length (k :: l))%nat) by (assert (n < length (k :: l))%nat by (apply nth_error_Some; congruence); lia).
  assert (Hc : length (t0 :: c) = S n) by (rewrite <- (map_length issued_for (t0 :: c)), Em, firstn_length; lia).
  assert (Ka : forall i x, key_at (t0 :: c) i x -> (i < S n)%nat /\ nth_error (k :: l) i = Some x).
  { intros i x Hx. apply key_at_map in Hx. rewrite Em in Hx. assert (Hi : (i < length (firstn (S n) (k :: l)))%nat) by (apply nth_error_Some; congruence). rewrite firstn_length in Hi.
    split; [lia|]. rewrite nth_firstn_lt in Hx by lia. exact Hx. }
  exists (t0 :: c). split; [exact Em|]. split; [split; [rewrite Hc; lia|]; split; [|split; [|split]]|].
  - apply key_at_map. rewrite Em, Hc. replace (S n - 1)%nat with n by lia. rewrite nth_firstn_lt by lia. exact Hk.
  - intros t X. injection X as <-. rewrite E0. split; [exact (root_max_len_root d k m Hr)|exact L0].
  - intros [|i] h t X Y; [injection X as <-; rewrite E0; exact (H0 t Y)|exact (Hs i h t X Y)].
  - intros i j x Hij Hi Hj. destruct (Ka i x Hi) as [Li Ni], (Ka j x Hj) as [Lj Nj]. exfalso.
    assert (i = j); [|lia]. apply (proj1 (NoDup_nth_error (k :: l)) Distinct); [lia|congruence].
  - intros i j (_ & v & Sv & Kb & Kp). exfalso. apply (Hv v Sv). destruct (Ka i _ Kb) as [_ X], (Ka j _ Kp) as [_ Y]. split; eapply nth_error_In; eassumption.
Qed.
Lemma stands_weight : forall d now n pk fu w d', reachable C d -> small d -> call_typed C (G_weight pk now) -> stands d now -> nth_error ks n = Some pk ->
  graph_step C d (G_weight pk now, fu) = (Ok (GR_weight w), d') -> 2 ^ (m - N.of_nat n) <= w.
Proof.
  intros d now n pk fu w d' R Sm T St Hk E. destruct (weight_is C d pk now fu w d' R T Sm E) as [G _]. apply G. destruct n as [|n].
  - left. exists m. rewrite First in Hk. injection Hk as <-. split; [apply St|]. f_equal. lia.
  - right. destruct (stands_counting d now (S n) pk St) as (c & Ec & Hc); [lia|exact Hk|]. exists c. split; [exact Hc|].
    assert (Hl : length c = S (S n)) by (rewrite <- (map_length issued_for c), Ec, firstn_length; assert (S n < length ks)%nat by (apply nth_error_Some; congruence); lia).
    destruct c as [|t c]; [discriminate Hl|]. exists t, m. split; [reflexivity|]. split; [|unfold chain_weight; rewrite Hl; f_equal; lia].
    destruct ks as [|k0 l]; [discriminate First|]. injection First as ->. injection Ec as -> _. apply St.
Qed.
Lemma stands_next : forall d now a b w d', reachable C d -> small d -> call_typed C (G_weight a now) -> stands d now -> on_chain ks a b ->
  graph_step C d (G_weight a now, None) = (Ok (GR_weight w), d') -> (if pk_eqb a b then w else w / 2) <> 0.
Proof.
  intros d now a b w d' R Sm T St L E. destruct L as [[L ->]|(i & Li & Ls)].
  - rewrite (proj2 (pk_eqb_eq a a) eq_refl). pose proof (stands_weight d now 0 a None w d' R Sm T St L E) as X. assert (2 ^ (m - N.of_nat 0) <> 0) by (apply N.pow_nonzero; lia). lia.
  - pose proof (stands_weight d now i a None w d' R Sm T St Li E) as X. assert (Hi : (S i < length ks)%nat) by (apply nth_error_Some; congruence).
    assert (Y : 2 ^ 1 <= 2 ^ (m - N.of_nat i)) by (apply N.pow_le_mono_r; lia). change (2 ^ 1) with 2 in Y.
    assert (Z : 2 / 2 <= w / 2) by (apply N.div_le_mono; lia). change (2 / 2) with 1 in Z. destruct (pk_eqb a b); lia.
Qed.
End Stands.

Section Renew.
Variable C : crypto.
Variables (d0 : db) (es0 : list (graph_call * option nat)).
Variables (ks : list public_key) (k : public_key) (m : N).
Hypotheses (First : nth_error ks 0 = Some k) (Distinct : NoDup ks) (Long : N.of_nat (length ks) <= m + 1).
Hypothesis Last : renewals_last C d0 es0 ks.
Hypothesis None_revoked : no_revocation_among C d0 es0 ks.

Record keeps (pre : list (graph_call * option nat)) (d : db) : Prop := mk_keeps {
  k_root : root_max_len d k m;
  k_revs : forall v, stored_revocation d v -> ~ (In (revoked_by v) ks /\ In (rev_pk v) ks);
  k_play : forall a t, on_chain ks a (issued_for t) -> stored_trust d a t -> exists t0, ever_offered C d0 es0 a t0 /\ t = whole_trust t0;
  k_best : forall a t, on_chain ks a (issued_for t) -> given C d0 pre a t -> exists t', stored_trust d a t' /\ issued_for t' = issued_for t /\
     secs (issued_at t) <= secs (issued_at t') /\ secs (expires_at t) <= secs (expires_at t') }.

Lemma on_chain_in : forall a b, on_chain ks a b -> In a ks /\ In b ks.
Proof. intros a b [[H ->]|(i & H1 & H2)]; split; eapply nth_error_In; eassumption. Qed.
Lemma play_short : forall pre d a t, keeps pre d -> on_chain ks a (issued_for t) -> stored_trust d a t -> secs (expires_at t) < i64_bound.
Proof. intros pre d a t H L St. destruct (k_play pre d H a t L St) as (t0 & K & ->). exact (proj1 (Last a t0 L K)). Qed.
Lemma play_longer : forall pre d a t t1, keeps pre d -> on_chain ks a (issued_for t) -> stored_trust d a t -> ever_offered C d0 es0 a t1 -> issued_for t1 = issued_for t ->
  (secs (issued_at t) <= secs (issued_at t1) -> secs (expires_at t) <= secs (expires_at t1)) /\
  (secs (issued_at t1) <= secs (issued_at t) -> secs (expires_at t1) <= secs (expires_at t)).
Proof.
  intros pre d a t t1 H L St K1 E. destruct (k_play pre d H a t L St) as (t0 & K & ->). change (issued_for (whole_trust t0)) with (issued_for t0) in *. split.
  - exact (proj2 (Last a t0 L K) t1 K1 E).
  - intros Le. rewrite <- E in L. exact (proj2 (Last a t1 L K1) t0 K (eq_sym E) Le).
Qed.
Lemma unexpired : forall now a t, secs (expires_at t) < i64_bound -> secs now < secs (expires_at t) -> ~ db_expired now (RAuth (mk_auth t a)).
Proof.
  intros now a t S L. cbn [db_expired auth_trust]. rewrite (ClockThms.i64_small (secs (expires_at t))), (ClockThms.i64_small (secs now)) by lia. lia.
Qed.
Lemma keeps_stands : forall pre d now, keeps pre d -> covered C d0 pre ks now -> stands ks k m d now.
Proof.
  intros pre d now H Cv. split; [apply H|]. split; [apply H|]. intros a b L. destruct (Cv a b L) as (t & G & <- & X).
  destruct (k_best pre d H a t L G) as (t' & St & E & _ & Le). exists t'. split; [|exact E]. split; [exact St|].
  apply unexpired; [|lia]. apply (play_short pre d a t' H); [rewrite E; exact L|exact St].
Qed.
Lemma keeps_collected : forall pre d now e, keeps pre d -> MoreTrustThms.single d -> covered C d0 pre ks now -> collected d now e -> keeps pre e.
Proof.
  intros pre d now e H Si Cv [Ro Col]. constructor.
  - unfold root_max_len. rewrite Ro. apply H.
  - intros v Hv. apply (k_revs pre d H). apply (Col (RRev v)). exact Hv.
  - intros a t L St. apply (k_play pre d H a t L). apply (Col (RAuth (mk_auth t a))). exact St.
  - intros a t L G. destruct (k_best pre d H a t L G) as (t' & St & E & L1 & L2). exists t'. split; [|auto]. apply (Col (RAuth (mk_auth t' a))). split; [exact St|].
    destruct (Cv a (issued_for t) L) as (u & Gu & Eu & X). rewrite <- Eu in L. destruct (k_best pre d H a u L Gu) as (u' & Su & Eu' & _ & Le).
    assert (Q : RAuth (mk_auth t' a) = RAuth (mk_auth u' a)) by (apply Si; [exact St|exact Su|split; cbn; congruence]). injection Q as ->.
    assert (L' : on_chain ks a (issued_for u')) by (rewrite Eu'; exact L).
    apply unexpired; [exact (play_short pre d a u' H L' Su)|lia].
Qed.
Lemma keeps_imported : forall pre d x e c fu, keeps pre d -> MoreTrustThms.single d -> In (c, fu) es0 -> offers c x -> genuine C c x -> imported d x e -> keeps pre e.
Proof.
  intros pre d x e c fu H Si Hin Of Ge [Ro Im].
  assert (Kx : forall a, x = RAuth a -> ever_offered C d0 es0 (issued_by a) (auth_trust a)).
  { intros a ->. right. exists c, fu. split; [exact Hin|]. split; [exact Of|apply Ge]. }
  assert (Vx : forall v, x = RRev v -> ~ (In (revoked_by v) ks /\ In (rev_pk v) ks)).
  { intros v ->. apply None_revoked. right. cbn in Of. subst c. split; [exists fu; exact Hin|exact Ge]. }
  constructor.
  - unfold root_max_len. rewrite Ro. apply H.
  - intros v Hv. apply (Im (RRev v)) in Hv. destruct Hv as [[_ Hv]|[(_ & Hv & _)|[E _]]]; [exact (k_revs pre d H v Hv)|exact (k_revs pre d H v Hv)|].
    destruct x as [a|u]; [discriminate E|]. injection E as ->. exact (Vx u eq_refl).
  - intros a t L St. apply (Im (RAuth (mk_auth t a))) in St. destruct St as [[_ St]|[(_ & St & _)|[E _]]]; [exact (k_play pre d H a t L St)|exact (k_play pre d H a t L St)|].
    destruct x as [y|u]; [|discriminate E]. injection E as -> ->. exists (auth_trust y). split; [exact (Kx y eq_refl)|reflexivity].
  - intros a t L G. destruct (k_best pre d H a t L G) as (t' & St & E & L1 & L2).
    assert (L' : on_chain ks a (issued_for t')) by (rewrite E; exact L).
    assert (Ch : same_keys x (RAuth (mk_auth t' a)) \/ ~ same_keys x (RAuth (mk_auth t' a))).
    { destruct (same_pair x (RAuth (mk_auth t' a))) eqn:P; [left; apply same_pair_keys; exact P|right; apply same_pair_keys_false; exact P]. }
    destruct Ch as [Sk|Nk]; [|exists t'; split; [apply (Im (RAuth (mk_auth t' a))); left; split; [exact Nk|exact St]|auto]].
    destruct (HistFacts.before_dec (issued_at t') (rel_issued_at x)) as [B|B]; [|exists t'; split; [apply (Im (RAuth (mk_auth t' a))); right; left; auto|auto]].
    destruct x as [y|u].
    + destruct y as [ty by_]. destruct Sk as [Sk1 Sk2]. cbn [rel_issued_for rel_issued_by auth_trust issued_by] in Sk1, Sk2. subst by_.
      cbn [rel_issued_at auth_trust] in B.
      destruct (play_longer pre d a t' ty H L' St (Kx _ eq_refl) Sk1) as [Lo _].
      assert (Sec : secs (issued_at t') <= secs (issued_at ty)) by (unfold before in B; lia). specialize (Lo Sec).
      exists (whole_trust ty). split; [|split; [cbn; congruence|cbn [whole_trust issued_at expires_at from_secs secs]; lia]].
      apply (Im (RAuth (mk_auth (whole_trust ty) a))). right. right. split; [reflexivity|].
      intros z Hz Kz. assert (z = RAuth (mk_auth t' a)) as ->; [|exact B]. apply Si; [exact Hz|exact St|]. destruct Kz as [Kz1 Kz2]. split; cbn in *; congruence.
    + exfalso. destruct (on_chain_in a (issued_for t') L') as [I1 I2]. destruct Sk as [Sk1 Sk2]. cbn in Sk1, Sk2. apply (Vx u eq_refl). rewrite Sk1, Sk2. split; assumption.
Qed.
Lemma wf_single : forall s, wf C s -> MoreTrustThms.single (db_of s).
Proof.
  intros s W x y Hx Hy Sk. apply (stored_in C) in Hx; [|exact W]. apply (stored_in C) in Hy; [|exact W].
  apply (pair_unique (rels s)); try assumption; [apply (wf_nodup C); exact W|apply Sk|apply Sk].
Qed.
(** Whatever the call, and wherever it fails. *)
Lemma keeps_step : forall pre d c fu, keeps pre d -> reachable C d -> call_typed C c -> In (c, fu) es0 ->
  (forall now, call_time c = Some now -> covered C d0 pre ks now) -> keeps pre (snd (graph_step C d (c, fu))).
Proof.
  intros pre d c fu H R T Hin Cv. apply reachable_inv in R. destruct R as (s & -> & I).
  assert (Th : typed_history C [(c, fu)]) by (constructor; [exact T|constructor]).
  destruct (history_writes C [(c, fu)] s (inv_wf C s I) Th) as (ws & E & Ws). change (graph_history C (db_of s) [(c, fu)]) with (snd (graph_step C (db_of s) (c, fu))) in E. rewrite E.
  apply (run_invariant C (fun s' => keeps pre (db_of s')) [(c, fu)]); [|exact Ws|apply I|exact H].
  intros s' w c' fu' W' Q Hc Tc Wr Wo. destruct Hc as [Hc|[]]. injection Hc as <- <-. destruct w as [now|x|pk f].
  - apply (keeps_collected pre (db_of s') now); [exact Q|apply wf_single; exact W'|apply Cv; exact Wr|apply (collected_gc C); exact W'].
  - apply (keeps_imported pre (db_of s') x _ c fu Q); [apply wf_single; exact W'|exact Hin|apply write_of_offers with (C := C); exact Wr|apply write_of_genuine; exact Wr|].
    apply (imported_upd C); [exact W'|exact Wo].
  - destruct Q as [Q1 Q2 Q3 Q4]. constructor; try assumption. apply root_max_len_factor in Q1. apply root_max_len_factor. destruct Q1 as (g & Hg & Eg). exists g. split; [|exact Eg].
    exact (factor_keeps [W_root pk f] s' k g Hg).
Qed.
Lemma keeps_given : forall pre d c fu, keeps pre d -> reachable C d -> small d -> call_typed C c -> In (c, fu) es0 ->
  (forall now, call_time c = Some now -> covered C d0 pre ks now) -> keeps (pre ++ [(c, fu)]) (snd (graph_step C d (c, fu))).
Proof.
  intros pre d c fu H R Sm T Hin Cv. pose proof (keeps_step pre d c fu H R T Hin Cv) as H'. constructor; try apply H'.
  intros a t L G. assert (G' : given C d0 pre a t \/ exists now, c = G_add_trust t a now /\ fu = None /\ signed_trust C a t).
  { destruct G as [G|(now & Hn & Sg)]; [left; left; exact G|]. apply in_app_or in Hn. destruct Hn as [Hn|[Hn|[]]]; [left; right; exists now; auto|right; injection Hn as -> ->; exists now; auto]. }
  destruct G' as [G'|(now & -> & -> & Sg)]; [exact (k_best pre _ H' a t L G')|].
  specialize (Cv now eq_refl). pose proof (keeps_stands pre d now H Cv) as St. pose proof T as (_ & Tb & Tn). assert (Tw : call_typed C (G_weight a now)) by (split; assumption).
  assert (K : ever_offered C d0 es0 a t) by (right; exists (G_add_trust t a now), None; split; [exact Hin|]; split; [split; reflexivity|exact Sg]).
  destruct (MoreTrustThms.trust_step C d t a now R T) as [[V Ed]|(V & w & d1 & Ew & Col & R1 & X)].
  - rewrite Ed in *. destruct (Cv a (issued_for t) L) as (u & Gu & Eu & Lt). assert (Lu : on_chain ks a (issued_for u)) by (rewrite Eu; exact L).
    destruct (k_best pre d H a u Lu Gu) as (u' & Su & Eu' & _ & Le). exists u'. split; [exact Su|]. split; [congruence|].
    assert (Ex : secs (expires_at t) <= secs now).
    { assert (B : before (expires_at t) now). { destruct (HistFacts.before_dec (expires_at t) now) as [B|B]; [exact B|]. exfalso. apply V. apply trust_verify_exact. split; assumption. } unfold before in B. lia. }
    assert (Lu' : on_chain ks a (issued_for u')) by (rewrite Eu'; exact Lu).
    destruct (play_longer pre d a u' t H Lu' Su K ltac:(congruence)) as [Lo _]. split; [|lia].
    destruct (N.le_gt_cases (secs (issued_at u')) (secs (issued_at t))) as [C1|C1]; [specialize (Lo C1); lia|lia].
  - cbv zeta in X. pose proof (stands_next C ks k m First Distinct Long d now a (issued_for t) w d1 R Sm Tw St L Ew) as Nz.
    destruct X as [[Z _]|[_ [Ro Im]]]; [contradiction|].
    pose proof (keeps_collected pre d now d1 H (MoreTrustThms.reachable_single C d R) Cv Col) as H1.
    destruct (Cv a (issued_for t) L) as (u & Gu & Eu & Lt). assert (Lu : on_chain ks a (issued_for u)) by (rewrite Eu; exact L).
    destruct (k_best pre d1 H1 a u Lu Gu) as (u' & Su & Eu' & _ & Le). assert (Lu' : on_chain ks a (issued_for u')) by (rewrite Eu'; exact Lu).
    assert (Sk : same_keys (RAuth (mk_auth t a)) (RAuth (mk_auth u' a))) by (split; cbn; congruence).
    destruct (HistFacts.before_dec (issued_at u') (issued_at t)) as [B|B].
    + exists (whole_trust t). split; [|split; [reflexivity|cbn [whole_trust issued_at expires_at from_secs secs]; lia]].
      apply (Im (RAuth (mk_auth (whole_trust t) a))). right. right. split; [reflexivity|]. intros z Hz Kz.
      assert (z = RAuth (mk_auth u' a)) as ->; [|exact B]. apply (MoreTrustThms.reachable_single C d1 R1); [exact Hz|exact Su|]. destruct Kz, Sk. split; congruence.
    + exists u'. split; [apply (Im (RAuth (mk_auth u' a))); right; left; auto|]. split; [congruence|].
      assert (Si : secs (issued_at t) <= secs (issued_at u')) by (unfold before in B; lia). split; [exact Si|].
      apply (proj2 (play_longer pre d1 a u' t H1 Lu' Su K ltac:(congruence))). exact Si.
Qed.
Lemma keeps_run : forall es pre d, es0 = pre ++ es -> keeps pre d -> reachable C d -> typed_history C es -> few d es -> renewed_in_time C d0 es0 ks ->
  keeps es0 (graph_history C d es).
Proof.
  induction es as [|[c fu] es IH]; intros pre d E H R T F Rn.
  - rewrite app_nil_r in E. subst pre. exact H.
  - inversion T as [|? ? Tc Te]; subst. cbn [fst] in Tc.
    change (graph_history C d ((c, fu) :: es)) with (graph_history C (snd (graph_step C d (c, fu))) es).
    apply (IH (pre ++ [(c, fu)])); try assumption.
    + rewrite E, <- app_assoc. reflexivity.
    + apply keeps_given; try assumption.
      * unfold few in F. unfold small. lia.
      * rewrite E. apply in_or_app. right. left. reflexivity.
      * intros now Hn. exact (Rn pre c fu es now E Hn).
    + apply reachable_step; assumption.
    + apply (GossipThms.few_app C [(c, fu)] es d R); [constructor; [exact Tc|constructor]|exact F].
Qed.
Lemma keeps_start : root_max_len d0 k m -> keeps [] d0.
Proof.
  intros Hr. constructor; [exact Hr| | |].
  - intros v Hv. apply None_revoked. left. exact Hv.
  - intros a t L St. exists t. split; [left; exact St|exact (MoreTrustThms.whole_stored d0 a t St)].
  - intros a t L [St|(now & [] & _)]. exists t. split; [exact St|]. split; [reflexivity|]. split; lia.
Qed.
End Renew.

(** ** C195 *)
(** As long as every trust of a chain is renewed before it expires, the last key has a certificate with the keys of the chain and the weight that its length gives. *)
Lemma p_C195_no_gap : forall C d es ks k m pk now, reachable C d -> typed_history C es -> few d es ->
  nth_error ks 0 = Some k -> nth_error ks (length ks - 1) = Some pk -> NoDup ks -> (2 <= length ks)%nat -> root_max_len d k m -> N.of_nat (length ks) <= m + 1 ->
  renewed_in_time C d es ks -> renewals_last C d es ks -> no_revocation_among C d es ks ->
  covered C d es ks now -> call_typed C (G_weight pk now) ->
  (exists cs, fst (graph_step C (graph_history C d es) (G_get_all_certs pk now, None)) = Ok (GR_certs cs) /\ exists c, In c cs /\ map issued_for c = ks) /\
  (exists w, fst (graph_step C (graph_history C d es) (G_weight pk now, None)) = Ok (GR_weight w) /\ 2 ^ (m + 1 - N.of_nat (length ks)) <= w).
Proof.
  intros C d es ks k m pk now R T F Hf Hl Nd L2 Hr Lo Rn La Nr Cv Tw.
  assert (H0 : keeps C d es ks k m [] d) by (eapply keeps_start; eassumption).
  assert (H : keeps C d es ks k m es (graph_history C d es)) by (eapply keeps_run; try eassumption; reflexivity).
  pose proof (history_reachable C d es R T) as R'. pose proof (MoreTrustThms.few_small _ _ (CopyThms.few_after C es d R T F)) as Sm.
  assert (St : stands ks k m (graph_history C d es) now) by (eapply keeps_stands; eassumption). split.
  - destruct (certs_answer C _ pk now R' Tw) as (cs & d' & E). exists cs. rewrite E. split; [reflexivity|].
    assert (Ex : exists c, map issued_for c = firstn (S (length ks - 1)) ks /\ counting (graph_history C d es) now pk c) by (eapply stands_counting; try eassumption; lia). destruct Ex as (c & Ec & Hc). exists c. split; [apply (certs_are C _ pk now None cs d' R' Tw E); exact Hc|].
    rewrite Ec. replace (S (length ks - 1)) with (length ks) by lia. apply firstn_all.
  - destruct (weight_answer C _ pk now R' Tw) as (w & d' & E). exists w. rewrite E. split; [reflexivity|].
    assert (X : 2 ^ (m - N.of_nat (length ks - 1)) <= w) by (eapply stands_weight; eassumption). replace (m + 1 - N.of_nat (length ks)) with (m - N.of_nat (length ks - 1)) by lia. exact X.
Qed.

(** R renews its own trust and its trust for A, a statement of a further renewal fails, A renews its trust for B: all before the old ones expire. *)
Definition renewing : list (graph_call * option nat) :=
  [(G_add_trust (toy_trust R R 3000 20) (toy_key R) (at_ 600), None); (G_add_trust (toy_trust R A 2900 21) (toy_key R) (at_ 650), None);
   (G_add_trust (toy_trust R A 2950 22) (toy_key R) (at_ 660), Some 1%nat); (G_revoke (toy_rev D A 30), None); (G_add_trust (toy_trust A B 2800 23) (toy_key A) (at_ 700), None)].
Lemma renewing_typed : typed_history W renewing.
Proof. unfold typed_history, renewing. repeat (constructor; [cbn [fst]; typed1|]). constructor. Qed.
Definition chain3 : list public_key := [toy_key R; toy_key A; toy_key B].
Lemma chain3_steps : forall a b, on_chain chain3 a b -> (a = toy_key R /\ b = toy_key R) \/ (a = toy_key R /\ b = toy_key A) \/ (a = toy_key A /\ b = toy_key B).
Proof.
  intros a b [[H ->]|(i & Ha & Hb)]; [injection H as <-; auto|]. destruct i as [|[|[|i]]]; cbn in Ha, Hb; try discriminate; injection Ha as <-; injection Hb as <-; auto.
Qed.

Lemma faq_trust : forall b t, In (RAuth (mk_auth t b)) (rels (after faq)) -> stored_trust (db_of (after faq)) b t.
Proof. intros b t H. exact (after_trust faq b t faq_typed H). Qed.
Definition offers8 : list (public_key * trust) := [(toy_key R, toy_trust R R 1000 1); (toy_key R, toy_trust R A 900 1);
  (toy_key A, toy_trust A B 800 1); (toy_key B, toy_trust B D 700 1); (toy_key R, toy_trust R R 3000 20); (toy_key R, toy_trust R A 2900 21); (toy_key R, toy_trust R A 2950 22); (toy_key A, toy_trust A B 2800 23)].
Lemma offers8_bound : forallb (fun p => secs (expires_at (snd p)) <? i64_bound) offers8 = true.
Proof. vm_compute. reflexivity. Qed.
Lemma offers8_last : forallb (fun p => forallb (fun q => implb (pk_eqb (fst p) (fst q) && pk_eqb (issued_for (snd q)) (issued_for (snd p)) && (secs (issued_at (snd p)) <=? secs (issued_at (snd q))))
  (secs (expires_at (snd p)) <=? secs (expires_at (snd q)))) offers8) offers8 = true.
Proof. vm_compute. reflexivity. Qed.
Lemma renewing_offered : forall b t, ever_offered W (db_of (after faq)) renewing b t -> In (b, t) offers8.
Proof.
  intros b t [H|(c & fu & Hc & O & _)].
  - apply (stored_trust_in W) in H; [|apply after_inv; exact faq_typed]. rewrite faq_rels in H. repeat (destruct H as [H|H]; [injection H as <- <-; unfold offers8; cbn [In]; tauto|]). contradiction H.
  - repeat (destruct Hc as [Hc|Hc]; [injection Hc as <- _; first [contradiction O|destruct O as [-> ->]; unfold offers8; cbn [In]; tauto]|]). contradiction Hc.
Qed.
(** At 2000 B still has its certificate over A, and the weight 4, though the trusts in the store at the beginning have all expired. *)
Example e_C195_renewing : reachable (toy false) (db_of (after faq)) /\ root_max_len (db_of (after faq)) (toy_key R) 4 /\ few (db_of (after faq)) renewing /\
  renewed_in_time (toy false) (db_of (after faq)) renewing chain3 /\ renewals_last (toy false) (db_of (after faq)) renewing chain3 /\
  no_revocation_among (toy false) (db_of (after faq)) renewing chain3 /\ covered (toy false) (db_of (after faq)) renewing chain3 (at_ 2000) /\
  exists w, fst (graph_step (toy false) (graph_history (toy false) (db_of (after faq)) renewing) (G_weight (toy_key B) (at_ 2000), None)) = Ok (GR_weight w) /\ 4 <= w.
Proof.
  assert (Re : reachable W (db_of (after faq))) by (apply after_reachable; exact faq_typed).
  assert (Ro : root_max_len (db_of (after faq)) (toy_key R) 4) by (apply root_max_len_factor; exists 12; split; [vm_compute; reflexivity|reflexivity]).
  assert (Fe : few (db_of (after faq)) renewing) by (vm_compute; reflexivity).
  assert (Old : forall pre now, secs now <= 700 -> covered W (db_of (after faq)) pre chain3 now).
  { intros pre now Hn a b L. apply chain3_steps in L. destruct L as [[-> ->]|[[-> ->]|[-> ->]]].
    - exists (toy_trust R R 1000 1). split; [left; apply faq_trust; rewrite faq_rels; cbn [In]; tauto|]. split; [reflexivity|]. cbn [toy_trust expires_at from_secs secs]. lia.
    - exists (toy_trust R A 900 1). split; [left; apply faq_trust; rewrite faq_rels; cbn [In]; tauto|]. split; [reflexivity|]. cbn [toy_trust expires_at from_secs secs]. lia.
    - exists (toy_trust A B 800 1). split; [left; apply faq_trust; rewrite faq_rels; cbn [In]; tauto|]. split; [reflexivity|]. cbn [toy_trust expires_at from_secs secs]. lia. }
  assert (Rn : renewed_in_time W (db_of (after faq)) renewing chain3).
  { intros pre c fu post now E Hn. apply Old. assert (X : In (c, fu) renewing) by (rewrite E; apply in_or_app; right; left; reflexivity).
    repeat (destruct X as [X|X]; [injection X as <- _; first [discriminate Hn|injection Hn as <-; vm_compute; discriminate]|]). contradiction X. }
  assert (La : renewals_last W (db_of (after faq)) renewing chain3).
  { intros a t _ K. apply renewing_offered in K. split.
    - pose proof (proj1 (forallb_forall _ _) offers8_bound (a, t) K) as X. apply N.ltb_lt. exact X.
    - intros t' K' E L. apply renewing_offered in K'.
      pose proof (proj1 (forallb_forall _ _) (proj1 (forallb_forall _ _) offers8_last (a, t) K) (a, t') K') as X. cbn [fst snd] in X.
      rewrite pk_eqb_refl in X. assert (Y : pk_eqb (issued_for t') (issued_for t) = true) by (apply pk_eqb_eq; exact E). rewrite Y in X.
      apply N.leb_le in L. rewrite L in X. apply N.leb_le. exact X. }
  assert (Nr : no_revocation_among W (db_of (after faq)) renewing chain3).
  { intros v [H|[(fu & H) _]].
    - apply (stored_rev_in W) in H; [|apply after_inv; exact faq_typed]. rewrite faq_rels in H. repeat (destruct H as [H|H]; [discriminate H|]). contradiction H.
    - repeat (destruct H as [H|H]; [first [discriminate H|injection H as <- _]|]); [|contradiction H]. intros [X _]. cbn [toy_rev revoked_by chain3 In] in X. repeat (destruct X as [X|X]; [vm_compute in X; discriminate X|]). contradiction X. }
  assert (Sg : forall a b ex iss now, trust_verify W (toy_trust a b ex iss) (toy_key a) now = Ok tt -> signed_trust W (toy_key a) (toy_trust a b ex iss)) by (intros a b ex iss now V; apply trust_verify_exact in V; apply V).
  assert (Cv : covered W (db_of (after faq)) renewing chain3 (at_ 2000)).
  { intros a b L. apply chain3_steps in L. destruct L as [[-> ->]|[[-> ->]|[-> ->]]].
    - exists (toy_trust R R 3000 20). split; [right; exists (at_ 600); split; [cbn [renewing In]; tauto|apply (Sg _ _ _ _ (at_ 600)); vm_compute; reflexivity]|]. split; reflexivity.
    - exists (toy_trust R A 2900 21). split; [right; exists (at_ 650); split; [cbn [renewing In]; tauto|apply (Sg _ _ _ _ (at_ 650)); vm_compute; reflexivity]|]. split; reflexivity.
    - exists (toy_trust A B 2800 23). split; [right; exists (at_ 700); split; [cbn [renewing In]; tauto|apply (Sg _ _ _ _ (at_ 700)); vm_compute; reflexivity]|]. split; reflexivity. }
  split; [exact Re|]. split; [exact Ro|]. split; [exact Fe|]. split; [exact Rn|]. split; [exact La|]. split; [exact Nr|]. split; [exact Cv|].
  assert (Nd : NoDup chain3) by (unfold chain3; repeat constructor; cbn [In]; intros X; repeat (destruct X as [X|X]; [vm_compute in X; discriminate X|]); contradiction X).
  destruct (p_C195_no_gap W (db_of (after faq)) renewing chain3 (toy_key R) 4 (toy_key B) (at_ 2000) Re renewing_typed Fe eq_refl eq_refl Nd) as [_ (w & E & L)];
    [cbn; lia|exact Ro|vm_compute; discriminate|exact Rn|exact La|exact Nr|exact Cv|typed1|]. exists w. split; [exact E|exact L].
Qed.
(** If the renewal comes too late, it is not enough: A's trust for B, renewed while R's trust for A had expired, is reported as accepted and lost, and B has no weight also after A is trusted again. *)
Lemma p_C195_gap : exists C d t1 t2 r now1 now2 pk now, crypto_laws C /\ reachable C d /\ few d (no_failures [G_add_trust t1 (issued_for t2) now1; G_add_trust t2 r now2]) /\
  fst (graph_step C d (G_weight pk (from_secs 10), None)) = Ok (GR_weight 4) /\ issued_for t1 = pk /\ secs now1 < secs now2 < secs now /\
  fst (graph_step C d (G_add_trust t1 (issued_for t2) now1, None)) = Ok (GR_weight 0) /\
  answer_after C d [G_add_trust t1 (issued_for t2) now1] (G_add_trust t2 r now2) = Ok (GR_weight 8) /\
  secs now < secs (expires_at t1) /\ secs now < secs (expires_at t2) /\
  answer_after C d [G_add_trust t1 (issued_for t2) now1; G_add_trust t2 r now2] (G_weight (issued_for t2) now) = Ok (GR_weight 8) /\
  answer_after C d [G_add_trust t1 (issued_for t2) now1; G_add_trust t2 r now2] (G_weight pk now) = Ok (GR_weight 0).
Proof.
  exists W, (db_of (after faq)), (toy_trust A B 2800 23), (toy_trust R A 2900 21), (toy_key R), (at_ 910), (at_ 920), (toy_key B), (at_ 930).
  split; [apply toy_laws|]. split; [apply after_reachable; exact faq_typed|]. split; [vm_compute; reflexivity|].
  split; [apply after_answer; [exact faq_typed|typed1|vm_compute; reflexivity]|]. split; [reflexivity|]. split; [split; reflexivity|].
  split; [apply after_answer; [exact faq_typed|typed1|vm_compute; reflexivity]|].
  split; [apply MoreTrustThms.heard_answer; [typed1|typed1|vm_compute; reflexivity]|]. split; [reflexivity|]. split; [reflexivity|].
  split; (apply MoreTrustThms.heard_answer; [typed1|typed1|vm_compute; reflexivity]).
Qed.
