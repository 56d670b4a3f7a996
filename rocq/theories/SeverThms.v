(** What a revocation takes away: C212. *)
From Coq Require Import List NArith ZArith Bool Lia.
From Verif Require Import Base BaseFacts Text Keys KeysFacts Trust Certificate CertFacts Relation Storage StorageFacts Graph Spec SpecFacts GraphFacts StateFacts GraphThms ReadmeThms InfluenceSpec InfluenceThms ExtendThms CopyServiceThms Toy ToyFacts Witness.
From Verif Require Import Service ServiceSpec ServiceFacts ServiceThms ServedThms ServiceWitness PartsServedThms ExtendSpec SeverSpec.
Import ListNotations.
Open Scope N_scope.

Lemma revoke_stores : forall C d v fu d2, reachable C d -> revocation_typed C v -> graph_step C d (G_revoke v, fu) = (Ok GR_unit, d2) -> imported d (RRev v) d2.
Proof.
  intros C d v fu d2 R Tv Er.
  destruct (p_C30_revoke_imports C d v R Tv) as [Hs Hn]. destruct (p_C48_failures_are_safe C d (G_revoke v) R Tv) as (es & _ & _ & X).
  destruct (X fu _ _ Er) as [Y|[Y _]]; [|discriminate Y].
  destruct (pk_verify C (revoked_by v) (revocation_message C v) (rev_sig v)) as [[]|e| |] eqn:V;
    [destruct (Hs V) as (d' & Es & Im); rewrite Es in Y; injection Y as ->; exact Im| | |];
    (destruct (Hn ltac:(unfold signed_revocation; rewrite V; discriminate)) as (e' & Es); rewrite Es in Y; discriminate Y).
Qed.
Lemma cut_counting : forall d v d2 now pk c, imported d (RRev v) d2 ->
  (forall z, stored d z -> same_keys (RRev v) z -> before (rel_issued_at z) (revoked_at v)) ->
  (counting d2 now pk c <-> counting d now pk c /\ ~ cuts v c).
Proof.
  intros d v d2 now pk c [Ro Im] New.
  assert (St : forall y, stored d2 y <-> (~ same_keys (RRev v) y /\ stored d y) \/ y = whole (RRev v)).
  { intros y. rewrite (Im y). split.
    - intros [H|[(H1 & H2 & H3)|[H _]]]; [left; exact H| |right; exact H]. exfalso. apply H3. exact (New y H2 H1).
    - intros [H|H]; [left; exact H|right; right]. split; [exact H|exact New]. }
  assert (Lv : forall b t, live d2 now b t <-> live d now b t /\ ~ (revoked_by v = b /\ rev_pk v = issued_for t)).
  { intros b t. unfold live. pose proof (St (RAuth (mk_auth t b))) as X. change (stored d2 (RAuth (mk_auth t b))) with (stored_trust d2 b t) in X. change (stored d (RAuth (mk_auth t b))) with (stored_trust d b t) in X.
    rewrite X. split.
    - intros [[[H1 H2]|H] H3]; [|discriminate H]. split; [split; assumption|]. intros [A B]. apply H1. split; cbn; congruence.
    - intros [[H1 H2] H3]. split; [|exact H2]. left. split; [|exact H1]. intros [A B]. cbn in A, B. apply H3. split; congruence. }
  assert (Ir : forall k, is_root d2 k <-> is_root d k) by (intros k; unfold is_root; rewrite Ro; reflexivity).
  assert (Rk : forall i j, revokes_at d2 c i j <-> revokes_at d c i j \/ ((i < j)%nat /\ key_at c i (revoked_by v) /\ key_at c j (rev_pk v))).
  { intros i j. unfold revokes_at. split.
    - intros [Lij (u & Su & H1 & H2)]. destruct (proj1 (St (RRev u)) Su) as [[_ H]|H].
      + left. split; [exact Lij|]. exists u. auto.
      + right. cbn [whole] in H. injection H as ->. auto.
    - assert (Hv : (i < j)%nat /\ key_at c i (revoked_by v) /\ key_at c j (rev_pk v) -> exists u, stored_revocation d2 u /\ key_at c i (revoked_by u) /\ key_at c j (rev_pk u)).
      { intros (_ & H1 & H2). destruct (whole (RRev v)) as [|u] eqn:Eu; [discriminate Eu|]. exists u. cbn [whole] in Eu. split; [apply (St (RRev u)); right; rewrite <- Eu; reflexivity|]. injection Eu as <-. auto. }
      intros [[Lij (u & Su & H1 & H2)]|H]; [|split; [apply H|exact (Hv H)]]. split; [exact Lij|].
      destruct (pk_eq_dec (rev_pk v) (rev_pk u)) as [E1|E1]; [destruct (pk_eq_dec (revoked_by v) (revoked_by u)) as [E2|E2]|].
      + apply Hv. rewrite E1, E2. auto.
      + exists u. split; [|auto]. apply (St (RRev u)). left. split; [|exact Su]. intros [_ X]. exact (E2 X).
      + exists u. split; [|auto]. apply (St (RRev u)). left. split; [|exact Su]. intros [X _]. exact (E1 X). }
  unfold counting, live_chain. split.
  - intros [(C1 & C2 & C3 & C4 & C5) Rv]. split; [split|].
    + split; [exact C1|]. split; [exact C2|]. split; [|split; [|exact C5]].
      * intros t Ht. destruct (C3 t Ht) as [G1 G2]. split; [apply Ir; exact G1|]. apply Lv in G2. apply G2.
      * intros i g t Hg Ht. pose proof (C4 i g t Hg Ht) as G. apply Lv in G. apply G.
    + intros i j H. apply (Rv i j). apply Rk. left. exact H.
    + intros [(i & j & Lij & K1 & K2 & Cj)|[Es K0]].
      * assert (D : direct_issuer_pos c j) by (apply (Rv i j); apply Rk; right; auto). destruct Cj as [->|Nd]; [|exact (Nd D)].
        destruct K1 as (g & Hg & Eg). destruct K2 as (t & Ht & Et). pose proof (C4 i g t Hg Ht) as G. apply Lv in G. apply (proj2 G). split; congruence.
      * destruct K0 as (t & Ht & Et). destruct (C3 t Ht) as [_ G]. apply Lv in G. apply (proj2 G). split; congruence.
  - intros [[(C1 & C2 & C3 & C4 & C5) Rv] Nc]. split.
    + split; [exact C1|]. split; [exact C2|]. split; [|split; [|exact C5]].
      * intros t Ht. destruct (C3 t Ht) as [G1 G2]. split; [apply Ir; exact G1|]. apply Lv. split; [exact G2|]. intros [A B]. apply Nc. right. split; [congruence|]. exists t. split; [exact Ht|congruence].
      * intros i g t Hg Ht. apply Lv. split; [exact (C4 i g t Hg Ht)|]. intros [A B]. apply Nc. left. exists i, (S i). split; [lia|].
        split; [exists g; split; [exact Hg|congruence]|]. split; [exists t; split; [exact Ht|congruence]|]. left. reflexivity.
    + intros i j H. apply Rk in H. destruct H as [H|(Lij & K1 & K2)]; [exact (Rv i j H)|]. unfold direct_issuer_pos. destruct (Nat.eq_dec (j + 2) (length c)) as [D|D]; [exact D|].
      exfalso. apply Nc. left. exists i, j. split; [exact Lij|]. split; [exact K1|]. split; [exact K2|]. right. exact D.
Qed.

(** ** C212 *)
(** A revocation that is newer than what its author said of the key takes away exactly these certificates. *)
Lemma p_C212_certificates : forall C d v fu d' pk now fu1 fu2 cs cs' d1 d2, reachable C d -> revocation_typed C v -> call_typed C (G_get_all_certs pk now) ->
  graph_step C d (G_revoke v, fu) = (Ok GR_unit, d') -> (forall z, stored d z -> same_keys (RRev v) z -> before (rel_issued_at z) (revoked_at v)) ->
  graph_step C d (G_get_all_certs pk now, fu1) = (Ok (GR_certs cs), d1) -> graph_step C d' (G_get_all_certs pk now, fu2) = (Ok (GR_certs cs'), d2) ->
  forall c, In c cs' <-> In c cs /\ ~ cuts v c.
Proof.
  intros C d v fu d' pk now fu1 fu2 cs cs' d1 d2 R Tv T Er New E1 E2 c.
  assert (R2 : reachable C d') by (pose proof (reachable_step C d (G_revoke v) fu R Tv) as X; rewrite Er in X; exact X).
  rewrite (certs_are C d' pk now fu2 cs' d2 R2 T E2), (certs_are C d pk now fu1 cs d1 R T E1). apply cut_counting; [exact (revoke_stores C d v fu d' R Tv Er)|exact New].
Qed.
(** Another one takes away nothing. *)
Lemma p_C212_older : forall C d v z fu d' pk now fu1 fu2 cs cs' d1 d2, reachable C d -> revocation_typed C v -> call_typed C (G_get_all_certs pk now) ->
  graph_step C d (G_revoke v, fu) = (Ok GR_unit, d') -> stored d z -> same_keys (RRev v) z -> ~ before (rel_issued_at z) (revoked_at v) ->
  graph_step C d (G_get_all_certs pk now, fu1) = (Ok (GR_certs cs), d1) -> graph_step C d' (G_get_all_certs pk now, fu2) = (Ok (GR_certs cs'), d2) ->
  forall c, In c cs' <-> In c cs.
Proof.
  intros C d v z fu d' pk now fu1 fu2 cs cs' d1 d2 R Tv T Er Sz Kz Nz E1 E2 c.
  assert (R2 : reachable C d') by (pose proof (reachable_step C d (G_revoke v) fu R Tv) as X; rewrite Er in X; exact X).
  destruct (revoke_stores C d v fu d' R Tv Er) as [Ro Im].
  assert (St : forall y, stored d' y <-> stored d y).
  { intros y. rewrite (Im y). split.
    - intros [[_ H]|[(_ & H & _)|[_ H]]]; [exact H|exact H|]. exfalso. exact (Nz (H z Sz Kz)).
    - intros H. destruct (pk_eq_dec (rel_issued_for (RRev v)) (rel_issued_for y)) as [A|A]; [destruct (pk_eq_dec (rel_issued_by (RRev v)) (rel_issued_by y)) as [B|B]|].
      + assert (E : y = z) by (apply (p_C30_one_relation_per_pair C d y z R H Sz); destruct Kz; split; congruence). subst y. right. left. split; [exact Kz|]. split; [exact H|exact Nz].
      + left. split; [|exact H]. intros [_ X]. exact (B X).
      + left. split; [|exact H]. intros [X _]. exact (A X). }
  rewrite (certs_are C d' pk now fu2 cs' d2 R2 T E2), (certs_are C d pk now fu1 cs d1 R T E1).
  assert (Lv : forall b t, live d' now b t <-> live d now b t).
  { intros b t. unfold live. pose proof (St (RAuth (mk_auth t b))) as X. change (stored d' (RAuth (mk_auth t b))) with (stored_trust d' b t) in X. change (stored d (RAuth (mk_auth t b))) with (stored_trust d b t) in X.
    rewrite X. reflexivity. }
  assert (Ir : forall k, is_root d' k <-> is_root d k) by (intros k; unfold is_root; rewrite Ro; reflexivity).
  assert (Rk : forall i j, revokes_at d' c i j <-> revokes_at d c i j).
  { intros i j. unfold revokes_at. split; intros [Lij (u & Su & H)]; (split; [exact Lij|]); exists u; (split; [apply (St (RRev u)); exact Su|exact H]). }
  unfold counting, live_chain. split; (intros [(C1 & C2 & C3 & C4 & C5) Rv]; split; [split; [exact C1|]; split; [exact C2|]; split; [|split; [|exact C5]]|]).
  - intros t Ht. destruct (C3 t Ht) as [G1 G2]. split; [apply Ir; exact G1|apply Lv; exact G2].
  - intros i g t Hg Ht. apply Lv. exact (C4 i g t Hg Ht).
  - intros i j H. apply (Rv i j). apply Rk. exact H.
  - intros t Ht. destruct (C3 t Ht) as [G1 G2]. split; [apply Ir; exact G1|apply Lv; exact G2].
  - intros i g t Hg Ht. apply Lv. exact (C4 i g t Hg Ht).
  - intros i j H. apply (Rv i j). apply Rk. exact H.
Qed.
(** The weight that is left is that of the key as a root or of the best other certificate. *)
Lemma p_C212_weights : forall C d v fu d' pk now fu1 fu2 cs w d1 d2, reachable C d -> small d' -> revocation_typed C v -> call_typed C (G_get_all_certs pk now) ->
  graph_step C d (G_revoke v, fu) = (Ok GR_unit, d') -> (forall z, stored d z -> same_keys (RRev v) z -> before (rel_issued_at z) (revoked_at v)) ->
  graph_step C d (G_get_all_certs pk now, fu1) = (Ok (GR_certs cs), d1) -> graph_step C d' (G_weight pk now, fu2) = (Ok (GR_weight w), d2) ->
  greatest (fun x => (exists m, root_max_len d pk m /\ x = 2 ^ m) \/ exists c, In c cs /\ ~ cuts v c /\ cert_weight d c x) w.
Proof.
  intros C d v fu d' pk now fu1 fu2 cs w d1 d2 R Sm Tv T Er New E1 E2.
  assert (R2 : reachable C d') by (pose proof (reachable_step C d (G_revoke v) fu R Tv) as X; rewrite Er in X; exact X).
  destruct (p_C23_queries_succeed C d' (G_get_all_certs pk now) R2 T I) as (y & d3 & E3 & Hy). destruct y as [| |cs'|]; try contradiction Hy.
  pose proof (p_C212_certificates C d v fu d' pk now fu1 None cs cs' d1 d3 R Tv T Er New E1 E3) as Cs.
  destruct (p_C35_weight_is_best_chain C d' pk now None fu2 cs' w d3 d2 R2 T Sm E3 E2) as (_ & G & _).
  destruct (revoke_stores C d v fu d' R Tv Er) as [Ro _].
  assert (Eq : forall x, key_weight d' cs' pk x <-> ((exists m, root_max_len d pk m /\ x = 2 ^ m) \/ exists c, In c cs /\ ~ cuts v c /\ cert_weight d c x)).
  { intros x. unfold key_weight. split; (intros [(m & H1 & H2)|(c & H)]; [left; exists m; split; [apply (len_same d d' Ro); exact H1|exact H2]|right; exists c]).
    - destruct H as [H1 H2]. apply Cs in H1. split; [apply H1|]. split; [apply H1|apply (weight_same d d' Ro); exact H2].
    - destruct H as (H1 & H2 & H3). split; [apply Cs; split; assumption|apply (weight_same d d' Ro); exact H3]. }
  destruct G as [G1 G2]. split; [intros x Hx; apply G1; apply Eq; exact Hx|]. destruct G2 as [G2|[G2 G3]]; [left; apply Eq; exact G2|right].
  split; [exact G2|]. intros x Hx. apply (G3 x). apply Eq. exact Hx.
Qed.
(** At the service: a record that [revoke] has accepted takes away exactly these certificates. *)
Lemma p_C212_service : forall C d r v cp ts d' p ts' cp1 cp2 rs, crypto_laws C -> wasm32 C = true -> service_reachable C d -> revocation_record C r v -> service_typed (S_revoke r ts) -> ts' < u64_bound ->
  service_step C d (cp, S_revoke r ts, None) = (Ok (mk_response true None P_none), d') -> (forall z, stored d z -> same_keys (RRev v) z -> before (rel_issued_at z) (revoked_at v)) ->
  fst (service_step C d (cp1, S_get_all_certs p ts', None)) = Ok (mk_response true None (P_certs rs)) -> host_time cp2 1 ->
  exists rs', fst (service_step C d' (cp2, S_get_all_certs p ts', None)) = Ok (mk_response true None (P_certs rs')) /\ forall x, In x rs' <-> In x rs /\ ~ s_cuts C v x.
Proof.
  intros C d r v cp ts d' p ts' cp1 cp2 rs L W R Rr Ty Hs E New E1 Ht.
  assert (R' : service_reachable C d') by (pose proof (service_reachable_step C d cp (S_revoke r ts) None Ty R) as X; rewrite E in X; exact X).
  assert (Tv : revocation_typed C v) by (apply (requests_typed C cp (S_revoke r ts) (G_revoke v) L Ty); exact Rr).
  assert (Eg : graph_step C d (G_revoke v, None) = (Ok GR_unit, d')).
  { rewrite service_plan in E. destruct (plan C cp (S_revoke r ts)) as [[g|a]|e| |] eqn:P; try discriminate E.
    - pose proof (plan_admitted C cp _ _ P) as A. pose proof (plan_complete C cp (S_revoke r ts) (G_revoke v) Rr A) as P'. rewrite P in P'. injection P' as ->.
      cbn [carry_out] in E. destruct (graph_step C d (G_revoke v, None)) as [q d2] eqn:Eq. destruct (p_C23_calls_answer C d (G_revoke v) None q d2 (p_C66_service_stores C d L R) Tv Eq) as [(y & -> & Hy)|(e & ->)]; [|discriminate E].
      destruct y; try contradiction Hy. injection E as <-. reflexivity.
    - exfalso. revert P. cbn [plan]. unfold gcall. destruct (check_timestamp_tetraplets cp 1); try discriminate. destruct (ts <? dr_revoked_at r); try discriminate. destruct (revocation_of_dto C r); discriminate. }
  destruct (certs_asked C d cp1 p ts' rs L R Hs E1) as (k & cs & d1 & K & Ec & Ers). destruct (certs_told C d' cp2 p k ts' L R' Hs K Ht) as (cs' & d2 & Ec' & Er').
  exists (map (dto_of_cert C) cs'). split; [exact Er'|].
  assert (T : call_typed C (G_get_all_certs k (from_secs ts'))) by (split; [eapply peer_key_valid; eassumption|apply from_secs_wf; exact Hs]).
  pose proof (p_C212_certificates C d v None d' k (from_secs ts') None None cs cs' d1 d2 (p_C66_service_stores C d L R) Tv T Eg New Ec Ec') as H.
  assert (Nm : forall c j q, In c cs -> key_at c j q <-> names C (dto_of_cert C c) j q).
  { intros c j q Hc. unfold key_at, at_pos, names, dto_of_cert. split.
    - intros (t & Et & Eq). exists (dto_of_trust C t). rewrite nth_error_map, Et. split; [reflexivity|]. rewrite <- Eq. exact (certs_keys C d cp1 p ts' rs k cs d1 c j t L W R Hs E1 K Ec Ers Hc Et).
    - intros (x & Hx & Px). rewrite nth_error_map in Hx. destruct (nth_error c j) as [t|] eqn:Et; [|discriminate Hx]. injection Hx as <-. exists t. split; [reflexivity|].
      exact (peer_key_fun C _ _ _ (certs_keys C d cp1 p ts' rs k cs d1 c j t L W R Hs E1 K Ec Ers Hc Et) Px). }
  assert (Cu : forall c, In c cs -> cuts v c <-> s_cuts C v (dto_of_cert C c)).
  { intros c Hc. unfold cuts, s_cuts, direct_issuer_pos. replace (length (dto_of_cert C c)) with (length c) by (unfold dto_of_cert; rewrite map_length; reflexivity).
    split; (intros [(i & j & Lij & K1 & K2 & K3)|[K1 K2]]; [left; exists i, j; split; [exact Lij|]; split; [apply Nm; assumption|]; split; [apply Nm; assumption|exact K3]|right; split; [exact K1|apply Nm; assumption]]). }
  intros x. rewrite Ers, !in_map_iff. split.
  - intros (c & <- & Hc). apply H in Hc. destruct Hc as [Hc Nc]. split; [exists c; auto|]. intros X. apply Nc. apply Cu; assumption.
  - intros ((c & <- & Hc) & Nc). exists c. split; [reflexivity|]. apply H. split; [exact Hc|]. intros X. apply Nc. apply Cu; assumption.
Qed.
(** R trusts A, A trusts B and B trusts D. R revokes B: the certificate of B is gone, that of D stays, for B is its direct issuer. *)
Definition faq_cert : certificate := [toy_trust R R 1000 1; toy_trust R A 900 1; toy_trust A B 800 1; toy_trust B D 700 1].
Example e_C212_faq : reachable W (db_of (after faq)) /\ revocation_typed W (toy_rev R B 9) /\
  fst (graph_step W (db_of (after faq)) (G_revoke (toy_rev R B 9), None)) = Ok GR_unit /\ (forall z, stored (db_of (after faq)) z -> ~ same_keys (RRev (toy_rev R B 9)) z) /\
  fst (graph_step W (db_of (after faq)) (G_get_all_certs (toy_key B) (at_ 10), None)) = Ok (GR_certs [firstn 3 faq_cert]) /\ cuts (toy_rev R B 9) (firstn 3 faq_cert) /\
  fst (graph_step W (db_of (after faq)) (G_get_all_certs (toy_key D) (at_ 10), None)) = Ok (GR_certs [faq_cert]) /\ ~ cuts (toy_rev R B 9) faq_cert /\ cuts (toy_rev R A 9) faq_cert /\
  answer_after W (db_of (after faq)) [G_revoke (toy_rev R B 9)] (G_get_all_certs (toy_key B) (at_ 10)) = Ok (GR_certs []) /\
  answer_after W (db_of (after faq)) [G_revoke (toy_rev R B 9)] (G_get_all_certs (toy_key D) (at_ 10)) = Ok (GR_certs [faq_cert]) /\
  answer_after W (db_of (after faq)) [G_revoke (toy_rev R A 9)] (G_get_all_certs (toy_key D) (at_ 10)) = Ok (GR_certs []).
Proof.
  split; [apply after_reachable; exact faq_typed|]. split; [repeat constructor|]. split; [apply after_answer; [exact faq_typed|typed1|vm_compute; reflexivity]|].
  split. { intros z Hz. apply (proj1 (after_stored faq z faq_typed)) in Hz. rewrite faq_rels in Hz. repeat (destruct Hz as [<-|Hz]; [intros [X Y]; revert X Y; vm_compute; discriminate|]). destruct Hz. }
  split; [apply after_answer; [exact faq_typed|typed1|vm_compute; reflexivity]|].
  split. { left. exists 0%nat, 2%nat. split; [lia|]. split; [eexists; split; reflexivity|]. split; [eexists; split; reflexivity|]. right. vm_compute. discriminate. }
  split; [apply after_answer; [exact faq_typed|typed1|vm_compute; reflexivity]|].
  split. { intros [(i & j & Lij & (t & Ht & Et) & (u & Hu & Eu) & X)|[X _]]; [|revert X; vm_compute; discriminate].
    assert (Ej : j = 2%nat). { destruct j as [|[|[|[|j]]]]; [| |reflexivity| |]; try (injection Hu as <-; revert Eu; vm_compute; discriminate). destruct j; discriminate Hu. } subst j.
    destruct X as [X|X]; [|apply X; reflexivity]. destruct i as [|[|i]]; [discriminate X| |lia]. injection Ht as <-. revert Et. vm_compute. discriminate. }
  split. { left. exists 0%nat, 1%nat. split; [lia|]. split; [eexists; split; reflexivity|]. split; [eexists; split; reflexivity|]. left. reflexivity. }
  split; [|split]; (apply after_then; [exact faq_typed|typed1|typed1|vm_compute; reflexivity]).
Qed.
(** Key 2 revokes key 4 in a chain from key 1 to key 5: the certificate of key 4 is gone, that of key 5 stays. *)
Definition unsevered : db := service_history (toy true) empty_db (service_base ++
  [(timed_call 2, S_add_trust (trust_rec 2 3 800 6) (pid 2) 7, None); (timed_call 2, S_add_trust (trust_rec 3 4 700 6) (pid 3) 7, None);
   (timed_call 2, S_add_trust (trust_rec 4 5 700 6) (pid 4) 7, None)]).
Definition told_certs (x : result Empty_set response * db) : nat := match fst x with Ok (mk_response true None (P_certs rs)) => length rs | _ => 99%nat end.
Example e_C212_served : service_reachable (toy true) unsevered /\ revocation_record (toy true) (rev_rec 2 4 8) (toy_rev 2 4 8) /\ service_typed (S_revoke (rev_rec 2 4 8) 8) /\
  fst (service_step (toy true) unsevered (timed_call 1, S_revoke (rev_rec 2 4 8) 8, None)) = Ok (mk_response true None P_none) /\ (forall z, stored unsevered z -> ~ same_keys (RRev (toy_rev 2 4 8)) z) /\ host_time (timed_call 1) 1 /\
  map (fun p => told_certs (service_step (toy true) unsevered (timed_call 1, S_get_all_certs p 9, None))) [pid 4; pid 5] = [1; 1]%nat /\
  map (fun p => told_certs (service_step (toy true) (snd (service_step (toy true) unsevered (timed_call 1, S_revoke (rev_rec 2 4 8) 8, None))) (timed_call 1, S_get_all_certs p 9, None))) [pid 4; pid 5] = [0; 1]%nat.
Proof.
  split; [eexists; (split; [|reflexivity]); repeat (constructor; [cbn; repeat split; vm_compute; reflexivity|]); constructor|].
  split. { repeat split; try (vm_compute; reflexivity); try (apply extract_ok; vm_compute; reflexivity). }
  split; [split; vm_compute; reflexivity|]. split; [vm_compute; reflexivity|].
  split. { intros z Hz [K1 K2]. cbn [rel_issued_for rel_issued_by] in K1, K2.
    assert (X : existsb (fun r => bytes_eqb (r_for r) (key_text (toy_key 4)) && bytes_eqb (r_by r) (key_text (toy_key 2))) (tbl_relations unsevered) = false) by (vm_compute; reflexivity).
    assert (Y : exists r, In r (tbl_relations unsevered) /\ r_for r = key_text (toy_key 4) /\ r_by r = key_text (toy_key 2)).
    { destruct z as [a|u]; [destruct Hz as (_ & _ & Hz)|destruct Hz as (_ & Hz)]; (eexists; split; [exact Hz|]); cbn [r_for r_by]; split; (f_equal; first [exact (eq_sym K1)|exact (eq_sym K2)]). }
    destruct Y as (r & Ir & E1 & E2). assert (Z : existsb (fun r => bytes_eqb (r_for r) (key_text (toy_key 4)) && bytes_eqb (r_by r) (key_text (toy_key 2))) (tbl_relations unsevered) = true).
    { apply existsb_exists. exists r. split; [exact Ir|]. rewrite E1, E2, !bytes_eqb_refl. reflexivity. }
    rewrite X in Z. discriminate Z. }
  split; [apply timed_host|]. split; vm_compute; reflexivity.
Qed.
