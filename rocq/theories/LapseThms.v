(** How long certificates last: C211. *)
From Coq Require Import List NArith ZArith Bool Lia.
From Verif Require Import Base BaseFacts Text Keys KeysFacts Trust Certificate CertFacts Relation Storage StorageFacts Graph Spec SpecFacts GraphFacts StateFacts GraphThms CopyThms ExtendThms Toy ToyFacts Witness.
From Verif Require Import Service ServiceSpec ServiceFacts ServiceThms ServedThms ServiceWitness PartsServedThms ExtendSpec JumpServedSpec LapseSpec.
Import ListNotations.
Open Scope N_scope.

Lemma asked_keeps : forall C es d b, reachable C d -> typed_history C es -> secs b < i64_bound -> asked_until b es ->
  let d' := graph_history C d es in
  tbl_roots d' = tbl_roots d /\ (forall x, stored d' x -> stored d x) /\ (forall x, stored d x -> ~ db_expired b x -> stored d' x) /\
  (length (tbl_relations d') <= length (tbl_relations d))%nat.
Proof.
  intros C es d b R T Bb Q. apply reachable_inv in R. destruct R as (s & -> & I). destruct (history_writes C es s (inv_wf C s I) T) as (ws & E & W).
  cbn zeta. rewrite E.
  refine (run_invariant C (fun s' => tbl_roots (db_of s') = tbl_roots (db_of s) /\ (forall x, stored (db_of s') x -> stored (db_of s) x) /\
    (forall x, stored (db_of s) x -> ~ db_expired b x -> stored (db_of s') x) /\ (length (tbl_relations (db_of s')) <= length (tbl_relations (db_of s)))%nat) es _ ws s W (inv_wf C s I) _).
  - intros s' w c fu Ws (H1 & H2 & H3 & H4) Ic Tc Wr Wo. destruct (Q c fu Ic) as [Iq It]. destruct w as [n|x|k f].
    + destruct (collected_gc C s' n Ws) as [E1 E2]. cbn [write_of] in Wr. specialize (It n Wr). split; [|split; [|split]].
      * rewrite <- H1. exact E1.
      * intros x Hx. apply E2 in Hx. apply H2. apply Hx.
      * intros x Hx Ne. apply E2. split; [apply H3; assumption|]. intros Ex. apply Ne. destruct x as [a|v]; [|exact Ex]. cbn [db_expired] in *.
        unfold i64_of_u64 in *. revert It Bb Ex. clear. intros. assert (A1 : secs n <? i64_bound = true) by (apply N.ltb_lt; lia). assert (A2 : secs b <? i64_bound = true) by (apply N.ltb_lt; lia).
        rewrite A1 in Ex. rewrite A2. lia.
      * eapply Nat.le_trans; [|exact H4]. cbn [apply_w db_of tbl_relations rels]. unfold gc. rewrite !map_length. generalize (rels s'). intros l. induction l as [|y l IH]; cbn [filter]; [reflexivity|]. destruct (negb (expired n y)); cbn [length]; lia.
    + exfalso. destruct x as [a|v]; cbn [write_of] in Wr; destruct Wr as [Wr _]; [destruct c; try contradiction Iq; contradiction Wr|rewrite Wr in Iq; contradiction Iq].
    + exfalso. destruct Wr as (n & -> & _). contradiction Iq.
  - split; [reflexivity|]. split; auto.
Qed.

(** ** C211 *)
(** While only questions are asked, a certificate is told exactly until one of its trusts expires. *)
Lemma p_C211_certificates : forall C d pk a b fu fu' cs cs' d1 d2 es, reachable C d -> call_typed C (G_get_all_certs pk a) -> call_typed C (G_get_all_certs pk b) -> in_order a b ->
  graph_step C d (G_get_all_certs pk a, fu) = (Ok (GR_certs cs), d1) -> typed_history C es -> asked_until b es ->
  graph_step C (graph_history C d1 es) (G_get_all_certs pk b, fu') = (Ok (GR_certs cs'), d2) ->
  forall c, In c cs' <-> In c cs /\ lasting b c.
Proof.
  intros C d pk a b fu fu' cs cs' d1 d2 es R Ta Tb [O1 O2] E1 Te Q E2.
  assert (R1 : reachable C d1) by (pose proof (reachable_step C d _ fu R Ta) as X; rewrite E1 in X; exact X).
  assert (R2 : reachable C (graph_history C d1 es)) by (apply history_reachable; assumption).
  destruct (asked_keeps C es d1 b R1 Te O2 Q) as (K1 & K2 & K3 & _).
  destruct (p_C24_certificates_exact C d pk a fu cs d1 R Ta E1) as [[_ Y0] X1].
  destruct (p_C24_certificates_exact C _ pk b fu' cs' d2 R2 Tb E2) as [[Y1 Y2] X2].
  assert (Rt : forall k, is_root d2 k <-> is_root d1 k) by (intros k; unfold is_root; rewrite Y1, K1; reflexivity).
  assert (Sd : forall x, stored d2 x -> stored d1 x) by (intros x H; apply K2; apply Y2; exact H).
  assert (Rv : forall v, stored_revocation d2 v <-> stored_revocation d1 v).
  { intros v. split; [exact (Sd (RRev v))|]. intros H. apply (Y2 (RRev v)). split; [apply (K3 (RRev v)); [exact H|intros []]|intros []]. }
  assert (Tm : forall g t, stored_trust d1 g t -> secs a < secs (expires_at t) < i64_bound).
  { intros g t H. destruct (held_rel C d1 (RAuth (mk_auth t g)) R1 H) as (_ & (_ & _ & _ & _ & (V & _))).
    apply (unexpired_secs a (RAuth (mk_auth t g)) ltac:(lia) V ltac:(eauto)). exact (proj2 (proj1 (Y0 (RAuth (mk_auth t g))) H)). }
  assert (Ex : forall g t, stored_trust d2 g t <-> stored_trust d1 g t /\ secs b < secs (expires_at t)).
  { intros g t. destruct (Y2 (RAuth (mk_auth t g))) as [Z1 Z2]. split.
    - intros H. destruct (Z1 H) as [H1 H2]. apply (K2 (RAuth (mk_auth t g))) in H1. split; [exact H1|].
      destruct (held_rel C d1 (RAuth (mk_auth t g)) R1 H1) as (_ & (_ & _ & _ & _ & (V & _))).
      apply (unexpired_secs b (RAuth (mk_auth t g)) O2 V ltac:(eauto)) in H2. apply H2.
    - intros [H Lt]. assert (Ne : ~ db_expired b (RAuth (mk_auth t g))).
      { destruct (held_rel C d1 (RAuth (mk_auth t g)) R1 H) as (_ & (_ & _ & _ & _ & (V & _))). apply (unexpired_secs b (RAuth (mk_auth t g)) O2 V ltac:(eauto)).
        split; [exact Lt|exact (proj2 (Tm g t H))]. }
      apply Z2. split; [apply (K3 (RAuth (mk_auth t g))); assumption|exact Ne]. }
  assert (Rk : forall c i j, revokes_at d2 c i j <-> revokes_at d1 c i j).
  { intros c i j. unfold revokes_at. split; intros [Lij (v & Sv & H)]; (split; [exact Lij|]); exists v; (split; [apply Rv; exact Sv|exact H]). }
  assert (Ch : forall c, root_chain d2 pk c <-> root_chain d1 pk c /\ lasting b c).
  { intros c. unfold root_chain. split.
    - intros (C1 & C2 & C3 & C4 & C5). split.
      + split; [exact C1|]. split; [exact C2|]. split; [|split; [|exact C5]].
        * intros t Ht. destruct (C3 t Ht) as [G1 G2]. split; [apply Rt; exact G1|apply Ex; exact G2].
        * intros i g t Hg Ht. apply Ex. exact (C4 i g t Hg Ht).
      + intros t It. apply In_nth_error in It. destruct It as ([|i] & Hi).
        * apply (Ex (issued_for t)). apply C3. exact Hi.
        * destruct (nth_error c i) as [g|] eqn:Hg; [apply (Ex (issued_for g)); exact (C4 i g t Hg Hi)|]. apply nth_error_None in Hg.
          assert (X : nth_error c (S i) <> None) by (rewrite Hi; discriminate). apply nth_error_Some in X. lia.
    - intros [(C1 & C2 & C3 & C4 & C5) La]. split; [exact C1|]. split; [exact C2|]. split; [|split; [|exact C5]].
      + intros t Ht. destruct (C3 t Ht) as [G1 G2]. split; [apply Rt; exact G1|apply Ex; split; [exact G2|]]. apply La. exact (nth_error_In _ _ Ht).
      + intros i g t Hg Ht. apply Ex. split; [exact (C4 i g t Hg Ht)|]. apply La. exact (nth_error_In _ _ Ht). }
  intros c. rewrite X1, X2, Ch. split.
  - intros [[H1 H2] H3]. split; [split; [exact H1|]|exact H2]. intros i j H. apply (H3 i j). apply Rk. exact H.
  - intros [[H1 H3] H2]. split; [split; [exact H1|exact H2]|]. intros i j H. apply (H3 i j). apply Rk. exact H.
Qed.
(** So the certificates tell the weight at every later time: it is that of the key as a root, or that of the best certificate that has lasted, and nothing if there is none. *)
Lemma p_C211_weights : forall C d pk a b fu fu' cs w d1 d2 es, reachable C d -> small d -> call_typed C (G_get_all_certs pk a) -> call_typed C (G_weight pk b) -> in_order a b ->
  graph_step C d (G_get_all_certs pk a, fu) = (Ok (GR_certs cs), d1) -> typed_history C es -> asked_until b es ->
  graph_step C (graph_history C d1 es) (G_weight pk b, fu') = (Ok (GR_weight w), d2) ->
  greatest (fun v => (exists m, root_max_len d pk m /\ v = 2 ^ m) \/ exists c, In c cs /\ lasting b c /\ cert_weight d c v) w /\
  (w = 0 <-> ~ is_root d pk /\ forall c, In c cs -> ~ lasting b c).
Proof.
  intros C d pk a b fu fu' cs w d1 d2 es R Sm Ta Tb O E1 Te Q E2.
  assert (R1 : reachable C d1) by (pose proof (reachable_step C d _ fu R Ta) as X; rewrite E1 in X; exact X).
  assert (R2 : reachable C (graph_history C d1 es)) by (apply history_reachable; assumption).
  destruct (asked_keeps C es d1 b R1 Te (proj2 O) Q) as (K1 & _ & _ & K4).
  assert (Hf : graph_history C d [(G_get_all_certs pk a, fu)] = d1) by (unfold graph_history; cbn [fold_left]; rewrite E1; reflexivity).
  destruct (asked_keeps C [(G_get_all_certs pk a, fu)] d b R ltac:(constructor; [exact Ta|constructor]) (proj2 O)) as (J1 & _ & _ & J4).
  { intros c f [X|[]]. injection X as <- <-. split; [exact I|]. intros n X. injection X as <-. exact (proj1 O). }
  rewrite Hf in J1, J4.
  set (d' := graph_history C d1 es) in *.
  assert (Er : tbl_roots d' = tbl_roots d) by (rewrite K1; exact J1).
  assert (Sm' : small d') by (unfold small in *; lia).
  destruct (p_C23_queries_succeed C d' (G_get_all_certs pk b) R2 Tb I) as (x & d3 & E3 & Hx). destruct x as [| |cs'|]; try contradiction Hx.
  pose proof (p_C211_certificates C d pk a b fu None cs cs' d1 d3 es R Ta Tb O E1 Te Q E3) as Cs.
  destruct (p_C35_weight_is_best_chain C d' pk b None fu' cs' w d3 d2 R2 Tb Sm' E3 E2) as (_ & G & Z).
  assert (Rm : forall k m, root_max_len d' k m <-> root_max_len d k m) by (intros k m; unfold root_max_len; rewrite Er; reflexivity).
  assert (Cw : forall c v, cert_weight d' c v <-> cert_weight d c v).
  { intros c v. unfold cert_weight. split; intros (t & m & H1 & H2 & H3); exists t, m; (split; [exact H1|]); (split; [apply Rm; exact H2|exact H3]). }
  assert (Kw : forall v, key_weight d' cs' pk v <-> ((exists m, root_max_len d pk m /\ v = 2 ^ m) \/ exists c, In c cs /\ lasting b c /\ cert_weight d c v)).
  { intros v. unfold key_weight. split; (intros [(m & H1 & H2)|(c & H)]; [left; exists m; split; [apply Rm; exact H1|exact H2]|right; exists c]).
    - destruct H as [H1 H2]. apply Cs in H1. apply Cw in H2. split; [apply H1|]. split; [apply H1|exact H2].
    - destruct H as (H1 & H2 & H3). split; [apply Cs; split; assumption|apply Cw; exact H3]. }
  split.
  - destruct G as [G1 G2]. split; [intros v Hv; apply G1; apply Kw; exact Hv|]. destruct G2 as [G2|[G2 G3]]; [left; apply Kw; exact G2|right].
    split; [exact G2|]. intros v Hv. apply (G3 v). apply Kw. exact Hv.
  - rewrite Z. unfold is_root. rewrite Er. split; intros [H1 H2]; (split; [exact H1|]).
    + intros c Ic La. assert (X : In c cs') by (apply Cs; split; assumption). rewrite H2 in X. exact X.
    + destruct cs' as [|c cs']; [reflexivity|]. exfalso. destruct (proj1 (Cs c) (or_introl eq_refl)) as [H3 H4]. exact (H2 c H3 H4).
Qed.
Lemma certs_step : forall C d cp p ts rs d1, crypto_laws C -> service_reachable C d -> ts < u64_bound ->
  service_step C d (cp, S_get_all_certs p ts, None) = (Ok (mk_response true None (P_certs rs)), d1) ->
  exists k cs, peer_key C p k /\ graph_step C d (G_get_all_certs k (from_secs ts), None) = (Ok (GR_certs cs), d1) /\ rs = map (dto_of_cert C) cs.
Proof.
  intros C d cp p ts rs d1 L R Hs E. destruct (certs_asked C d cp p ts rs L R Hs ltac:(rewrite E; reflexivity)) as (k & cs & d' & K & Eg & Er). exists k, cs. split; [exact K|]. split; [|exact Er].
  rewrite service_plan in E. destruct (plan C cp (S_get_all_certs p ts)) as [[g|a]|e| |] eqn:P; try discriminate E.
  - pose proof (plan_requests C cp _ _ P) as Q. destruct g; cbn [requests] in Q; try contradiction. destruct Q as [K' ->]. pose proof (peer_key_fun C _ _ _ K K') as <-.
    cbn [carry_out] in E. rewrite Eg in E. injection E as _ <-. exact Eg.
  - exfalso. revert P. cbn [plan]. unfold gcall. destruct (check_timestamp_tetraplets cp 1); try discriminate. destruct (extract_public_key C p); discriminate.
Qed.
Lemma asked_questions : forall C es ts, s_asked_until ts es -> asked_until (from_secs ts) (asked_all C es).
Proof.
  intros C es ts Q g fu I0. destruct (asked_all_one C es g fu I0) as (cp & c & Ic & Rq & _). destruct (Q cp c fu Ic) as [B Tm].
  destruct c; try contradiction B; destruct g; try contradiction Rq; (split; [exact I|]); intros n X; cbn [call_time] in X; try discriminate X; injection X as <-;
    cbn [requests] in Rq; repeat match goal with H : _ /\ _ |- _ => destruct H end; subst; cbn [from_secs secs]; eapply Tm; reflexivity.
Qed.
Lemma lasting_records : forall C ts c, lasting (from_secs ts) c <-> s_lasting ts (dto_of_cert C c).
Proof.
  intros C ts c. unfold lasting, s_lasting, dto_of_cert. split.
  - intros H r I0. apply in_map_iff in I0. destruct I0 as (t & <- & I0). exact (H t I0).
  - intros H t I0. exact (H _ (in_map (dto_of_trust C) c t I0)).
Qed.
(** At the service: the records of a certificate are told exactly until one of them expires. *)
Lemma p_C211_service : forall C d cp p ts rs d1 es cp' ts', crypto_laws C -> service_reachable C d -> ts <= ts' -> ts' < i64_bound ->
  service_step C d (cp, S_get_all_certs p ts, None) = (Ok (mk_response true None (P_certs rs)), d1) -> service_events_typed es -> s_asked_until ts' es -> host_time cp' 1 ->
  exists rs', fst (service_step C (service_history C d1 es) (cp', S_get_all_certs p ts', None)) = Ok (mk_response true None (P_certs rs')) /\
    forall x, In x rs' <-> In x rs /\ s_lasting ts' x.
Proof.
  intros C d cp p ts rs d1 es cp' ts' L R O1 O2 E Te Q Ht. assert (Hs : ts < u64_bound) by (unfold i64_bound, u64_bound in *; lia). assert (Hs' : ts' < u64_bound) by (unfold i64_bound, u64_bound in *; lia).
  destruct (certs_step C d cp p ts rs d1 L R Hs E) as (k & cs & K & Eg & ->).
  assert (R1 : service_reachable C d1) by (pose proof (service_reachable_step C d cp (S_get_all_certs p ts) None Hs R) as X; rewrite E in X; exact X).
  assert (R2 : service_reachable C (service_history C d1 es)) by (apply service_history_reachable; assumption).
  destruct (certs_told C _ cp' p k ts' L R2 Hs' K Ht) as (cs' & d2 & Eg' & Er). exists (map (dto_of_cert C) cs'). split; [exact Er|].
  rewrite service_history_db in Eg'.
  assert (Vk : pk_valid C k) by (eapply peer_key_valid; eassumption).
  pose proof (p_C211_certificates C d k (from_secs ts) (from_secs ts') None None cs cs' d1 d2 (asked_all C es) (p_C66_service_stores C d L R) ltac:(split; [exact Vk|apply from_secs_wf; exact Hs])
    ltac:(split; [exact Vk|apply from_secs_wf; exact Hs']) (conj O1 O2) Eg (asked_all_typed C es L Te) (asked_questions C es ts' Q) Eg') as H.
  intros x. rewrite !in_map_iff. split.
  - intros (c & <- & Hc). apply H in Hc. destruct Hc as [Hc La]. split; [exists c; auto|]. apply lasting_records. exact La.
  - intros ((c & <- & Hc) & La). exists c. split; [reflexivity|]. apply H. split; [exact Hc|]. apply (lasting_records C). exact La.
Qed.
(** The weight of the peer at every later time can be told from them. *)
Lemma p_C211_service_weight : forall C d cp p k ts rs d1 es cp' ts', crypto_laws C -> wasm32 C = true -> service_reachable C d -> small d -> ts <= ts' -> ts' < i64_bound -> peer_key C p k ->
  service_step C d (cp, S_get_all_certs p ts, None) = (Ok (mk_response true None (P_certs rs)), d1) -> service_events_typed es -> s_asked_until ts' es -> host_time cp' 1 ->
  exists w, fst (service_step C (service_history C d1 es) (cp', S_get_weight p ts', None)) = Ok (mk_response true None (P_weight w p)) /\
    greatest (fun v => (exists m, root_max_len d k m /\ v = 2 ^ m) \/ exists x, In x rs /\ s_lasting ts' x /\ record_weight C d x v) w /\
    (w = 0 <-> ~ is_root d k /\ forall x, In x rs -> ~ s_lasting ts' x).
Proof.
  intros C d cp p k ts rs d1 es cp' ts' L W R Sm O1 O2 K E Te Q Ht. assert (Hs : ts < u64_bound) by (unfold i64_bound, u64_bound in *; lia). assert (Hs' : ts' < u64_bound) by (unfold i64_bound, u64_bound in *; lia).
  destruct (certs_step C d cp p ts rs d1 L R Hs E) as (k0 & cs & K0 & Eg & Ers). pose proof (peer_key_fun C _ _ _ K K0) as <-.
  assert (R1 : service_reachable C d1) by (pose proof (service_reachable_step C d cp (S_get_all_certs p ts) None Hs R) as X; rewrite E in X; exact X).
  assert (R2 : service_reachable C (service_history C d1 es)) by (apply service_history_reachable; assumption).
  assert (Vk : pk_valid C k) by (eapply peer_key_valid; eassumption).
  assert (Tw : call_typed C (G_weight k (from_secs ts'))) by (split; [exact Vk|apply from_secs_wf; exact Hs']).
  destruct (p_C23_queries_succeed C _ _ (p_C66_service_stores C _ L R2) Tw I) as (y & d2 & Ew & Hy). destruct y as [|w| |]; try contradiction Hy.
  exists w. split; [apply (weight_response C _ cp' p k ts' w K Ht); rewrite Ew; reflexivity|].
  pose proof Ew as Ew'. rewrite service_history_db in Ew'.
  destruct (p_C211_weights C d k (from_secs ts) (from_secs ts') None None cs w d1 d2 (asked_all C es) (p_C66_service_stores C d L R) Sm ltac:(split; [exact Vk|apply from_secs_wf; exact Hs])
    Tw (conj O1 O2) Eg (asked_all_typed C es L Te) (asked_questions C es ts' Q) Ew') as [G Z].
  assert (Rw : forall c v, In c cs -> record_weight C d (dto_of_cert C c) v <-> cert_weight d c v).
  { intros c v Hc. unfold record_weight, cert_weight, names, at_pos, dto_of_cert. rewrite map_length. split.
    - intros (root & m & (r & Hr & Pr) & Hm & Ev). rewrite nth_error_map in Hr. destruct (nth_error c 0) as [t|] eqn:Et; [|discriminate Hr]. injection Hr as <-. exists t, m. split; [reflexivity|].
      pose proof (certs_keys C d cp p ts rs k cs d1 c 0 t L W R Hs ltac:(rewrite E; reflexivity) K Eg Ers Hc Et) as Kt. pose proof (peer_key_fun C _ _ _ Pr Kt) as <-. split; [exact Hm|exact Ev].
    - intros (t & m & Et & Hm & Ev). exists (issued_for t), m. split; [|split; [exact Hm|exact Ev]]. exists (dto_of_trust C t). rewrite nth_error_map, Et. split; [reflexivity|].
      exact (certs_keys C d cp p ts rs k cs d1 c 0 t L W R Hs ltac:(rewrite E; reflexivity) K Eg Ers Hc Et). }
  assert (Eq : forall v, ((exists m, root_max_len d k m /\ v = 2 ^ m) \/ exists c, In c cs /\ lasting (from_secs ts') c /\ cert_weight d c v) <->
                         ((exists m, root_max_len d k m /\ v = 2 ^ m) \/ exists x, In x rs /\ s_lasting ts' x /\ record_weight C d x v)).
  { intros v. split; (intros [H|(c & H1 & H2 & H3)]; [left; exact H|right]).
    - exists (dto_of_cert C c). split; [rewrite Ers; apply in_map; exact H1|]. split; [apply lasting_records; exact H2|apply Rw; assumption].
    - rewrite Ers in H1. apply in_map_iff in H1. destruct H1 as (c0 & <- & H1). exists c0. split; [exact H1|]. split; [apply (lasting_records C); exact H2|apply Rw; assumption]. }
  split.
  - destruct G as [G1 G2]. split; [intros v Hv; apply G1; apply Eq; exact Hv|]. destruct G2 as [G2|[G2 G3]]; [left; apply Eq; exact G2|right].
    split; [exact G2|]. intros v Hv. apply (G3 v). apply Eq. exact Hv.
  - rewrite Z. split; intros [H1 H2]; (split; [exact H1|]).
    + intros x Hx La. rewrite Ers in Hx. apply in_map_iff in Hx. destruct Hx as (c & <- & Hc). apply (H2 c Hc). apply (lasting_records C). exact La.
    + intros c Hc La. apply (H2 (dto_of_cert C c)); [rewrite Ers; apply in_map; exact Hc|apply lasting_records; exact La].
Qed.
(** B has two certificates, of which one lasts until second 700. *)
Definition asked_meanwhile : list graph_call := [G_get_all_certs (toy_key B) (at_ 10); G_weight (toy_key A) (at_ 300); G_get_all_certs_from (toy_key B) (toy_key R) (at_ 20)].
Example e_C211_two_ways : reachable W (db_of (after two_ways)) /\ small (db_of (after two_ways)) /\ in_order (at_ 10) (at_ 700) /\ asked_until (at_ 700) (no_failures asked_meanwhile) /\
  fst (graph_step W (db_of (after two_ways)) (G_get_all_certs (toy_key B) (at_ 10), None)) = Ok (GR_certs [way1; way2]) /\ ~ lasting (at_ 700) way1 /\ lasting (at_ 700) way2 /\ lasting (at_ 699) way1 /\
  answer_after W (db_of (after two_ways)) asked_meanwhile (G_get_all_certs (toy_key B) (at_ 700)) = Ok (GR_certs [way2]) /\
  answer_after W (db_of (after two_ways)) asked_meanwhile (G_weight (toy_key B) (at_ 699)) = Ok (GR_weight 16) /\
  answer_after W (db_of (after two_ways)) asked_meanwhile (G_weight (toy_key B) (at_ 700)) = Ok (GR_weight 8).
Proof.
  split; [apply after_reachable; exact two_ways_typed|]. split; [vm_compute; auto 10|]. split; [split; vm_compute; congruence|].
  split. { intros c fu H. cbn [no_failures asked_meanwhile map In] in H. destruct H as [H|[H|[H|[]]]]; injection H as <- <-; (split; [exact I|]); intros n X; injection X as <-; vm_compute; discriminate. }
  split; [ans two_ways_typed two_ways_certs|].
  split. { intros H. specialize (H (nth 1 way1 (toy_trust R R 0 0)) ltac:(right; left; reflexivity)). revert H. vm_compute. discriminate. }
  split. { intros t H. repeat (destruct H as [<-|H]; [vm_compute; reflexivity|]). destruct H. }
  split. { intros t H. repeat (destruct H as [<-|H]; [vm_compute; reflexivity|]). destruct H. }
  unfold asked_meanwhile. split; [|split]; (apply after_then; [exact two_ways_typed|typed1|typed1|vm_compute; reflexivity]).
Qed.
(** The certificate of key 4 lasts until its trust of key 2 expires at second 900; then key 4 weighs nothing. *)
Example e_C211_served : service_reachable (toy true) longer_store /\ small longer_store /\ host_time (timed_call 1) 1 /\ peer_key (toy true) (pid 4) (toy_key 4) /\
  s_asked_until 900 [(timed_call 1, S_get_weight (pid 2) 700, None)] /\
  fst (service_step (toy true) longer_store (timed_call 1, S_get_all_certs (pid 4) 30, None)) = Ok (mk_response true None (P_certs [longer_cert])) /\
  s_lasting 899 longer_cert /\ ~ s_lasting 900 longer_cert /\
  map (fun ts => fst (service_step (toy true) (service_history (toy true) longer_store [(timed_call 1, S_get_all_certs (pid 4) 30, None); (timed_call 1, S_get_weight (pid 2) 700, None)])
    (timed_call 1, S_get_weight (pid 4) ts, None))) [899; 900] = [Ok (mk_response true None (P_weight 4 (pid 4))); Ok (mk_response true None (P_weight 0 (pid 4)))].
Proof.
  split; [apply service_history_reachable; [exact base_reachable|repeat constructor]|]. split; [vm_compute; auto 10|]. split; [apply timed_host|]. split; [apply extract_ok; vm_compute; reflexivity|].
  split. { intros cp c fu [H|[]]. injection H as <- <- <-. split; [exact I|]. intros n i X. injection X as <- <-. vm_compute. discriminate. }
  split; [vm_compute; reflexivity|].
  split. { intros r H. repeat (destruct H as [<-|H]; [vm_compute; reflexivity|]). destruct H. }
  split. { intros H. specialize (H (trust_rec 1 2 900 1) ltac:(right; left; reflexivity)). revert H. vm_compute. discriminate. }
  vm_compute. reflexivity.
Qed.
