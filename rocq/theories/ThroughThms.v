(** What time, a revocation, a new trust and a new root change in the certificates and weights through an issuer: C211 to C214. *)
From Coq Require Import List NArith ZArith Bool Lia.
From Verif Require Import Base BaseFacts Text Keys KeysFacts Trust TrustFacts Certificate CertFacts Relation Storage StorageFacts Graph Spec SpecFacts GraphFacts StateFacts GraphThms ReadmeThms InfluenceSpec InfluenceThms ExtendThms Toy ToyFacts Witness.
From Verif Require Import CopyThms LapseThms SeverThms AnewThms CrownThms JoinThms ExtendSpec SeverSpec AnewSpec CrownSpec LapseSpec.
Import ListNotations.
Open Scope N_scope.

(** ** C211 *)
(** The certificates through an issuer are told exactly until a trust in them expires, too. *)
Lemma p_C211_from : forall C d pk i a b fu fu' cs cs' d1 d2 es, reachable C d -> call_typed C (G_get_all_certs_from pk i a) -> call_typed C (G_get_all_certs_from pk i b) -> in_order a b ->
  graph_step C d (G_get_all_certs_from pk i a, fu) = (Ok (GR_certs cs), d1) -> typed_history C es -> asked_until b es ->
  graph_step C (graph_history C d1 es) (G_get_all_certs_from pk i b, fu') = (Ok (GR_certs cs'), d2) ->
  forall c, In c cs' <-> In c cs /\ lasting b c.
Proof.
  intros C d pk i a b fu fu' cs cs' d1 d2 es R Ta Tb O E1 Te Q E2 c. pose proof Ta as (Tk & _ & Tn). pose proof Tb as (_ & _ & Tm).
  destruct (certs_answer C d pk a R (conj Tk Tn)) as (al & e & Ea).
  assert (e = d1) as ->.
  { apply reachable_inv in R. destruct R as (s & -> & I). apply step_ok in Ea; [|exact I|exact (conj Tk Tn)]. apply step_ok in E1; [|exact I|exact Ta].
    destruct Ea as [_ ->]. destruct E1 as [_ ->]. reflexivity. }
  assert (R1 : reachable C d1) by (pose proof (reachable_step C d _ fu R Ta) as X; rewrite E1 in X; exact X).
  assert (R2 : reachable C (graph_history C d1 es)) by (apply history_reachable; assumption).
  destruct (certs_answer C (graph_history C d1 es) pk b R2 (conj Tk Tm)) as (al' & e' & Ea').
  rewrite (p_C46_from_is_filter C d pk i a None fu al cs d1 d1 R Ta Ea E1 c), (p_C46_from_is_filter C _ pk i b None fu' al' cs' e' d2 R2 Tb Ea' E2 c).
  rewrite (p_C211_certificates C d pk a b None None al al' d1 e' es R (conj Tk Tn) (conj Tk Tm) O Ea Te Q Ea' c). tauto.
Qed.
(** The weight through the issuer at every later time is that of the best of them that has lasted, and nothing if there is none. *)
Lemma p_C211_weights_from : forall C d pk i a b fu fu' cs w d1 d2 es, reachable C d -> small d -> call_typed C (G_get_all_certs_from pk i a) -> call_typed C (G_weight_from pk i b) -> in_order a b ->
  graph_step C d (G_get_all_certs_from pk i a, fu) = (Ok (GR_certs cs), d1) -> typed_history C es -> asked_until b es ->
  graph_step C (graph_history C d1 es) (G_weight_from pk i b, fu') = (Ok (GR_weight w), d2) ->
  greatest (fun v => exists c, In c cs /\ lasting b c /\ cert_weight d c v) w.
Proof.
  intros C d pk i a b fu fu' cs w d1 d2 es R Sm Ta Tb O E1 Te Q E2.
  assert (R1 : reachable C d1) by (pose proof (reachable_step C d _ fu R Ta) as X; rewrite E1 in X; exact X).
  assert (R2 : reachable C (graph_history C d1 es)) by (apply history_reachable; assumption).
  destruct (asked_keeps C es d1 b R1 Te (proj2 O) Q) as (K1 & _ & _ & K4).
  assert (Hf : graph_history C d [(G_get_all_certs_from pk i a, fu)] = d1) by (unfold graph_history; cbn [fold_left]; rewrite E1; reflexivity).
  destruct (asked_keeps C [(G_get_all_certs_from pk i a, fu)] d b R ltac:(constructor; [exact Ta|constructor]) (proj2 O)) as (J1 & _ & _ & J4).
  { intros c f [X|[]]. injection X as <- <-. split; [exact I|]. intros n X. injection X as <-. exact (proj1 O). }
  rewrite Hf in J1, J4. set (d' := graph_history C d1 es) in *.
  assert (Er : tbl_roots d' = tbl_roots d) by (rewrite K1; exact J1). assert (Sm' : small d') by (unfold small in *; lia).
  destruct (certs_from_answer C d' pk i b R2 Tb) as (cs' & d3 & E3).
  pose proof (p_C211_from C d pk i a b fu None cs cs' d1 d3 es R Ta Tb O E1 Te Q E3) as Cs.
  destruct (p_C46_weight_from_exact C d' pk i b None fu' cs' w d3 d2 R2 Tb Sm' E3 E2) as [G1 G2].
  assert (Eq : forall v, (exists c, In c cs' /\ cert_weight d' c v) <-> exists c, In c cs /\ lasting b c /\ cert_weight d c v).
  { intros v. assert (Cw : forall c, cert_weight d' c v <-> cert_weight d c v) by (intros c; unfold cert_weight, root_max_len; rewrite Er; reflexivity). split; intros (c & H); exists c.
    - destruct H as [H1 H2]. apply Cs in H1. apply Cw in H2. split; [apply H1|]. split; [apply H1|exact H2].
    - destruct H as (H1 & H2 & H3). split; [apply Cs; split; assumption|apply Cw; exact H3]. }
  split; [intros v Hv; apply G1; apply Eq; exact Hv|]. destruct G2 as [G2|[G2 G3]]; [left; apply Eq; exact G2|right]. split; [exact G2|]. intros v Hv. apply (G3 v). apply Eq. exact Hv.
Qed.
(** B has a certificate through A, which lasts beyond second 700 as in [C211_example_two_ways]. *)
Example e_C211_issuer : call_typed W (G_get_all_certs_from (toy_key B) (toy_key A) (at_ 10)) /\ asked_until (at_ 700) (no_failures asked_meanwhile) /\
  fst (graph_step W (db_of (after two_ways)) (G_get_all_certs_from (toy_key B) (toy_key A) (at_ 10), None)) = Ok (GR_certs [way2]) /\ lasting (at_ 700) way2 /\
  answer_after W (db_of (after two_ways)) asked_meanwhile (G_get_all_certs_from (toy_key B) (toy_key A) (at_ 700)) = Ok (GR_certs [way2]) /\
  answer_after W (db_of (after two_ways)) asked_meanwhile (G_weight_from (toy_key B) (toy_key A) (at_ 700)) = Ok (GR_weight 8).
Proof.
  split; [typed1|].
  split. { intros c fu H. cbn [no_failures asked_meanwhile map In] in H. destruct H as [H|[H|[H|[]]]]; injection H as <- <-; (split; [exact I|]); intros n X; injection X as <-; vm_compute; discriminate. }
  split; [apply after_answer; [exact two_ways_typed|typed1|vm_compute; reflexivity]|].
  split. { intros t H. repeat (destruct H as [<-|H]; [vm_compute; reflexivity|]). destruct H. }
  unfold asked_meanwhile. split; (apply after_then; [exact two_ways_typed|typed1|typed1|vm_compute; reflexivity]).
Qed.
(** ** C212 *)
(** A new revocation takes the same certificates away from those through an issuer. *)
Lemma p_C212_from : forall C d v fu d' pk i now fu1 fu2 cs cs' d1 d2, reachable C d -> revocation_typed C v -> call_typed C (G_get_all_certs_from pk i now) ->
  graph_step C d (G_revoke v, fu) = (Ok GR_unit, d') -> (forall z, stored d z -> same_keys (RRev v) z -> before (rel_issued_at z) (revoked_at v)) ->
  graph_step C d (G_get_all_certs_from pk i now, fu1) = (Ok (GR_certs cs), d1) -> graph_step C d' (G_get_all_certs_from pk i now, fu2) = (Ok (GR_certs cs'), d2) ->
  forall c, In c cs' <-> In c cs /\ ~ cuts v c.
Proof.
  intros C d v fu d' pk i now fu1 fu2 cs cs' d1 d2 R Tv T Er New E1 E2 c. pose proof T as (Tk & _ & Tn).
  assert (R2 : reachable C d') by (pose proof (reachable_step C d (G_revoke v) fu R Tv) as X; rewrite Er in X; exact X).
  destruct (certs_answer C d pk now R (conj Tk Tn)) as (al & e & Ea). destruct (certs_answer C d' pk now R2 (conj Tk Tn)) as (al' & e' & Ea').
  rewrite (p_C46_from_is_filter C d pk i now None fu1 al cs e d1 R T Ea E1 c), (p_C46_from_is_filter C d' pk i now None fu2 al' cs' e' d2 R2 T Ea' E2 c).
  rewrite (p_C212_certificates C d v fu d' pk now None None al al' e e' R Tv (conj Tk Tn) Er New Ea Ea' c). tauto.
Qed.
(** The weight through an issuer that is left is that of the best other certificate. *)
Lemma p_C212_weights_from : forall C d v fu d' pk i now fu1 fu2 cs w d1 d2, reachable C d -> small d' -> revocation_typed C v -> call_typed C (G_get_all_certs_from pk i now) ->
  graph_step C d (G_revoke v, fu) = (Ok GR_unit, d') -> (forall z, stored d z -> same_keys (RRev v) z -> before (rel_issued_at z) (revoked_at v)) ->
  graph_step C d (G_get_all_certs_from pk i now, fu1) = (Ok (GR_certs cs), d1) -> graph_step C d' (G_weight_from pk i now, fu2) = (Ok (GR_weight w), d2) ->
  greatest (fun x => exists c, In c cs /\ ~ cuts v c /\ cert_weight d c x) w.
Proof.
  intros C d v fu d' pk i now fu1 fu2 cs w d1 d2 R Sm Tv T Er New E1 E2.
  assert (R2 : reachable C d') by (pose proof (reachable_step C d (G_revoke v) fu R Tv) as X; rewrite Er in X; exact X).
  destruct (certs_from_answer C d' pk i now R2 T) as (cs' & e' & Ec). pose proof (p_C212_from C d v fu d' pk i now fu1 None cs cs' d1 e' R Tv T Er New E1 Ec) as Cs.
  destruct (p_C46_weight_from_exact C d' pk i now None fu2 cs' w e' d2 R2 T Sm Ec E2) as [G1 G2]. destruct (revoke_stores C d v fu d' R Tv Er) as [Ro _].
  assert (Eq : forall x, (exists c, In c cs' /\ cert_weight d' c x) <-> exists c, In c cs /\ ~ cuts v c /\ cert_weight d c x).
  { intros x. split; intros (c & H); exists c.
    - destruct H as [H1 H2]. apply Cs in H1. split; [apply H1|]. split; [apply H1|apply (weight_same d d' Ro); exact H2].
    - destruct H as (H1 & H2 & H3). split; [apply Cs; split; assumption|apply (weight_same d d' Ro); exact H3]. }
  split; [intros x Hx; apply G1; apply Eq; exact Hx|]. destruct G2 as [G2|[G2 G3]]; [left; apply Eq; exact G2|right]. split; [exact G2|]. intros x Hx. apply (G3 x). apply Eq. exact Hx.
Qed.
(** R trusts A, A trusts B and B trusts D. R revokes A: nothing is left of D through A. *)
Example e_C212_issuer : call_typed W (G_get_all_certs_from (toy_key D) (toy_key A) (at_ 22)) /\ revocation_typed W (toy_rev R A 9) /\
  (forall z, stored (db_of (after faq)) z -> same_keys (RRev (toy_rev R A 9)) z -> before (rel_issued_at z) (at_ 9)) /\
  fst (graph_step W (db_of (after faq)) (G_get_all_certs_from (toy_key D) (toy_key A) (at_ 22), None)) = Ok (GR_certs [faq_cert]) /\
  answer_after W (db_of (after faq)) [G_revoke (toy_rev R A 9)] (G_get_all_certs_from (toy_key D) (toy_key A) (at_ 22)) = Ok (GR_certs []) /\
  answer_after W (db_of (after faq)) [G_revoke (toy_rev R A 9)] (G_weight_from (toy_key D) (toy_key A) (at_ 22)) = Ok (GR_weight 0).
Proof.
  split; [typed1|]. split; [repeat constructor|].
  split. { intros z Hz. apply (proj1 (after_stored faq z faq_typed)) in Hz. rewrite faq_rels in Hz. repeat (destruct Hz as [<-|Hz]; [intros [X Y]; revert X Y; vm_compute; intuition discriminate|]). destruct Hz. }
  split; [apply after_answer; [exact faq_typed|typed1|vm_compute; reflexivity]|].
  split; (apply after_then; [exact faq_typed|typed1|typed1|vm_compute; reflexivity]).
Qed.
(** ** C213 *)
(** A renewed trust takes the place of the one before in the certificates through an issuer, too. *)
Lemma p_C213_from : forall C d t b now w d' pk i at' z fu1 fu2 cs cs' d1 d2, reachable C d -> small d -> call_typed C (G_add_trust t b now) ->
  graph_step C d (G_add_trust t b now, None) = (Ok (GR_weight w), d') -> w <> 0 -> secs now <= secs at' < secs (expires_at t) -> secs (expires_at t) < i64_bound ->
  (forall x, stored d x -> same_keys (RAuth (mk_auth t b)) x -> before (rel_issued_at x) (issued_at t)) -> call_typed C (G_get_all_certs_from pk i at') ->
  graph_step C d (G_get_all_certs_from pk i at', fu1) = (Ok (GR_certs cs), d1) -> graph_step C d' (G_get_all_certs_from pk i at', fu2) = (Ok (GR_certs cs'), d2) ->
  live d at' b z -> issued_for z = issued_for t ->
  (forall c, In c cs' <-> exists c0, In c0 cs /\ exchanged b (whole_trust t) c0 c) /\ (forall c0, In c0 cs -> exists c, In c cs' /\ exchanged b (whole_trust t) c0 c).
Proof.
  intros C d t b now w d' pk i at' z fu1 fu2 cs cs' d1 d2 R Sm Tt Ea Nw Ex Ex3 New T E1 E2 Lz Ez. pose proof T as (Tk & _ & Tn).
  destruct (taken_exact C d t b now w d' at' R Sm Tt Ea Nw Ex Ex3 New) as (R2 & _).
  destruct (certs_answer C d pk at' R (conj Tk Tn)) as (al & e & Al). destruct (certs_answer C d' pk at' R2 (conj Tk Tn)) as (al' & e' & Al').
  destruct (p_C213_renewed C d t b now w d' pk at' z None None al al' e e' R Sm Tt Ea Nw Ex Ex3 New (conj Tk Tn) Al Al' Lz Ez) as [H1 H2].
  pose proof (p_C46_from_is_filter C d pk i at' None fu1 al cs e d1 R T Al E1) as F. pose proof (p_C46_from_is_filter C d' pk i at' None fu2 al' cs' e' d2 R2 T Al' E2) as F'.
  split.
  - intros c. rewrite F', H1. split.
    + intros ((c0 & I0 & X) & n & K). exists c0. split; [apply F; split; [exact I0|]; exists n; apply (same_key_at _ _ _ _ X n); exact K|exact X].
    + intros (c0 & I0 & X). apply F in I0. destruct I0 as (I0 & n & K). split; [exists c0; auto|]. exists n. apply (same_key_at _ _ _ _ X n). exact K.
  - intros c0 I0. apply F in I0. destruct I0 as (I0 & n & K). destruct (H2 c0 I0) as (c & Ic & X). exists c. split; [apply F'; split; [exact Ic|]; exists n; apply (same_key_at _ _ _ _ X n); exact K|exact X].
Qed.
(** No weight through an issuer changes by that. *)
Lemma p_C213_weights_from : forall C d t b now w d' pk i at' z fu1 fu2 w1 w2 d1 d2, reachable C d -> small d -> small d' -> call_typed C (G_add_trust t b now) ->
  graph_step C d (G_add_trust t b now, None) = (Ok (GR_weight w), d') -> w <> 0 -> secs now <= secs at' < secs (expires_at t) -> secs (expires_at t) < i64_bound ->
  (forall x, stored d x -> same_keys (RAuth (mk_auth t b)) x -> before (rel_issued_at x) (issued_at t)) -> call_typed C (G_weight_from pk i at') ->
  graph_step C d (G_weight_from pk i at', fu1) = (Ok (GR_weight w1), d1) -> graph_step C d' (G_weight_from pk i at', fu2) = (Ok (GR_weight w2), d2) ->
  live d at' b z -> issued_for z = issued_for t -> w1 = w2.
Proof.
  intros C d t b now w d' pk i at' z fu1 fu2 w1 w2 d1 d2 R Sm Sm' Tt Ea Nw Ex Ex3 New T E1 E2 Lz Ez.
  destruct (taken_exact C d t b now w d' at' R Sm Tt Ea Nw Ex Ex3 New) as (R2 & Ro & _ & _).
  destruct (renewed_counts C d t b now w d' pk at' z R Sm Tt Ea Nw Ex Ex3 New Lz Ez) as (A1 & A2 & _).
  pose proof (weight_from_is C d pk i at' fu1 w1 d1 R T Sm E1) as G1. pose proof (weight_from_is C d' pk i at' fu2 w2 d2 R2 T Sm' E2) as G2.
  assert (W : forall c0 c v, exchanged b (whole_trust t) c0 c -> cert_weight d c0 v <-> cert_weight d' c v).
  { intros c0 c v X. rewrite (weight_same d d' Ro). pose proof (same_key_at _ _ _ _ X 0%nat) as K. destruct X as [Ln _]. unfold cert_weight. rewrite Ln. split; intros (u & m & H1 & H2 & H3).
    - destruct (proj2 (K (issued_for u)) (ex_intro _ u (conj H1 eq_refl))) as (u' & H & E). exists u', m. rewrite E. auto.
    - destruct (proj1 (K (issued_for u)) (ex_intro _ u (conj H1 eq_refl))) as (u' & H & E). exists u', m. rewrite E. auto. }
  assert (Q : forall v, (exists c, (counting d at' pk c /\ exists n, key_at c n i) /\ cert_weight d c v) <-> exists c, (counting d' at' pk c /\ exists n, key_at c n i) /\ cert_weight d' c v).
  { intros v. split; intros (c & (H1 & n & K) & H2).
    - destruct (A2 c H1) as (c' & H & X). exists c'. split; [split; [exact H|exists n; apply (same_key_at _ _ _ _ X n); exact K]|]. apply (W c c' v X). exact H2.
    - destruct (A1 c H1) as (c' & H & X). exists c'. split; [split; [exact H|exists n; apply (same_key_at _ _ _ _ X n); exact K]|]. apply (W c' c v X). exact H2. }
  destruct G1 as [G1 G1']. destruct G2 as [G2 G2']. apply N.le_antisymm.
  - destruct G1' as [H|[-> _]]; [apply G2; apply Q; exact H|apply N.le_0_l].
  - destruct G2' as [H|[-> _]]; [apply G1; apply Q; exact H|apply N.le_0_l].
Qed.
(** R gives A a new trust before the old one has expired: it stands in the certificate of D through A, with the same weight. The other hypotheses are met as in [C213_example_faq]. *)
Example e_C213_issuer : call_typed W (G_weight_from (toy_key D) (toy_key A) (at_ 22)) /\ call_typed W (G_add_trust (toy_trust R A 950 20) (toy_key R) (at_ 21)) /\
  fst (graph_step W (db_of (after faq)) (G_weight_from (toy_key D) (toy_key A) (at_ 22), None)) = Ok (GR_weight 2) /\
  answer_after W (db_of (after faq)) [G_add_trust (toy_trust R A 950 20) (toy_key R) (at_ 21)] (G_get_all_certs_from (toy_key D) (toy_key A) (at_ 22)) =
    Ok (GR_certs [[toy_trust R R 1000 1; toy_trust R A 950 20; toy_trust A B 800 1; toy_trust B D 700 1]]) /\
  answer_after W (db_of (after faq)) [G_add_trust (toy_trust R A 950 20) (toy_key R) (at_ 21)] (G_weight_from (toy_key D) (toy_key A) (at_ 22)) = Ok (GR_weight 2).
Proof.
  split; [typed1|]. split; [typed1|]. split; [apply after_answer; [exact faq_typed|typed1|vm_compute; reflexivity]|].
  split; (apply after_then; [exact faq_typed|typed1|typed1|vm_compute; reflexivity]).
Qed.
(** ** C214 *)
(** Once a root was set, the certificates through an issuer of before are told, and those through the issuer that begin with the trust of the root for itself. *)
Lemma p_C214_from : forall C d k n fu d' pk i now fu1 fu2 cs cs' d1 d2, reachable C d -> call_typed C (G_set_root k n) -> call_typed C (G_get_all_certs_from pk i now) ->
  graph_step C d (G_set_root k n, fu) = (Ok GR_unit, d') ->
  graph_step C d (G_get_all_certs_from pk i now, fu1) = (Ok (GR_certs cs), d1) -> graph_step C d' (G_get_all_certs_from pk i now, fu2) = (Ok (GR_certs cs'), d2) ->
  forall c, In c cs' <-> In c cs \/ (chain_below d now k pk c /\ exists j, key_at c j i).
Proof.
  intros C d k n fu d' pk i now fu1 fu2 cs cs' d1 d2 R Tr T Er E1 E2 c.
  assert (R2 : reachable C d') by (pose proof (reachable_step C d (G_set_root k n) fu R Tr) as X; rewrite Er in X; exact X).
  rewrite (certs_from_are C d' pk i now fu2 cs' d2 R2 T E2), (certs_from_are C d pk i now fu1 cs d1 R T E1), (crowned_counts d k _ d' now pk c (p_C40_set_root_exact C d k n fu d' R Tr Er)). tauto.
Qed.
(** The weight through an issuer is then the greater of what it was and what those certificates give; if the root was one before, it is what it was. *)
Lemma p_C214_weights_from : forall C d k n fu d' pk i now fu1 fu2 w1 w2 d1 d2, reachable C d -> small d -> call_typed C (G_set_root k n) -> call_typed C (G_weight_from pk i now) ->
  graph_step C d (G_set_root k n, fu) = (Ok GR_unit, d') ->
  graph_step C d (G_weight_from pk i now, fu1) = (Ok (GR_weight w1), d1) -> graph_step C d' (G_weight_from pk i now, fu2) = (Ok (GR_weight w2), d2) ->
  (is_root d k -> w2 = w1) /\
  (~ is_root d k -> greatest (fun x => x = w1 \/ exists c, chain_below d now k pk c /\ (exists j, key_at c j i) /\ x = chain_weight (N.min n 16) (length c - 1)) w2).
Proof.
  intros C d k n fu d' pk i now fu1 fu2 w1 w2 d1 d2 R Sm Tr T Er E1 E2.
  assert (R2 : reachable C d') by (pose proof (reachable_step C d (G_set_root k n) fu R Tr) as X; rewrite Er in X; exact X).
  pose proof (p_C40_set_root_exact C d k n fu d' R Tr Er) as Rs. pose proof Rs as (Rl & Ir & Rm).
  assert (Sm' : small d') by (unfold small; rewrite Rl; exact Sm).
  pose proof (weight_from_is C d pk i now fu1 w1 d1 R T Sm E1) as [G1 G1']. pose proof (weight_from_is C d' pk i now fu2 w2 d2 R2 T Sm' E2) as [G2 G2'].
  assert (Cw : forall c x, cert_weight d' c x <-> cert_weight d c x \/ (~ is_root d k /\ key_at c 0 k /\ x = chain_weight (N.min n 16) (length c - 1))).
  { intros c x. unfold cert_weight. split.
    - intros (t & m & H1 & H2 & H3). apply Rm in H2. destruct H2 as [H2|(H2 & H4 & ->)]; [left; exists t, m; auto|right]. split; [exact H4|]. split; [exists t; auto|exact H3].
    - intros [(t & m & H1 & H2 & H3)|(H1 & (t & H2 & H3) & H4)]; [exists t, m; split; [exact H1|]; split; [apply Rm; left; exact H2|exact H3]|].
      exists t, (N.min n 16). split; [exact H2|]. split; [apply Rm; right; auto|exact H4]. }
  assert (Up : w1 <= w2).
  { destruct G1' as [(c & (H1 & Hi) & H2)|[-> _]]; [|apply N.le_0_l].
    apply G2. exists c. split; [split; [apply (crowned_counts d k _ d' now pk c Rs); left; exact H1|exact Hi]|apply Cw; left; exact H2]. }
  split.
  - intros Hr. apply N.le_antisymm; [|exact Up].
    destruct G2' as [(c & (H1 & Hi) & H2)|[-> _]]; [|apply N.le_0_l].
    apply Cw in H2. destruct H2 as [H2|(H2 & _)]; [|destruct (H2 Hr)]. apply G1. exists c. split; [split; [|exact Hi]|exact H2].
    apply (crowned_counts d k _ d' now pk c Rs) in H1. destruct H1 as [H1|(C1 & C0 & C2 & C3 & C4 & C5 & Rv)]; [exact H1|]. split; [|exact Rv]. split; [exact C1|]. split; [exact C2|]. split; [|split; assumption].
    intros t Ht. destruct C0 as (u & Hu & Eu). unfold at_pos in Ht, Hu. rewrite Ht in Hu. injection Hu as <-. rewrite Eu. split; [exact Hr|apply C3; exact Ht].
  - intros Nr. split.
    + intros x [->|(c & Hc & Hi & ->)]; [exact Up|].
      apply G2. exists c. split; [split; [apply (crowned_counts d k _ d' now pk c Rs); right; exact Hc|exact Hi]|]. apply Cw. right. split; [exact Nr|]. split; [apply Hc|reflexivity].
    + destruct G2' as [(c & (H1 & Hi) & H2)|[-> H]].
      * apply (crowned_counts d k _ d' now pk c Rs) in H1. apply Cw in H2. left. destruct H2 as [H2|(_ & H2 & H3)].
        -- left. apply N.le_antisymm; [|exact Up]. apply G1. exists c. split; [split; [|exact Hi]|exact H2]. destruct H1 as [H1|H1]; [exact H1|exfalso].
           destruct H1 as (_ & (u & Hu & Eu) & _). destruct H2 as (t & m & Ht & Hm & _). unfold at_pos in Ht, Hu. rewrite Ht in Hu. injection Hu as <-. rewrite Eu in Hm. apply Nr. exact (root_max_len_root d k m Hm).
        -- right. destruct H1 as [H1|H1]; [exfalso|exists c; auto]. destruct H1 as [(_ & _ & C3 & _) _]. destruct H2 as (u & Hu & Eu). destruct (C3 u Hu) as [X _]. rewrite Eu in X. exact (Nr X).
      * left. left. apply N.le_antisymm; [apply N.le_0_l|]. exact Up.
Qed.
(** A has trusted themselves and is made a root: a certificate of D through A is added and their weight rises, and none through R. *)
Example e_C214_issuer : call_typed W (G_set_root (toy_key A) 9) /\ call_typed W (G_weight_from (toy_key D) (toy_key A) (at_ 10)) /\
  fst (graph_step W (db_of (after own_trust)) (G_weight_from (toy_key D) (toy_key A) (at_ 10), None)) = Ok (GR_weight 2) /\
  answer_after W (db_of (after own_trust)) [G_set_root (toy_key A) 9] (G_weight_from (toy_key D) (toy_key A) (at_ 10)) = Ok (GR_weight 128) /\
  answer_after W (db_of (after own_trust)) [G_set_root (toy_key A) 9] (G_weight_from (toy_key D) (toy_key R) (at_ 10)) = Ok (GR_weight 2) /\
  answer_after W (db_of (after own_trust)) [G_set_root (toy_key A) 9] (G_get_all_certs_from (toy_key D) (toy_key R) (at_ 10)) =
    Ok (GR_certs [faq_cert; [toy_trust R R 1000 1; toy_trust R A 900 1; toy_trust A A 900 1; toy_trust A B 800 1; toy_trust B D 700 1]]).
Proof.
  split; [typed1|]. split; [typed1|]. split; [apply after_answer; [exact own_trust_typed|typed1|vm_compute; reflexivity]|].
  split; [|split]; (apply after_then; [exact own_trust_typed|typed1|typed1|vm_compute; reflexivity]).
Qed.
