(** Proofs about keys that are cut off by revocations. *)
From Coq Require Import List NArith ZArith Bool Lia ZifyBool ZifyNat ZifyN.
From Verif Require Import Base BaseFacts Text TextFacts Keys KeysFacts Trust TrustFacts Certificate CertFacts Relation
  Storage StorageFacts Graph SearchFacts PathFacts Spec SpecFacts GraphFacts StateFacts ChainFacts AddFacts ImportFacts HistFacts
  Toy ToyFacts Witness GraphThms ReadmeSpec ReadmeThms InfluenceSpec InfluenceThms MachineSpec RenewSpec CutSpec.
From Verif Require GossipThms ClockThms CopyThms MoreTrustThms MoreThms RenewThms.
Import ListNotations.
Open Scope N_scope.

(** Something of the two keys of [x] is stored that is at least as new, in seconds. *)
Definition held (d : db) (x : relation) : Prop := exists z, stored d z /\ same_keys x z /\ secs (rel_issued_at x) <= secs (rel_issued_at z).
Lemma keys_dec : forall x y, same_keys x y \/ ~ same_keys x y.
Proof. intros x y. destruct (same_pair x y) eqn:P; [left; apply same_pair_keys; exact P|right; apply same_pair_keys_false; exact P]. Qed.
Lemma keys_sym : forall x y, same_keys x y -> same_keys y x.
Proof. intros x y [A B]. split; congruence. Qed.
Lemma keys_trans : forall x y z, same_keys x y -> same_keys y z -> same_keys x z.
Proof. intros x y z [A B] [A' B']. split; congruence. Qed.
Lemma whole_keys : forall x, same_keys x (whole x).
Proof. intros [a|v]; split; reflexivity. Qed.
Lemma whole_secs_at : forall x, secs (rel_issued_at (whole x)) = secs (rel_issued_at x).
Proof. intros [a|v]; reflexivity. Qed.
Lemma not_before_secs : forall a b, ~ before a b -> secs b <= secs a.
Proof. intros a b H. unfold before in H. lia. Qed.
Lemma before_secs : forall a b, before a b -> secs a <= secs b.
Proof. intros a b H. unfold before in H. lia. Qed.
Lemma held_imported : forall d x e y, MoreTrustThms.single d -> imported d x e -> held d y -> held e y.
Proof.
  intros d x e y Si [_ Im] (z & Hz & K & L). destruct (keys_dec x z) as [Kx|Kx].
  - destruct (HistFacts.before_dec (rel_issued_at z) (rel_issued_at x)) as [B|B].
    + exists (whole x). split; [|split].
      * apply Im. right. right. split; [reflexivity|]. intros u Hu Ku. assert (u = z) as ->; [|exact B]. apply Si; [exact Hu|exact Hz|]. eapply keys_trans; [apply keys_sym; exact Ku|exact Kx].
      * eapply keys_trans; [exact K|]. eapply keys_trans; [apply keys_sym; exact Kx|apply whole_keys].
      * rewrite whole_secs_at. apply before_secs in B. lia.
    + exists z. split; [apply Im; right; left; auto|auto].
  - exists z. split; [apply Im; left; auto|auto].
Qed.
Lemma held_new : forall d x e, MoreTrustThms.single d -> imported d x e -> (exists z, stored d z /\ same_keys x z) \/ ~ (exists z, stored d z /\ same_keys x z) -> held e x.
Proof.
  intros d x e Si [_ Im] [(z & Hz & Kx)|N].
  - destruct (HistFacts.before_dec (rel_issued_at z) (rel_issued_at x)) as [B|B].
    + exists (whole x). split; [|split; [apply whole_keys|rewrite whole_secs_at; lia]]. apply Im. right. right. split; [reflexivity|].
      intros u Hu Ku. assert (u = z) as ->; [|exact B]. apply Si; [exact Hu|exact Hz|]. eapply keys_trans; [apply keys_sym; exact Ku|exact Kx].
    + exists z. split; [apply Im; right; left; auto|]. split; [exact Kx|apply not_before_secs; exact B].
  - exists (whole x). split; [|split; [apply whole_keys|rewrite whole_secs_at; lia]]. apply Im. right. right. split; [reflexivity|]. intros u Hu Ku. contradiction N. exists u. auto.
Qed.
Lemma pair_stored_dec : forall C d x, reachable C d -> (exists z, stored d z /\ same_keys x z) \/ ~ (exists z, stored d z /\ same_keys x z).
Proof.
  intros C d x R. apply reachable_inv in R. destruct R as (s & -> & I).
  destruct (existsb (same_pair x) (rels s)) eqn:E.
  - left. apply existsb_exists in E. destruct E as (z & Hz & P). exists z. split; [apply (stored_in C); [apply I|exact Hz]|apply same_pair_keys; exact P].
  - right. intros (z & Hz & K). apply (stored_in C) in Hz; [|apply I]. assert (X : existsb (same_pair x) (rels s) = true) by (apply existsb_exists; exists z; split; [exact Hz|apply same_pair_keys; exact K]). congruence.
Qed.

Lemma revoking_run : forall C vs d, reachable C d -> Forall (revocation_typed C) vs -> (forall v, In v vs -> signed_revocation C v) ->
  let d' := graph_history C d (map (fun v => (G_revoke v, None)) vs) in
  reachable C d' /\ tbl_roots d' = tbl_roots d /\ (forall b t, stored_trust d' b t -> stored_trust d b t) /\ (forall y, held d y -> held d' y) /\ (forall v, In v vs -> held d' (RRev v)).
Proof.
  intros C. induction vs as [|v vs IH]; intros d R T S.
  - cbn. split; [exact R|]. split; [reflexivity|]. split; [auto|]. split; [auto|]. intros v [].
  - inversion T as [|? ? Tv Tvs]; subst. destruct (proj1 (p_C30_revoke_imports C d v R Tv) (S v (or_introl eq_refl))) as (d1 & E & Im).
    cbn [map]. change (graph_history C d ((G_revoke v, None) :: map (fun v => (G_revoke v, None)) vs)) with (graph_history C (snd (graph_step C d (G_revoke v, None))) (map (fun v => (G_revoke v, None)) vs)).
    assert (R1 : reachable C d1) by (pose proof (reachable_step C d (G_revoke v) None R Tv) as X; rewrite E in X; exact X).
    rewrite E. cbn [snd]. destruct (IH d1 R1 Tvs (fun u Hu => S u (or_intror Hu))) as (A1 & A2 & A3 & A4 & A5). cbv zeta. pose proof (MoreTrustThms.reachable_single C d R) as Si.
    split; [exact A1|]. split; [rewrite A2; apply Im|]. split; [|split].
    + intros b t H. apply A3 in H. apply (proj2 Im (RAuth (mk_auth t b))) in H. destruct H as [[_ H]|[(_ & H & _)|[H _]]]; [exact H|exact H|discriminate H].
    + intros y H. apply A4. apply (held_imported d (RRev v)); assumption.
    + intros u [<-|Hu]; [|apply A5; exact Hu]. apply A4. apply (held_new d); [exact Si|exact Im|apply (pair_stored_dec C); exact R].
Qed.

Section Cut.
Variable C : crypto.
Variables (d0 : db) (es0 : list (graph_call * option nat)) (vs : list revocation) (ks : list public_key).
Hypothesis Cut : cut_off_by C d0 es0 vs ks.
Hypothesis Roots : forall k n fu, In (G_set_root k n, fu) es0 -> ~ In k ks.
Record cut (d : db) : Prop := mk_cut {
  cut_roots : forall k, In k ks -> ~ is_root d k;
  cut_trusts : forall b t, ~ In b ks -> In (issued_for t) ks -> ~ stored_trust d b t;
  cut_revs : forall v, In v vs -> ~ In (revoked_by v) ks -> In (rev_pk v) ks -> exists v', stored_revocation d v' /\ same_keys (RRev v) (RRev v') /\ secs (revoked_at v) <= secs (revoked_at v') }.
Lemma cut_collected : forall d now e, cut d -> collected d now e -> cut e.
Proof.
  intros d now e [H1 H2 H3] [Ro Col]. constructor.
  - intros k Hk. unfold is_root. rewrite Ro. apply H1. exact Hk.
  - intros b t Nb Hi St. apply (H2 b t Nb Hi). apply (Col (RAuth (mk_auth t b))). exact St.
  - intros v Hv Nb Hi. destruct (H3 v Hv Nb Hi) as (v' & Sv & K & L). exists v'. split; [|auto]. apply (Col (RRev v')). split; [exact Sv|]. intros X. exact X.
Qed.
Lemma cut_imported : forall d x e c fu, cut d -> MoreTrustThms.single d -> In (c, fu) es0 -> offers c x -> genuine C c x -> imported d x e -> cut e.
Proof.
  intros d x e c fu [H1 H2 H3] Si Hin Of Ge [Ro Im].
  assert (Old : forall a, x = RAuth a -> ~ In (issued_by a) ks -> In (issued_for (auth_trust a)) ks -> exists v', stored_revocation d v' /\ same_keys x (RRev v') /\ ~ before (revoked_at v') (rel_issued_at x)).
  { intros a -> Nb Hi. destruct (Cut (issued_by a) (auth_trust a) Nb Hi) as (v & Hv & E1 & E2 & L).
    - right. exists c, fu. split; [exact Hin|]. split; [exact Of|apply Ge].
    - rewrite <- E1 in Nb. rewrite <- E2 in Hi. destruct (H3 v Hv Nb Hi) as (v' & Sv & [K1 K2] & Lv). exists v'. split; [exact Sv|]. split.
      + cbn in K1, K2. split; cbn; congruence.
      + cbn [rel_issued_at]. unfold before. cbn in L, Lv. lia. }
  constructor.
  - intros k Hk. unfold is_root. rewrite Ro. apply H1. exact Hk.
  - intros b t Nb Hi St. apply (Im (RAuth (mk_auth t b))) in St. destruct St as [[_ St]|[(_ & St & _)|[E Al]]]; [exact (H2 b t Nb Hi St)|exact (H2 b t Nb Hi St)|].
    destruct x as [a|u]; [|discriminate E]. destruct (Old a eq_refl) as (v' & Sv & K & Nb').
    + injection E as _ ->. exact Nb.
    + injection E as -> _. exact Hi.
    + apply Nb'. apply (Al (RRev v')); [exact Sv|exact K].
  - intros v Hv Nb Hi. destruct (H3 v Hv Nb Hi) as (v' & Sv & K & L). destruct (keys_dec x (RRev v')) as [Kx|Kx]; [|exists v'; split; [apply (Im (RRev v')); left; auto|auto]].
    destruct (HistFacts.before_dec (revoked_at v') (rel_issued_at x)) as [B|B]; [|exists v'; split; [apply (Im (RRev v')); right; left; auto|auto]].
    destruct x as [a|u].
    + exfalso. destruct (Old a eq_refl) as (v2 & Sv2 & K2 & Nb2).
      * destruct K as [_ K], Kx as [_ Kx]. cbn in K, Kx. congruence.
      * destruct K as [K _], Kx as [Kx _]. cbn in K, Kx. congruence.
      * assert (Q : RRev v2 = RRev v') by (apply Si; [exact Sv2|exact Sv|eapply keys_trans; [apply keys_sym; exact K2|exact Kx]]). injection Q as ->. exact (Nb2 B).
    + exists (mk_rev (rev_pk u) (from_secs (secs (revoked_at u))) (revoked_by u) (rev_sig u)).
      split; [apply (Im (whole (RRev u))); right; right; split; [reflexivity|]|split].
      * intros z Hz Kz. assert (z = RRev v') as ->; [|exact B]. apply Si; [exact Hz|exact Sv|]. eapply keys_trans; [apply keys_sym; exact Kz|exact Kx].
      * eapply keys_trans; [exact K|]. apply keys_sym. eapply keys_trans; [|exact Kx]. split; reflexivity.
      * cbn [revoked_at from_secs secs]. apply before_secs in B. cbn [rel_issued_at] in B. lia.
Qed.
Lemma cut_run : forall es d, (forall e, In e es -> In e es0) -> cut d -> reachable C d -> typed_history C es -> cut (graph_history C d es).
Proof.
  intros es d Sub H R T. apply reachable_inv in R. destruct R as (s & -> & I).
  destruct (history_writes C es s (inv_wf C s I) T) as (ws & E & Ws). rewrite E.
  apply (run_invariant C (fun s' => cut (db_of s')) es); [|exact Ws|apply I|exact H].
  intros s' w c fu W' Q Hc Tc Wr Wo. apply Sub in Hc. destruct w as [now|x|pk f].
  - apply (cut_collected (db_of s') now); [exact Q|apply (collected_gc C); exact W'].
  - apply (cut_imported (db_of s') x _ c fu Q); [apply (RenewThms.wf_single C); exact W'|exact Hc|apply write_of_offers with (C := C); exact Wr|apply write_of_genuine; exact Wr|].
    apply (imported_upd C); [exact W'|exact Wo].
  - destruct Wr as (n & -> & _). pose proof (Roots _ _ _ Hc) as Np. destruct Q as [Q1 Q2 Q3]. constructor; [|exact Q2|exact Q3].
    intros k Hk X. unfold is_root in X. cbn [db_of apply_w tbl_roots roots] in X. rewrite map_app, map_app in X. apply in_app_or in X. destruct X as [X|[X|[]]]; [exact (Q1 k Hk X)|].
    cbn [fst] in X. apply key_text_inj in X. subst pk. exact (Np Hk).
Qed.
Lemma cut_linked : forall d now k, cut d -> linked d now k -> ~ In k ks.
Proof.
  intros d now k [H1 H2 _] L. induction L as [k Hr|b t L IH Lv]; intros Hk; [exact (H1 k Hk Hr)|]. exact (H2 b t IH Hk (proj1 Lv)).
Qed.
End Cut.

(** ** C197 *)
(** Revoked at the border, a set of keys is cut off: whatever is called afterwards, no returned certificate has one of them, and they weigh nothing. *)
Lemma p_C197_cut_off : forall C d vs es ks pk now, reachable C d -> Forall (revocation_typed C) vs -> (forall v, In v vs -> signed_revocation C v) -> typed_history C es ->
  few d (revoking vs es) -> never_roots d es ks -> cut_off_by C d es vs ks -> call_typed C (G_weight pk now) ->
  (exists cs, fst (graph_step C (graph_history C d (revoking vs es)) (G_get_all_certs pk now, None)) = Ok (GR_certs cs) /\
     (forall c i k, In c cs -> key_at c i k -> ~ In k ks) /\ (In pk ks -> cs = [])) /\
  (In pk ks -> fst (graph_step C (graph_history C d (revoking vs es)) (G_weight pk now, None)) = Ok (GR_weight 0)).
Proof.
  intros C d vs es ks pk now R Tv Sv Te F [Ro Ne] Cut Tw. destruct (revoking_run C vs d R Tv Sv) as (R1 & Ro1 & St1 & _ & He). cbv zeta in *.
  set (d1 := graph_history C d (map (fun v => (G_revoke v, None)) vs)) in *.
  assert (No : forall b t, ~ In b ks -> In (issued_for t) ks -> ~ stored_trust d1 b t).
  { intros b t Nb Hi St. destruct (Cut b t Nb Hi (or_introl (St1 b t St))) as (v & Hv & E1 & E2 & L). destruct (He v Hv) as (z & Hz & K & Lz).
    assert (z = RAuth (mk_auth t b)) as ->. { apply (MoreTrustThms.reachable_single C d1 R1); [exact Hz|exact St|]. destruct K as [K1 K2]. cbn in K1, K2. split; cbn; congruence. }
    cbn in Lz. lia. }
  assert (Q : cut vs ks d1).
  { constructor.
    - intros k Hk. unfold is_root. rewrite Ro1. apply Ro. exact Hk.
    - exact No.
    - intros v Hv Nb Hi. destruct (He v Hv) as (z & Hz & K & Lz). destruct z as [a|v'].
      + exfalso. destruct K as [K1 K2]. cbn in K1, K2. apply (No (issued_by a) (auth_trust a)); [congruence|congruence|]. destruct a; exact Hz.
      + exists v'. split; [exact Hz|]. split; [exact K|exact Lz]. }
  assert (Eh : graph_history C d (revoking vs es) = graph_history C d1 es) by (unfold revoking, d1, graph_history; apply fold_left_app). rewrite Eh.
  pose proof (cut_run C d es vs ks Cut Ne es d1 (fun e H => H) Q R1 Te) as Q2. pose proof (history_reachable C d1 es R1 Te) as R2.
  assert (Sm : small (graph_history C d1 es)).
  { rewrite <- Eh. apply MoreTrustThms.few_small with (es := []). apply CopyThms.few_after; [exact R| |exact F]. unfold revoking. apply Forall_app. split; [|exact Te].
    apply Forall_forall. intros e H. apply in_map_iff in H. destruct H as (v & <- & Hv). rewrite Forall_forall in Tv. exact (Tv v Hv). }
  destruct (certs_answer C _ pk now R2 Tw) as (cs & d2 & E). 
  assert (Nil : In pk ks -> forall w d3, graph_step C (graph_history C d1 es) (G_weight pk now, None) = (Ok (GR_weight w), d3) -> cs = [] /\ w = 0).
  { intros Hk w d3 Ew. apply (p_C149_stranger_weight C _ pk now None None cs w d2 d3 R2 Tw Sm); [|exact E|exact Ew]. intros L. exact (cut_linked vs ks _ now pk Q2 L Hk). }
  destruct (weight_answer C _ pk now R2 Tw) as (w & d3 & Ew).
  split.
  - exists cs. rewrite E. split; [reflexivity|]. split; [|intros Hk; exact (proj1 (Nil Hk w d3 Ew))].
    intros c i k Hc (t & Ht & <-). apply (cut_linked vs ks (graph_history C d1 es) now); [exact Q2|].
    destruct (proj1 (certs_are C _ pk now None _ d2 R2 Tw E c) Hc) as [Lc _]. exact (chain_linked _ _ now eq_refl (fun x _ _ => iff_refl _) _ c Lc _ t Ht).
  - intros Hk. rewrite Ew. cbn [fst]. rewrite (proj2 (Nil Hk w d3 Ew)). reflexivity.
Qed.

(** B and D are in the wrong hands: A revokes B, and then B and D trust each other and themselves, and the old trust is brought in again. *)
Definition thieves : list (graph_call * option nat) :=
  [(G_add_trust (toy_trust B D 3000 60) (toy_key B) (at_ 61), None); (G_add_trust (toy_trust A B 800 1) (toy_key A) (at_ 62), None);
   (G_add [toy_trust R R 1000 1; toy_trust R A 900 1; toy_trust A B 800 1; toy_trust B D 3000 60] (at_ 63), Some 7%nat); (G_revoke (toy_rev D A 64), None);
   (G_add_trust (toy_trust D B 3000 60) (toy_key D) (at_ 65), None); (G_set_root (toy_key 8) 3, None)].
Lemma thieves_typed : typed_history W thieves.
Proof. unfold typed_history, thieves. repeat (constructor; [cbn [fst]; typed1|]). constructor. Qed.
Lemma thieves_cut : cut_off_by W (db_of (after faq)) thieves [toy_rev A B 50] [toy_key B; toy_key D].
Proof.
  intros b t Nb Hi H. assert (X : b = toy_key A /\ t = toy_trust A B 800 1 \/ In b [toy_key B; toy_key D] \/ issued_for t = toy_key R \/ issued_for t = toy_key A).
  { destruct H as [H|(c & fu & Hc & O & _)].
    - apply (stored_trust_in W) in H; [|apply after_inv; exact faq_typed]. rewrite faq_rels in H. cbn [In].
      repeat (destruct H as [H|H]; [injection H as <- <-; first [right; right; left; reflexivity|right; right; right; reflexivity|left; split; reflexivity|right; left; left; reflexivity]|]). contradiction H.
    - unfold thieves in Hc. cbn [In] in Hc. destruct Hc as [Hc|[Hc|[Hc|[Hc|[Hc|[Hc|[]]]]]]]; injection Hc as <- _; cbn [offers_trust] in O; try contradiction O.
      + destruct O as [_ ->]. right. left. left. reflexivity.
      + destruct O as [-> ->]. left. split; reflexivity.
      + destruct O as [[H ->]|(i & g & Hg & Ht & ->)]; [injection H as <-; right; right; left; reflexivity|].
        unfold at_pos in Hg, Ht. destruct i as [|[|[|i]]]; cbn [nth_error] in Hg, Ht; [| | |destruct i; discriminate Ht]; injection Hg as <-; injection Ht as <-.
        * right. right. right. reflexivity.
        * left. split; reflexivity.
        * right. left. left. reflexivity.
      + destruct O as [_ ->]. right. left. right. left. reflexivity. }
  destruct X as [[-> ->]|[X|[X|X]]]; [|contradiction|rewrite X in Hi; exfalso|rewrite X in Hi; exfalso].
  - exists (toy_rev A B 50). split; [left; reflexivity|]. split; [reflexivity|]. split; [reflexivity|]. vm_compute. reflexivity.
  - cbn [In] in Hi. repeat (destruct Hi as [Hi|Hi]; [vm_compute in Hi; discriminate Hi|]). exact Hi.
  - cbn [In] in Hi. repeat (destruct Hi as [Hi|Hi]; [vm_compute in Hi; discriminate Hi|]). exact Hi.
Qed.
(** Before, B weighs 4 and D 2. *)
Example e_C197_thieves : reachable (toy false) (db_of (after faq)) /\ Forall (revocation_typed (toy false)) [toy_rev A B 50] /\ signed_revocation (toy false) (toy_rev A B 50) /\
  typed_history (toy false) thieves /\ few (db_of (after faq)) (revoking [toy_rev A B 50] thieves) /\ never_roots (db_of (after faq)) thieves [toy_key B; toy_key D] /\
  cut_off_by (toy false) (db_of (after faq)) thieves [toy_rev A B 50] [toy_key B; toy_key D] /\
  fst (graph_step (toy false) (db_of (after faq)) (G_weight (toy_key B) (at_ 40), None)) = Ok (GR_weight 4) /\
  fst (graph_step (toy false) (db_of (after faq)) (G_weight (toy_key D) (at_ 40), None)) = Ok (GR_weight 2).
Proof.
  split; [apply after_reachable; exact faq_typed|]. split; [constructor; [change (call_typed W (G_revoke (toy_rev A B 50))); typed1|constructor]|]. split; [vm_compute; reflexivity|].
  split; [exact thieves_typed|]. split; [vm_compute; reflexivity|]. split; [|split; [exact thieves_cut|]].
  - split.
    + intros k Hk Hr. apply faq_roots in Hr. subst k. cbn [In] in Hk. repeat (destruct Hk as [Hk|Hk]; [vm_compute in Hk; discriminate Hk|]). exact Hk.
    + intros k n fu H Hk. unfold thieves in H. cbn [In] in H. destruct H as [H|[H|[H|[H|[H|[H|[]]]]]]]; try discriminate H. injection H as <- _ _.
      cbn [In] in Hk. repeat (destruct Hk as [Hk|Hk]; [vm_compute in Hk; discriminate Hk|]). exact Hk.
  - split; (apply after_answer; [exact faq_typed|typed1|vm_compute; reflexivity]).
Qed.
(** It has to be those who trust the key: the only root revokes B, everything stored is older, and still D, trusted by B alone, keeps its weight. *)
Lemma p_C197_root_alone : exists C d v k b t w now, crypto_laws C /\ reachable C d /\ revocation_typed C v /\ signed_revocation C v /\
  (forall r, is_root d r -> r = revoked_by v) /\ (forall x, stored d x -> secs (rel_issued_at x) < secs (revoked_at v)) /\ secs (revoked_at v) < secs now /\
  b = rev_pk v /\ issued_for t = k /\ stored_trust d b t /\ (forall b' t', stored_trust d b' t' -> issued_for t' = k -> b' = b) /\
  answer_after C d [G_revoke v] (G_weight b now) = Ok (GR_weight 0) /\ answer_after C d [G_revoke v] (G_weight k now) = Ok (GR_weight w) /\ w <> 0.
Proof.
  exists W, (db_of (after faq)), (toy_rev R B 50), (toy_key D), (toy_key B), (toy_trust B D 700 1), 2, (at_ 60).
  split; [apply toy_laws|]. split; [apply after_reachable; exact faq_typed|]. split; [change (call_typed W (G_revoke (toy_rev R B 50))); typed1|]. split; [vm_compute; reflexivity|].
  split; [intros r Hr; apply faq_roots in Hr; exact Hr|]. split; [|split; [reflexivity|]].
  - intros x Hx. apply (stored_in W) in Hx; [|apply after_inv; exact faq_typed]. rewrite faq_rels in Hx. repeat (destruct Hx as [<-|Hx]; [vm_compute; reflexivity|]). contradiction Hx.
  - split; [reflexivity|]. split; [reflexivity|]. split; [apply (after_trust faq); [exact faq_typed|rewrite faq_rels; cbn [In]; tauto]|].
    split; [|split; [|split; [|discriminate]]].
    + intros b' t' Ht E. apply (stored_trust_in W) in Ht; [|apply after_inv; exact faq_typed]. rewrite faq_rels in Ht.
      repeat (destruct Ht as [Ht|Ht]; [injection Ht as <- <-; first [reflexivity|vm_compute in E; discriminate E]|]). contradiction Ht.
    + apply MoreTrustThms.heard_answer; [constructor; [typed1|constructor]|typed1|vm_compute; reflexivity].
    + apply MoreTrustThms.heard_answer; [constructor; [typed1|constructor]|typed1|vm_compute; reflexivity].
Qed.
