(** Proofs about who can make a store grow. *)
From Coq Require Import List NArith ZArith Bool Lia ZifyBool ZifyNat ZifyN Permutation.
From Verif Require Import Base BaseFacts Text TextFacts Keys KeysFacts Trust TrustFacts Certificate CertFacts Relation
  Storage StorageFacts Graph SearchFacts PathFacts Service Spec SpecFacts GraphFacts StateFacts ChainFacts AddFacts ImportFacts HistFacts
  Toy ToyFacts Witness GraphThms MoreThms ServiceSpec ServiceFacts ServiceThms ServiceWitness ReadmeThms VisitorThms FillSpec.
Import ListNotations.
Open Scope N_scope.

(** * Trusts of keys out of reach are not stored *)
Section NoTrusts.
Variable C : crypto.
Lemma reached_less : forall d d', tbl_roots d' = tbl_roots d -> (forall b t, stored_trust d' b t -> stored_trust d b t) -> forall k, reached d' k -> reached d k.
Proof.
  intros d d' Ro S k H. induction H as [k H|b t _ IH H]; [apply reached_root; unfold is_root in *; rewrite <- Ro; exact H|].
  apply (reached_by d b t IH). apply S. exact H.
Qed.
Lemma unreached_weight : forall s b, inv C s -> ~ reached (db_of s) b -> weight_of s b = 0.
Proof.
  intros s b I N. unfold weight_of. destruct (root_weight_spec C s b I) as [(m & H & _)|[_ ->]].
  - exfalso. apply N, reached_root. apply (is_root_max_len C s b I). eauto.
  - destruct (certs_of s b) as [|c cs] eqn:E; [reflexivity|]. exfalso. apply N.
    assert (Hc : In c (certs_of s b)) by (rewrite E; left; reflexivity). apply (certs_of_exact C s b c (inv_wf C s I)) in Hc.
    destruct Hc as [(_ & (t & Ht & <-) & P0 & Ps & _) _].
    assert (X : forall i u, at_pos c i u -> reached (db_of s) (issued_for u)).
    { induction i as [|i IH]; intros u Hu; [apply reached_root, (P0 u Hu)|].
      destruct (nth_error_Some_ex _ c i) as (g & Hg); [pose proof (at_len _ _ _ _ Hu); lia|].
      apply (reached_by _ (issued_for g)); [exact (IH g Hg)|exact (Ps i g u Hg Hu)]. }
    exact (X _ t Ht).
Qed.
(** A write that stores no trust and no root. *)
Definition plain (w : write) : Prop := match w with W_gc _ | W_upd (RRev _) => True | _ => False end.
Definition less (s' s : state) : Prop := roots s' = roots s /\ forall a, In (RAuth a) (rels s') -> In (RAuth a) (rels s).
Lemma plain_less : forall ws s, wf C s -> Forall (write_ok C) ws -> Forall plain ws -> less (run_ws ws s) s.
Proof.
  induction ws as [|w ws IH]; intros s W Ok F; [split; auto|]. inversion Ok as [|? ? O1 O2]; subst. inversion F as [|? ? F1 F2]; subst.
  cbn [run_ws fold_left]. destruct (IH (apply_w s w) (apply_wf C s w W O1) O2 F2) as [Ro X].
  assert (Y : less (apply_w s w) s).
  { destruct w as [now|[a|v]|k f]; try contradiction F1; split; try reflexivity; intros a Ha; cbn [apply_w rels] in Ha.
    - apply in_gc in Ha. apply Ha.
    - apply in_upd in Ha; [|apply (wf_nodup C); exact W]. destruct Ha as [[_ H]|[(_ & H & _)|[H _]]]; try exact H. discriminate H. }
  destruct Y as [Ro' Y]. split; [exact (eq_trans Ro Ro')|]. intros a H. apply Y, X, H.
Qed.
Lemma less_reached : forall s' s k, wf C s' -> wf C s -> less s' s -> reached (db_of s') k -> reached (db_of s) k.
Proof.
  intros s' s k W' W [Ro X]. apply reached_less; [cbn [db_of tbl_roots]; rewrite Ro; reflexivity|].
  intros b t H. apply (stored_trust_in C); [exact W|]. apply X. apply (stored_trust_in C) in H; [exact H|exact W'].
Qed.
Lemma add_trust_plain : forall s t b now, inv C s -> (trust_verify C t b now = Ok tt -> ~ reached (db_of s) b) -> snd (add_trust_sem C s t b now) = [] \/ snd (add_trust_sem C s t b now) = [W_gc now].
Proof.
  intros s t b now I N. unfold add_trust_sem. destruct (trust_verify C t b now) as [[]|e| |] eqn:V; try (left; reflexivity).
  assert (Z : next_weight_of (apply_w s (W_gc now)) b (issued_for t) = 0).
  { pose proof (inv_gc C s now I) as I'. unfold next_weight_of. rewrite (unreached_weight _ b I'); [destruct (pk_eqb _ _); reflexivity|].
    intros R. apply (N eq_refl). apply (less_reached (apply_w s (W_gc now)) s b); try apply I'; try apply I; [|exact R].
    apply (plain_less [W_gc now] s); [apply I|repeat constructor|repeat constructor]. }
  rewrite Z. right. reflexivity.
Qed.
Lemma add_chain_plain : forall c s b now, inv C s ->
  (forall i t k, at_pos c i t -> (match i with O => k = b | S j => key_at c j k end) -> trust_verify C t k now = Ok tt -> ~ reached (db_of s) k) ->
  Forall plain (snd (add_chain_sem C s c b now)).
Proof.
  induction c as [|t c IH]; intros s b now I N; cbn [add_chain_sem]; [constructor|].
  destruct (add_trust_plain s t b now I (N 0%nat t b eq_refl eq_refl)) as [E|E];
    destruct (add_trust_sem C s t b now) as [[x|e| |] ws]; cbn [snd] in *; subst ws; repeat constructor.
  - specialize (IH s (issued_for t) now I). cbn [run_ws fold_left]. destruct (add_chain_sem C s c (issued_for t) now) as [r ws']. cbn [snd app] in *.
    apply IH. intros i t' k Ht Hk. apply (N (S i) t' k Ht). destruct i as [|j]; [exists t; split; [reflexivity|symmetry; exact Hk]|destruct Hk as (g & Hg & Eg); exists g; split; assumption].
  - specialize (IH (run_ws [W_gc now] s) (issued_for t) now (inv_gc C s now I)).
    destruct (add_chain_sem C (run_ws [W_gc now] s) c (issued_for t) now) as [r ws']. cbn [snd app] in *.
    constructor; [exact Logic.I|]. apply IH. intros i t' k Ht Hk V R. apply (N (S i) t' k Ht) in V.
    + apply V. apply (less_reached (run_ws [W_gc now] s) s k); try apply I; [apply (inv_gc C s now I)| |exact R]. apply (plain_less [W_gc now] s); [apply I|repeat constructor|repeat constructor].
    + destruct i as [|j]; [exists t; split; [reflexivity|symmetry; exact Hk]|destruct Hk as (g & Hg & Eg); exists g; split; assumption].
Qed.
Definition bare (d : db) (c : graph_call) : Prop :=
  (forall k n, c <> G_set_root k n) /\ forall t b, offers_trust c t b -> genuine C c (RAuth (mk_auth t b)) -> ~ reached d b.
Lemma sem_plain : forall s c, inv C s -> bare (db_of s) c -> Forall plain (snd (sem C s c)).
Proof.
  intros s c I [B1 B2]. destruct c; cbn [sem snd]; try (repeat constructor; fail).
  - exfalso. exact (B1 _ _ eq_refl).
  - destruct (add_trust_plain s t by_pk now I) as [E|E].
    { intros V. apply (B2 t by_pk); [split; reflexivity|]. apply trust_verify_exact in V. destruct V as [V1 V2]. split; [exact V2|]. exists now. split; [reflexivity|exact V1]. }
    all: destruct (add_trust_sem C s t by_pk now) as [r ws]; cbn [snd] in *; subst ws; repeat constructor.
  - unfold add_sem. destruct c as [|t c]; [constructor|]. pose proof (add_chain_plain (t :: c) s (issued_for t) now I) as X.
    destruct (add_chain_sem C s (t :: c) (issued_for t) now) as [r ws]. cbn [snd] in *. apply X. clear X.
    intros i t' k Ht Hk V. apply (B2 t' k).
    + destruct i as [|j]; [left; split; [exact Ht|]; subst k; injection Ht as ->; reflexivity|right]. destruct Hk as (g & Hg & Eg). exists j, g. auto.
    + apply trust_verify_exact in V. destruct V as [V1 V2]. split; [exact V2|]. exists now. split; [reflexivity|exact V1].
  - unfold revoke_sem. destruct (revocation_verify C v); cbn [snd]; repeat constructor.
Qed.
Lemma step_less : forall s c fu, inv C s -> call_typed C c -> bare (db_of s) c -> exists s', snd (graph_step C (db_of s) (c, fu)) = db_of s' /\ wf C s' /\ less s' s.
Proof.
  intros s c fu I T B. pose proof (sem_plain s c I B) as F. pose proof (sem_writes C s c T) as O.
  destruct (graph_step_sem C s c fu (inv_wf C s I) T) as [E|(_ & k & E)]; rewrite E; cbn [snd].
  - eexists. split; [reflexivity|]. split; [apply run_wf; [apply I|exact O]|]. apply plain_less; [apply I|exact O|exact F].
  - assert (F' : Forall plain (firstn k (snd (sem C s c)))) by (rewrite <- (firstn_skipn k) in F; apply Forall_app in F; apply F).
    assert (O' : Forall (write_ok C) (firstn k (snd (sem C s c)))) by (rewrite <- (firstn_skipn k) in O; apply Forall_app in O; apply O).
    eexists. split; [reflexivity|]. split; [apply run_wf; [apply I|exact O']|]. apply plain_less; [apply I|exact O'|exact F'].
Qed.
Lemma history_less : forall es d, reachable C d -> typed_history C es -> (forall c fu, In (c, fu) es -> bare d c) ->
  tbl_roots (graph_history C d es) = tbl_roots d /\ forall b t, stored_trust (graph_history C d es) b t -> stored_trust d b t.
Proof.
  induction es as [|[c fu] es IH]; intros d R T B; [split; auto|]. inversion T as [|? ? T1 T2]; subst. cbn [fst] in T1.
  change (graph_history C d ((c, fu) :: es)) with (graph_history C (snd (graph_step C d (c, fu))) es).
  pose proof (reachable_step C d c fu R T1) as R'. pose proof (B c fu (or_introl eq_refl)) as Bc. pose proof R as R0. apply reachable_inv in R0. destruct R0 as (s & -> & I).
  destruct (step_less s c fu I T1 Bc) as (s' & E & W' & L). rewrite E in *.
  assert (Y : tbl_roots (db_of s') = tbl_roots (db_of s) /\ forall b t, stored_trust (db_of s') b t -> stored_trust (db_of s) b t).
  { destruct L as [Ro X]. split; [cbn [db_of tbl_roots]; rewrite Ro; reflexivity|]. intros b t H. apply (stored_trust_in C); [apply I|]. apply X. apply (stored_trust_in C) in H; [exact H|exact W']. }
  destruct Y as [Ro X]. destruct (IH (db_of s') R' T2) as [Ro' X'].
  { intros c' fu' H. destruct (B c' fu' (or_intror H)) as [B1 B2]. split; [exact B1|]. intros t b O G Re. apply (B2 t b O G). exact (reached_less _ _ Ro X b Re). }
  split; [congruence|]. intros b t H. apply X, X', H.
Qed.
End NoTrusts.

(** * Revocations of strangers are stored *)
Section Flood.
Variable C : crypto.
Definition keys_of (v : revocation) : public_key * public_key := (rev_pk v, revoked_by v).
Definition told (cp : call_params) (ts : N) (rv : dto_revocation * revocation) : Prop :=
  revocation_record C (fst rv) (snd rv) /\ signed_revocation C (snd rv) /\ dr_revoked_at (fst rv) <= ts.
Lemma told_step : forall d cp ts rv, crypto_laws C -> service_reachable C d -> host_time cp 1 -> ts < u64_bound -> told cp ts rv ->
  exists d', service_step C d (cp, S_revoke (fst rv) ts, None) = (Ok (mk_response true None P_none), d') /\ imported d (RRev (snd rv)) d' /\ service_reachable C d'.
Proof.
  intros d cp ts [r v] L R H Bt (Rv & Sg & Le). cbn [fst snd] in *. pose proof (service_reachable_graph C d L R) as Rg.
  assert (Rq : requests C cp (S_revoke r ts) (G_revoke v)) by exact Rv.
  assert (Ad : admitted cp (S_revoke r ts)) by (split; assumption).
  assert (Ty : service_typed (S_revoke r ts)) by (split; lia).
  pose proof (requests_typed C _ _ _ L Ty Rq) as Tg.
  destruct (p_C30_revoke_imports C d v Rg Tg) as [X _]. destruct (X Sg) as (d' & E & Im). exists d'.
  assert (E2 : service_step C d (cp, S_revoke r ts, None) = (Ok (mk_response true None P_none), d')) by (rewrite service_plan, (plan_complete C _ _ _ Rq Ad); cbn [carry_out]; rewrite E; reflexivity).
  split; [exact E2|]. split; [exact Im|]. replace d' with (snd (service_step C d (cp, S_revoke r ts, None))) by (rewrite E2; reflexivity). apply service_reachable_step; assumption.
Qed.
Lemma rows_rels : forall s, rows (db_of s) = length (rels s).
Proof. intros s. unfold rows. cbn [db_of tbl_relations]. apply map_length. Qed.
Lemma one_more : forall d x d', reachable C d -> reachable C d' -> imported d x d' -> (forall y, stored d y -> ~ same_keys x y) ->
  (forall y, stored d' y <-> stored d y \/ y = whole x) /\ rows d' = S (rows d).
Proof.
  intros d x d' R R' [_ Im] Nw.
  assert (X : forall y, stored d' y <-> stored d y \/ y = whole x).
  { intros y. rewrite Im. split.
    - intros [[_ H]|[(_ & H & _)|[H _]]]; auto.
    - intros [H| ->]; [left; split; [exact (Nw y H)|exact H]|]. right. right. split; [reflexivity|]. intros z Hz Sk. destruct (Nw z Hz Sk). }
  split; [exact X|]. apply reachable_inv in R. destruct R as (s & -> & I). apply reachable_inv in R'. destruct R' as (s' & -> & I').
  rewrite !rows_rels. change (S (length (rels s))) with (length (whole x :: rels s)). apply Permutation_length. apply NoDup_Permutation.
  - apply (NoDup_map_inv (fun x => (rel_issued_for x, rel_issued_by x))). apply (wf_nodup C). apply I'.
  - constructor; [|apply (NoDup_map_inv (fun x => (rel_issued_for x, rel_issued_by x))); apply (wf_nodup C); apply I].
    intros H. apply (stored_in C) in H; [|apply I]. apply (Nw _ H). destruct x; split; reflexivity.
  - intros y. rewrite <- (stored_in C s' y (inv_wf C s' I')), X, (stored_in C s y (inv_wf C s I)). cbn [In]. split; intros [H|H]; auto.
Qed.
Lemma flooded : forall rvs d cp ts, crypto_laws C -> service_reachable C d -> host_time cp 1 -> ts < u64_bound -> Forall (told cp ts) rvs ->
  NoDup (map (fun rv => keys_of (snd rv)) rvs) -> (forall rv y, In rv rvs -> stored d y -> ~ same_keys (RRev (snd rv)) y) ->
  service_reachable C (service_history C d (flood cp ts rvs)) /\
  (forall y, stored (service_history C d (flood cp ts rvs)) y <-> stored d y \/ exists rv, In rv rvs /\ y = RRev (snd rv)) /\
  rows (service_history C d (flood cp ts rvs)) = (rows d + length rvs)%nat /\
  (forall l rv l', rvs = l ++ rv :: l' -> fst (service_step C (service_history C d (flood cp ts l)) (cp, S_revoke (fst rv) ts, None)) = Ok (mk_response true None P_none)).
Proof.
  induction rvs as [|rv rvs IH]; intros d cp ts L R H Bt F ND Nw.
  - split; [exact R|]. split; [|split].
    + intros y. cbn. split; [auto|]. intros [X|(rv & [] & _)]. exact X.
    + cbn. lia.
    + intros [|] rv l' E; discriminate E.
  - inversion F as [|? ? F1 F2]; subst. cbn [map] in ND. inversion ND as [|? ? N1 N2]; subst.
    destruct (told_step d cp ts rv L R H Bt F1) as (d' & E & Im & R').
    assert (Nw1 : forall y, stored d y -> ~ same_keys (RRev (snd rv)) y) by (intros y; apply Nw; left; reflexivity).
    destruct (one_more d (RRev (snd rv)) d' (service_reachable_graph C d L R) (service_reachable_graph C d' L R') Im Nw1) as [St Ro].
    assert (Wh : whole (RRev (snd rv)) = RRev (snd rv)).
    { destruct F1 as ((_ & _ & Ea & _) & _). destruct rv as [r [k a b s]]. cbn [snd revoked_at] in *. cbn [whole rev_pk revoked_at revoked_by rev_sig]. rewrite Ea. reflexivity. }
    rewrite Wh in St.
    destruct (IH d' cp ts L R' H Bt F2 N2) as (A1 & A2 & A3 & A4).
    { intros rv' y Hin Hy Sk. apply St in Hy. destruct Hy as [Hy| ->]; [exact (Nw rv' y (or_intror Hin) Hy Sk)|].
      apply N1. apply in_map_iff. exists rv'. split; [|exact Hin]. destruct Sk as [S1 S2]. cbn [rel_issued_for rel_issued_by] in S1, S2. unfold keys_of. congruence. }
    change (service_history C d (flood cp ts (rv :: rvs))) with (service_history C (snd (service_step C d (cp, S_revoke (fst rv) ts, None))) (flood cp ts rvs)).
    rewrite E. cbn [snd]. split; [exact A1|]. split; [|split].
    + intros y. rewrite A2, St. split.
      * intros [[X|X]|(rv' & X & Y)]; [left; exact X|right; exists rv; split; [left; reflexivity|exact X]|right; exists rv'; split; [right; exact X|exact Y]].
      * intros [X|(rv' & [->|X] & Y)]; [left; left; exact X|left; right; exact Y|right; exists rv'; auto].
    + rewrite A3, Ro. cbn [length]. lia.
    + intros l rv' l' El. destruct l as [|rv0 l]; [injection El as <- <-; change (service_history C d (flood cp ts [])) with d; rewrite E; reflexivity|].
      injection El as <- El. change (service_history C d (flood cp ts (rv :: l))) with (service_history C (snd (service_step C d (cp, S_revoke (fst rv) ts, None))) (flood cp ts l)).
      rewrite E. cbn [snd]. exact (A4 l rv' l' El).
Qed.
End Flood.

(** ** C190 *)
(** Whoever brings only trusts of keys that no path of stored trusts leads to from a root gets no trust stored and changes no root,
    whatever they revoke and whatever fails. *)
Lemma p_C190_no_trusts : forall C d es, reachable C d -> typed_history C es ->
  (forall c fu, In (c, fu) es -> (forall k n, c <> G_set_root k n) /\ forall t b, offers_trust c t b -> genuine C c (RAuth (mk_auth t b)) -> ~ reached d b) ->
  tbl_roots (graph_history C d es) = tbl_roots d /\ forall b t, stored_trust (graph_history C d es) b t -> stored_trust d b t.
Proof. intros C d es R T H. exact (history_less C es d R T H). Qed.
(** The same of the service. Its calls may come from anyone and bring anything. *)
Lemma p_C190_service : forall C d es, crypto_laws C -> service_reachable C d -> service_events_typed es -> strangers C d es ->
  tbl_roots (service_history C d es) = tbl_roots d /\ forall b t, stored_trust (service_history C d es) b t -> stored_trust d b t.
Proof.
  intros C d es L R T S. rewrite service_history_db. apply history_less; [exact (service_reachable_graph C d L R)|apply asked_all_typed; assumption|].
  intros g fu H. destruct (asked_all_in C es g fu H) as (cp & c & Hin & P).
  destruct (S cp c fu g Hin (plan_requests C cp c g P) (plan_admitted C cp c g P)) as [S1 S2]. split; [exact S1|].
  intros t b O G. exact (S2 (RAuth (mk_auth t b)) O G).
Qed.
(** But any number of revocations, of any keys by any keys, however unknown to the store, are accepted, and each adds a row. *)
Lemma p_C190_any_number : forall C d cp ts rvs, crypto_laws C -> service_reachable C d -> host_time cp 1 -> ts < u64_bound ->
  (forall r v, In (r, v) rvs -> revocation_record C r v /\ signed_revocation C v /\ dr_revoked_at r <= ts) ->
  NoDup (map (fun rv => (rev_pk (snd rv), revoked_by (snd rv))) rvs) ->
  (forall r v y, In (r, v) rvs -> stored d y -> ~ same_keys (RRev v) y) ->
  (forall y, stored (service_history C d (flood cp ts rvs)) y <-> stored d y \/ exists r v, In (r, v) rvs /\ y = RRev v) /\
  rows (service_history C d (flood cp ts rvs)) = (rows d + length rvs)%nat /\
  (forall l r v l', rvs = l ++ (r, v) :: l' ->
     fst (service_step C (service_history C d (flood cp ts l)) (cp, S_revoke r ts, None)) = Ok (mk_response true None P_none)).
Proof.
  intros C d cp ts rvs L R H Bt F ND Nw. destruct (flooded C rvs d cp ts L R H Bt) as (_ & A & B & D).
  - apply Forall_forall. intros [r v] Hin. exact (F r v Hin).
  - exact ND.
  - intros [r v] y Hin. exact (Nw r v y Hin).
  - split; [|split; [exact B|]].
    + intros y. rewrite A. split; (intros [X|X]; [left; exact X|right]); [destruct X as ([r v] & X & Y); exists r, v; auto|destruct X as (r & v & X & Y); exists (r, v); auto].
    + intros l r v l' E. exact (D l (r, v) l' E).
Qed.
(** And they never leave: whoever calls the service with whatever, at any times and whatever fails, a stored revocation stays
    unless something newer signed by the same key comes. Roots and owners cannot remove it. *)
Lemma p_C190_for_good : forall C d v es, crypto_laws C -> service_reachable C d -> service_events_typed es -> stored_revocation d v ->
  (forall cp c fu g x, In (cp, c, fu) es -> requests C cp c g -> admitted cp c -> offers g x -> genuine C g x -> rel_issued_by x <> revoked_by v) ->
  stored_revocation (service_history C d es) v.
Proof.
  intros C d v es L R T St N. rewrite service_history_db. pose proof (service_reachable_graph C d L R) as Rg. pose proof (asked_all_typed C es L T) as Th.
  destruct (p_C64_why_relations_leave C d (asked_all C es) (RRev v) Rg Th St) as [H|(g & fu & Hin & [(now & _ & [])|(y & O & G & Sk & _)])]; [exact H|].
  exfalso. destruct (asked_all_in C es g fu Hin) as (cp & c & Hc & P).
  apply (N cp c fu g y Hc (plan_requests C cp c g P) (plan_admitted C cp c g P) O G). symmetry. exact (proj2 Sk).
Qed.

(** ** Examples *)
Lemma base_reached : forall k, reached base_store k -> k = toy_key 1 \/ k = toy_key 2.
Proof.
  intros k H. rewrite base_state_store in H. destruct H as [k H|b t _ H].
  - apply is_root_in in H. destruct H as [H|[]]. left. symmetry. exact H.
  - apply (stored_trust_in (toy true) base_state b t base_state_wf) in H. destruct H as [H|[H|[]]]; injection H as <- <-; [left|right]; reflexivity.
Qed.
(** Key 7, of whom the store knows nothing, revokes the root, a member and key 9, of whom it knows nothing either. *)
Definition vandal : list (dto_revocation * revocation) := map (fun k => (rev_rec 7 k 5, toy_rev 7 k 5)) [1; 2; 9].
Lemma vandal_strange : strangers (toy true) base_store (flood (timed_call 1) 6 vandal).
Proof.
  intros cp c fu g Hin Rq A.
  assert (E : exists k, g = G_revoke (toy_rev 7 k 5)).
  { destruct Hin as [H|[H|[H|[]]]]; injection H as <- <- <-; [exists 1|exists 2|exists 9]; (eapply requests_is; [exact A|exact Rq|vm_compute; reflexivity]). }
  destruct E as (k & ->). split; [intros ? ? X; discriminate X|]. intros x O _ Re. destruct x as [[t b]|v]; [destruct O|].
  injection O as <-. apply base_reached in Re. destruct Re as [Re|Re]; discriminate Re.
Qed.
Lemma vandal_typed : service_events_typed (flood (timed_call 1) 6 vandal).
Proof. unfold service_events_typed. repeat (constructor; [split; vm_compute; reflexivity|]). constructor. Qed.
(** So strangers can make the store grow. *)
Lemma p_C190_refuted : ~ (forall C d es, crypto_laws C -> service_reachable C d -> service_events_typed es -> strangers C d es ->
  (rows (service_history C d es) <= rows d)%nat).
Proof.
  intros H. specialize (H (toy true) base_store (flood (timed_call 1) 6 vandal) (toy_laws true) base_reachable vandal_typed vandal_strange).
  revert H. vm_compute. intros H. lia.
Qed.
(** The three revocations meet the hypotheses, and the store has five rows where it had two. *)
Example e_C190_vandal : service_reachable (toy true) base_store /\ host_time (timed_call 1) 1 /\ strangers (toy true) base_store (flood (timed_call 1) 6 vandal) /\
  (forall r v, In (r, v) vandal -> revocation_record (toy true) r v /\ signed_revocation (toy true) v /\ dr_revoked_at r <= 6) /\
  NoDup (map (fun rv => (rev_pk (snd rv), revoked_by (snd rv))) vandal) /\
  (forall r v y, In (r, v) vandal -> stored base_store y -> ~ same_keys (RRev v) y) /\
  rows base_store = 2%nat /\ rows (service_history (toy true) base_store (flood (timed_call 1) 6 vandal)) = 5%nat.
Proof.
  split; [exact base_reachable|]. split; [apply timed_host|]. split; [exact vandal_strange|]. split; [|split; [|split; [|split; vm_compute; reflexivity]]].
  - intros r v H. destruct H as [H|[H|[H|[]]]]; injection H as <- <-; (split; [|split; [vm_compute; reflexivity|vm_compute; discriminate]]).
    all: unfold rev_rec; apply dto_of_revocation_record; try apply toy_laws; try discriminate; try (split; vm_compute; reflexivity); try reflexivity.
  - repeat (constructor; [intros H; repeat (destruct H as [H|H]; [discriminate H|]); exact H|]). constructor.
  - intros r v y H St [S1 S2]. rewrite base_state_store in St. apply (stored_in (toy true)) in St; [|exact base_state_wf].
    destruct St as [<-|[<-|[]]]; destruct H as [H|[H|[H|[]]]]; injection H as <- <-; discriminate S2.
Qed.
(** A stranger inserts their own certificate and passes their own trust off as one of the root: the hypotheses are met, and nothing is stored. *)
Definition knockers : list service_event :=
  [(script_call, S_insert_cert stranger_cert 6, None); (timed_call 2, S_add_trust (trust_rec 7 7 9000 1) (pid 1) 6, None); (timed_call 2, S_add_trust (trust_rec 7 9 9000 1) (pid 7) 6, None)].
Example e_C190_knockers : service_events_typed knockers /\ strangers (toy true) base_store knockers /\ service_history (toy true) base_store knockers = base_store.
Proof.
  assert (N7 : ~ reached base_store (toy_key 7)) by (intros H; apply base_reached in H; destruct H as [H|H]; discriminate H).
  split; [|split; [|vm_compute; reflexivity]].
  - unfold knockers, service_events_typed. repeat (constructor; [cbn; repeat split; try (repeat constructor; vm_compute; reflexivity); vm_compute; reflexivity|]). constructor.
  - intros cp c fu g Hin Rq A. destruct Hin as [H|[H|[H|[]]]]; injection H as <- <- <-.
    + assert (E : g = G_add [toy_trust 7 7 9000 1] (from_secs 6)) by (eapply requests_is; [exact A|exact Rq|vm_compute; reflexivity]). subst g.
      split; [intros ? ? X; discriminate X|]. intros x Of Ge. destruct x as [[t b]|v]; [|discriminate Of]. cbn [rel_issued_by offers issued_by auth_trust] in *.
      destruct Of as [[Of ->]|(i & g & H1 & H2 & _)]; [injection Of as <-; exact N7|]. destruct i; cbn in H2; [discriminate H2|destruct i; discriminate H2].
    + assert (E : g = G_add_trust (toy_trust 7 7 9000 1) (toy_key 1) (from_secs 6)) by (eapply requests_is; [exact A|exact Rq|vm_compute; reflexivity]). subst g.
      split; [intros ? ? X; discriminate X|]. intros x Of Ge. exfalso. destruct x as [a|v]; [|discriminate Of]. destruct Of as [H1 H2]. destruct a as [t b]. cbn [auth_trust issued_by] in *. subst t b.
      destruct Ge as [Ge (n & Hn & Nb)]. injection Hn as <-.
      pose proof (proj2 (trust_verify_exact (toy true) (toy_trust 7 7 9000 1) (toy_key 1) (from_secs 6)) (conj Nb Ge)) as X. vm_compute in X. discriminate X.
    + assert (E : g = G_add_trust (toy_trust 7 9 9000 1) (toy_key 7) (from_secs 6)) by (eapply requests_is; [exact A|exact Rq|vm_compute; reflexivity]). subst g.
      split; [intros ? ? X; discriminate X|]. intros x Of Ge. destruct x as [a|v]; [|discriminate Of]. destruct Of as [H1 H2]. destruct a as [t b]. cbn [auth_trust issued_by rel_issued_by] in *. subst t b. exact N7.
Qed.
