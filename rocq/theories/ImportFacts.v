(** Imports: effects of calls, chains added trust by trust, order of imports. *)
From Coq Require Import List NArith ZArith Bool Lia ZifyBool ZifyNat ZifyN Permutation.
From Verif Require Import Base BaseFacts Text TextFacts Keys KeysFacts Trust TrustFacts Certificate CertFacts Relation
  Storage StorageFacts Graph SearchFacts PathFacts Spec SpecFacts GraphFacts StateFacts ChainFacts.
Import ListNotations.
Open Scope N_scope.

Section WithCrypto.
Variable C : crypto.

(** * Effects *)
Definition effect_of (w : write) : effect :=
  match w with W_gc now => E_collect now | W_upd x => E_import x | W_root k f => E_root k (16 - f) end.

Lemma root_factor_snoc : forall ros k f k',
  root_factor (ros ++ [(k, f)]) k' =
  match root_factor ros k' with Some g => Some g | None => if pk_eqb k k' then Some f else None end.
Proof.
  induction ros as [|[a g] ros IH]; intros k f k'; unfold root_factor in *; cbn [app find fst].
  - destruct (pk_eqb k k'); reflexivity.
  - destruct (pk_eqb a k'); [reflexivity|]. apply IH.
Qed.

Lemma root_factor_none : forall s k, inv C s -> root_factor (roots s) k = None <-> ~ is_root (db_of s) k.
Proof.
  intros s k I. rewrite is_root_max_len by exact I. split.
  - intros H (m & R). apply root_max_len_factor in R. destruct R as (f & R & _). congruence.
  - intros H. destruct (root_factor (roots s) k) as [f|] eqn:E; [|reflexivity]. exfalso. apply H. exists (16 - f).
    apply root_max_len_factor. exists f. split; [exact E|]. pose proof (factor_le C s k f I E). lia.
Qed.

Lemma root_set_write : forall s k f, inv C s -> f <= 16 -> root_set (db_of s) k (16 - f) (db_of (apply_w s (W_root k f))).
Proof.
  intros s k f I F. split; [reflexivity|]. split.
  - intros k'. rewrite !is_root_in. cbn [apply_w roots]. rewrite map_app, in_app_iff. cbn. intuition.
  - intros k' m'. rewrite !root_max_len_factor. cbn [apply_w roots]. 
    setoid_rewrite root_factor_snoc. split.
    + intros (g & H & E). destruct (root_factor (roots s) k') as [g'|] eqn:Eg.
      * left. exists g'. split; [reflexivity|]. injection H as ->. exact E.
      * destruct (pk_eqb k k') eqn:K; [|discriminate]. apply pk_eqb_eq in K. subst k'. injection H as <-.
        right. split; [reflexivity|]. split; [|lia]. apply root_factor_none; assumption.
    + intros [(g & H & E)|(-> & N & ->)].
      * exists g. rewrite H. auto.
      * apply root_factor_none in N; [|exact I]. exists f. rewrite N, pk_eqb_refl. split; [reflexivity|lia].
Qed.

Lemma effect_write : forall s w c, inv C s -> write_of C c w -> write_ok C w ->
  effect_on (db_of s) (effect_of w) (db_of (apply_w s w)).
Proof.
  intros s w c I Wr Wo. destruct w as [now|x|k f]; cbn [effect_of effect_on].
  - apply (collected_gc C). apply I.
  - apply (imported_upd C); [apply I|exact Wo].
  - apply root_set_write; [exact I|]. destruct Wr as (n & _ & ->). unfold get_weight_factor, MAX_WEIGHT_FACTOR. lia.
Qed.

Lemma effects_run : forall es ws s, inv C s -> writes_of C es ws ->
  effects_on (db_of s) (map effect_of ws) (db_of (run_ws ws s)).
Proof.
  intros es ws. induction ws as [|w ws IH]; intros s I W; [constructor|].
  inversion W as [|? ? (e & He & T & H & K) W']; subst. cbn [map run_ws fold_left]. econstructor.
  - eapply effect_write; eassumption.
  - apply IH; [|exact W']. eapply inv_step; eassumption.
Qed.

Lemma sem_writes_of : forall s c k, call_typed C c -> writes_of C [(c, None)] (firstn k (snd (sem C s c))).
Proof.
  intros s c k T. apply Forall_forall. intros w Hw. apply in_firstn in Hw. exists (c, None). cbn [fst].
  split; [left; reflexivity|]. split; [exact T|]. split; [apply sem_write_of with (s := s); exact Hw|].
  pose proof (sem_writes C s c T) as F. rewrite Forall_forall in F. apply F. exact Hw.
Qed.

Lemma step_effects : forall s c, inv C s -> call_typed C c -> exists es,
  Forall (effect_allowed c) es /\
  effects_on (db_of s) es (snd (graph_step C (db_of s) (c, None))) /\
  forall fu r d', graph_step C (db_of s) (c, fu) = (r, d') ->
    (r, d') = graph_step C (db_of s) (c, None) \/
    (r = Err SQL /\ exists k, effects_on (db_of s) (firstn k es) d').
Proof.
  intros s c I T. exists (map effect_of (snd (sem C s c))). split; [|split].
  - apply Forall_forall. intros e He. apply in_map_iff in He. destruct He as (w & <- & Hw). apply sem_write_of in Hw.
    destruct w as [now|x|k f]; cbn [effect_of effect_allowed].
    + exact Hw.
    + eapply write_of_offers. exact Hw.
    + destruct Hw as (n & -> & ->). exists n. split; [reflexivity|]. unfold get_weight_factor, MAX_WEIGHT_FACTOR. lia.
  - rewrite (step_none C s c I T). cbn [snd]. eapply effects_run; [exact I|].
    rewrite <- (firstn_all (snd (sem C s c))). apply sem_writes_of. exact T.
  - intros fu r d' E. rewrite (step_none C s c I T).
    destruct (graph_step_sem C s c fu (inv_wf C s I) T) as [H|(_ & k & H)]; rewrite H in E; injection E as <- <-.
    + left. reflexivity.
    + right. split; [reflexivity|]. exists k. rewrite firstn_map. eapply effects_run; [exact I|]. apply sem_writes_of. exact T.
Qed.

(** Every call answers, and only with the errors of the library. *)
Lemma add_trust_sem_total : forall s t b now,
  (exists w, fst (add_trust_sem C s t b now) = Ok w) \/ (exists e, fst (add_trust_sem C s t b now) = Err e).
Proof.
  intros s t b now. unfold add_trust_sem. destruct (trust_verify_total C t b now) as [E|(e & E)]; rewrite E.
  - cbv zeta. destruct (_ =? 0); left; eexists; reflexivity.
  - right. eexists; reflexivity.
Qed.
Lemma add_chain_sem_total : forall c s b now,
  (exists w, fst (add_chain_sem C s c b now) = Ok w) \/ (exists e, fst (add_chain_sem C s c b now) = Err e).
Proof.
  induction c as [|t c IH]; intros s b now; cbn [add_chain_sem]; [left; eexists; reflexivity|].
  destruct (add_trust_sem_total s t b now) as [(w & E)|(e & E)]; destruct (add_trust_sem C s t b now) as [r ws]; cbn [fst] in E; subst r.
  - specialize (IH (run_ws ws s) (issued_for t) now). destruct (add_chain_sem C (run_ws ws s) c (issued_for t) now) as [r ws']. exact IH.
  - right. eexists; reflexivity.
Qed.
Lemma sem_total : forall s c, (exists r, fst (sem C s c) = Ok r) \/ (exists e, fst (sem C s c) = Err e).
Proof.
  intros s c. destruct c; cbn [sem]; try (left; eexists; reflexivity).
  - destruct (add_trust_sem_total s t by_pk now) as [(w & E)|(e & E)]; destruct (add_trust_sem C s t by_pk now) as [r ws]; cbn [fst] in E; subst r;
      [left|right]; eexists; reflexivity.
  - unfold add_sem. destruct c as [|t c]; [right; eexists; reflexivity|].
    destruct (add_chain_sem_total (t :: c) s (issued_for t) now) as [(w & E)|(e & E)];
      destruct (add_chain_sem C s (t :: c) (issued_for t) now) as [r ws]; cbn [fst] in E; subst r; [left|right]; eexists; reflexivity.
  - unfold revoke_sem. destruct (revocation_verify_total C v) as [E|(e & E)]; rewrite E; [left|right]; eexists; reflexivity.
Qed.

(** * add_trust *)
Lemma add_trust_weight : forall s t b now, inv C s -> trust_typed C t -> pk_valid C b -> duration_wf now ->
  trust_verify C t b now = Ok tt ->
  exists w d1, graph_step C (db_of s) (G_weight b now, None) = (Ok (GR_weight w), d1) /\
    let w' := if pk_eqb b (issued_for t) then w else w / 2 in
    fst (graph_step C (db_of s) (G_add_trust t b now, None)) = Ok (GR_weight w') /\
    (w' = 0 -> snd (graph_step C (db_of s) (G_add_trust t b now, None)) = d1) /\
    (w' <> 0 -> imported d1 (RAuth (mk_auth t b)) (snd (graph_step C (db_of s) (G_add_trust t b now, None)))).
Proof.
  intros s t b now I T V D E. rewrite (step_none C s (G_weight b now) I (conj V D)). cbn [sem fst snd run_ws fold_left].
  eexists. eexists. split; [reflexivity|].
  rewrite (step_none C s (G_add_trust t b now) I (conj T (conj V D))). cbn [sem fst snd]. unfold add_trust_sem. rewrite E.
  cbv zeta. unfold next_weight_of. destruct (pk_eqb b (issued_for t)).
  - destruct (weight_of (apply_w s (W_gc now)) b =? 0) eqn:Z; cbn [fst snd map_ok].
    + apply N.eqb_eq in Z. rewrite Z. split; [reflexivity|]. split; [reflexivity|congruence].
    + apply N.eqb_neq in Z. split; [reflexivity|]. split; [congruence|]. intros _.
      apply (imported_upd C); [apply gc_wf; apply I|apply trust_rel_typed; assumption].
  - destruct (weight_of (apply_w s (W_gc now)) b / 2 =? 0) eqn:Z; cbn [fst snd map_ok].
    + apply N.eqb_eq in Z. rewrite Z. split; [reflexivity|]. split; [reflexivity|congruence].
    + apply N.eqb_neq in Z. split; [reflexivity|]. split; [congruence|]. intros _.
      apply (imported_upd C); [apply gc_wf; apply I|apply trust_rel_typed; assumption].
Qed.

(** * add: trusts one by one *)
Definition run_calls (cs : list graph_call) (s : state) : state :=
  fold_left (fun s c => run_ws (snd (sem C s c)) s) cs s.

Lemma run_calls_inv : forall cs s, inv C s -> Forall (call_typed C) cs -> inv C (run_calls cs s).
Proof.
  induction cs as [|c cs IH]; intros s I T; [exact I|]. inversion T; subst. cbn [run_calls fold_left].
  apply IH; [|assumption]. apply sem_inv_all; assumption.
Qed.

Lemma run_calls_history : forall cs s, inv C s -> Forall (call_typed C) cs ->
  graph_history C (db_of s) (map (fun c => (c, None)) cs) = db_of (run_calls cs s).
Proof.
  induction cs as [|c cs IH]; intros s I T; [reflexivity|]. inversion T; subst. cbn [run_calls fold_left map].
  change (graph_history C (db_of s) ((c, None) :: map (fun c => (c, None)) cs))
    with (graph_history C (snd (graph_step C (db_of s) (c, None))) (map (fun c => (c, None)) cs)).
  rewrite step_none by assumption. cbn [snd]. apply IH; [|assumption]. apply sem_inv_all; assumption.
Qed.

Lemma chain_calls_typed : forall c b now, Forall (trust_typed C) c -> pk_valid C b -> duration_wf now ->
  Forall (call_typed C) (chain_calls c b now).
Proof.
  induction c as [|t c IH]; intros b now F V D; cbn [chain_calls]; constructor; inversion F; subst.
  - split; [assumption|]. split; assumption.
  - apply IH; try assumption. match goal with H : trust_typed C t |- _ => apply H end.
Qed.

Lemma add_chain_calls : forall c s b now,
  (Forall (fun a => trust_verify C (auth_trust a) (issued_by a) now = Ok tt) (with_issuers b c) /\
   fst (add_chain_sem C s c b now) = Ok tt /\
   run_ws (snd (add_chain_sem C s c b now)) s = run_calls (chain_calls c b now) s) \/
  (exists n a e, nth_error (with_issuers b c) n = Some a /\ trust_verify C (auth_trust a) (issued_by a) now = Err e /\
   Forall (fun a => trust_verify C (auth_trust a) (issued_by a) now = Ok tt) (firstn n (with_issuers b c)) /\
   fst (add_chain_sem C s c b now) = Err (GE_TrustVerification e) /\
   run_ws (snd (add_chain_sem C s c b now)) s = run_calls (firstn n (chain_calls c b now)) s).
Proof.
  induction c as [|t c IH]; intros s b now; cbn [add_chain_sem with_issuers chain_calls].
  - left. split; [constructor|]. split; reflexivity.
  - destruct (trust_verify_total C t b now) as [E|(e & E)].
    + assert (X : exists w ws, add_trust_sem C s t b now = (Ok w, ws)).
      { unfold add_trust_sem. rewrite E. cbv zeta. destruct (_ =? 0); eauto. }
      destruct X as (w & ws & X). rewrite X.
      assert (Y : run_ws (snd (sem C s (G_add_trust t b now))) s = run_ws ws s) by (cbn [sem]; rewrite X; reflexivity).
      specialize (IH (run_ws ws s) (issued_for t) now).
      destruct (add_chain_sem C (run_ws ws s) c (issued_for t) now) as [r ws']. cbn [fst snd] in *. rewrite run_ws_app.
      destruct IH as [(F & R & S1)|(n & a & e & N1 & N2 & N3 & R & S1)].
      * left. split; [constructor; [exact E|exact F]|]. split; [exact R|]. rewrite S1. cbn [run_calls fold_left]. rewrite Y. reflexivity.
      * right. exists (S n), a, e. split; [exact N1|]. split; [exact N2|]. split; [cbn [firstn]; constructor; [exact E|exact N3]|].
        split; [exact R|]. rewrite S1. cbn [firstn run_calls fold_left]. rewrite Y. reflexivity.
    + right. exists 0%nat, (mk_auth t b), e. unfold add_trust_sem. rewrite E. cbn. repeat split; auto.
Qed.

(** * Order of imports *)
Definition same_members (a b : list relation) : Prop := forall x, In x a <-> In x b.

Definition merge (o : option relation) (x : relation) : option relation :=
  match o with
  | Some old => if duration_ltb (rel_issued_at old) (rel_issued_at x) then Some (rel_trunc x) else Some old
  | None => Some (rel_trunc x)
  end.

Notation pairs := (map (fun x => (rel_issued_for x, rel_issued_by x))).

Lemma find_rel_ext : forall rs rs' f b, NoDup (pairs rs) -> NoDup (pairs rs') -> same_members rs rs' ->
  find_rel rs f b = find_rel rs' f b.
Proof.
  intros rs rs' f b N N' E. destruct (find_rel rs f b) as [x|] eqn:F.
  - apply find_rel_some in F; [|exact N]. symmetry. apply find_rel_some; [exact N'|]. rewrite <- (E x). exact F.
  - destruct (find_rel rs' f b) as [y|] eqn:F'; [|reflexivity]. apply find_rel_some in F'; [|exact N'].
    rewrite <- (E y) in F'. apply find_rel_some in F'; [|exact N]. congruence.
Qed.

Lemma members_ext : forall rs rs', NoDup (pairs rs) -> NoDup (pairs rs') ->
  (forall f b, find_rel rs f b = find_rel rs' f b) -> same_members rs rs'.
Proof.
  intros rs rs' N N' E x. split; intros H.
  - assert (F : find_rel rs (rel_issued_for x) (rel_issued_by x) = Some x) by (apply find_rel_some; auto).
    rewrite E in F. apply find_rel_some in F; [apply F|exact N'].
  - assert (F : find_rel rs' (rel_issued_for x) (rel_issued_by x) = Some x) by (apply find_rel_some; auto).
    rewrite <- E in F. apply find_rel_some in F; [apply F|exact N].
Qed.

Lemma pair_dec : forall (f f' b b' : public_key), (f = f' /\ b = b') \/ ~ (f = f' /\ b = b').
Proof.
  intros f f' b b'. destruct (pk_eqb f f') eqn:E.
  - apply pk_eqb_eq in E. destruct (pk_eqb b b') eqn:E'.
    + apply pk_eqb_eq in E'. auto.
    + right. intros [_ H]. apply pk_eqb_eq in H. congruence.
  - right. intros [H _]. apply pk_eqb_eq in H. congruence.
Qed.

Lemma find_upd : forall rs x f b, NoDup (pairs rs) ->
  (rel_issued_for x = f /\ rel_issued_by x = b -> find_rel (upd rs x) f b = merge (find_rel rs f b) x) /\
  (~ (rel_issued_for x = f /\ rel_issued_by x = b) -> find_rel (upd rs x) f b = find_rel rs f b).
Proof.
  intros rs x f b N. pose proof (upd_nodup rs x N) as N'. split.
  - intros [<- <-]. unfold upd, merge. destruct (find_rel rs (rel_issued_for x) (rel_issued_by x)) as [old|] eqn:F.
    + destruct (duration_ltb _ _) eqn:L; [|exact F]. apply find_rel_some.
      * apply put_nodup. exact N.
      * split; [apply in_put; auto|]. rewrite trunc_for, trunc_by. auto.
    + apply find_rel_some.
      * apply put_nodup. exact N.
      * split; [apply in_put; auto|]. rewrite trunc_for, trunc_by. auto.
  - intros P. destruct (find_rel rs f b) as [y|] eqn:F.
    + apply find_rel_some in F; [|exact N]. destruct F as (Hy & <- & <-). apply find_rel_some; [exact N'|].
      split; [|auto]. apply in_upd; [exact N|]. left. split; [|exact Hy]. intros K. apply P. exact K.
    + destruct (find_rel (upd rs x) f b) as [y|] eqn:F'; [|reflexivity]. exfalso. apply find_rel_some in F'; [|exact N'].
      destruct F' as (Hy & <- & <-). apply in_upd in Hy; [|exact N]. destruct Hy as [[_ H]|[(K & _)|[-> _]]].
      * apply (find_rel_none _ _ _ F y H). auto.
      * apply P. exact K.
      * apply P. rewrite whole_trunc, trunc_for, trunc_by. auto.
Qed.

Lemma upd_ext : forall rs rs' x, NoDup (pairs rs) -> NoDup (pairs rs') -> same_members rs rs' -> same_members (upd rs x) (upd rs' x).
Proof.
  intros rs rs' x N N' E. apply members_ext; [apply upd_nodup; exact N|apply upd_nodup; exact N'|]. intros f b.
  destruct (pair_dec (rel_issued_for x) f (rel_issued_by x) b) as [K|K].
  - rewrite (proj1 (find_upd rs x f b N) K), (proj1 (find_upd rs' x f b N') K). f_equal. apply find_rel_ext; assumption.
  - rewrite (proj2 (find_upd rs x f b N) K), (proj2 (find_upd rs' x f b N') K). apply find_rel_ext; assumption.
Qed.

Lemma trunc_at : forall x, rel_issued_at (rel_trunc x) = from_secs (secs (rel_issued_at x)).
Proof. intros [a|v]; reflexivity. Qed.

Lemma merge_comm : forall o x y, (forall z, o = Some z -> whole_secs (rel_issued_at z)) -> secs (rel_issued_at x) <> secs (rel_issued_at y) ->
  merge (merge o x) y = merge (merge o y) x.
Proof.
  intros o x y W D.
  assert (B1 : duration_ltb (rel_issued_at (rel_trunc x)) (rel_issued_at y) = (secs (rel_issued_at x) <? secs (rel_issued_at y))).
  { rewrite trunc_at. unfold duration_ltb. cbn. lia. }
  assert (B2 : duration_ltb (rel_issued_at (rel_trunc y)) (rel_issued_at x) = (secs (rel_issued_at y) <? secs (rel_issued_at x))).
  { rewrite trunc_at. unfold duration_ltb. cbn. lia. }
  destruct o as [z|]; cbn [merge].
  - destruct (duration_ltb (rel_issued_at z) (rel_issued_at x)) eqn:Lx; destruct (duration_ltb (rel_issued_at z) (rel_issued_at y)) eqn:Ly;
      cbn [merge]; rewrite ?B1, ?B2, ?Lx, ?Ly.
    + destruct (secs (rel_issued_at x) <? secs (rel_issued_at y)) eqn:E1; destruct (secs (rel_issued_at y) <? secs (rel_issued_at x)) eqn:E2; try reflexivity; lia.
    + replace (secs (rel_issued_at x) <? secs (rel_issued_at y)) with false; [reflexivity|].
      symmetry. unfold duration_ltb in Lx, Ly. lia.
    + replace (secs (rel_issued_at y) <? secs (rel_issued_at x)) with false; [reflexivity|].
      symmetry. unfold duration_ltb in Lx, Ly. lia.
    + reflexivity.
  - cbn [merge]. rewrite B1, B2.
    destruct (secs (rel_issued_at x) <? secs (rel_issued_at y)) eqn:E1; destruct (secs (rel_issued_at y) <? secs (rel_issued_at x)) eqn:E2; try reflexivity; lia.
Qed.

Lemma upd_comm : forall rs x y, NoDup (pairs rs) -> Forall (rel_wf C) rs ->
  (same_keys x y -> secs (rel_issued_at x) <> secs (rel_issued_at y)) ->
  same_members (upd (upd rs x) y) (upd (upd rs y) x).
Proof.
  intros rs x y N W D. pose proof (upd_nodup rs x N) as Nx. pose proof (upd_nodup rs y N) as Ny.
  apply members_ext; [apply upd_nodup; exact Nx|apply upd_nodup; exact Ny|]. intros f b.
  destruct (find_upd rs x f b N) as [X1 X2]. destruct (find_upd rs y f b N) as [Y1 Y2].
  destruct (find_upd (upd rs x) y f b Nx) as [XY1 XY2]. destruct (find_upd (upd rs y) x f b Ny) as [YX1 YX2].
  destruct (pair_dec (rel_issued_for x) f (rel_issued_by x) b) as [Kx|Kx];
    destruct (pair_dec (rel_issued_for y) f (rel_issued_by y) b) as [Ky|Ky].
  - rewrite XY1, YX1, X1, Y1 by assumption. apply merge_comm.
    + intros z Hz. apply find_rel_in in Hz. rewrite Forall_forall in W. destruct (W z (proj1 Hz)) as (_ & _ & _ & H & _). exact H.
    + apply D. destruct Kx, Ky. split; congruence.
  - rewrite XY2, YX1, X1, Y2 by assumption. reflexivity.
  - rewrite XY1, YX2, X2, Y1 by assumption. reflexivity.
  - rewrite XY2, YX2, X2, Y2 by assumption. reflexivity.
Qed.

Definition upd_all (xs : list relation) (rs : list relation) : list relation := fold_left upd xs rs.

Lemma upd_all_ok : forall xs rs, NoDup (pairs rs) -> Forall (rel_wf C) rs -> Forall (rel_typed C) xs ->
  NoDup (pairs (upd_all xs rs)) /\ Forall (rel_wf C) (upd_all xs rs).
Proof.
  induction xs as [|x xs IH]; intros rs N W T; [auto|]. inversion T; subst. cbn [upd_all fold_left].
  apply IH; [apply upd_nodup; exact N|apply upd_wf; assumption|assumption].
Qed.

Lemma upd_all_ext : forall xs rs rs', NoDup (pairs rs) -> NoDup (pairs rs') -> same_members rs rs' ->
  same_members (upd_all xs rs) (upd_all xs rs').
Proof.
  induction xs as [|x xs IH]; intros rs rs' N N' E; [exact E|]. cbn [upd_all fold_left].
  apply IH; [apply upd_nodup; exact N|apply upd_nodup; exact N'|]. apply upd_ext; assumption.
Qed.

Lemma upd_all_perm : forall xs ys, Permutation xs ys -> seconds_differ xs -> Forall (rel_typed C) xs ->
  forall rs, NoDup (pairs rs) -> Forall (rel_wf C) rs -> same_members (upd_all xs rs) (upd_all ys rs).
Proof.
  intros xs ys P. induction P; intros D T rs N W.
  - intros x. reflexivity.
  - inversion T; subst. cbn [upd_all fold_left]. apply IHP; auto.
    + intros a b Ha Hb. apply D; right; assumption.
    + apply upd_nodup; exact N.
    + apply upd_wf; assumption.
  - inversion T as [|? ? Ty T']; subst. inversion T' as [|? ? Tx T'']; subst. cbn [upd_all fold_left].
    apply upd_all_ext; try (apply upd_nodup; apply upd_nodup; exact N).
    destruct (pair_dec (rel_issued_for y) (rel_issued_for x) (rel_issued_by y) (rel_issued_by x)) as [K|K].
    + destruct (N.eq_dec (secs (rel_issued_at y)) (secs (rel_issued_at x))) as [Es|Ns].
      * assert (y = x) by (apply D; cbn; auto; exact K). subst. intros z. reflexivity.
      * apply upd_comm; try assumption. intros _. exact Ns.
    + apply upd_comm; try assumption. intros K'. exfalso. apply K. exact K'.
  - assert (D' : seconds_differ l').
    { intros a b Ha Hb. apply D; eapply Permutation_in; try apply Permutation_sym; eassumption. }
    assert (T' : Forall (rel_typed C) l') by (eapply Permutation_Forall; eassumption).
    intros x. rewrite (IHP1 D T rs N W x). apply IHP2; assumption.
Qed.

End WithCrypto.
