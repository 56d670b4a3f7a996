(** Facts about Storage.v: the tables as lists of typed relations, and what each statement does. *)
From Coq Require Import List NArith ZArith Bool Lia ZifyBool ZifyNat ZifyN.
From Verif Require Import Base BaseFacts Text TextFacts Keys KeysFacts Trust TrustFacts Relation Storage.
Import ListNotations.
Open Scope N_scope.

(** Running a computation from database [d]: with enough statements it ends with [r] in [d'];
    otherwise some statement fails, the error is [e] and the database satisfies [I]. *)
Definition Runs {E A} (e : E) (d : db) (m : M E A) (r : result E A) (d' : db) (I : db -> Prop) : Prop :=
  forall fu,
    (exists fu', m (mk_world d fu) = (r, mk_world d' fu') /\ (fu = None -> fu' = None)) \/
    (fu <> None /\ exists d'', I d'' /\ m (mk_world d fu) = (Err e, mk_world d'' (Some 0%nat))).

(** No change of the database. *)
Definition Reads {E A} (e : E) (d : db) (m : M E A) (r : result E A) : Prop :=
  Runs e d m r d (fun d'' => d'' = d).

Lemma Runs_weaken : forall E A (e : E) d (m : M E A) r d' (I J : db -> Prop),
  (forall x, I x -> J x) -> Runs e d m r d' I -> Runs e d m r d' J.
Proof.
  intros E A e d m r d' I J H R fu. destruct (R fu) as [X|(X & d'' & Y & Z)]; [left; exact X|].
  right. split; [exact X|]. exists d''. auto.
Qed.

Lemma Reads_Runs : forall E A (e : E) d (m : M E A) r (I : db -> Prop),
  I d -> Reads e d m r -> Runs e d m r d I.
Proof. intros E A e d m r I H R. eapply Runs_weaken; [|exact R]. intros x ->. exact H. Qed.

Lemma Runs_ret : forall E A (e : E) d (a : A) I, Runs e d (ret a) (Ok a) d I.
Proof. intros E A e d a I fu. left. exists fu. split; [reflexivity|auto]. Qed.
Lemma Runs_throw : forall E A (e : E) d (x : E) I, Runs e d (@throw E A x) (Err x) d I.
Proof. intros E A e d a I fu. left. exists fu. split; [reflexivity|auto]. Qed.
Lemma Runs_lift : forall E A (e : E) d (r : result E A) I, Runs e d (lift r) r d I.
Proof. intros E A e d a I fu. left. exists fu. split; [reflexivity|auto]. Qed.

Lemma Runs_bind : forall E A B (e : E) d (m : M E A) a d1 (f : A -> M E B) r d2 I,
  Runs e d m (Ok a) d1 I -> Runs e d1 (f a) r d2 I -> Runs e d (mbind m f) r d2 I.
Proof.
  intros E A B e d m a d1 f r d2 I R1 R2 fu. unfold mbind.
  destruct (R1 fu) as [(fu1 & H1 & N1)|(N1 & d'' & HI & H1)]; rewrite H1.
  - destruct (R2 fu1) as [(fu2 & H2 & N2)|(N2 & d'' & HI & H2)].
    + left. exists fu2. split; [assumption|auto].
    + right. split; [intros ->; apply N2; auto|]. exists d''. auto.
  - right. split; [assumption|]. exists d''. auto.
Qed.

Lemma Runs_bind_err : forall E A B (e : E) d (m : M E A) x d1 (f : A -> M E B) I,
  Runs e d m (Err x) d1 I -> Runs e d (mbind m f) (Err x) d1 I.
Proof.
  intros E A B e d m x d1 f I R1 fu. unfold mbind.
  destruct (R1 fu) as [(fu1 & H1 & N1)|(N1 & d'' & HI & H1)]; rewrite H1.
  - left. exists fu1. auto.
  - right. split; [assumption|]. exists d''. auto.
Qed.

Lemma Runs_bind_panic : forall E A B (e : E) d (m : M E A) d1 (f : A -> M E B) I,
  Runs e d m Panic d1 I -> Runs e d (mbind m f) Panic d1 I.
Proof.
  intros E A B e d m d1 f I R1 fu. unfold mbind.
  destruct (R1 fu) as [(fu1 & H1 & N1)|(N1 & d'' & HI & H1)]; rewrite H1.
  - left. exists fu1. auto.
  - right. split; [assumption|]. exists d''. auto.
Qed.

Lemma Runs_map_err : forall E F A (g : E -> F) (e : E) d (m : M E A) r d' I,
  Runs e d m r d' I -> Runs (g e) d (mmap_err g m) (map_err g r) d' I.
Proof.
  intros E F A g e d m r d' I R fu. unfold mmap_err.
  destruct (R fu) as [(fu1 & H1 & N1)|(N1 & d'' & HI & H1)]; rewrite H1.
  - left. exists fu1. auto.
  - right. split; [assumption|]. exists d''. auto.
Qed.

Lemma Runs_sql : forall A (f : db -> A * db) d (I : db -> Prop), I d ->
  Runs SE_SQLite d (sql f) (Ok (fst (f d))) (snd (f d)) I.
Proof.
  intros A f d I HI fu. unfold sql. destruct fu as [[|k]|]; simpl; destruct (f d) as [a d'] eqn:E; simpl.
  - right. split; [discriminate|]. exists d. auto.
  - left. exists (Some k). split; [reflexivity|discriminate].
  - left. exists None. auto.
Qed.

Lemma Reads_sql : forall A (f : db -> A * db) d, snd (f d) = d -> Reads SE_SQLite d (sql f) (Ok (fst (f d))).
Proof. intros A f d H. unfold Reads. pose proof (Runs_sql A f d (fun x => x = d) eq_refl) as R. rewrite H in R. exact R. Qed.

(** Determinism and the run without failures. *)
Lemma Runs_none : forall E A (e : E) d (m : M E A) r d' I, Runs e d m r d' I ->
  m (mk_world d None) = (r, mk_world d' None).
Proof.
  intros E A e d m r d' I R. destruct (R None) as [(fu & H & N)|(N & _)]; [|congruence].
  rewrite (N eq_refl) in H. exact H.
Qed.

Section WithCrypto.
Variable C : crypto.

(** Relations a row can represent. *)
Definition rel_wf (x : relation) : Prop :=
  pk_valid C (rel_issued_for x) /\ pk_valid C (rel_issued_by x) /\ sig_valid C (rel_signature x) /\
  whole_secs (rel_issued_at x) /\ whole_secs (rel_expires_at x).

(** Relations the API can be given: sub-second parts allowed. *)
Definition rel_typed (x : relation) : Prop :=
  pk_valid C (rel_issued_for x) /\ pk_valid C (rel_issued_by x) /\ sig_valid C (rel_signature x) /\
  secs (rel_issued_at x) < u64_bound /\ secs (rel_expires_at x) < u64_bound.

(** Drop the sub-second parts. *)
Definition trunc (d : duration) : duration := from_secs (secs d).
Definition rel_trunc (x : relation) : relation :=
  match x with
  | RAuth a => RAuth (mk_auth (mk_trust (issued_for (auth_trust a)) (trunc (expires_at (auth_trust a)))
                                        (trust_sig (auth_trust a)) (trunc (issued_at (auth_trust a)))) (issued_by a))
  | RRev v => RRev (mk_rev (rev_pk v) (trunc (revoked_at v)) (revoked_by v) (rev_sig v))
  end.

Lemma row_of_trunc : forall x, row_of_relation (rel_trunc x) = row_of_relation x.
Proof. intros [a|v]; reflexivity. Qed.

Lemma rel_trunc_wf : forall x, rel_typed x -> rel_wf (rel_trunc x).
Proof.
  intros [[[k e s i] b]|v] (H1 & H2 & H3 & H4 & H5); cbn in *; (split; [exact H1|]; split; [exact H2|]; split; [exact H3|]);
    split; apply from_secs_whole; assumption.
Qed.

Lemma rel_trunc_id : forall x, rel_wf x -> rel_trunc x = x.
Proof.
  intros [[[k e s i] b]|[k t b s]] (H1 & H2 & H3 & H4 & H5); cbn in *; unfold trunc; rewrite !whole_secs_from by assumption; reflexivity.
Qed.

Lemma parse_row : forall x, rel_wf x -> parse_relation C (row_of_relation x) = Ok x.
Proof.
  intros x (H1 & H2 & H3 & H4 & H5). unfold parse_relation, row_of_relation.
  cbn [r_for r_by r_issued_at r_expires_at r_sig r_type].
  rewrite !pk_from_str_display by assumption. cbn [bind map_err].
  rewrite sig_decode_encode by assumption. cbn [bind map_err].
  rewrite !u64_i64_roundtrip by (apply H4 || apply H5).
  rewrite !whole_secs_from by assumption.
  destruct x as [[[k e s i] b]|[k t b s]]; reflexivity.
Qed.

Lemma row_of_relation_inj : forall x y, rel_wf x -> rel_wf y -> row_of_relation x = row_of_relation y -> x = y.
Proof.
  intros x y Hx Hy E. pose proof (parse_row x Hx) as P. rewrite E, (parse_row y Hy) in P. apply Ok_inj in P. congruence.
Qed.

Definition is_auth (x : relation) : bool := match x with RAuth _ => true | RRev _ => false end.

(** Typed content of a database. *)
Record repr (d : db) (rs : list relation) (roots : list (public_key * N)) : Prop := mk_repr {
  repr_rows : tbl_relations d = map row_of_relation rs;
  repr_wf : Forall rel_wf rs;
  repr_nodup : NoDup (map (fun x => (rel_issued_for x, rel_issued_by x)) rs);
  repr_roots : tbl_roots d = map (fun kf => (pk_display (fst kf), Z.of_N (snd kf))) roots;
  repr_roots_wf : Forall (fun kf => pk_valid C (fst kf) /\ snd kf < u32_bound) roots
}.

Lemma repr_empty : repr empty_db [] [].
Proof. split; try reflexivity; constructor. Qed.

Lemma filter_map : forall A B (f : A -> B) (p : B -> bool) l, filter p (map f l) = map f (filter (fun x => p (f x)) l).
Proof. induction l as [|x l IH]; simpl; [reflexivity|]. rewrite IH. destruct (p (f x)); reflexivity. Qed.

Lemma find_map : forall A B (f : A -> B) (p : B -> bool) l, find p (map f l) = option_map f (find (fun x => p (f x)) l).
Proof. induction l as [|x l IH]; simpl; [reflexivity|]. destruct (p (f x)); [reflexivity|assumption]. Qed.

Lemma parse_rows_map : forall rs, Forall rel_wf rs -> parse_rows C (map row_of_relation rs) = Ok rs.
Proof.
  induction 1 as [|x rs Hx _ IH]; [reflexivity|]. simpl. rewrite parse_row by assumption. rewrite IH. reflexivity.
Qed.

Lemma Forall_filter : forall A (P : A -> Prop) f l, Forall P l -> Forall P (filter f l).
Proof. induction 1; simpl; [constructor|]. destruct (f x); [constructor|]; assumption. Qed.

Definition auths_of (rs : list relation) (pk : public_key) : list auth :=
  only_auths (filter (fun x => pk_eqb (rel_issued_for x) pk) rs).
Definition revs_of (rs : list relation) (pk : public_key) : list revocation :=
  only_revs (filter (fun x => pk_eqb (rel_issued_for x) pk) rs).

Lemma only_auths_filter : forall p rs,
  only_auths (filter (fun x => p x && is_auth x) rs) = only_auths (filter p rs).
Proof.
  intros p. induction rs as [|[a|v] rs IH]; simpl; [reflexivity| |].
  - rewrite andb_true_r. destruct (p (RAuth a)); simpl; rewrite IH; reflexivity.
  - rewrite andb_false_r. destruct (p (RRev v)); simpl; rewrite IH; reflexivity.
Qed.
Lemma only_revs_filter : forall p rs,
  only_revs (filter (fun x => p x && negb (is_auth x)) rs) = only_revs (filter p rs).
Proof.
  intros p. induction rs as [|[a|v] rs IH]; simpl; [reflexivity| |].
  - rewrite andb_false_r. destruct (p (RAuth a)); simpl; rewrite IH; reflexivity.
  - rewrite andb_true_r. destruct (p (RRev v)); simpl; rewrite IH; reflexivity.
Qed.

Lemma in_only_auths : forall a l, In a (only_auths l) <-> In (RAuth a) l.
Proof.
  intros a l. unfold only_auths. rewrite in_flat_map. split.
  - intros ([b|v] & H1 & H2); simpl in H2; [destruct H2 as [->|[]]; assumption|destruct H2].
  - intros H. exists (RAuth a). split; [assumption|left; reflexivity].
Qed.
Lemma in_only_revs : forall v l, In v (only_revs l) <-> In (RRev v) l.
Proof.
  intros v l. unfold only_revs. rewrite in_flat_map. split.
  - intros ([b|w] & H1 & H2); simpl in H2; [destruct H2|destruct H2 as [->|[]]; assumption].
  - intros H. exists (RRev v). split; [assumption|left; reflexivity].
Qed.
Lemma in_auths_of : forall a rs pk, In a (auths_of rs pk) <-> In (RAuth a) rs /\ issued_for (auth_trust a) = pk.
Proof. intros. unfold auths_of. rewrite in_only_auths, filter_In, pk_eqb_eq. reflexivity. Qed.
Lemma in_revs_of : forall v rs pk, In v (revs_of rs pk) <-> In (RRev v) rs /\ rev_pk v = pk.
Proof. intros. unfold revs_of. rewrite in_only_revs, filter_In, pk_eqb_eq. reflexivity. Qed.

Lemma get_relations_reads : forall d rs roots pk ty, repr d rs roots ->
  Reads SE_SQLite d (get_relations C pk ty)
    (Ok (filter (fun x => pk_eqb (rel_issued_for x) pk && (r_type (row_of_relation x) =? ty)%Z) rs)).
Proof.
  intros d rs roots pk ty R. unfold get_relations, Reads. eapply Runs_bind.
  - apply Reads_sql. reflexivity.
  - cbn [fst]. rewrite (repr_rows _ _ _ R), filter_map.
    rewrite parse_rows_map.
    + rewrite (filter_ext _ (fun x => pk_eqb (rel_issued_for x) pk && (r_type (row_of_relation x) =? ty)%Z)).
      * apply Runs_lift.
      * intros x. cbn [r_for row_of_relation]. rewrite pk_display_eqb. reflexivity.
    + apply Forall_filter. apply (repr_wf _ _ _ R).
Qed.

Lemma get_authorizations_reads : forall d rs roots pk, repr d rs roots ->
  Reads SE_SQLite d (get_authorizations C pk) (Ok (auths_of rs pk)).
Proof.
  intros d rs roots pk R. unfold get_authorizations, Reads. eapply Runs_bind.
  - apply (get_relations_reads d rs roots pk AUTH_TYPE R).
  - cbv beta. unfold auths_of.
    rewrite (filter_ext _ (fun x => pk_eqb (rel_issued_for x) pk && is_auth x)) by (intros [a|v]; reflexivity).
    rewrite only_auths_filter. apply Runs_ret.
Qed.

Lemma get_revocations_reads : forall d rs roots pk, repr d rs roots ->
  Reads SE_SQLite d (get_revocations C pk) (Ok (revs_of rs pk)).
Proof.
  intros d rs roots pk R. unfold get_revocations, Reads. eapply Runs_bind.
  - apply (get_relations_reads d rs roots pk REVOCATION_TYPE R).
  - cbv beta. unfold revs_of.
    rewrite (filter_ext _ (fun x => pk_eqb (rel_issued_for x) pk && negb (is_auth x))) by (intros [a|v]; reflexivity).
    rewrite only_revs_filter. apply Runs_ret.
Qed.

Definition find_rel (rs : list relation) (for_pk by_pk : public_key) : option relation :=
  find (fun x => pk_eqb (rel_issued_by x) by_pk && pk_eqb (rel_issued_for x) for_pk) rs.

Lemma find_ext : forall A (p q : A -> bool) l, (forall x, p x = q x) -> find p l = find q l.
Proof. intros A p q l H. induction l as [|x l IH]; simpl; [reflexivity|]. rewrite H, IH. reflexivity. Qed.

Lemma find_rel_in : forall rs f b x, find_rel rs f b = Some x ->
  In x rs /\ rel_issued_for x = f /\ rel_issued_by x = b.
Proof.
  intros rs f b x H. apply find_some in H. destruct H as [H1 H2]. apply andb_true_iff in H2.
  rewrite !pk_eqb_eq in H2. tauto.
Qed.

Lemma find_rel_none : forall rs f b, find_rel rs f b = None ->
  forall x, In x rs -> ~ (rel_issued_for x = f /\ rel_issued_by x = b).
Proof.
  intros rs f b H x Hx [<- <-]. pose proof (find_none _ _ H x Hx) as N. cbv beta in N.
  rewrite !pk_eqb_refl in N. discriminate.
Qed.

Lemma get_relation_reads : forall d rs roots f b, repr d rs roots ->
  Reads SE_SQLite d (get_relation C f b) (Ok (find_rel rs f b)).
Proof.
  intros d rs roots f b R. unfold get_relation, Reads. eapply Runs_bind.
  - apply Reads_sql. reflexivity.
  - cbn [fst]. rewrite (repr_rows _ _ _ R), find_map.
    rewrite (find_ext _ _ (fun x => pk_eqb (rel_issued_by x) b && pk_eqb (rel_issued_for x) f)).
    2:{ intros x. cbn [r_for r_by row_of_relation]. rewrite !pk_display_eqb. reflexivity. }
    fold (find_rel rs f b). destruct (find_rel rs f b) as [x|] eqn:E; cbn [option_map].
    + rewrite parse_row; [apply Runs_lift|]. apply find_rel_in in E.
      pose proof (repr_wf _ _ _ R) as W. rewrite Forall_forall in W. apply W. apply E.
    + apply Runs_ret.
Qed.

(** Insertion. *)
Definition same_pair (x y : relation) : bool :=
  pk_eqb (rel_issued_for x) (rel_issued_for y) && pk_eqb (rel_issued_by x) (rel_issued_by y).
Definition put (x : relation) (rs : list relation) : list relation :=
  filter (fun y => negb (same_pair x y)) rs ++ [x].

Lemma same_pair_eq : forall x y, same_pair x y = true <-> rel_issued_for x = rel_issued_for y /\ rel_issued_by x = rel_issued_by y.
Proof. intros. unfold same_pair. rewrite andb_true_iff, !pk_eqb_eq. reflexivity. Qed.

Lemma NoDup_filter_map : forall A B (f : A -> B) p l, NoDup (map f l) -> NoDup (map f (filter p l)).
Proof.
  induction l as [|x l IH]; simpl; intros H; [constructor|]. inversion H; subst.
  destruct (p x); simpl; [|auto]. constructor; [|auto].
  intros Hin. apply H2. apply in_map_iff in Hin. destruct Hin as (y & <- & Hy). apply in_map. apply filter_In in Hy. apply Hy.
Qed.

Lemma put_nodup : forall x rs, NoDup (map (fun x => (rel_issued_for x, rel_issued_by x)) rs) ->
  NoDup (map (fun x => (rel_issued_for x, rel_issued_by x)) (put x rs)).
Proof.
  intros x rs H. unfold put. rewrite map_app. simpl.
  apply (NoDup_Add (a := (rel_issued_for x, rel_issued_by x)) (l := map (fun x => (rel_issued_for x, rel_issued_by x)) (filter (fun y => negb (same_pair x y)) rs))).
  - rewrite <- (app_nil_r (map _ (filter _ rs))) at 1. apply Add_app.
  - split; [apply NoDup_filter_map; assumption|]. intros Hin. apply in_map_iff in Hin.
    destruct Hin as (y & E & Hy). apply filter_In in Hy. destruct Hy as [_ Hy]. injection E as E1 E2.
    assert (same_pair x y = true) by (apply same_pair_eq; auto). rewrite H0 in Hy. discriminate.
Qed.

Lemma insert_runs : forall d rs roots x (I : db -> Prop), repr d rs roots -> rel_typed x -> I d ->
  exists d', Runs SE_SQLite d (insert x) (Ok tt) d' I /\ repr d' (put (rel_trunc x) rs) roots.
Proof.
  intros d rs roots x I R T HI. eexists. split.
  - apply (Runs_sql unit (fun d => (tt, mk_db (insert_row (row_of_relation x) (tbl_relations d)) (tbl_roots d))) d I HI).
  - cbn [snd]. split; cbn [tbl_relations tbl_roots].
    + unfold insert_row, put. rewrite (repr_rows _ _ _ R), map_app, filter_map. simpl map at 3.
      rewrite row_of_trunc. f_equal. f_equal. apply filter_ext. intros y. f_equal.
      unfold same_key, same_pair. cbn [r_for r_by row_of_relation]. rewrite !pk_display_eqb.
      destruct x; reflexivity.
    + unfold put. apply Forall_app. split; [apply Forall_filter; apply (repr_wf _ _ _ R)|].
      constructor; [apply rel_trunc_wf; assumption|constructor].
    + apply put_nodup. apply (repr_nodup _ _ _ R).
    + apply (repr_roots _ _ _ R).
    + apply (repr_roots_wf _ _ _ R).
Qed.

(** [update_relation] on typed relations. *)
Definition upd (rs : list relation) (x : relation) : list relation :=
  match find_rel rs (rel_issued_for x) (rel_issued_by x) with
  | Some old => if duration_ltb (rel_issued_at old) (rel_issued_at x) then put (rel_trunc x) rs else rs
  | None => put (rel_trunc x) rs
  end.

Lemma update_relation_runs : forall d rs roots x (I : db -> Prop), repr d rs roots -> rel_typed x -> I d ->
  exists d', Runs SE_SQLite d (update_relation C x) (Ok tt) d' I /\ repr d' (upd rs x) roots.
Proof.
  intros d rs roots x I R T HI. unfold update_relation, upd.
  pose proof (Reads_Runs _ _ _ _ _ _ I HI (get_relation_reads d rs roots (rel_issued_for x) (rel_issued_by x) R)) as G.
  destruct (insert_runs d rs roots x I R T HI) as (d' & RI & RR).
  destruct (find_rel rs (rel_issued_for x) (rel_issued_by x)) as [[a|v]|].
  - cbn [rel_issued_at]. destruct (duration_ltb (issued_at (auth_trust a)) (rel_issued_at x)) eqn:E.
    + exists d'. split; [|assumption]. eapply Runs_bind; [exact G|]. cbn. rewrite E. exact RI.
    + exists d. split; [|assumption]. eapply Runs_bind; [exact G|]. cbn. rewrite E. apply Runs_ret.
  - cbn [rel_issued_at]. destruct (duration_ltb (revoked_at v) (rel_issued_at x)) eqn:E.
    + exists d'. split; [|assumption]. eapply Runs_bind; [exact G|]. cbn. rewrite E. exact RI.
    + exists d. split; [|assumption]. eapply Runs_bind; [exact G|]. cbn. rewrite E. apply Runs_ret.
  - exists d'. split; [|assumption]. eapply Runs_bind; [exact G|]. exact RI.
Qed.

(** Roots. *)
Definition root_factor (roots : list (public_key * N)) (pk : public_key) : option N :=
  option_map snd (find (fun kf => pk_eqb (fst kf) pk) roots).

Lemma get_root_weight_factor_reads : forall d rs roots pk, repr d rs roots ->
  Reads SE_SQLite d (get_root_weight_factor pk) (Ok (root_factor roots pk)).
Proof.
  intros d rs roots pk R. unfold get_root_weight_factor, Reads. eapply Runs_bind.
  - apply Reads_sql. reflexivity.
  - cbn [fst]. rewrite (repr_roots _ _ _ R), find_map.
    rewrite (find_ext _ _ (fun kf => pk_eqb (fst kf) pk)).
    2:{ intros x. cbn [fst]. rewrite pk_display_eqb. reflexivity. }
    unfold root_factor. destruct (find (fun kf => pk_eqb (fst kf) pk) roots) as [[k f]|] eqn:E; cbn [option_map fst snd].
    + apply find_some in E. destruct E as [E _]. pose proof (repr_roots_wf _ _ _ R) as W.
      rewrite Forall_forall in W. destruct (W _ E) as [_ Hf]. cbn [snd] in Hf.
      replace (((0 <=? Z.of_N f) && (Z.of_N f <? Z.of_N u32_bound))%Z) with true by lia.
      rewrite N2Z.id. apply Runs_ret.
    + apply Runs_ret.
Qed.

Lemma set_root_weight_factor_runs : forall d rs roots pk f (I : db -> Prop), repr d rs roots -> pk_valid C pk ->
  f < u32_bound -> I d ->
  exists d', Runs SE_SQLite d (set_root_weight_factor pk f) (Ok tt) d' I /\ repr d' rs (roots ++ [(pk, f)]).
Proof.
  intros d rs roots pk f I R V Hf HI. eexists. split.
  - apply (Runs_sql unit (fun d => (tt, mk_db (tbl_relations d) (tbl_roots d ++ [(pk_display pk, Z.of_N f)]))) d I HI).
  - cbn [snd]. destruct R. split; cbn [tbl_relations tbl_roots]; try assumption.
    + rewrite repr_roots0, map_app. reflexivity.
    + apply Forall_app. split; [assumption|]. constructor; [split; assumption|constructor].
Qed.

Lemma root_keys_reads : forall d rs roots, repr d rs roots ->
  Reads SE_SQLite d (root_keys C) (Ok (map fst roots)).
Proof.
  intros d rs roots R. unfold root_keys, Reads. eapply Runs_bind.
  - apply Reads_sql. reflexivity.
  - cbn [fst]. rewrite (repr_roots _ _ _ R). rewrite collect_map.
    rewrite (collect_all_ok _ _ _ _ fst).
    + apply Runs_lift.
    + intros [k f] Hin. cbn [fst]. rewrite pk_from_str_display; [reflexivity|].
      pose proof (repr_roots_wf _ _ _ R) as W. rewrite Forall_forall in W. apply (W _ Hin).
Qed.

(** Garbage collection. *)
Definition expired (now : duration) (x : relation) : bool :=
  match x with
  | RAuth a => (i64_of_u64 (secs (expires_at (auth_trust a))) <=? i64_of_u64 (secs now))%Z
  | RRev _ => false
  end.
Definition gc (now : duration) (rs : list relation) : list relation := filter (fun x => negb (expired now x)) rs.
Definition gc_db (now : duration) (d : db) : db :=
  mk_db (filter (fun r => negb (expired_row now r)) (tbl_relations d)) (tbl_roots d).

Lemma expired_row_of : forall now x, expired_row now (row_of_relation x) = expired now x.
Proof. intros now [a|v]; unfold expired_row; cbn; [apply andb_true_r|apply andb_false_r]. Qed.

Lemma gc_repr : forall d rs roots now, repr d rs roots -> repr (gc_db now d) (gc now rs) roots.
Proof.
  intros d rs roots now R. destruct R. split; cbn [tbl_relations tbl_roots gc_db]; try assumption.
  - rewrite repr_rows0, filter_map. unfold gc. f_equal. apply filter_ext. intros x. rewrite expired_row_of. reflexivity.
  - apply Forall_filter. assumption.
  - apply NoDup_filter_map. assumption.
Qed.

Lemma remove_expired_runs : forall d now (I : db -> Prop), I d ->
  Runs SE_SQLite d (remove_expired now) (Ok tt) (gc_db now d) I.
Proof. intros d now I HI. apply (Runs_sql unit (fun d => (tt, gc_db now d)) d I HI). Qed.

End WithCrypto.
