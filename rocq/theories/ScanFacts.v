(** Facts about rows in any order. *)
From Coq Require Import List NArith ZArith Bool Lia Permutation.
From Verif Require Import Base BaseFacts Text Keys KeysFacts Trust TrustFacts Certificate Relation Storage StorageFacts Graph SearchFacts PathFacts
  Spec SpecFacts GraphFacts StateFacts ChainFacts AlikeFacts Scan ScanSpec.
Import ListNotations.
Open Scope N_scope.

(** ** A table in which the rows of every query stand in the order given *)
Definition found (k : text) (ty : Z) (r : row) : bool := bytes_eqb (r_for r) k && (r_type r =? ty)%Z.
Lemma found_iff : forall k ty r, found k ty r = true <-> (r_for r, r_type r) = (k, ty).
Proof.
  intros k ty r. unfold found. rewrite andb_true_iff, bytes_eqb_eq, Z.eqb_eq. split; [intros [-> ->]; reflexivity|]. intros E. injection E as -> ->. auto.
Qed.
Definition kinds_dec : forall x y : text * Z, {x = y} + {x <> y}.
Proof. intros [a b] [a' b']. destruct (list_eq_dec Byte.byte_eq_dec a a') as [->|N]; [|right; congruence]. destruct (Z.eq_dec b b') as [->|N]; [left; reflexivity|right; congruence]. Defined.
Definition kinds (rs : list row) : list (text * Z) := nodup kinds_dec (map (fun r => (r_for r, r_type r)) rs).
Lemma filter_split : forall A (p : A -> bool) l, Permutation l (filter p l ++ filter (fun x => negb (p x)) l).
Proof.
  intros A p. induction l as [|x l IH]; [constructor|]. cbn [filter]. destruct (p x); cbn [negb app]; [constructor; exact IH|]. apply Permutation_cons_app. exact IH.
Qed.
Lemma filter_none : forall A (p : A -> bool) l, (forall x, In x l -> p x = false) -> filter p l = [].
Proof. intros A p. induction l as [|x l IH]; intros H; [reflexivity|]. cbn [filter]. rewrite (H x (or_introl eq_refl)). apply IH. intros y I. apply H. right. exact I. Qed.
Lemma flat_map_ext_in : forall A B (f g : A -> list B) l, (forall x, In x l -> f x = g x) -> flat_map f l = flat_map g l.
Proof. intros A B f g. induction l as [|x l IH]; intros H; [reflexivity|]. cbn [flat_map]. rewrite (H x (or_introl eq_refl)), IH; [reflexivity|]. intros y I. apply H. right. exact I. Qed.
Lemma filter_under : forall A (p q : A -> bool) l, (forall x, In x l -> p x = true -> q x = true) -> filter p (filter q l) = filter p l.
Proof.
  intros A p q. induction l as [|x l IH]; intros H; [reflexivity|]. cbn [filter]. specialize (IH (fun y I => H y (or_intror I))). destruct (q x) eqn:Q; cbn [filter].
  - rewrite IH. reflexivity.
  - destruct (p x) eqn:P; [rewrite (H x (or_introl eq_refl) P) in Q; discriminate|exact IH].
Qed.
Lemma grouped : forall ks rs, NoDup ks -> (forall r, In r rs -> In (r_for r, r_type r) ks) -> Permutation (flat_map (fun kt => filter (found (fst kt) (snd kt)) rs) ks) rs.
Proof.
  induction ks as [|[k ty] ks IH]; intros rs N H.
  { destruct rs as [|r rs]; [constructor|]. destruct (H r (or_introl eq_refl)). }
  inversion N as [|? ? N1 N2]; subst. cbn [flat_map fst snd]. apply Permutation_sym. eapply Permutation_trans; [apply (filter_split _ (found k ty))|]. apply Permutation_app_head.
  assert (E : flat_map (fun kt => filter (found (fst kt) (snd kt)) rs) ks = flat_map (fun kt => filter (found (fst kt) (snd kt)) (filter (fun x => negb (found k ty x)) rs)) ks).
  { apply flat_map_ext_in. intros [k' ty'] I. symmetry. apply filter_under. intros r _ F. cbn [fst snd] in F. apply found_iff in F. destruct (found k ty r) eqn:F2; [|reflexivity].
    apply found_iff in F2. rewrite F in F2. rewrite F2 in I. contradiction. }
  rewrite E. apply Permutation_sym. apply IH; [exact N2|]. intros r I. apply filter_In in I. destruct I as [I F]. apply negb_true_iff in F.
  destruct (H r I) as [X|X]; [|exact X]. symmetry in X. apply found_iff in X. congruence.
Qed.
Definition arranged (o : scan) (d : db) : db := mk_db (flat_map (fun kt => o d (fst kt) (snd kt)) (kinds (tbl_relations d))) (tbl_roots d).
Lemma arranged_perm : forall o d, honest o -> Permutation (tbl_relations (arranged o d)) (tbl_relations d).
Proof.
  intros o d H. cbn [arranged tbl_relations]. eapply Permutation_trans; [|apply (grouped (kinds (tbl_relations d)))].
  - induction (kinds (tbl_relations d)) as [|[k ty] ks IH]; [constructor|]. cbn [flat_map]. apply Permutation_app; [apply H|exact IH].
  - apply NoDup_nodup.
  - intros r I. apply nodup_In. apply in_map_iff. exists r. auto.
Qed.
Lemma arranged_finds : forall o d k ty, honest o -> filter (found k ty) (tbl_relations (arranged o d)) = o d k ty.
Proof.
  intros o d k ty H. assert (M : forall k' ty' r, In r (o d k' ty') -> (r_for r, r_type r) = (k', ty')).
  { intros k' ty' r I. apply (Permutation_in _ (H d k' ty')) in I. apply filter_In in I. apply found_iff. apply I. }
  cbn [arranged tbl_relations]. assert (G : forall ks, NoDup ks -> filter (found k ty) (flat_map (fun kt => o d (fst kt) (snd kt)) ks) = if in_dec kinds_dec (k, ty) ks then o d k ty else []).
  { induction ks as [|[k' ty'] ks IH]; intros N; [reflexivity|]. inversion N as [|? ? N1 N2]; subst. cbn [flat_map fst snd]. rewrite filter_app, (IH N2).
    destruct (kinds_dec (k', ty') (k, ty)) as [E|E].
    - injection E as -> ->. rewrite filter_all; [|intros r I; apply found_iff; exact (M k ty r I)]. destruct (in_dec kinds_dec (k, ty) ks) as [J|J]; [contradiction|].
      destruct (in_dec kinds_dec (k, ty) ((k, ty) :: ks)) as [K|K]; [apply app_nil_r|]. destruct K. left. reflexivity.
    - rewrite filter_none; [|intros r I; destruct (found k ty r) eqn:F; [|reflexivity]; apply found_iff in F; rewrite (M k' ty' r I) in F; contradiction].
      cbn [app]. destruct (in_dec kinds_dec (k, ty) ks) as [J|J], (in_dec kinds_dec (k, ty) ((k', ty') :: ks)) as [K|K]; try reflexivity.
      + destruct K. right. exact J.
      + destruct K as [K|K]; contradiction. }
  rewrite (G (kinds (tbl_relations d)) (NoDup_nodup _ _)). destruct (in_dec kinds_dec (k, ty) (kinds (tbl_relations d))) as [J|J]; [reflexivity|].
  pose proof (H d k ty) as P. rewrite filter_none in P; [apply Permutation_sym, Permutation_nil in P; symmetry; exact P|].
  intros r I. destruct (bytes_eqb (r_for r) k && (r_type r =? ty)%Z) eqn:F; [|reflexivity]. exfalso. apply J. apply nodup_In. apply in_map_iff. exists r. split; [|exact I]. apply found_iff. exact F.
Qed.

(** ** Queries over [d] with the orders [o] are queries over [d'] *)
Definition Follows {E A} (d d' : db) (m n : M E A) : Prop :=
  forall fu, exists r fu', m (mk_world d fu) = (r, mk_world d fu') /\ n (mk_world d' fu) = (r, mk_world d' fu').
Section Queries.
Variables d d' : db.
Lemma follows_ret : forall E A (a : A), @Follows E A d d' (ret a) (ret a).
Proof. intros E A a fu. exists (Ok a), fu. split; reflexivity. Qed.
Lemma follows_lift : forall E A (r : result E A), Follows d d' (lift r) (lift r).
Proof. intros E A r fu. exists r, fu. split; reflexivity. Qed.
Lemma follows_bind : forall E A B (m n : M E A) (f g : A -> M E B), Follows d d' m n -> (forall a, Follows d d' (f a) (g a)) -> Follows d d' (mbind m f) (mbind n g).
Proof.
  intros E A B m n f g H K fu. destruct (H fu) as (r & fu' & H1 & H2). unfold mbind. rewrite H1, H2. destruct r as [a|e| |]; [apply K|eexists; exists fu'; split; reflexivity..].
Qed.
Lemma follows_st : forall A (m n : M storage_error A), Follows d d' m n -> Follows d d' (st m) (st n).
Proof. intros A m n H fu. destruct (H fu) as (r & fu' & H1 & H2). unfold st, mmap_err. rewrite H1, H2. eexists. exists fu'. split; reflexivity. Qed.
Lemma follows_sql : forall A (x y : A), x = y -> forall f g, f d = (x, d) -> g d' = (y, d') -> Follows d d' (sql f) (sql g).
Proof. intros A x y <- f g F G fu. unfold sql. destruct fu as [[|k]|]; cbn [w_fuse w_db]; rewrite ?F, ?G; eexists; eexists; split; reflexivity. Qed.
Variable C : crypto.
Variable o : scan.
Hypothesis Gives : forall k ty, o d k ty = filter (found k ty) (tbl_relations d').
Hypothesis Size : length (tbl_relations d) = length (tbl_relations d').
Lemma relations_follow : forall k ty, Follows d d' (get_relations_o C o k ty) (get_relations C k ty).
Proof. intros k ty. apply follows_bind; [|intros rs; apply follows_lift]. eapply follows_sql; [apply (Gives (pk_display k) ty)|reflexivity|reflexivity]. Qed.
Lemma authorizations_follow : forall k, Follows d d' (get_authorizations_o C o k) (get_authorizations C k).
Proof. intros k. apply follows_bind; [apply relations_follow|intros a; apply follows_ret]. Qed.
Lemma revocations_follow : forall k, Follows d d' (get_revocations_o C o k) (get_revocations C k).
Proof. intros k. apply follows_bind; [apply relations_follow|intros a; apply follows_ret]. Qed.
Lemma extend_follows : forall as_ c, Follows d d' (extend_chain_o C o c as_) (extend_chain C c as_).
Proof.
  induction as_ as [|a as_ IH]; intros c; cbn [extend_chain_o extend_chain]; [apply follows_ret|]. destruct (can_be_extended_by c (issued_by a)); [|apply IH].
  apply follows_bind; [apply follows_st, revocations_follow|]. intros rs. apply follows_bind; [apply IH|]. intros x. apply follows_ret.
Qed.
Lemma step_follows : forall rks s, Follows d d' (search_step_o C o rks s) (search_step C rks s).
Proof.
  intros rks s. unfold search_step_o, search_step. destruct (fst s) as [|c q]; [apply follows_ret|].
  apply follows_bind; [apply follows_st, authorizations_follow|]. intros as_. apply follows_bind; [apply extend_follows|]. intros x. apply follows_ret.
Qed.
Lemma run_follows : forall n rks s, Follows d d' (search_run_o C o n rks s) (search_run C n rks s).
Proof.
  induction n as [|n IH]; intros rks s; cbn [search_run_o search_run]; [apply step_follows|]. apply follows_bind; [apply IH|]. intros x. destruct (fst x); [apply follows_ret|apply IH].
Qed.
Lemma search_follows : forall pk rks, Follows d d' (bf_search_paths_o C o pk rks) (bf_search_paths C pk rks).
Proof.
  intros pk rks. unfold bf_search_paths_o, bf_search_paths. apply follows_bind; [apply follows_st, authorizations_follow|]. intros as_.
  apply follows_bind; [apply follows_st, revocations_follow|]. intros rs. apply follows_bind.
  - intros fu. cbn [w_db]. unfold search_fuel. rewrite Size. apply run_follows.
  - intros s. destruct (fst s); [apply follows_ret|apply follows_lift].
Qed.
End Queries.

(** ** Statement by statement *)
(** [tr]: the databases in which the statements of [m] are run. If the [k]-th fails, the error is [e] and the database is
    that one. *)
Definition Traced {E A} (e : E) (d : db) (m : M E A) (tr : list db) (r : result E A) (d' : db) : Prop :=
  forall fu, m (mk_world d fu) =
    match fu with
    | None => (r, mk_world d' None)
    | Some k => match nth_error tr k with Some d0 => (Err e, mk_world d0 (Some 0%nat)) | None => (r, mk_world d' (Some (k - length tr)%nat)) end
    end.
Lemma nth_error_nil : forall A k, nth_error (@nil A) k = None.
Proof. intros A [|k]; reflexivity. Qed.
Lemma traced_pure : forall E A (e : E) d (r : result E A), Traced e d (lift r) [] r d.
Proof. intros E A e d r [k|]; [|reflexivity]. rewrite nth_error_nil. cbn [length]. rewrite Nat.sub_0_r. reflexivity. Qed.
Lemma traced_ret : forall E A (e : E) d (a : A), Traced e d (ret a) [] (Ok a) d.
Proof. intros E A e d a. apply (traced_pure E A e d (Ok a)). Qed.
Lemma traced_bind : forall E A B (e : E) d (m : M E A) tr a d1 (f : A -> M E B) tr' r d2,
  Traced e d m tr (Ok a) d1 -> Traced e d1 (f a) tr' r d2 -> Traced e d (mbind m f) (tr ++ tr') r d2.
Proof.
  intros E A B e d m tr a d1 f tr' r d2 H K [k|]; unfold mbind.
  - rewrite (H (Some k)). destruct (nth_error tr k) as [d0|] eqn:N.
    + rewrite nth_error_app1 by (apply nth_error_Some; congruence). rewrite N. reflexivity.
    + apply nth_error_None in N. rewrite (K (Some (k - length tr)%nat)), nth_error_app2 by exact N. destruct (nth_error tr' (k - length tr)) as [d0|]; [reflexivity|].
      rewrite app_length, Nat.sub_add_distr. reflexivity.
  - rewrite (H None), (K None). reflexivity.
Qed.
Lemma traced_stop : forall E A B (e : E) d (m : M E A) tr x d1 (f : A -> M E B), Traced e d m tr (Err x) d1 -> Traced e d (mbind m f) tr (Err x) d1.
Proof.
  intros E A B e d m tr x d1 f H [k|]; unfold mbind; [|rewrite (H None); reflexivity]. rewrite (H (Some k)). destruct (nth_error tr k); reflexivity.
Qed.
Lemma traced_mmap : forall A B e d (f : A -> B) (m : M graph_error A) tr r d', Traced e d m tr r d' -> Traced e d (mmap f m) tr (map_ok f r) d'.
Proof.
  intros A B e d f m tr r d' H [k|]; unfold mmap, mbind; [|rewrite (H None); destruct r; reflexivity]. rewrite (H (Some k)).
  destruct (nth_error tr k); [reflexivity|]. destruct r; reflexivity.
Qed.
Lemma traced_st : forall A d (m : M storage_error A) tr r d', Traced SE_SQLite d m tr r d' -> Traced SQL d (st m) tr (map_err GE_InternalStorage r) d'.
Proof.
  intros A d m tr r d' H [k|]; unfold st, mmap_err; [|rewrite (H None); reflexivity]. rewrite (H (Some k)). destruct (nth_error tr k); reflexivity.
Qed.
Lemma traced_sql : forall A (f : db -> A * db) d x d', f d = (x, d') -> Traced SE_SQLite d (sql f) [d] (Ok x) d'.
Proof.
  intros A f d x d' H [[|k]|]; unfold sql; cbn [w_fuse w_db nth_error]; [reflexivity| |rewrite H; reflexivity]. rewrite H, nth_error_nil. cbn [length]. rewrite Nat.sub_succ, Nat.sub_0_r. reflexivity.
Qed.
(** The outcome is the one without failures. *)
Lemma traced_as : forall E A (e : E) d (m : M E A) tr r d' r0 d0, Traced e d m tr r0 d0 -> m (mk_world d None) = (r, mk_world d' None) -> Traced e d m tr r d'.
Proof. intros E A e d m tr r d' r0 d0 H K. rewrite (H None) in K. injection K as -> ->. exact H. Qed.
Lemma traced_follows : forall A d d' (m n : M graph_error A) k r, Follows d d' m n -> Traced SQL d' n (repeat d' k) r d' -> Traced SQL d m (repeat d k) r d.
Proof.
  intros A d d' m n k r F T fu. destruct (F fu) as (x & fu' & H1 & H2). rewrite H1. rewrite (T fu) in H2. destruct fu as [j|].
  - rewrite repeat_length in *. destruct (nth_error (repeat d' k) j) as [y|] eqn:N.
    + assert (L : (j < k)%nat) by (rewrite <- (repeat_length d' k); apply nth_error_Some; congruence).
      injection H2 as <- _ <-. destruct (nth_error (repeat d k) j) as [z|] eqn:N2; [|apply nth_error_None in N2; rewrite repeat_length in N2; lia].
      apply nth_error_In, repeat_spec in N2. subst z. reflexivity.
    + assert (L : (k <= j)%nat) by (rewrite <- (repeat_length d' k); apply nth_error_None; exact N).
      injection H2 as <- <-. destruct (nth_error (repeat d k) j) as [z|] eqn:N2; [|reflexivity]. exfalso. assert (j < length (repeat d k))%nat by (apply nth_error_Some; congruence). rewrite repeat_length in *. lia.
  - injection H2 as <- <-. reflexivity.
Qed.

Section Traces.
Variable C : crypto.
Local Notation wf := (wf C).

(** *** Queries in the order of the table *)
Lemma relations_traced : forall d pk ty, exists r, Traced SE_SQLite d (get_relations C pk ty) [d] r d.
Proof. intros d pk ty. eexists. unfold get_relations. change [d] with ([d] ++ []). eapply traced_bind; [eapply traced_sql; reflexivity|]. apply traced_pure. Qed.
Lemma authorizations_traced : forall s pk, wf s -> Traced SQL (db_of s) (st (get_authorizations C pk)) [db_of s] (Ok (auths_of (rels s) pk)) (db_of s).
Proof.
  intros s pk W. destruct (relations_traced (db_of s) pk AUTH_TYPE) as (r & T). pose proof (Runs_none _ _ _ _ _ _ _ _ (get_relations_reads C _ _ _ pk AUTH_TYPE (wf_repr C s W))) as N.
  pose proof (traced_as _ _ _ _ _ _ _ _ _ _ T N) as T'. apply (traced_as _ _ _ _ _ _ _ _ (map_err GE_InternalStorage (Ok (only_auths (filter (fun x => pk_eqb (rel_issued_for x) pk && (r_type (row_of_relation x) =? AUTH_TYPE)%Z) (rels s))))) (db_of s)).
  - apply traced_st. change [db_of s] with ([db_of s] ++ []). unfold get_authorizations. eapply traced_bind; [exact T'|apply traced_ret].
  - exact (Runs_none _ _ _ _ _ _ _ _ (st_reads _ _ _ _ (get_authorizations_reads C _ _ _ pk (wf_repr C s W)))).
Qed.
Lemma revocations_traced : forall s pk, wf s -> Traced SQL (db_of s) (st (get_revocations C pk)) [db_of s] (Ok (revs_of (rels s) pk)) (db_of s).
Proof.
  intros s pk W. destruct (relations_traced (db_of s) pk REVOCATION_TYPE) as (r & T). pose proof (Runs_none _ _ _ _ _ _ _ _ (get_relations_reads C _ _ _ pk REVOCATION_TYPE (wf_repr C s W))) as N.
  pose proof (traced_as _ _ _ _ _ _ _ _ _ _ T N) as T'. apply (traced_as _ _ _ _ _ _ _ _ (map_err GE_InternalStorage (Ok (only_revs (filter (fun x => pk_eqb (rel_issued_for x) pk && (r_type (row_of_relation x) =? REVOCATION_TYPE)%Z) (rels s))))) (db_of s)).
  - apply traced_st. change [db_of s] with ([db_of s] ++ []). unfold get_revocations. eapply traced_bind; [exact T'|apply traced_ret].
  - exact (Runs_none _ _ _ _ _ _ _ _ (st_reads _ _ _ _ (get_revocations_reads C _ _ _ pk (wf_repr C s W)))).
Qed.
Lemma extend_traced : forall s c l, wf s -> Traced SQL (db_of s) (extend_chain C c l) (repeat (db_of s) (length (ext_with (rels s) c l))) (Ok (ext_with (rels s) c l)) (db_of s).
Proof.
  intros s c l W. induction l as [|a l IH]; cbn [extend_chain]; [apply traced_ret|]. unfold ext_with. cbn [filter]. destruct (can_be_extended_by c (issued_by a)); [|exact IH].
  cbn [map length repeat]. change (db_of s :: ?x) with ([db_of s] ++ x). eapply traced_bind; [apply revocations_traced; exact W|].
  rewrite <- (app_nil_r (repeat _ _)). eapply traced_bind; [exact IH|]. apply traced_ret.
Qed.
Definition step_cost (rs : list relation) (st : search_state) : nat := match fst st with [] => 0 | c :: _ => S (length (ext rs c)) end.
Lemma search_step_traced : forall s rks q, wf s -> Traced SQL (db_of s) (search_step C rks q) (repeat (db_of s) (step_cost (rels s) q)) (Ok (sstep (rels s) rks q)) (db_of s).
Proof.
  intros s rks q W. unfold search_step, sstep, step_cost. destruct (fst q) as [|c l]; [apply traced_ret|]. cbn [repeat]. change (db_of s :: ?x) with ([db_of s] ++ x).
  eapply traced_bind; [apply authorizations_traced; exact W|]. rewrite <- (app_nil_r (repeat _ _)). eapply traced_bind; [apply extend_traced; exact W|]. apply traced_ret.
Qed.
(** Statements of the first [k] steps. *)
Fixpoint steps_cost (rs : list relation) (rks : list public_key) (k : nat) (q : search_state) : nat :=
  match k with O => 0 | S k' => step_cost rs q + steps_cost rs rks k' (sstep rs rks q) end%nat.
Lemma steps_cost_add : forall rs rks a b q, steps_cost rs rks (a + b) q = (steps_cost rs rks a q + steps_cost rs rks b (iter a (sstep rs rks) q))%nat.
Proof. intros rs rks a b. induction a as [|a IH]; intros q; [reflexivity|]. cbn [Nat.add steps_cost iter]. rewrite IH. lia. Qed.
Lemma steps_cost_idle : forall rs rks k q, fst q = [] -> steps_cost rs rks k q = 0%nat.
Proof. intros rs rks k q H. induction k as [|k IH]; [reflexivity|]. cbn [steps_cost]. rewrite sstep_idle by exact H. rewrite IH. unfold step_cost. rewrite H. reflexivity. Qed.
Lemma search_run_traced : forall s rks n q, wf s -> Traced SQL (db_of s) (search_run C n rks q) (repeat (db_of s) (steps_cost (rels s) rks (2 ^ n) q)) (Ok (iter (2 ^ n) (sstep (rels s) rks) q)) (db_of s).
Proof.
  intros s rks n. induction n as [|n IH]; intros q W.
  - cbn [search_run Nat.pow steps_cost iter]. rewrite Nat.add_0_r. apply search_step_traced. exact W.
  - cbn [search_run]. rewrite Nat.pow_succ_r'. replace (2 * 2 ^ n)%nat with (2 ^ n + 2 ^ n)%nat by lia. rewrite iter_add, steps_cost_add, repeat_app.
    eapply traced_bind; [apply IH; exact W|]. cbv beta. destruct (fst (iter (2 ^ n) (sstep (rels s) rks) q)) eqn:E; [|apply IH; exact W].
    rewrite steps_cost_idle by exact E. rewrite (iter_fix _ _ (2 ^ n) (iter (2 ^ n) (sstep (rels s) rks) q)) by (apply sstep_idle; exact E). apply traced_ret.
Qed.
Definition total (l : list nat) : nat := fold_right Nat.add 0%nat l.
Lemma total_app : forall a b, total (a ++ b) = (total a + total b)%nat.
Proof. induction a as [|x a IH]; intros b; [reflexivity|]. cbn [app total fold_right] in *. fold (total (a ++ b)) (total a). rewrite IH. lia. Qed.
Lemma queue_cost : forall rs rks q q2 t, steps_cost rs rks (length q) (q ++ q2, t) = (length q + length (flat_map (ext rs) q))%nat.
Proof.
  intros rs rks q. induction q as [|c q IH]; intros q2 t; [reflexivity|]. cbn [length steps_cost]. unfold step_cost, sstep at 1. cbn [fst snd app].
  replace ((q ++ q2) ++ ext rs c) with (q ++ (q2 ++ ext rs c)) by (rewrite app_assoc; reflexivity). rewrite IH. cbn [flat_map]. rewrite app_length. lia.
Qed.
Lemma levels_cost : forall rs rks pk n, (steps_cost rs rks (length (levels rs pk n)) (level rs pk 0, []) + length (level rs pk 0) + length (levels rs pk n) = length (levels rs pk n) + length (levels rs pk n) + length (levels rs pk (S n)))%nat.
Proof.
  intros rs rks pk n. induction n as [|n IH]; [cbn; rewrite !app_nil_r; lia|]. rewrite (levels_S rs pk n) at 1. rewrite app_length, steps_cost_add, sstep_levels.
  rewrite <- (app_nil_r (level rs pk n)) at 2. rewrite queue_cost. rewrite (levels_S rs pk (S n)), app_length. rewrite (levels_S rs pk n), app_length in *. cbn [level] in *. lia.
Qed.
Definition search_cost (rs : list relation) (pk : public_key) : nat := (2 + (2 * length (all_chains rs pk) - length (auths_of rs pk)))%nat.
Lemma search_traced : forall s pk rks, wf s ->
  Traced SQL (db_of s) (bf_search_paths C pk rks) (repeat (db_of s) (search_cost (rels s) pk)) (Ok (found_paths (rels s) rks pk)) (db_of s).
Proof.
  intros s pk rks W. unfold bf_search_paths, search_cost. rewrite !repeat_app. change (repeat (db_of s) 2) with ([db_of s] ++ [db_of s]). rewrite <- app_assoc.
  eapply traced_bind; [apply authorizations_traced; exact W|]. eapply traced_bind; [apply revocations_traced; exact W|]. cbv beta zeta.
  change (map (fun a => ch_new a (revs_of (rels s) pk)) (auths_of (rels s) pk)) with (level (rels s) pk 0).
  set (n := (2 * length (rels s) + 2)%nat). assert (D : level (rels s) pk n = []) by apply level_dies.
  assert (F : (length (levels (rels s) pk n) <= 2 ^ search_fuel (db_of s))%nat) by (apply fuel_enough; cbn [db_of tbl_relations]; apply map_length).
  assert (HE : iter (2 ^ search_fuel (db_of s)) (sstep (rels s) rks) (level (rels s) pk 0, []) = ([], found_paths (rels s) rks pk)).
  { rewrite (iter_past (rels s) rks _ (length (levels (rels s) pk n)) _ F); rewrite sstep_levels, D; reflexivity. }
  assert (HC : steps_cost (rels s) rks (2 ^ search_fuel (db_of s)) (level (rels s) pk 0, []) = (2 * length (all_chains (rels s) pk) - length (auths_of (rels s) pk))%nat).
  { replace (2 ^ search_fuel (db_of s))%nat with (length (levels (rels s) pk n) + (2 ^ search_fuel (db_of s) - length (levels (rels s) pk n)))%nat by (apply Nat.sub_add in F; lia).
    rewrite steps_cost_add, sstep_levels, D, (steps_cost_idle _ _ _ ([], _)) by reflexivity. pose proof (levels_cost (rels s) rks pk n) as Q. rewrite (levels_S (rels s) pk n), D, app_nil_r in Q.
    change (all_chains (rels s) pk) with (levels (rels s) pk n). assert (L0 : length (level (rels s) pk 0) = length (auths_of (rels s) pk)) by apply map_length. lia. }
  rewrite <- HC, <- (app_nil_r (repeat _ _)). eapply traced_bind.
  - intros fu. cbn [w_db]. apply (search_run_traced s rks (search_fuel (db_of s)) (level (rels s) pk 0, []) W fu).
  - cbv beta. rewrite HE. cbn [fst snd]. apply traced_ret.
Qed.

(** *** The cost does not depend on the order of the rows *)
Lemma path_same : forall rs rs' pk, (forall x, In x rs -> In x rs') -> (forall x, In x rs' -> In x rs) -> forall p rv, path rs pk p rv -> exists rv', path rs' pk p rv' /\ forall k, In k rv' -> In k rv.
Proof.
  intros rs rs' pk H H' p rv P. assert (RV : forall k x, In x (map revoked_by (revs_of rs' k)) -> In x (map revoked_by (revs_of rs k))).
  { intros k x I. apply in_map_iff in I. destruct I as (v & <- & I). apply in_map. apply in_revs_of in I. apply in_revs_of. split; [apply H', I|apply I]. }
  induction P as [a Ha Hf|p rv l a Hp IH Hl Hin Ha Hf Hr Hv].
  - eexists. split; [apply path_one; [apply H; exact Ha|exact Hf]|]. apply RV.
  - destruct IH as (rv' & P' & S). eexists. split.
    + eapply path_push; [exact P'|exact Hl|exact Hin|apply H; exact Ha|exact Hf| |exact Hv]. intros I. apply Hr. apply S. exact I.
    + intros k I. apply in_app_or in I. apply in_or_app. destruct I as [I|I]; [left; apply RV; exact I|right; apply S; exact I].
Qed.
Lemma chains_paths : forall rs pk p, In p (map ch_auths (all_chains rs pk)) <-> exists rv, path rs pk p rv.
Proof.
  intros rs pk p. rewrite in_map_iff. split.
  - intros (c & <- & I). apply in_all_chains in I. destruct I as (i & I). apply level_path in I. exists (ch_revoked_by c). apply I.
  - intros (rv & P). apply path_level in P. destruct P as (c & <- & _ & I). exists c. split; [reflexivity|]. apply in_all_chains. eexists. exact I.
Qed.
Lemma alike_cost : forall s s' pk, alike C s s' -> search_cost (rels s) pk = search_cost (rels s') pk.
Proof.
  intros s s' pk A. pose proof (wf_nodup C s (al_wf C _ _ A)) as N. pose proof (wf_nodup C s' (al_wf' C _ _ A)) as N'. unfold search_cost.
  assert (E1 : length (all_chains (rels s) pk) = length (all_chains (rels s') pk)).
  { rewrite <- (map_length ch_auths (all_chains (rels s) pk)), <- (map_length ch_auths (all_chains (rels s') pk)). apply Permutation_length. apply NoDup_Permutation.
    - apply levels_nodup. exact N.
    - apply levels_nodup. exact N'.
    - intros p. rewrite !chains_paths. pose proof (al_rels C _ _ A) as R. split; intros (rv & P).
      + destruct (path_same (rels s) (rels s') pk (fun x => proj1 (R x)) (fun x => proj2 (R x)) p rv P) as (rv' & P' & _). exists rv'. exact P'.
      + destruct (path_same (rels s') (rels s) pk (fun x => proj2 (R x)) (fun x => proj1 (R x)) p rv P) as (rv' & P' & _). exists rv'. exact P'. }
  assert (E2 : length (auths_of (rels s) pk) = length (auths_of (rels s') pk)).
  { apply Permutation_length. apply NoDup_Permutation.
    - eapply NoDup_map_inv'. apply NoDup_auths_of. exact N.
    - eapply NoDup_map_inv'. apply NoDup_auths_of. exact N'.
    - intros a. rewrite !in_auths_of, (al_rels C _ _ A). reflexivity. }
  rewrite E1, E2. reflexivity.
Qed.

(** *** Queries in any order *)
Lemma arranged_state : forall o s, honest o -> wf s -> exists s', arranged o (db_of s) = db_of s' /\ roots s' = roots s /\ alike C s s'.
Proof.
  intros o s H W. pose proof (arranged_perm o (db_of s) H) as P. cbn [db_of tbl_relations] in P. apply Permutation_map_inv in P. destruct P as (rs & E & P).
  exists (mk_state rs (roots s)). split; [|split; [reflexivity|]].
  - unfold db_of. cbn [rels roots]. rewrite <- E. reflexivity.
  - split; [exact W| | |reflexivity].
    + destruct W as [W1 W2 W3]. split; cbn [rels roots]; [|eapply Permutation_NoDup; [apply Permutation_map; exact P|exact W2]|exact W3].
      eapply Permutation_Forall; [exact P|exact W1].
    + intros x. cbn [rels]. split; intros I; [apply (Permutation_in _ P)|apply (Permutation_in _ (Permutation_sym P))]; exact I.
Qed.
Lemma any_search : forall o s, honest o -> wf s -> exists s', roots s' = roots s /\ alike C s s' /\
  (forall pk, Traced SQL (db_of s) (st (get_revocations_o C o pk)) [db_of s] (Ok (revs_of (rels s') pk)) (db_of s)) /\
  (forall pk rks, Traced SQL (db_of s) (bf_search_paths_o C o pk rks) (repeat (db_of s) (search_cost (rels s) pk)) (Ok (found_paths (rels s') rks pk)) (db_of s)).
Proof.
  intros o s H W. destruct (arranged_state o s H W) as (s' & E & R & A). exists s'. split; [exact R|]. split; [exact A|].
  assert (G : forall k ty, o (db_of s) k ty = filter (found k ty) (tbl_relations (db_of s'))) by (intros k ty; rewrite <- E; symmetry; apply arranged_finds; exact H).
  assert (L : length (tbl_relations (db_of s)) = length (tbl_relations (db_of s'))) by (rewrite <- E; apply Permutation_length, Permutation_sym, arranged_perm; exact H).
  split.
  - intros pk. change [db_of s] with (repeat (db_of s) 1). apply (traced_follows _ _ (db_of s') _ (st (get_revocations C pk))); [apply follows_st, revocations_follow; exact G|].
    apply revocations_traced. apply A.
  - intros pk rks. rewrite (alike_cost s s' pk A). apply (traced_follows _ _ (db_of s') _ (bf_search_paths C pk rks)); [apply search_follows; [exact G|exact L]|].
    apply search_traced. apply A.
Qed.

(** *** Calls in any order *)
Definition Alike {A} (s : state) (m : scan -> M graph_error A) (P : result graph_error A -> Prop) (ws : list write) : Prop :=
  exists tr, forall o, honest o -> exists r, P r /\ Traced SQL (db_of s) (m o) tr r (db_of (run_ws ws s)).
Lemma alike_bind : forall A B s (m : scan -> M graph_error A) (Q : A -> Prop) ws (f : A -> scan -> M graph_error B) P ws',
  Alike s m (fun r => exists a, r = Ok a /\ Q a) ws ->
  (exists tr, forall o a, honest o -> Q a -> exists r, P r /\ Traced SQL (db_of (run_ws ws s)) (f a o) tr r (db_of (run_ws ws' (run_ws ws s)))) ->
  Alike s (fun o => mbind (m o) (fun a => f a o)) P (ws ++ ws').
Proof.
  intros A B s m Q ws f P ws' (tr & H) (tr' & K). exists (tr ++ tr'). intros o Ho. destruct (H o Ho) as (r & (a & -> & Qa) & T). destruct (K o a Ho Qa) as (r & Pr & T').
  exists r. split; [exact Pr|]. rewrite run_ws_app. eapply traced_bind; [exact T|exact T'].
Qed.
Lemma gc_traced : forall s now, Traced SQL (db_of s) (st (remove_expired now)) [db_of s] (Ok tt) (db_of (apply_w s (W_gc now))).
Proof.
  intros s now. eapply traced_as; [apply traced_st; eapply traced_sql; reflexivity|]. exact (Runs_none _ _ _ _ _ _ _ _ (gc_does s now)).
Qed.
Lemma roots_traced : forall s, wf s -> Traced SQL (db_of s) (st (root_keys C)) [db_of s] (Ok (map fst (roots s))) (db_of s).
Proof.
  intros s W. eapply traced_as; [apply traced_st; unfold root_keys; change [db_of s] with ([db_of s] ++ []); eapply traced_bind; [eapply traced_sql; reflexivity|apply traced_pure]|].
  exact (Runs_none _ _ _ _ _ _ _ _ (st_reads _ _ _ _ (root_keys_reads C _ _ _ (wf_repr C s W)))).
Qed.
Lemma factor_traced : forall s pk, wf s -> Traced SQL (db_of s) (st (get_root_weight_factor pk)) [db_of s] (Ok (root_factor (roots s) pk)) (db_of s).
Proof.
  intros s pk W. assert (X : exists r, Traced SQL (db_of s) (st (get_root_weight_factor pk)) [db_of s] r (db_of s)).
  { assert (Y : exists r, Traced SE_SQLite (db_of s) (match find (fun r => bytes_eqb (fst r) (pk_display pk)) (tbl_roots (db_of s)) with
       | Some (_, w) => if ((0 <=? w) && (w <? Z.of_N u32_bound))%Z then ret (Some (Z.to_N w)) else throw SE_WeightFactorConversionDB
       | None => ret None
       end) [] r (db_of s)).
    { destruct (find (fun r => bytes_eqb (fst r) (pk_display pk)) (tbl_roots (db_of s))) as [[k w]|]; [|eexists; apply traced_ret].
      destruct ((0 <=? w)%Z && (w <? Z.of_N u32_bound)%Z); eexists; [apply traced_ret|apply (traced_pure _ _ _ _ (Err SE_WeightFactorConversionDB))]. }
    destruct Y as (r & Y). eexists. apply traced_st. unfold get_root_weight_factor. change [db_of s] with ([db_of s] ++ []). eapply traced_bind; [eapply traced_sql; reflexivity|exact Y]. }
  destruct X as (r & T). eapply traced_as; [exact T|]. exact (Runs_none _ _ _ _ _ _ _ _ (st_reads _ _ _ _ (get_root_weight_factor_reads C _ _ _ pk (wf_repr C s W)))).
Qed.
End Traces.
