(** Proofs about clocks that disagree. *)
From Coq Require Import List NArith ZArith Bool Lia ZifyBool ZifyNat ZifyN Permutation.
From Verif Require Import Base BaseFacts Text TextFacts Keys KeysFacts Trust TrustFacts Certificate CertFacts Relation
  Storage StorageFacts Graph SearchFacts PathFacts Service Spec SpecFacts GraphFacts StateFacts ChainFacts AddFacts ImportFacts HistFacts
  Toy ToyFacts Witness GraphThms MoreThms ServiceSpec ServiceFacts ServiceThms ServiceWitness ClockSpec.
From Verif Require VisitorThms.
Import ListNotations.
Open Scope N_scope.

(** * Which rows there are *)
Section Rows.
Variables (C : crypto) (P : row -> Prop).
Definition all_rows (w : world) : Prop := Forall P (tbl_relations (w_db w)).
Definition keeps_rows {E A} (m : M E A) : Prop := forall w, all_rows w -> all_rows (snd (m w)).
Lemma kr_ret : forall E A (x : A), keeps_rows (@ret E A x).
Proof. intros E A x w H. exact H. Qed.
Lemma kr_throw : forall E A (e : E), keeps_rows (@throw E A e).
Proof. intros E A e w H. exact H. Qed.
Lemma kr_lift : forall E A (r : result E A), keeps_rows (lift r).
Proof. intros E A r w H. exact H. Qed.
Lemma kr_bind : forall E A B (m : M E A) (f : A -> M E B), keeps_rows m -> (forall x, keeps_rows (f x)) -> keeps_rows (mbind m f).
Proof. intros E A B m f Hm Hf w H. unfold mbind. specialize (Hm w H). destruct (m w) as [[x|e| |] w']; cbn [snd] in *; try exact Hm. exact (Hf x w' Hm). Qed.
Lemma kr_err : forall E F A (f : E -> F) (m : M E A), keeps_rows m -> keeps_rows (mmap_err f m).
Proof. intros E F A f m Hm w H. unfold mmap_err. specialize (Hm w H). destruct (m w) as [r w']. exact Hm. Qed.
Lemma kr_sql : forall A (f : db -> A * db), (forall d, Forall P (tbl_relations d) -> Forall P (tbl_relations (snd (f d)))) -> keeps_rows (sql f).
Proof.
  intros A f Hf w H. unfold sql. destruct (w_fuse w) as [[|k]|]; [exact H| |]; specialize (Hf (w_db w) H); destruct (f (w_db w)) as [x d]; exact Hf.
Qed.
Lemma kr_read : forall A (f : db -> A), keeps_rows (sql (fun d => (f d, d))).
Proof. intros A f. apply kr_sql. intros d H. exact H. Qed.
Lemma kr_if : forall E A (b : bool) (m m' : M E A), keeps_rows m -> keeps_rows m' -> keeps_rows (if b then m else m').
Proof. intros E A [|] m m' H H'; assumption. Qed.
Hint Resolve kr_ret kr_throw kr_lift kr_bind kr_err kr_read kr_if : rows.
Lemma kr_relations : forall k ty, keeps_rows (get_relations C k ty).
Proof. intros k ty. unfold get_relations. auto with rows. Qed.
Lemma kr_auths : forall k, keeps_rows (get_authorizations C k).
Proof. intros k. apply kr_bind; [apply kr_relations|auto with rows]. Qed.
Lemma kr_revs : forall k, keeps_rows (get_revocations C k).
Proof. intros k. apply kr_bind; [apply kr_relations|auto with rows]. Qed.
Lemma kr_factor : forall k, keeps_rows (get_root_weight_factor k).
Proof. intros k. apply kr_bind; [apply kr_read|]. intros [[x w]|]; auto with rows. Qed.
Lemma kr_roots : keeps_rows (root_keys C).
Proof. apply kr_bind; auto with rows. Qed.
Lemma kr_gc : forall now, keeps_rows (remove_expired now).
Proof. intros now. apply kr_sql. intros d H. cbn [snd tbl_relations]. rewrite Forall_forall in *. intros r Hr. apply filter_In in Hr. apply H, Hr. Qed.
Lemma kr_insert : forall x, P (row_of_relation x) -> keeps_rows (insert x).
Proof.
  intros x Px. apply kr_sql. intros d H. cbn [snd tbl_relations]. unfold insert_row. apply Forall_app. split; [|constructor; [exact Px|constructor]].
  rewrite Forall_forall in *. intros r Hr. apply filter_In in Hr. apply H, Hr.
Qed.
Lemma kr_update : forall x, P (row_of_relation x) -> keeps_rows (update_relation C x).
Proof.
  intros x Px. apply kr_bind.
  - apply kr_bind; [apply kr_read|]. intros [r|]; auto with rows.
  - intros [[a|v]|]; try apply kr_if; auto using kr_insert with rows.
Qed.
Lemma kr_extend : forall auths c, keeps_rows (extend_chain C c auths).
Proof.
  induction auths as [|a auths IH]; intros c; cbn [extend_chain]; [apply kr_ret|]. apply kr_if; [|apply IH].
  apply kr_bind; [apply kr_err, kr_revs|]. intros rs. apply kr_bind; [apply IH|]. auto with rows.
Qed.
Lemma kr_step : forall roots s, keeps_rows (search_step C roots s).
Proof.
  intros roots [q out]. unfold search_step. cbn [fst snd]. destruct q as [|c q]; [apply kr_ret|].
  apply kr_bind; [apply kr_err, kr_auths|]. intros a. apply kr_bind; [apply kr_extend|]. auto with rows.
Qed.
Lemma kr_run : forall n roots s, keeps_rows (search_run C n roots s).
Proof.
  induction n as [|n IH]; intros roots s; cbn [search_run]; [apply kr_step|]. apply kr_bind; [apply IH|]. intros s'. destruct (fst s'); [apply kr_ret|apply IH].
Qed.
Lemma kr_paths : forall pk roots, keeps_rows (bf_search_paths C pk roots).
Proof.
  intros pk roots. unfold bf_search_paths. apply kr_bind; [apply kr_err, kr_auths|]. intros a. apply kr_bind; [apply kr_err, kr_revs|]. intros rs. cbv zeta.
  apply kr_bind; [intros w H; apply kr_run; exact H|]. intros s. destruct (fst s); auto with rows.
Qed.
Lemma kr_certs : forall pk now, keeps_rows (get_all_certs C pk now).
Proof.
  intros pk now. unfold get_all_certs. apply kr_bind; [apply kr_err, kr_gc|]. intros _. apply kr_bind; [apply kr_err, kr_roots|]. intros rs. apply kr_bind; [apply kr_paths|]. auto with rows.
Qed.
Lemma kr_min : forall cs acc, keeps_rows (certs_min_factor cs acc).
Proof.
  induction cs as [|c cs IH]; intros acc; cbn [certs_min_factor]; [apply kr_ret|]. destruct c as [|t c]; [apply kr_throw|].
  apply kr_bind; [apply kr_err, kr_factor|]. intros [f|]; [apply IH|apply kr_throw].
Qed.
Lemma kr_weight : forall pk now, keeps_rows (weight C pk now).
Proof.
  intros pk now. unfold weight. apply kr_bind; [apply kr_err, kr_factor|]. intros rf. cbv zeta. apply kr_bind; [apply kr_certs|]. intros cs.
  apply kr_bind; [unfold certificates_weight_factor; destruct cs as [|c cs]; [apply kr_ret|apply kr_bind; [apply kr_min|auto with rows]]|]. auto with rows.
Qed.
Lemma kr_add_trust : forall t b now, P (row_of_relation (RAuth (mk_auth t b))) -> keeps_rows (add_trust C t b now).
Proof.
  intros t b now Px. unfold add_trust. apply kr_bind; [apply kr_lift|]. intros _. apply kr_bind; [apply kr_bind; [apply kr_weight|auto with rows]|].
  intros w. apply kr_if; [apply kr_ret|]. apply kr_bind; [apply kr_err; apply kr_update; exact Px|auto with rows].
Qed.
Lemma kr_add_chain : forall c b now, (forall i t k, at_pos c i t -> (match i with O => k = b | S j => key_at c j k end) -> P (row_of_relation (RAuth (mk_auth t k)))) ->
  keeps_rows (add_chain C c b now).
Proof.
  induction c as [|t c IH]; intros b now H; cbn [add_chain]; [apply kr_ret|]. apply kr_bind; [apply kr_add_trust; exact (H 0%nat t b eq_refl eq_refl)|].
  intros _. apply IH. intros i t' k Ht Hk. apply (H (S i) t' k Ht). destruct i as [|j]; [exists t; split; [reflexivity|symmetry; exact Hk]|destruct Hk as (g & Hg & Eg); exists g; split; assumption].
Qed.
Lemma kr_do : forall c, (forall x, offers c x -> P (row_of_relation x)) -> keeps_rows (graph_do C c).
Proof.
  intros c H. destruct c; cbn [graph_do]; (apply kr_bind; [|auto with rows]).
  - unfold set_root. apply kr_err, kr_sql. intros d Hd. exact Hd.
  - apply kr_add_trust. apply (H (RAuth (mk_auth t by_pk))). split; reflexivity.
  - destruct c as [|t c]; [apply kr_throw|]. cbn [add]. apply kr_add_chain. intros i t' k Ht Hk. apply (H (RAuth (mk_auth t' k))). cbn [offers offers_trust auth_trust issued_by].
    destruct i as [|j]; [left; split; [exact Ht|]; injection Ht as ->; exact Hk|]. right. destruct Hk as (g & Hg & Eg). exists j, g. auto.
  - apply kr_weight.
  - unfold weight_from, get_all_certs_from. apply kr_bind; [apply kr_bind; [apply kr_certs|auto with rows]|]. intros cs.
    apply kr_bind; [unfold certificates_weight_factor; destruct cs as [|c cs]; [apply kr_ret|apply kr_bind; [apply kr_min|auto with rows]]|]. auto with rows.
  - apply kr_certs.
  - unfold get_all_certs_from. apply kr_bind; [apply kr_certs|auto with rows].
  - unfold revoke. apply kr_bind; [apply kr_lift|]. intros _. apply kr_err. apply kr_update. apply (H (RRev v)). reflexivity.
  - apply kr_err, kr_revs.
Qed.
End Rows.

(** * Two times *)
Section Same.
Variables (C : crypto) (a b : duration).
Definition alike_row (r : row) : Prop := expired_row a r = expired_row b r.
Definition alike_trust (t : trust) : Prop := duration_ltb (expires_at t) a = duration_ltb (expires_at t) b.
Notation ok := (all_rows alike_row).
Definition same_result {A} (r r' : result graph_error A) : Prop :=
  r = r' \/ exists e, r = Err (GE_TrustVerification (TE_Expired e a)) /\ r' = Err (GE_TrustVerification (TE_Expired e b)).
Definition same_run {A} (m m' : M graph_error A) : Prop := forall w, ok w -> same_result (fst (m w)) (fst (m' w)) /\ snd (m w) = snd (m' w).
Lemma gc_same : forall w, ok w -> remove_expired a w = remove_expired b w.
Proof.
  intros w H. unfold remove_expired, sql.
  assert (E : filter (fun r => negb (expired_row a r)) (tbl_relations (w_db w)) = filter (fun r => negb (expired_row b r)) (tbl_relations (w_db w))).
  { apply filter_ext_in. intros r Hr. unfold all_rows in H. rewrite Forall_forall in H. rewrite (H r Hr). reflexivity. }
  rewrite E. reflexivity.
Qed.
Lemma certs_same : forall pk w, ok w -> get_all_certs C pk a w = get_all_certs C pk b w.
Proof. intros pk w H. unfold get_all_certs, mbind at 1 4, st at 1 3, mmap_err at 1 2. rewrite (gc_same w H). reflexivity. Qed.
Lemma weight_same : forall pk w, ok w -> weight C pk a w = weight C pk b w.
Proof.
  intros pk w H. unfold weight, mbind at 1 4. pose proof (kr_err alike_row _ _ _ GE_InternalStorage _ (kr_factor alike_row pk) w H) as K. unfold st.
  destruct (mmap_err GE_InternalStorage (get_root_weight_factor pk) w) as [[rf|e| |] w']; try reflexivity. cbn [snd] in K. cbv zeta.
  unfold mbind at 1 3. rewrite (certs_same pk w' K). reflexivity.
Qed.
Lemma certs_from_same : forall pk i w, ok w -> get_all_certs_from C pk i a w = get_all_certs_from C pk i b w.
Proof. intros pk i w H. unfold get_all_certs_from, mbind. rewrite (certs_same pk w H). reflexivity. Qed.
Lemma same_bind : forall A B (m m' : M graph_error A) (f f' : A -> M graph_error B), same_run m m' -> keeps_rows alike_row m -> (forall x, same_run (f x) (f' x)) -> same_run (mbind m f) (mbind m' f').
Proof.
  intros A B m m' f f' Hm K Hf w H. unfold mbind. destruct (Hm w H) as [R W]. specialize (K w H). destruct (m w) as [r w1], (m' w) as [r' w1']. cbn [fst snd] in *. subst w1'.
  destruct R as [->|(e & -> & ->)]; [|split; [right; exists e; split; reflexivity|reflexivity]].
  destruct r' as [x|e| |]; try (split; [left|]; reflexivity). exact (Hf x w1 K).
Qed.
Lemma same_ret : forall A (x : A), same_run (ret x) (ret x).
Proof. intros A x w H. split; [left|]; reflexivity. Qed.
Lemma of_equal : forall A (m m' : M graph_error A), (forall w, ok w -> m w = m' w) -> same_run m m'.
Proof. intros A m m' H w Hw. rewrite (H w Hw). split; [left|]; reflexivity. Qed.
Lemma verify_same : forall t k, alike_trust t -> same_run (lift (map_err GE_TrustVerification (trust_verify C t k a))) (lift (map_err GE_TrustVerification (trust_verify C t k b))).
Proof.
  intros t k H w Hw. unfold lift, trust_verify. unfold alike_trust in H. rewrite H. destruct (duration_ltb (expires_at t) b); cbn [map_err fst snd].
  - split; [|reflexivity]. right. exists (expires_at t). split; reflexivity.
  - split; [left|]; reflexivity.
Qed.
Lemma add_trust_same : forall t k, alike_trust t -> same_run (add_trust C t k a) (add_trust C t k b).
Proof.
  intros t k H. unfold add_trust. apply same_bind; [apply verify_same; exact H|apply kr_lift|]. intros _.
  apply of_equal. intros w Hw. unfold mbind at 1 3, get_next_weight. unfold mbind at 1 3. rewrite (weight_same k w Hw). reflexivity.
Qed.
Lemma add_chain_same : forall c k, Forall alike_trust c -> (forall i t k', at_pos c i t -> (match i with O => k' = k | S j => key_at c j k' end) -> alike_row (row_of_relation (RAuth (mk_auth t k')))) ->
  same_run (add_chain C c k a) (add_chain C c k b).
Proof.
  induction c as [|t c IH]; intros k F H; cbn [add_chain]; [apply same_ret|]. inversion F as [|? ? F1 F2]; subst.
  apply same_bind; [apply add_trust_same; exact F1|apply kr_add_trust; exact (H 0%nat t k eq_refl eq_refl)|].
  intros _. apply IH; [exact F2|]. intros i t' k' Ht Hk. apply (H (S i) t' k' Ht). destruct i as [|j]; [exists t; split; [reflexivity|symmetry; exact Hk]|destruct Hk as (g & Hg & Eg); exists g; split; assumption].
Qed.
Lemma do_same : forall c, (forall t k, offers_trust c t k -> alike_trust t /\ alike_row (row_of_relation (RAuth (mk_auth t k)))) ->
  same_run (graph_do C (at_time a c)) (graph_do C (at_time b c)).
Proof.
  intros c H. destruct c; cbn [at_time graph_do]; try (apply of_equal; intros w Hw; reflexivity).
  - destruct (H t by_pk (conj eq_refl eq_refl)) as [H1 H2]. apply same_bind; [apply add_trust_same; exact H1|apply kr_add_trust; exact H2|intros; apply same_ret].
  - destruct c as [|t c]; [apply of_equal; reflexivity|].
    assert (Q : forall i t' k, at_pos (t :: c) i t' -> (match i with O => k = issued_for t | S j => key_at (t :: c) j k end) -> alike_trust t' /\ alike_row (row_of_relation (RAuth (mk_auth t' k)))).
    { intros i t' k Ht Hk. apply (H t' k). destruct i as [|j]; [left; split; [exact Ht|]; injection Ht as ->; exact Hk|]. right. destruct Hk as (g & Hg & Eg). exists j, g. auto. }
    apply same_bind; [cbn [add]; apply add_chain_same| |intros; apply same_ret].
    + apply Forall_forall. intros t' Hin. apply In_nth_error in Hin. destruct Hin as (i & Hi). destruct i as [|j]; [exact (proj1 (Q 0%nat t' _ Hi eq_refl))|].
      destruct (nth_error (t :: c) j) as [g|] eqn:G; [|exfalso; apply nth_error_None in G; assert (nth_error (t :: c) (S j) <> None) by congruence; apply nth_error_Some in H0; lia].
      exact (proj1 (Q (S j) t' (issued_for g) Hi (ex_intro _ g (conj G eq_refl)))).
    + intros i t' k' Ht Hk. exact (proj2 (Q i t' k' Ht Hk)).
    + cbn [add]. apply kr_add_chain. intros i t' k' Ht Hk. exact (proj2 (Q i t' k' Ht Hk)).
  - apply of_equal. intros w Hw. unfold mmap, mbind. rewrite (weight_same pk w Hw). reflexivity.
  - apply of_equal. intros w Hw. unfold mmap, weight_from, mbind. rewrite (certs_from_same pk issuer w Hw). reflexivity.
  - apply of_equal. intros w Hw. unfold mmap, mbind. rewrite (certs_same pk w Hw). reflexivity.
  - apply of_equal. intros w Hw. unfold mmap, mbind. rewrite (certs_from_same pk issuer w Hw). reflexivity.
Qed.
End Same.

Lemma i64_small : forall n, n < i64_bound -> i64_of_u64 n = Z.of_N n.
Proof. intros n H. unfold i64_of_u64. destruct (N.ltb_spec n i64_bound); [reflexivity|lia]. Qed.
Lemma clear_row : forall a b t k, secs a < i64_bound -> secs b < i64_bound -> secs (expires_at t) < u64_bound -> clear_of a b t -> alike_row a b (row_of_relation (RAuth (mk_auth t k))).
Proof.
  intros a b t k Ha Hb He Hc. unfold alike_row, expired_row, row_of_relation. cbn [r_type r_expires_at rel_expires_at auth_trust AUTH_TYPE]. f_equal.
  rewrite (i64_small _ Ha), (i64_small _ Hb). unfold i64_of_u64. unfold clear_of in Hc. destruct (N.ltb_spec (secs (expires_at t)) i64_bound).
  - destruct Hc; destruct (Z.leb_spec (Z.of_N (secs (expires_at t))) (Z.of_N (secs a))), (Z.leb_spec (Z.of_N (secs (expires_at t))) (Z.of_N (secs b))); try reflexivity; lia.
  - assert (X : (Z.of_N (secs (expires_at t)) - Z.of_N u64_bound < 0)%Z) by lia. transitivity true; [|symmetry]; apply Z.leb_le; lia.
Qed.
Lemma clear_trust : forall a b t, clear_of a b t -> alike_trust a b t.
Proof.
  intros a b t H. unfold alike_trust. destruct (duration_ltb (expires_at t) a) eqn:A, (duration_ltb (expires_at t) b) eqn:B; try reflexivity; exfalso;
    try apply before_ltb in A; try apply before_ltb in B; try apply not_before_ltb in A; try apply not_before_ltb in B; unfold before, clear_of in *; lia.
Qed.
Lemma rev_row : forall a b v, alike_row a b (row_of_relation (RRev v)).
Proof. intros a b v. unfold alike_row, expired_row. cbn. rewrite !andb_false_r. reflexivity. Qed.

(** ** C191 *)
Lemma at_time_typed : forall C a c, duration_wf a -> call_typed C c -> call_typed C (at_time a c).
Proof. intros C a c Ha H. destruct c; cbn [at_time call_typed] in *; tauto. Qed.
Lemma offered_typed : forall C c t k, call_typed C c -> offers_trust c t k -> duration_wf (expires_at t).
Proof.
  intros C c t k T H. destruct c; cbn [offers_trust call_typed] in *; try contradiction.
  - destruct H as [-> _]. apply T.
  - destruct T as [T _]. rewrite Forall_forall in T. destruct H as [[H _]|(i & g & _ & H & _)]; apply nth_error_In in H; apply (T t H).
Qed.
Lemma clear_rows : forall C d a b fu, reachable C d -> secs a < i64_bound -> secs b < i64_bound -> (forall k t, stored_trust d k t -> clear_of a b t) -> all_rows (alike_row a b) (mk_world d fu).
Proof.
  intros C d a b fu R Ha Hb H. destruct (reachable_inv C d R) as (s & -> & I). unfold all_rows. cbn [w_db db_of tbl_relations]. apply Forall_forall. intros r Hr.
  apply in_map_iff in Hr. destruct Hr as (x & <- & Hx). destruct x as [[t k]|v]; [|apply rev_row].
  assert (S : stored_trust (db_of s) k t) by (apply (stored_trust_in C); [apply (inv_wf C), I|exact Hx]).
  apply clear_row; [exact Ha|exact Hb| |exact (H k t S)]. destruct S as (W & _). apply W.
Qed.
(** A call at two times between which nothing expires gives the same answer and leaves the same store. *)
Lemma p_C191_one_call : forall C d c a b fu, reachable C d -> call_typed C c -> clear_call d a b c ->
  same_but_clock a b (fst (graph_step C d (at_time a c, fu))) (fst (graph_step C d (at_time b c, fu))) /\
  snd (graph_step C d (at_time a c, fu)) = snd (graph_step C d (at_time b c, fu)).
Proof.
  intros C d c a b fu R T (Ha & Hb & S & O). unfold graph_step. cbn [fst snd].
  destruct (do_same C a b c) with (w := mk_world d fu) as [X Y].
  - intros t k H. split; [exact (clear_trust a b t (O t k H))|]. apply clear_row; [exact Ha|exact Hb|apply (offered_typed C c t k T H)|exact (O t k H)].
  - exact (clear_rows C d a b fu R Ha Hb S).
  - destruct (graph_do C (at_time a c) _) as [r w], (graph_do C (at_time b c) _) as [r' w']. cbn [fst snd] in *. subst w'. split; [exact X|reflexivity].
Qed.
(** So do whole histories on two stores whose clocks differ. *)
Lemma p_C191_clocks : forall C es d, reachable C d -> (forall c a b fu, In (c, (a, b), fu) es -> call_typed C c /\ duration_wf a) -> no_expiry_between C d es ->
  graph_history C d (map one es) = graph_history C d (map other es) /\
  forall es1 c a b fu es2, es = es1 ++ (c, (a, b), fu) :: es2 ->
    same_but_clock a b (fst (graph_step C (graph_history C d (map one es1)) (at_time a c, fu))) (fst (graph_step C (graph_history C d (map other es1)) (at_time b c, fu))).
Proof.
  intros C es. induction es as [|[[c [a b]] fu] es IH]; intros d R T H.
  { split; [reflexivity|]. intros es1 c a b fu es2 E. destruct es1; discriminate E. }
  cbn [no_expiry_between fst snd one] in H. destruct H as [H1 H2]. destruct (T c a b fu (or_introl eq_refl)) as [Tc Ta].
  destruct (p_C191_one_call C d c a b fu R Tc H1) as [X Y].
  destruct (IH (snd (graph_step C d (at_time a c, fu)))) as [P Q]; [apply reachable_step; [exact R|apply at_time_typed; assumption]|intros; eapply T; right; eassumption|exact H2|].
  split.
  - cbn [map graph_history fold_left]. unfold one at 2, other at 2. cbn [fst snd]. rewrite <- Y. exact P.
  - intros es1 c' a' b' fu' es2 E. destruct es1 as [|e1 es1].
    + injection E as <- <- <- <- _. exact X.
    + injection E as <- E. specialize (Q es1 c' a' b' fu' es2 E). cbn [map graph_history fold_left]. unfold one at 2, other at 2. cbn [fst snd].
      rewrite <- Y. exact Q.
Qed.
Definition planned_alike (C : crypto) (cp : call_params) (c : service_call) (ts ts' : N) (p p' : result service_error (graph_call + payload)) : Prop :=
  (p = p' /\ forall g, p <> Ok (inl g)) \/
  (exists g, requests C cp c g /\ p = Ok (inl (at_time (from_secs ts) g)) /\ p' = Ok (inl (at_time (from_secs ts') g))) \/
  (exists e, p = Err (SVE_TrustError (TE_Expired e (from_secs ts))) /\ p' = Err (SVE_TrustError (TE_Expired e (from_secs ts')))).
Ltac plan_walk :=
  repeat match goal with
    | |- context [extract_public_key ?C ?s] => destruct (extract_cases C s) as [(? & ? & ?)|(? & ?)];
        match goal with E : extract_public_key C s = _ |- _ => rewrite E; cbn [bind map_err]; clear E end
    | |- context [check_timestamp_tetraplets ?q ?n] => destruct (check_timestamp_tetraplets q n) as [[]|?| |]; cbn [bind map_err]
    | |- context [bytes_eqb ?a ?b] => destruct (bytes_eqb a b); cbn [bind map_err]
    | |- context [cert_from_str ?C ?s] => destruct (cert_from_str C s) as [?|?| |] eqn:?; cbn [bind map_err]
    | |- context [cert_of_dto ?C ?s] => destruct (cert_of_dto_cases C s) as [(? & ?)|(? & ?)];
        match goal with E : cert_of_dto C s = _ |- _ => rewrite E; cbn [bind map_err]; try apply cert_of_dto_ok in E end
    | |- context [trust_of_dto ?C ?s] => destruct (trust_of_dto_cases C s) as [(? & ?)|(? & ?)];
        match goal with E : trust_of_dto C s = _ |- _ => rewrite E; cbn [bind map_err]; try apply trust_of_dto_ok in E end
    | |- context [revocation_of_dto ?C ?s] => destruct (revocation_of_dto_cases C s) as [(? & ?)|(? & ?)];
        match goal with E : revocation_of_dto C s = _ |- _ => rewrite E; cbn [bind map_err]; try apply revocation_of_dto_ok in E end
    end.
Ltac plan_end := left; split; [reflexivity|intros; discriminate].
Lemma plan_told : forall C d cp c ts ts', clear_request C d cp ts ts' c -> planned_alike C cp c ts ts' (plan C cp (told ts c)) (plan C cp (told ts' c)).
Proof.
  intros C d cp c ts ts' (_ & _ & _ & _ & H).
  destruct c; cbn [told plan]; unfold gcall.
  13: { assert (Q : (ts <? dt_issued_at t) = (ts' <? dt_issued_at t)) by (destruct (N.ltb_spec ts (dt_issued_at t)), (N.ltb_spec ts' (dt_issued_at t)); try reflexivity; lia).
        rewrite Q. destruct (ts' <? dt_issued_at t); plan_walk; try plan_end.
        right; left. eexists (G_add_trust _ _ (from_secs timestamp_sec)). cbn [requests at_time]. split; [eauto|split; reflexivity]. }
  15: { assert (Q : (ts <? dr_revoked_at r) = (ts' <? dr_revoked_at r)) by (destruct (N.ltb_spec ts (dr_revoked_at r)), (N.ltb_spec ts' (dr_revoked_at r)); try reflexivity; lia).
        rewrite Q. destruct (ts' <? dr_revoked_at r); plan_walk; try plan_end.
        right; left. eexists (G_revoke _). cbn [requests at_time]. split; [eauto|split; reflexivity]. }
  12: { plan_walk; try plan_end. unfold trust_verify.
        match goal with T : trust_record C t ?u |- _ => destruct T as (_ & E & _); rewrite E end.
        assert (Q : duration_ltb (from_secs (dt_expires_at t)) (from_secs ts) = duration_ltb (from_secs (dt_expires_at t)) (from_secs ts')).
        { change (alike_trust (from_secs ts) (from_secs ts') (mk_trust (mk_pk Ed25519 []) (from_secs (dt_expires_at t)) (mk_sig Ed25519 []) (from_secs 0))). apply clear_trust. exact H. }
        rewrite Q. destruct (duration_ltb _ (from_secs ts')); cbn [map_err bind].
        - right; right. eexists. split; reflexivity.
        - destruct (pk_verify C _ _ _) as [[]|?| |]; cbn [map_err bind]; plan_end. }
  all: plan_walk; try plan_end.
  - right; left. eexists (G_set_root _ _). cbn [requests at_time]. split; [eauto|split; reflexivity].
  - right; left. eexists (G_add _ (from_secs timestamp_sec)). cbn [requests at_time]. split; [eauto|split; reflexivity].
  - right; left. eexists (G_add _ (from_secs timestamp_sec)). cbn [requests at_time]. split; [eauto|split; reflexivity].
  - right; left. eexists (G_get_all_certs _ (from_secs timestamp_sec)). cbn [requests at_time]. split; [eauto|split; reflexivity].
  - right; left. eexists (G_get_all_certs_from _ _ (from_secs timestamp_sec)). cbn [requests at_time]. split; [eauto|split; reflexivity].
  - right; left. eexists (G_get_all_certs _ (from_secs timestamp_sec)). cbn [requests at_time]. split; [eauto|split; reflexivity].
  - right; left. eexists (G_get_all_certs_from _ _ (from_secs timestamp_sec)). cbn [requests at_time]. split; [eauto|split; reflexivity].
  - right; left. eexists (G_weight _ (from_secs timestamp_sec)). cbn [requests at_time]. split; [eauto|split; reflexivity].
  - right; left. eexists (G_weight_from _ _ (from_secs timestamp_sec)). cbn [requests at_time]. split; [eauto|split; reflexivity].
  - right; left. eexists (G_get_revocations _). cbn [requests at_time]. split; [eauto|split; reflexivity].
Qed.
Lemma told_empty : forall ts c, empty_payload (told ts c) = empty_payload c.
Proof. intros ts c. destruct c; reflexivity. Qed.
Lemma told_payload : forall C ts c x, payload_of C (told ts c) x = payload_of C c x.
Proof. intros C ts c x. destruct c; reflexivity. Qed.
Lemma told_typed : forall ts c, ts < u64_bound -> service_typed c -> service_typed (told ts c).
Proof. intros ts c H T. destruct c; cbn [told service_typed] in *; tauto. Qed.
(** The service, at two timestamps between which nothing it keeps or is given expires. *)
Lemma p_C191_service : forall C d cp c ts ts' fu, crypto_laws C -> service_reachable C d -> service_typed c -> clear_request C d cp ts ts' c ->
  same_but_time ts ts' (fst (service_step C d (cp, told ts c, fu))) (fst (service_step C d (cp, told ts' c, fu))) /\
  snd (service_step C d (cp, told ts c, fu)) = snd (service_step C d (cp, told ts' c, fu)).
Proof.
  intros C d cp c ts ts' fu L R T H. rewrite !service_plan. destruct (plan_told C d cp c ts ts' H) as [[<- N]|[(g & Rq & -> & ->)|(e & -> & ->)]].
  - destruct (plan C cp (told ts c)) as [[g|x]|e| |]; [exfalso; exact (N g eq_refl)|..]; cbn [carry_out]; rewrite ?told_empty; (split; [left|]; reflexivity).
  - destruct H as (H1 & H2 & H3 & H4 & _). cbn [carry_out].
    destruct (p_C191_one_call C d g (from_secs ts) (from_secs ts') fu) as [X Y]; [apply service_reachable_graph; assumption|exact (requests_typed C cp c g L T Rq)| |].
    { split; [exact H1|]. split; [exact H2|]. split; [exact H3|]. intros t k O. exact (H4 g t k Rq O). }
    destruct (graph_step C d (at_time (from_secs ts) g, fu)) as [r d1], (graph_step C d (at_time (from_secs ts') g, fu)) as [r' d2]. cbn [fst snd] in X, Y. subst d2.
    destruct X as [<-|(e & -> & ->)].
    + destruct r as [x|e| |]; rewrite ?told_payload, ?told_empty; (split; [left|]; reflexivity).
    + rewrite !told_empty. split; [|reflexivity]. right. exists e, (empty_payload c), (fun x => SVE_TGError (GE_TrustVerification x)). split; [right; reflexivity|]. split; reflexivity.
  - cbn [carry_out]. rewrite !told_empty. split; [|reflexivity]. right. exists e, (empty_payload c), SVE_TrustError. split; [left; reflexivity|]. split; reflexivity.
Qed.
Lemma one_more : forall C d cp c ts fu, service_reachable C d -> service_typed c -> ts < i64_bound -> service_reachable C (snd (service_step C d (cp, told ts c, fu))).
Proof.
  intros C d cp c ts fu (h & T & <-) Tc H. exists (h ++ [(cp, told ts c, fu)]). split; [|unfold service_history; apply fold_left_app].
  apply Forall_app. split; [exact T|]. constructor; [|constructor]. cbn [fst snd]. apply told_typed; [unfold i64_bound, u64_bound in *; lia|exact Tc].
Qed.
(** Whole histories of service calls, each call at two timestamps. *)
Lemma p_C191_services : forall C es d, crypto_laws C -> service_reachable C d -> (forall cp c ts ts' fu, In (cp, c, (ts, ts'), fu) es -> service_typed c) -> clear_requests C d es ->
  service_history C d (map first_time es) = service_history C d (map second_time es) /\
  forall es1 cp c ts ts' fu es2, es = es1 ++ (cp, c, (ts, ts'), fu) :: es2 ->
    same_but_time ts ts' (fst (service_step C (service_history C d (map first_time es1)) (cp, told ts c, fu)))
                         (fst (service_step C (service_history C d (map second_time es1)) (cp, told ts' c, fu))).
Proof.
  intros C es. induction es as [|[[[cp c] [ts ts']] fu] es IH]; intros d L R T H.
  { split; [reflexivity|]. intros es1 cp c ts ts' fu es2 E. destruct es1; discriminate E. }
  cbn [clear_requests] in H. destruct H as [H1 H2]. pose proof (T cp c ts ts' fu (or_introl eq_refl)) as Tc.
  destruct (p_C191_service C d cp c ts ts' fu L R Tc H1) as [X Y].
  destruct (IH (snd (service_step C d (cp, told ts c, fu)))) as [P Q]; [exact L|apply one_more; [exact R|exact Tc|apply H1]|intros; eapply T; right; eassumption|exact H2|].
  split.
  - cbn [map service_history fold_left]. unfold first_time at 2, second_time at 2. rewrite <- Y. exact P.
  - intros es1 cp' c' a' b' fu' es2 E. destruct es1 as [|e1 es1].
    + injection E as <- <- <- <- <- _. exact X.
    + injection E as <- E. specialize (Q es1 cp' c' a' b' fu' es2 E). cbn [map service_history fold_left]. unfold first_time at 2, second_time at 2.
      rewrite <- Y. exact Q.
Qed.

(** * Cases *)
(** Two hosts with the store of [Witness.two_ways], whose trusts expire at seconds 700, 800, 900 and 1000; one clock is 40 to 50 seconds
    ahead. A trust that expires at 750 is added, and the weights of its holder and of B asked. *)
Definition drifting : list twice :=
  [(G_add_trust (toy_trust 3 4 750 1) (toy_key 3) (from_secs 0), (from_secs 640, from_secs 690), None);
   (G_weight (toy_key 4) (from_secs 0), (from_secs 650, from_secs 690), None)].
Lemma two_ways_clear : forall k t, stored_trust (db_of (after two_ways)) k t -> clear_of (from_secs 640) (from_secs 690) t.
Proof.
  intros k t H. apply (stored_trust_in W) in H; [|apply after_inv; exact two_ways_typed]. revert H. vm_compute rels. intros H.
  repeat (destruct H as [H|H]; [injection H as <- _; right; split; reflexivity|]). contradiction H.
Qed.
Lemma drifting_typed : Forall (call_typed W) (two_ways ++ [G_add_trust (toy_trust 3 4 750 1) (toy_key 3) (from_secs 640)]).
Proof. unfold two_ways, base. cbn [app]. typed1. Qed.
(** The hypotheses are met; at both clocks the holder weighs 8. At seconds 690 and 700, with an expiry in between, the weights of B differ:
    16 and 8. *)
Example e_C191_two_hosts : reachable W (db_of (after two_ways)) /\ no_expiry_between W (db_of (after two_ways)) drifting /\
  (forall c a b fu, In (c, (a, b), fu) drifting -> call_typed W c /\ duration_wf a) /\
  fst (graph_step W (graph_history W (db_of (after two_ways)) (map other [nth 0 drifting (G_weight (toy_key 4) (from_secs 0), (from_secs 0, from_secs 0), None)]))
         (G_weight (toy_key 4) (from_secs 690), None)) = Ok (GR_weight 8) /\
  fst (graph_step W (db_of (after two_ways)) (G_weight (toy_key 3) (from_secs 690), None)) = Ok (GR_weight 16) /\
  fst (graph_step W (db_of (after two_ways)) (G_weight (toy_key 3) (from_secs 700), None)) = Ok (GR_weight 8).
Proof.
  split; [apply after_reachable; exact two_ways_typed|]. split; [|split; [|split; [|split]]].
  - cbn [no_expiry_between drifting fst snd]. split; [|split; [|exact I]].
    + split; [reflexivity|]. split; [reflexivity|]. split; [exact two_ways_clear|]. intros t k [-> _]. right. split; reflexivity.
    + unfold one. cbn [fst snd at_time].
      rewrite (after_step two_ways (G_add_trust (toy_trust 3 4 750 1) (toy_key 3) (from_secs 640)) (Ok (GR_weight 8))); [|exact two_ways_typed|typed1|vm_compute; reflexivity].
      cbn [snd]. split; [reflexivity|]. split; [reflexivity|]. split; [|intros t k []].
      intros k t H. apply (stored_trust_in W) in H; [|apply after_inv; exact drifting_typed]. revert H. vm_compute rels. intros H.
      repeat (destruct H as [H|H]; [injection H as <- _; right; split; reflexivity|]). contradiction H.
  - intros c a b fu [H|[H|[]]]; injection H as <- <- <- <-; (split; [typed1|apply secs_wf; reflexivity]).
  - vm_compute. reflexivity.
  - vm_compute. reflexivity.
  - vm_compute. reflexivity.
Qed.
(** The service with the store of [ServiceWitness.service_base], asked at seconds 600 and 880 to add a trust that expires at 890: the
    hypotheses are met and both times the answer is the weight 8. *)
Example e_C191_timestamps : service_reachable (toy true) base_store /\ clear_request (toy true) base_store (timed_call 2) 600 880 (S_add_trust (trust_rec 2 3 890 500) (pid 2) 0) /\
  fst (service_step (toy true) base_store (timed_call 2, S_add_trust (trust_rec 2 3 890 500) (pid 2) 600, None)) = Ok (mk_response true None (P_added 8)) /\
  fst (service_step (toy true) base_store (timed_call 2, S_add_trust (trust_rec 2 3 890 500) (pid 2) 880, None)) = Ok (mk_response true None (P_added 8)).
Proof.
  split; [exact base_reachable|]. split; [|split; vm_compute; reflexivity].
  split; [reflexivity|]. split; [reflexivity|]. split; [|split].
  - intros k t H. rewrite VisitorThms.base_state_store in H. apply (stored_trust_in (toy true) VisitorThms.base_state k t VisitorThms.base_state_wf) in H.
    destruct H as [H|[H|[]]]; injection H as <- _; right; split; reflexivity.
  - intros g t k Rq O. destruct g; cbn [requests] in Rq; try contradiction Rq. destruct O as [-> _]. destruct Rq as [(_ & E & _) _]. unfold clear_of. rewrite E. right. split; reflexivity.
  - split; intros _; vm_compute; discriminate.
Qed.
(** There, two calls, each at two timestamps: a weight is asked for and the trust added. *)
Definition asked_and_added : list twice_called :=
  [(timed_call 1, S_get_weight (pid 2) 0, (600, 880), None); (timed_call 2, S_add_trust (trust_rec 2 3 890 500) (pid 2) 0, (610, 885), None)].
Example e_C191_requests : service_reachable (toy true) base_store /\ (forall cp c ts ts' fu, In (cp, c, (ts, ts'), fu) asked_and_added -> service_typed c) /\
  clear_requests (toy true) base_store asked_and_added /\
  service_history (toy true) base_store (map second_time asked_and_added) <> base_store.
Proof.
  split; [exact base_reachable|]. split; [|split].
  - intros cp c ts ts' fu [H|[H|[]]]; injection H as <- <- <- <- <-; vm_compute; auto.
  - assert (Base : forall a b, a < 900 -> b < 900 -> forall k t, stored_trust base_store k t -> clear_of (from_secs a) (from_secs b) t).
    { intros a b Ha Hb k t H. rewrite VisitorThms.base_state_store in H. apply (stored_trust_in (toy true) VisitorThms.base_state k t VisitorThms.base_state_wf) in H.
      destruct H as [H|[H|[]]]; injection H as <- _; right; cbn; lia. }
    cbn [clear_requests asked_and_added]. replace (snd (service_step (toy true) base_store (timed_call 1, told 600 (S_get_weight (pid 2) 0), None))) with base_store by (vm_compute; reflexivity).
    split; [|split; [|exact I]].
    + split; [reflexivity|]. split; [reflexivity|]. split; [apply Base; reflexivity|]. split; [|exact I]. intros g t k Rq O. destruct g; cbn [requests] in Rq; try contradiction Rq; contradiction O.
    + split; [reflexivity|]. split; [reflexivity|]. split; [apply Base; reflexivity|]. split.
      * intros g t k Rq O. destruct g; cbn [requests] in Rq; try contradiction Rq. destruct O as [-> _]. destruct Rq as [(_ & E & _) _]. unfold clear_of. rewrite E. right. split; reflexivity.
      * split; intros _; vm_compute; discriminate.
  - intros H. assert (X : length (tbl_relations (service_history (toy true) base_store (map second_time asked_and_added))) = length (tbl_relations base_store)) by (rewrite H; reflexivity).
    vm_compute in X. discriminate X.
Qed.
