(** The library over any storage. PropsAnyStore.v restates the properties. *)
From Coq Require Import List NArith ZArith Bool Lia Permutation.
From Verif Require Import Base BaseFacts Text Keys KeysFacts Trust TrustFacts Certificate Relation Storage StorageFacts Graph SearchFacts PathFacts
  Spec SpecFacts GraphFacts StateFacts ChainFacts AlikeFacts Toy ToyFacts Witness MachineSpec GraphThms MoreThms Scan ScanSpec ScanFacts ScanThms AnyStore AnyStoreSpec AnyStoreFacts.
Import ListNotations.
Open Scope N_scope.

(** ** Graph.v is the instance of SQLite *)
Definition embed (e : graph_error) : any_error storage_error := match e with GE_InternalStorage e => X_storage e | _ => X_other e end.
Section Instance.
Variable C : crypto.
Local Notation AMw := (AM world storage_error).
Definition Emb {A} (m : AMw A) (n : M graph_error A) : Prop := forall w, m w = match n w with (r, w') => (map_err embed r, w') end.
Lemma emb_ret : forall A (a : A), Emb (aret a) (ret a).
Proof. intros A a w. reflexivity. Qed.
Lemma emb_bind : forall A B (m : AMw A) n (f : A -> AMw B) g, Emb m n -> (forall a, Emb (f a) (g a)) -> Emb (abind m f) (mbind n g).
Proof. intros A B m n f g H H' w. unfold abind, mbind. rewrite (H w). destruct (n w) as [[a|e| |] w']; cbn [map_err]; [apply H'|reflexivity..]. Qed.
Lemma emb_st : forall A (m : M storage_error A), Emb (ast m) (st m).
Proof. intros A m w. unfold ast, st, mmap_err. destruct (m w) as [[a|e| |] w']; reflexivity. Qed.
Lemma emb_extend : forall c l, Emb (a_extend_chain world storage_error (sqlite C) c l) (extend_chain C c l).
Proof.
  intros c l. induction l as [|a l IH]; cbn [a_extend_chain extend_chain]; [apply emb_ret|]. destruct (can_be_extended_by c (issued_by a)); [|exact IH].
  apply emb_bind; [apply emb_st|]. intros rs. apply emb_bind; [exact IH|]. intros r. apply emb_ret.
Qed.
Lemma emb_step : forall rks q, Emb (a_search_step world storage_error (sqlite C) rks q) (search_step C rks q).
Proof.
  intros rks q. unfold a_search_step, search_step. destruct (fst q) as [|c l]; [apply emb_ret|]. apply emb_bind; [apply emb_st|]. intros as_. apply emb_bind; [apply emb_extend|]. intros r. apply emb_ret.
Qed.
Lemma emb_run : forall n rks q, Emb (a_search_run world storage_error (sqlite C) n rks q) (search_run C n rks q).
Proof.
  induction n as [|n IH]; intros rks q; cbn [a_search_run search_run]; [apply emb_step|]. apply emb_bind; [apply IH|]. intros r. destruct (fst r); [apply emb_ret|apply IH].
Qed.
Lemma emb_certs : forall pk now, Emb (a_get_all_certs world storage_error (sqlite C) sqlite_size pk now) (get_all_certs C pk now).
Proof.
  intros pk now. unfold a_get_all_certs, get_all_certs. apply emb_bind; [apply emb_st|]. intros u. apply emb_bind; [apply emb_st|]. intros rks. apply emb_bind; [|intros r; apply emb_ret].
  unfold a_bf_search_paths, bf_search_paths. apply emb_bind; [apply emb_st|]. intros as_. apply emb_bind; [apply emb_st|]. intros rs. apply emb_bind.
  - intros w. apply emb_run.
  - intros r. destruct (fst r); [apply emb_ret|]. intros w. reflexivity.
Qed.
Lemma emb_factors : forall cs, Emb (a_certificates_weight_factor world storage_error (sqlite C) cs) (certificates_weight_factor cs).
Proof.
  intros [|c cs]; [apply emb_ret|]. unfold a_certificates_weight_factor, certificates_weight_factor. apply emb_bind; [|intros r; apply emb_ret].
  generalize (c :: cs), u32_max. clear c cs. induction l as [|[|t c] l IH]; intros acc; cbn [a_certs_min_factor certs_min_factor]; [apply emb_ret|intros w; reflexivity|].
  apply emb_bind; [apply emb_st|]. intros [f|]; [apply IH|intros w; reflexivity].
Qed.
Lemma emb_weight : forall pk now, Emb (a_weight world storage_error (sqlite C) sqlite_size pk now) (weight C pk now).
Proof. intros pk now. unfold a_weight, weight. apply emb_bind; [apply emb_st|]. intros f. apply emb_bind; [apply emb_certs|]. intros cs. apply emb_bind; [apply emb_factors|]. intros x. apply emb_ret. Qed.
Lemma emb_add_trust : forall t b now, Emb (a_add_trust C world storage_error (sqlite C) sqlite_size t b now) (add_trust C t b now).
Proof.
  intros t b now. unfold a_add_trust, add_trust. apply emb_bind; [intros w; unfold alift, lift; destruct (trust_verify C t b now); reflexivity|]. intros u. apply emb_bind.
  - unfold a_get_next_weight, get_next_weight. apply emb_bind; [apply emb_weight|]. intros w. apply emb_ret.
  - intros w. destruct (w =? 0); [apply emb_ret|]. apply emb_bind; [apply emb_st|]. intros v. apply emb_ret.
Qed.
Lemma emb_chain : forall c b now, Emb (a_add_chain C world storage_error (sqlite C) sqlite_size c b now) (add_chain C c b now).
Proof. induction c as [|t c IH]; intros b now; cbn [a_add_chain add_chain]; [apply emb_ret|]. apply emb_bind; [apply emb_add_trust|]. intros w. apply IH. Qed.
Lemma emb_call : forall c, Emb (any_do C world storage_error (sqlite C) sqlite_size c) (graph_do C c).
Proof.
  intros c. destruct c; cbn [any_do graph_do]; unfold amap, mmap; (apply emb_bind; [|intros x; apply emb_ret]).
  - apply emb_st.
  - apply emb_add_trust.
  - destruct c; [intros w; reflexivity|apply emb_chain].
  - apply emb_weight.
  - unfold a_weight_from, weight_from. apply emb_bind; [|intros cs; apply emb_bind; [apply emb_factors|intros x; apply emb_ret]]. unfold a_get_all_certs_from, get_all_certs_from. apply emb_bind; [apply emb_certs|intros cs; apply emb_ret].
  - apply emb_certs.
  - unfold a_get_all_certs_from, get_all_certs_from. apply emb_bind; [apply emb_certs|intros cs; apply emb_ret].
  - unfold a_revoke, revoke. apply emb_bind; [intros w; unfold alift, lift; destruct (revocation_verify C v); reflexivity|]. intros u. apply emb_st.
  - apply emb_st.
Qed.
End Instance.

(** ** C187 *)
Lemma kept_factor_root : forall q k, kept_factor (db_of q) k = root_factor (roots q) k.
Proof. intros q k. unfold kept_factor. cbn [db_of tbl_roots]. rewrite first_row_factor. destruct (root_factor (roots q) k); cbn [option_map]; [rewrite N2Z.id|]; reflexivity. Qed.
Lemma any_in_step : forall C St Er (T : storage St Er) good contents factor size len, keeps C St Er T good contents factor size ->
  forall cs s q, ok C St good contents factor len s q -> Forall (fun c => call_typed C c /\ plain_call c /\ lengths_as len c) cs ->
  exists fs q', length fs = length cs /\
    Forall2 same_outcome (fst (any_run C St Er T size s cs)) (answers C (db_of q) (combine cs fs)) /\
    Forall2 (fun r f => f <> None -> storage_failed r) (fst (any_run C St Er T size s cs)) fs /\
    graph_history C (db_of q) (combine cs fs) = db_of q' /\ ok C St good contents factor len (snd (any_run C St Er T size s cs)) q'.
Proof.
  intros C St Er T good contents factor size len K. induction cs as [|c cs IH]; intros s q O F.
  - exists [], q. split; [reflexivity|]. split; [constructor|]. split; [constructor|]. split; [reflexivity|exact O].
  - inversion F as [|? ? (Tc & Pc & Lc) F']; subst. pose proof (sim_call C St Er T good contents factor size K len s q c O Tc Pc Lc) as X. unfold Sim in X.
    cbn [any_run]. destruct (any_do C St Er T size c s) as [r s1].
    assert (Y : exists f q1, same_outcome r (fst (graph_step C (db_of q) (c, f))) /\ (f <> None -> storage_failed r) /\ snd (graph_step C (db_of q) (c, f)) = db_of q1 /\ ok C St good contents factor len s1 q1).
    { unfold graph_step. cbn [fst snd]. destruct r as [a|[e|e]| |]; try contradiction.
      - destruct X as (a' & q1 & tr & R & O1 & Tr). exists None, q1. rewrite (Tr None). cbn [fst snd w_db same_outcome]. split; [exact R|]. split; [congruence|]. split; [reflexivity|exact O1].
      - destruct X as (q1 & k & O1 & E). exists (Some k), q1. rewrite E. cbn [fst snd w_db same_outcome]. split; [reflexivity|]. split; [intros _; exists e; reflexivity|]. split; [reflexivity|exact O1].
      - destruct X as (q1 & tr & O1 & Tr). exists None, q1. rewrite (Tr None). cbn [fst snd w_db same_outcome]. split; [reflexivity|]. split; [congruence|]. split; [reflexivity|exact O1]. }
    destruct Y as (f & q1 & Y1 & Y2 & Y3 & O1). destruct (IH s1 q1 O1 F') as (fs & q2 & L & I1 & I2 & I3 & I4).
    destruct (any_run C St Er T size s1 cs) as [rs s2]. cbn [fst snd] in *. exists (f :: fs), q2. split; [cbn [length]; rewrite L; reflexivity|].
    cbn [combine answers graph_history fold_left]. rewrite Y3. split; [constructor; assumption|]. split; [constructor; assumption|]. split; [exact I3|exact I4].
Qed.
Lemma ok_empty : forall C St (good : St -> Prop) (contents : St -> list relation) (factor : St -> public_key -> option N) len s, good s -> contents s = [] -> (forall k, factor s k = None) -> ok C St good contents factor len s empty_state.
Proof. intros C St good contents factor len s G E F. split; [exact G|apply wf_empty|intros x; rewrite E; reflexivity|exact F|intros x []|intros k f X; discriminate X]. Qed.
(** Over every storage that keeps the contract, a history of calls from an empty state answers as over an empty database of SQLite, failures of the storage
    being failures of a statement, and in the end the storage holds what the database holds. *)
Lemma p_C187_any_storage : forall C St Er (T : storage St Er) good contents factor size, keeps C St Er T good contents factor size ->
  forall s cs len, good s -> contents s = [] -> (forall k, factor s k = None) -> Forall (fun c => call_typed C c /\ plain_call c /\ lengths_as len c) cs ->
  exists fs, length fs = length cs /\
    Forall2 same_outcome (fst (any_run C St Er T size s cs)) (answers C empty_db (combine cs fs)) /\
    Forall2 (fun r f => f <> None -> storage_failed r) (fst (any_run C St Er T size s cs)) fs /\
    (forall x, In x (contents (snd (any_run C St Er T size s cs))) <-> stored (graph_history C empty_db (combine cs fs)) x) /\
    (forall k, factor (snd (any_run C St Er T size s cs)) k = kept_factor (graph_history C empty_db (combine cs fs)) k).
Proof.
  intros C St Er T good contents factor size K s cs len G E Fa F.
  destruct (any_in_step C St Er T good contents factor size len K cs s empty_state (ok_empty _ _ _ _ _ _ _ G E Fa) F) as (fs & q & L & H1 & H2 & H3 & O).
  change (db_of empty_state) with empty_db in *. exists fs. split; [exact L|]. split; [exact H1|]. split; [exact H2|]. rewrite H3. split.
  - intros x. rewrite (ok_rels _ _ _ _ _ _ _ _ O). symmetry. apply (stored_in C). apply O.
  - intros k. rewrite kept_factor_root. apply O.
Qed.
Lemma no_failures : forall (rs : list (result (any_error Empty_set) graph_reply)) fs, Forall2 (fun r f => f <> None -> storage_failed r) rs fs -> fs = repeat (@None nat) (length fs).
Proof. induction 1 as [|r f rs fs H F IH]; [reflexivity|]. cbn [length repeat]. rewrite <- IH. f_equal. destruct f as [k|]; [|reflexivity]. destruct (H ltac:(discriminate)) as (e & _). destruct e. Qed.
(** Two storages whose methods never fail cannot be told apart: the same calls get the same answers, and both hold the same. *)
Lemma p_C187_interchangeable : forall C St St' (T : storage St Empty_set) (T' : storage St' Empty_set) good good' contents contents' factor factor' size size',
  keeps C St Empty_set T good contents factor size -> keeps C St' Empty_set T' good' contents' factor' size' ->
  forall s s' cs len, good s -> good' s' -> contents s = [] -> contents' s' = [] -> (forall k, factor s k = None) -> (forall k, factor' s' k = None) ->
  Forall (fun c => call_typed C c /\ plain_call c /\ lengths_as len c) cs ->
  let ran := any_run C St Empty_set T size s cs in let ran' := any_run C St' Empty_set T' size' s' cs in
  Forall2 (fun r r' => exists r0, same_outcome r r0 /\ same_outcome r' r0) (fst ran) (fst ran') /\
  (forall x, In x (contents (snd ran)) <-> In x (contents' (snd ran'))) /\ forall k, factor (snd ran) k = factor' (snd ran') k.
Proof.
  intros C St St' T T' good good' contents contents' factor factor' size size' K K' s s' cs len G G' E E' F F' H ran ran'.
  destruct (p_C187_any_storage _ _ _ _ _ _ _ _ K s cs len G E F H) as (fs & L & H1 & H2 & H3 & H4). destruct (p_C187_any_storage _ _ _ _ _ _ _ _ K' s' cs len G' E' F' H) as (fs' & L' & H1' & H2' & H3' & H4').
  pose proof (no_failures _ _ H2) as N. pose proof (no_failures _ _ H2') as N'. rewrite L in N. rewrite L' in N'. assert (X : fs' = fs) by (rewrite N, N'; reflexivity). rewrite X in H1', H3', H4'. clear N N' H2 H2' X. fold ran in H1, H3, H4. fold ran' in H1', H3', H4'. split; [|split].
  - revert H1 H1'. generalize (fst ran), (fst ran'), (answers C empty_db (combine cs fs)). clear. intros l l' l0 H1 H1'. revert l' H1'. induction H1 as [|a b l l0 H1 H IH]; intros l' H'; inversion H'; subst; constructor; [exists b; auto|apply IH; assumption].
  - intros x. rewrite H3, H3'. reflexivity.
  - intros k. rewrite H4, H4'. reflexivity.
Qed.
(** The code of Graph.v is this code over the storage of SQLite. *)
Lemma p_C187_sqlite_is_one : forall C c w, any_do C world storage_error (sqlite C) sqlite_size c w =
  match graph_do C c w with (r, w') => (map_err (fun e => match e with GE_InternalStorage e => X_storage e | _ => X_other e end) r, w') end.
Proof. intros C c w. apply emb_call. Qed.

(** ** The storage of SQLite keeps the contract *)
Section Sqlite.
Variable C : crypto.
Lemma sqlite_state : forall w, sqlite_good C w -> exists q, w_db w = db_of q /\ wf C q.
Proof. intros w (rs & ros & E & H1 & H2 & H3). exists (mk_state rs ros). split; [exact E|]. split; assumption. Qed.
Lemma state_sqlite : forall q fu, wf C q -> sqlite_good C (mk_world (db_of q) fu).
Proof. intros q fu [H1 H2 H3]. exists (rels q), (roots q). split; [reflexivity|]. auto. Qed.
Lemma sqlite_holds : forall q fu, wf C q -> sqlite_contents C (mk_world (db_of q) fu) = rels q.
Proof. intros q fu W. unfold sqlite_contents. cbn [w_db db_of tbl_relations]. rewrite parse_rows_map by apply W. reflexivity. Qed.
Definition sqlite_factor (w : world) (k : public_key) : option N := kept_factor (w_db w) k.
Lemma sqlite_factors : forall q fu k, sqlite_factor (mk_world (db_of q) fu) k = root_factor (roots q) k.
Proof. intros q fu k. apply kept_factor_root. Qed.
Lemma sqlite_reads : forall A (m : M storage_error A) (right : world -> A -> Prop) (val : state -> A),
  (forall q, wf C q -> Reads SE_SQLite (db_of q) m (Ok (val q))) -> (forall q fu, wf C q -> right (mk_world (db_of q) fu) (val q)) ->
  reads world storage_error (sqlite_good C) (sqlite_contents C) sqlite_factor m right.
Proof.
  intros A m right val R V [d fu] G. destruct (sqlite_state _ G) as (q & E & W). cbn [w_db] in E. subst d. destruct (R q W fu) as [(fu' & E & _)|(_ & d'' & -> & E)]; rewrite E.
  - split; [apply V; exact W|]. split; [apply state_sqlite; exact W|]. split; reflexivity.
  - split; [apply state_sqlite; exact W|]. split; reflexivity.
Qed.
Lemma sqlite_writes : forall (m : M storage_error unit) (may : world -> Prop) (right : world -> world -> Prop) (w : write), write_ok C w ->
  (forall q, wf C q -> exists d', Runs SE_SQLite (db_of q) m (Ok tt) d' (fun d'' => d'' = db_of q) /\ d' = db_of (apply_w q w)) ->
  (forall q fu fu', wf C q -> may (mk_world (db_of q) fu) -> right (mk_world (db_of q) fu) (mk_world (db_of (apply_w q w)) fu')) ->
  writes world storage_error (sqlite_good C) (sqlite_contents C) sqlite_factor m may right.
Proof.
  intros m may right w Ow R V [d fu] G May. destruct (sqlite_state _ G) as (q & E & W). cbn [w_db] in E. subst d. destruct (R q W) as (d' & X & ->). destruct (X fu) as [(fu' & E & _)|(_ & d'' & -> & E)]; rewrite E.
  - split; [apply state_sqlite, apply_wf; assumption|]. apply V; assumption.
  - split; [apply state_sqlite; exact W|]. split; reflexivity.
Qed.
Lemma sqlite_update : forall x, rel_typed C x -> plain x -> writes world storage_error (sqlite_good C) (sqlite_contents C) sqlite_factor (update_relation C x) (fun _ => True) (took world (sqlite_contents C) sqlite_factor x).
Proof.
  intros x Tx Px. apply (sqlite_writes _ _ _ (W_upd x) Tx).
  - intros q W. destruct (update_relation_runs C (db_of q) (rels q) (roots q) x (fun d'' => d'' = db_of q) (wf_repr C q W) Tx eq_refl) as (d' & R & P). exists d'. split; [exact R|]. apply (repr_db_of C) in P. exact P.
  - intros q fu fu' W _. assert (W' : wf C (apply_w q (W_upd x))) by (apply apply_wf; assumption). split.
    + intros y. rewrite !sqlite_holds by assumption. cbn [apply_w rels]. rewrite in_upd by (apply (wf_nodup C); exact W). rewrite (plain_whole x Px). reflexivity.
    + intros k. rewrite !sqlite_factors. reflexivity.
Qed.
End Sqlite.
(** The storage of SQLite keeps the contract, whichever statements fail. *)
Lemma p_C187_sqlite_keeps : forall C, keeps C world storage_error (sqlite C) (sqlite_good C) (sqlite_contents C) (fun w => kept_factor (w_db w)) sqlite_size.
Proof.
  intros C. change (fun w => kept_factor (w_db w)) with sqlite_factor. split.
  - intros [d fu] G. destruct (sqlite_state C _ G) as (q & E & W). cbn [w_db] in E. subst d. rewrite sqlite_holds by exact W. apply W.
  - intros [d fu] G. destruct (sqlite_state C _ G) as (q & E & W). cbn [w_db] in E. subst d. rewrite sqlite_holds by exact W. unfold sqlite_size. cbn [w_db db_of tbl_relations]. rewrite map_length. lia.
  - intros k V. apply (sqlite_reads C _ _ _ (fun q => auths_of (rels q) k)); [intros q W; apply (get_authorizations_reads C _ _ (roots q)), wf_repr; exact W|]. intros q fu W. rewrite sqlite_holds, trusts_to_auths by exact W. reflexivity.
  - intros k V. apply (sqlite_reads C _ _ _ (fun q => revs_of (rels q) k)); [intros q W; apply (get_revocations_reads C _ _ (roots q)), wf_repr; exact W|]. intros q fu W. rewrite sqlite_holds, revocations_of_revs by exact W. reflexivity.
  - intros k V. apply (sqlite_reads C _ _ _ (fun q => root_factor (roots q) k)); [intros q W; apply (get_root_weight_factor_reads C _ (rels q)), wf_repr; exact W|]. intros q fu W. symmetry. apply sqlite_factors.
  - apply (sqlite_reads C _ _ _ (fun q => map fst (roots q))); [intros q W; apply (root_keys_reads C _ (rels q)), wf_repr; exact W|]. intros q fu W k. rewrite sqlite_factors. apply factor_in.
  - intros k f V B. assert (Bf : f < u32_bound) by (unfold u32_bound; lia). apply (sqlite_writes C _ _ _ (W_root k f)); [split; assumption| |].
    + intros q W. destruct (set_root_weight_factor_runs C (db_of q) (rels q) (roots q) k f (fun d'' => d'' = db_of q) (wf_repr C q W) V Bf eq_refl) as (d' & R & P). exists d'. split; [exact R|]. apply (repr_db_of C) in P. exact P.
    + intros q fu fu' W May. assert (W' : wf C (apply_w q (W_root k f))) by (apply apply_wf; [exact W|split; assumption]). rewrite !sqlite_holds by assumption. split; [reflexivity|]. rewrite sqlite_factors in May.
      split; [rewrite sqlite_factors; cbn [apply_w roots]; rewrite factor_app; cbn [fst snd]; rewrite pk_eqb_refl; destruct May as [-> | ->]; reflexivity|].
      intros k' N. rewrite !sqlite_factors. cbn [apply_w roots]. rewrite factor_app. cbn [fst snd]. destruct (pk_eqb k k') eqn:E; [apply pk_eqb_eq in E; congruence|]. destruct (root_factor (roots q) k'); reflexivity.
  - intros v Tv P. apply sqlite_update; [apply revocation_rel_typed; exact Tv|exact P].
  - intros t b now Tt V P. apply (sqlite_update C (RAuth (mk_auth t b))); [apply trust_rel_typed; assumption|exact P].
  - intros now B. apply (sqlite_writes C _ _ _ (W_gc now)); [exact I| |].
    + intros q W. eexists. split; [apply remove_expired_runs; reflexivity|]. pose proof (gc_repr C _ _ _ now (wf_repr C q W)) as P. apply (repr_db_of C) in P. exact P.
    + intros q fu fu' W P. assert (W' : wf C (apply_w q (W_gc now))) by (apply apply_wf; [exact W|exact I]). rewrite sqlite_holds in P by exact W. split; [|intros k; rewrite !sqlite_factors; reflexivity].
      intros y. rewrite !sqlite_holds by assumption. cbn [apply_w rels]. rewrite in_gc. rewrite Forall_forall in P. split; intros [H1 H2]; (split; [exact H1|]); pose proof (P y H1) as Py.
      * intros [t b] ->. cbn [plain] in Py. destruct (N.lt_ge_cases (secs now) (secs (expires_at (auth_trust (mk_auth t b))))) as [Y|Y]; [exact Y|]. exfalso. apply H2. apply db_expired_small; [apply Py|exact B|exact Y].
      * intros X. destruct y as [[t b]|v]; [|exact X]. apply (db_expired_small now) in X; [|apply Py|exact B]. specialize (H2 (mk_auth t b) eq_refl). cbn [auth_trust] in H2. lia.
Qed.

(** ** A storage in memory keeps it too *)
Lemma pair_is_same : forall x y, pair_is x y = true <-> same_keys x y.
Proof. exact same_pair_eq. Qed.
Lemma m_update_took : forall x m, m_good m -> plain x -> match m_update x m with (Ok _, m') => m_good m' /\ took memory m_relations m_factor x m m' | _ => False end.
Proof.
  intros x m [ND P] Px. unfold m_update. destruct (find (pair_is x) (m_relations m)) as [old|] eqn:F.
  - apply find_some in F. destruct F as [Ho Fo]. apply pair_is_same in Fo. assert (U : forall z, In z (m_relations m) -> same_keys x z -> z = old).
    { intros z Hz [K1 K2]. destruct Fo as [F1 F2]. apply (pair_unique (m_relations m)); congruence. }
    destruct (duration_ltb (rel_issued_at old) (rel_issued_at x)) eqn:D.
    + apply before_ltb in D. assert (Hin : forall y, In y (x :: filter (fun y => negb (pair_is x y)) (m_relations m)) <-> y = x \/ (In y (m_relations m) /\ ~ same_keys x y)).
      { intros y. cbn [In]. rewrite filter_In, negb_true_iff, <- not_true_iff_false, pair_is_same. intuition congruence. }
      split; [split|split; [|reflexivity]].
      * cbn [m_relations map]. constructor; [|apply NoDup_filter_map; exact ND]. intros X. apply in_map_iff in X. destruct X as (y & E & I). apply filter_In in I. destruct I as [_ I].
        rewrite negb_true_iff in I. apply not_true_iff_false in I. apply I. apply pair_is_same. injection E as E1 E2. split; congruence.
      * intros y I. cbn [m_relations] in I. apply Hin in I. destruct I as [-> |[I _]]; [exact Px|apply P; exact I].
      * intros y. cbn [m_relations]. rewrite Hin. split.
        -- intros [-> |[I N]]; [|left; auto]. right. right. split; [reflexivity|]. intros z Hz Kz. rewrite (U z Hz Kz). exact D.
        -- intros [[N I]|[(Ky & I & B)|[-> _]]]; [right; auto| |left; reflexivity]. exfalso. apply B. rewrite (U y I Ky). exact D.
    + apply not_before_ltb in D. split; [split; assumption|]. split; [|reflexivity]. intros y. split.
      * intros I. destruct (pair_is x y) eqn:E.
        -- apply pair_is_same in E. right. left. split; [exact E|]. split; [exact I|]. rewrite (U y I E). exact D.
        -- left. split; [|exact I]. rewrite <- pair_is_same, E. discriminate.
      * intros [[_ I]|[(_ & I & _)|[-> H]]]; try exact I. exfalso. apply D, H; [exact Ho|exact Fo].
  - assert (U : forall z, In z (m_relations m) -> ~ same_keys x z) by (intros z Hz Kz; apply pair_is_same in Kz; rewrite (find_none _ _ F z Hz) in Kz; discriminate).
    split; [split|split; [|reflexivity]].
    + cbn [m_relations map]. constructor; [|exact ND]. intros X. apply in_map_iff in X. destruct X as (y & E & I). injection E as E1 E2. apply (U y I). split; congruence.
    + intros y [<- |I]; [exact Px|apply P; exact I].
    + intros y. cbn [m_relations In]. split.
      * intros [<- |I]; [right; right; split; [reflexivity|]; intros z Hz Kz; destruct (U z Hz Kz)|left; split; [apply U; exact I|exact I]].
      * intros [[_ I]|[(_ & I & _)|[-> _]]]; auto.
Qed.
Lemma find_filter_other : forall A (p r : A -> bool) l, (forall x, p x = true -> r x = true) -> find p (filter r l) = find p l.
Proof.
  intros A p r l H. induction l as [|x l IH]; [reflexivity|]. cbn [filter find]. destruct (r x) eqn:R; cbn [find]; [rewrite IH; reflexivity|].
  destruct (p x) eqn:P; [rewrite (H x P) in R; discriminate|exact IH].
Qed.
(** A storage that keeps relations in memory, the newest first, and the last length given to a root keeps the contract. *)
Lemma p_C187_memory_keeps : forall C, keeps C memory Empty_set in_memory m_good m_relations m_factor (fun m => length (m_relations m)).
Proof.
  intros C. split.
  - intros m [H _]. exact H.
  - intros m _. lia.
  - intros k V m G. cbn. auto.
  - intros k V m G. cbn. auto.
  - intros k V m G. cbn. auto.
  - intros m G. cbn. split; [|auto]. intros k. rewrite factor_in. reflexivity.
  - intros k f V B m G May. cbn [in_memory s_set_root_weight_factor]. split; [exact G|]. cbn [m_relations]. split; [reflexivity|]. unfold m_factor. cbn [m_roots find fst]. rewrite pk_eqb_refl. split; [reflexivity|].
    intros k' N. destruct (pk_eqb k k') eqn:E; [apply pk_eqb_eq in E; congruence|]. f_equal. apply find_filter_other. intros [k0 f0] X. cbn [fst] in *. apply pk_eqb_eq in X. subst k0. rewrite negb_true_iff.
    apply not_true_iff_false. intros Y. apply pk_eqb_eq in Y. congruence.
  - intros v Tv P m G _. pose proof (m_update_took (RRev v) m G P) as X. cbn [in_memory s_revoke]. destruct (m_update (RRev v) m) as [[u|e| |] m']; try contradiction. exact X.
  - intros t b now Tt V P m G _. pose proof (m_update_took (RAuth (mk_auth t b)) m G P) as X. cbn [in_memory s_update_auth]. destruct (m_update (RAuth (mk_auth t b)) m) as [[u|e| |] m']; try contradiction. exact X.
  - intros now B m [ND P] Pl. cbn [in_memory s_remove_expired]. split.
    + split; cbn [m_relations]; [apply NoDup_filter_map; exact ND|]. intros x I. apply filter_In in I. apply P. apply I.
    + split; [|reflexivity]. intros y. cbn [m_relations]. rewrite filter_In. split; intros [I H]; (split; [exact I|]); pose proof (P y I) as Py.
      * intros a ->. apply before_ltb in H. cbn [plain] in Py. destruct Py as [[Z _] _]. unfold before in H. lia.
      * destruct y as [a|v]; [|reflexivity]. apply before_ltb. left. apply H. reflexivity.
Qed.

(** [diamond] over the storage in memory meets the hypotheses, and its two certificates come in the other order than from SQLite. *)
Example e_C187_memory : m_good (mk_memory [] []) /\ Forall (fun c => call_typed (toy false) c /\ plain_call c /\ lengths_as (fun _ => 5) c) diamond /\
  exists a b : certificate, a <> b /\
    nth_error (fst (any_run (toy false) memory Empty_set in_memory (fun m => length (m_relations m)) (mk_memory [] []) diamond)) 6 = Some (Ok (GR_certs [b; a])) /\
    nth_error (answers (toy false) empty_db (map (fun c => (c, None)) diamond)) 6 = Some (Ok (GR_certs [a; b])).
Proof.
  split; [split; [constructor|intros x []]|]. split.
  { assert (T : Forall (call_typed (toy false)) diamond) by (unfold diamond, base; cbn [app]; typed1).
    assert (P : Forall (fun c => plain_call c /\ lengths_as (fun _ => 5) c) diamond).
    { unfold diamond, base. cbn [app]. repeat (apply Forall_cons; [split; [repeat split; try reflexivity|first [reflexivity|exact I]]|]). apply Forall_nil. }
    apply Forall_forall. intros c Hc. rewrite Forall_forall in T, P. destruct (P c Hc). auto. }
  exists [toy_trust R R 1000 1; toy_trust R A 900 1; toy_trust A B 800 1], [toy_trust R R 1000 1; toy_trust R D 900 1; toy_trust D B 800 1].
  split; [intros X; injection X; discriminate|]. split; vm_compute; reflexivity.
Qed.
(** Without the condition on lengths storages can be told apart: a root set with 5 and then with 2 weighs 32 over SQLite, which keeps the first, and 4 in memory, which keeps the last. *)
Example e_C187_two_lengths : let cs := [G_set_root (toy_key R) 5; G_set_root (toy_key R) 2; G_weight (toy_key R) (at_ 5)] in
  answers (toy false) empty_db (map (fun c => (c, None)) cs) = [Ok GR_unit; Ok GR_unit; Ok (GR_weight 32)] /\
  fst (any_run (toy false) memory Empty_set in_memory (fun m => length (m_relations m)) (mk_memory [] []) cs) = [Ok GR_unit; Ok GR_unit; Ok (GR_weight 4)].
Proof. split; vm_compute; reflexivity. Qed.
(** Without the condition on times they can too: a revocation at 9.5 seconds comes back as one at 9 seconds from SQLite, and as it was from memory. *)
Example e_C187_half_second : let v := mk_rev (toy_key B) (mk_duration 9 500000000) (toy_key R) (rev_sig (toy_rev R B 9)) in
  answers (toy false) empty_db (map (fun c => (c, None)) [G_revoke v; G_get_revocations (toy_key B)]) = [Ok GR_unit; Ok (GR_revs [toy_rev R B 9])] /\
  fst (any_run (toy false) memory Empty_set in_memory (fun m => length (m_relations m)) (mk_memory [] []) [G_revoke v; G_get_revocations (toy_key B)]) = [Ok GR_unit; Ok (GR_revs [v])].
Proof. split; vm_compute; reflexivity. Qed.
(** A failure of SQLite's storage over this code: the third statement of the first call fails. *)
Example e_C187_fails : sqlite_good (toy false) (mk_world empty_db (Some 2%nat)) /\
  fst (any_run (toy false) world storage_error (sqlite (toy false)) sqlite_size (mk_world empty_db (Some 2%nat)) [G_weight (toy_key R) (at_ 5)]) = [Err (X_storage SE_SQLite)].
Proof. split; [exists [], []; split; [reflexivity|]; split; [constructor|]; split; constructor|]. vm_compute. reflexivity. Qed.
