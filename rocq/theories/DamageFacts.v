(** Facts about the library on databases that hold anything. *)
From Coq Require Import List NArith ZArith Bool Lia ZifyBool ZifyNat ZifyN.
From Verif Require Import Base BaseFacts Text TextFacts Keys KeysFacts Trust TrustFacts Certificate Relation Storage StorageFacts Graph SearchFacts
  Spec SpecFacts DamageSpec.
Import ListNotations.
Open Scope N_scope.

Section WithCrypto.
Variable C : crypto.

(** The relations a table shows. *)
Definition row_reads (r : row) : list relation :=
  match parse_relation C r with
  | Ok x => if ((r_type r =? 0) || (r_type r =? 1))%Z then [x] else []
  | _ => []
  end.
Definition rows_read (l : list row) : list relation := flat_map row_reads l.
Definition keeps (r : row) : bool := match row_reads r with [] => false | _ => true end.
Definition drop (d : db) : db := mk_db (filter keeps (tbl_relations d)) (tbl_roots d).

Lemma parse_ok : forall r x, parse_relation C r = Ok x -> exists f b s, pk_from_str C (r_for r) = Ok f /\ pk_from_str C (r_by r) = Ok b /\
  sig_decode C (r_sig r) = Ok s /\ rel_issued_for x = f /\ is_auth x = (r_type r =? 0)%Z.
Proof.
  intros r x H. unfold parse_relation in H. apply bind_ok in H. destruct H as (f & H1 & H). apply bind_ok in H. destruct H as (b & H2 & H).
  apply bind_ok in H. destruct H as (s & H3 & H). apply map_err_ok in H1, H2, H3. exists f, b, s. do 3 (split; [assumption|]).
  unfold AUTH_TYPE in H. destruct (r_type r =? 0)%Z; injection H as <-; auto.
Qed.
Lemma keeps_counts : forall r, keeps r = true <-> counts C r.
Proof.
  intros r. unfold keeps, row_reads. split.
  - destruct (parse_relation C r) as [x| | |] eqn:P; try discriminate.
    destruct (((r_type r =? 0) || (r_type r =? 1))%Z) eqn:T; [|discriminate]. intros _.
    destruct (parse_ok r x P) as (f & b & s & H1 & H2 & H3 & _). split; [repeat split; eexists; eassumption|]. lia.
  - intros (((f & H1) & (b & H2) & (s & H3)) & T). unfold parse_relation. rewrite H1, H2, H3. cbn [map_err bind].
    unfold AUTH_TYPE. destruct T as [->| ->]; reflexivity.
Qed.
Lemma drop_reads : forall l, rows_read (filter keeps l) = rows_read l.
Proof.
  intros l. induction l as [|r l IH]; [reflexivity|]. cbn [filter rows_read flat_map]. destruct (keeps r) eqn:K.
  - cbn [flat_map]. unfold rows_read in IH. rewrite IH. reflexivity.
  - unfold keeps in K. destruct (row_reads r); [exact IH|discriminate].
Qed.

(** ** Reading *)
Definition fine (r : row) : Prop := r_by r <> [] /\ r_sig r <> [].
Lemma pk_from_str_fuel : forall s, pk_from_str C s <> OutOfFuel.
Proof.
  intros s. unfold pk_from_str, pk_from_base58. destruct (b58_decode s) as [b| | |] eqn:E; cbn; try discriminate.
  - unfold pk_decode. destruct b as [|t b]; [discriminate|]. unfold fmt_of_byte, decode_raw_key.
    repeat match goal with |- context [match ?x with _ => _ end] => destruct x end; cbn; try discriminate;
    repeat match goal with |- context [if ?x then _ else _] => destruct x end; discriminate.
  - exfalso. destruct (b58_decode_no_panic s). contradiction.
Qed.
Lemma sig_decode_cases : forall b, b <> [] -> (exists s, sig_decode C b = Ok s) \/ (exists e, sig_decode C b = Err e).
Proof.
  intros [|t b] H; [contradiction|]. unfold sig_decode, fmt_of_byte.
  repeat match goal with |- context [match ?x with _ => _ end] => destruct x end; cbn; eauto.
Qed.
Lemma pk_from_str_cases : forall s, s <> [] -> (exists k, pk_from_str C s = Ok k) \/ (exists e, pk_from_str C s = Err e).
Proof.
  intros s H. destruct (pk_from_str C s) as [k|e| |] eqn:E; eauto.
  - apply pk_from_str_panic in E. contradiction.
  - destruct (pk_from_str_fuel s E).
Qed.
Lemma parse_cases : forall r, r_for r <> [] -> fine r -> (exists x, parse_relation C r = Ok x) \/ (exists e, parse_relation C r = Err (SE_Decode e)).
Proof.
  intros r F (B & G). unfold parse_relation.
  destruct (pk_from_str_cases _ F) as [(f & ->)|(e & ->)]; cbn [map_err bind]; [|eauto].
  destruct (pk_from_str_cases _ B) as [(b & ->)|(e & ->)]; cbn [map_err bind]; [|eauto].
  destruct (sig_decode_cases _ G) as [(s & ->)|(e & ->)]; cbn [map_err bind]; [|eauto].
  destruct (r_type r =? AUTH_TYPE)%Z; eauto.
Qed.
Lemma display_not_empty : forall k, pk_display k <> [].
Proof.
  intros k H. assert (X : pk_from_str C (pk_display k) = Panic) by (rewrite H; apply pk_from_str_panic; reflexivity).
  unfold pk_from_str, pk_from_base58, pk_display in X. rewrite b58_roundtrip in X. cbn [map_err bind] in X.
  apply pk_decode_panic in X. discriminate X.
Qed.

Lemma parse_filter : forall pk ty l, Forall fine l -> (ty = 0 \/ ty = 1)%Z ->
  parse_rows C (filter (fun r => bytes_eqb (r_for r) (pk_display pk) && (r_type r =? ty)%Z) l) =
  Ok (filter (fun x => pk_eqb (rel_issued_for x) pk && Bool.eqb (is_auth x) (ty =? 0)%Z) (rows_read l)).
Proof.
  intros pk ty l F T. induction F as [|r l Fr F IH]; [reflexivity|]. cbn [filter rows_read flat_map].
  rewrite filter_app. fold (rows_read l).
  assert (U : forall A (a b : list A), a = [] -> a ++ b = b) by (intros; subst; reflexivity).
  destruct (bytes_eqb (r_for r) (pk_display pk) && (r_type r =? ty)%Z) eqn:M; cbn [parse_rows].
  - apply andb_true_iff in M. destruct M as (M1 & M2). apply bytes_eqb_eq in M1. apply Z.eqb_eq in M2.
    assert (N0 : r_for r <> []) by (rewrite M1; apply display_not_empty).
    rewrite IH. unfold row_reads. destruct (parse_cases r N0 Fr) as [(x & P)|(e & P)]; rewrite P.
    + destruct (parse_ok r x P) as (f & b & s & H1 & _ & _ & H4 & H5).
      replace ((r_type r =? 0) || (r_type r =? 1))%Z with true by lia. cbn [filter].
      apply pk_from_str_ok in H1. destruct H1 as (H1 & _).
      assert (E : f = pk) by (apply pk_display_inj; congruence).
      rewrite H4, E, H5, M2. rewrite (proj2 (pk_eqb_eq pk pk) eq_refl), eqb_reflx. reflexivity.
    + reflexivity.
  - rewrite IH. f_equal. symmetry. apply U. unfold row_reads. destruct (parse_relation C r) as [x| | |] eqn:P; try reflexivity.
    destruct (((r_type r =? 0) || (r_type r =? 1))%Z) eqn:T2; [|reflexivity]. cbn [filter].
    destruct (parse_ok r x P) as (f & b & s & H1 & _ & _ & H4 & H5). apply pk_from_str_ok in H1. destruct H1 as (H1 & _).
    destruct (pk_eqb (rel_issued_for x) pk) eqn:E1; [|reflexivity]. apply pk_eqb_eq in E1. rewrite H4 in E1. rewrite E1 in H1.
    rewrite H1, (proj2 (bytes_eqb_eq _ _) eq_refl) in M. cbn [andb] in M. rewrite H5.
    destruct (r_type r =? 0)%Z eqn:E2, (ty =? 0)%Z eqn:E3; cbn [andb Bool.eqb]; try reflexivity; lia.
Qed.

Definition d_fine (d : db) : Prop := Forall fine (tbl_relations d).
Lemma m_authorizations : forall d pk, d_fine d -> Reads SE_SQLite d (get_authorizations C pk) (Ok (auths_of (rows_read (tbl_relations d)) pk)).
Proof.
  intros d pk F. unfold get_authorizations, get_relations, Reads. eapply Runs_bind.
  - eapply Runs_bind; [apply Reads_sql; reflexivity|]. cbn [fst]. rewrite (parse_filter pk AUTH_TYPE _ F) by (left; reflexivity). apply Runs_lift.
  - cbv beta. unfold auths_of.
    rewrite (filter_ext _ (fun x => pk_eqb (rel_issued_for x) pk && is_auth x)) by (intros [a|v]; reflexivity).
    rewrite only_auths_filter. apply Runs_ret.
Qed.
Lemma m_revocations : forall d pk, d_fine d -> Reads SE_SQLite d (get_revocations C pk) (Ok (revs_of (rows_read (tbl_relations d)) pk)).
Proof.
  intros d pk F. unfold get_revocations, get_relations, Reads. eapply Runs_bind.
  - eapply Runs_bind; [apply Reads_sql; reflexivity|]. cbn [fst]. rewrite (parse_filter pk REVOCATION_TYPE _ F) by (right; reflexivity). apply Runs_lift.
  - cbv beta. unfold revs_of.
    rewrite (filter_ext _ (fun x => pk_eqb (rel_issued_for x) pk && negb (is_auth x))) by (intros [a|v]; reflexivity).
    rewrite only_revs_filter. apply Runs_ret.
Qed.
Lemma m_extend_chain : forall d c l, d_fine d -> Reads SQL d (extend_chain C c l) (Ok (ext_with (rows_read (tbl_relations d)) c l)).
Proof.
  intros d c l R. induction l as [|a l IH]; cbn [extend_chain].
  - apply Runs_ret.
  - unfold ext_with. cbn [filter]. destruct (can_be_extended_by c (issued_by a)).
    + eapply Runs_bind; [apply st_reads; apply m_revocations; assumption|].
      cbn beta. eapply Runs_bind; [apply IH|]. apply Runs_ret.
    + apply IH.
Qed.
Lemma m_search_step : forall d rks s, d_fine d -> Reads SQL d (search_step C rks s) (Ok (sstep (rows_read (tbl_relations d)) rks s)).
Proof.
  intros d rks s R. unfold search_step, sstep. destruct (fst s) as [|c q] eqn:E.
  - apply Runs_ret.
  - eapply Runs_bind; [apply st_reads; apply m_authorizations; assumption|].
    cbn beta. eapply Runs_bind; [apply m_extend_chain; assumption|]. apply Runs_ret.
Qed.
Lemma m_search_run : forall d rks n s, d_fine d -> Reads SQL d (search_run C n rks s) (Ok (iter (2 ^ n) (sstep (rows_read (tbl_relations d)) rks) s)).
Proof.
  intros d rks n. set (rs := rows_read (tbl_relations d)). induction n as [|n IH]; intros s R.
  - apply m_search_step; assumption.
  - cbn [search_run]. rewrite Nat.pow_succ_r'. replace (2 * 2 ^ n)%nat with (2 ^ n + 2 ^ n)%nat by lia.
    rewrite iter_add. eapply Runs_bind; [apply IH; assumption|]. cbn beta.
    destruct (fst (iter (2 ^ n) (sstep rs rks) s)) eqn:E.
    + rewrite (iter_fix _ _ (2 ^ n) (iter (2 ^ n) (sstep rs rks) s)) by (apply sstep_idle; assumption). apply Runs_ret.
    + apply IH; assumption.
Qed.
Lemma rows_read_length : forall l, (length (rows_read l) <= length l)%nat.
Proof.
  intros l. induction l as [|r l IH]; [apply Nat.le_refl|]. cbn [rows_read flat_map length]. rewrite app_length. fold (rows_read l).
  assert (length (row_reads r) <= 1)%nat; [|lia]. unfold row_reads. destruct (parse_relation C r); cbn; try lia.
  destruct ((r_type r =? 0) || (r_type r =? 1))%Z; cbn; lia.
Qed.
Lemma fuel_plenty : forall rs pk d, (length rs <= length (tbl_relations d))%nat -> (length (levels rs pk (2 * length rs + 2)) <= 2 ^ search_fuel d)%nat.
Proof.
  intros rs pk d H. pose proof (fuel_enough rs pk (mk_db (firstn (length rs) (tbl_relations d)) [])) as L.
  cbn [tbl_relations] in L. rewrite firstn_length_le in L by exact H. specialize (L eq_refl).
  eapply Nat.le_trans; [exact L|]. apply Nat.pow_le_mono_r; [lia|]. unfold search_fuel. cbn [tbl_relations]. rewrite firstn_length_le by exact H.
  apply Nat.mul_le_mono; lia.
Qed.
Lemma m_search : forall d pk rks, d_fine d -> Reads SQL d (bf_search_paths C pk rks) (Ok (found_paths (rows_read (tbl_relations d)) rks pk)).
Proof.
  intros d pk rks R. unfold bf_search_paths. set (rs := rows_read (tbl_relations d)).
  eapply Runs_bind; [apply st_reads; apply m_authorizations; assumption|]. cbn beta.
  eapply Runs_bind; [apply st_reads; apply m_revocations; assumption|]. cbn beta zeta. fold rs.
  change (map (fun a => ch_new a (revs_of rs pk)) (auths_of rs pk)) with (level rs pk 0).
  assert (HL : (length rs <= length (tbl_relations d))%nat) by apply rows_read_length.
  assert (HE : iter (2 ^ search_fuel d) (sstep rs rks) (level rs pk 0, []) = ([], found_paths rs rks pk)).
  { rewrite (iter_past rs rks _ (length (levels rs pk (2 * length rs + 2)))).
    - rewrite sstep_levels, level_dies. reflexivity.
    - apply fuel_plenty; assumption.
    - rewrite sstep_levels. cbn [fst]. apply level_dies. }
  eapply Runs_bind with (d1 := d) (a := ([], found_paths rs rks pk)).
  - rewrite <- HE. intros fu. cbn [w_db]. apply m_search_run; assumption.
  - cbn [fst snd]. apply Runs_ret.
Qed.

(** ** Every call answers *)
Definition whole_db (d : db) : Prop := d_fine d /\ Forall (fun x => fst x <> []) (tbl_roots d).
Lemma whole_no_blanks : forall d, whole_db d <-> no_blanks d.
Proof. intros d. unfold whole_db, no_blanks, d_fine, fine. rewrite !Forall_forall. reflexivity. Qed.
Definition safe {E A} (m : M E A) (d : db) : Prop :=
  forall fu, exists d' fu', ((exists a, m (mk_world d fu) = (Ok a, mk_world d' fu')) \/ (exists e, m (mk_world d fu) = (Err e, mk_world d' fu'))) /\ whole_db d'.

Lemma safe_ret : forall E A (a : A) d, whole_db d -> @safe E A (ret a) d.
Proof. intros E A a d W fu. exists d, fu. split; [left; exists a; reflexivity|exact W]. Qed.
Lemma safe_throw : forall E A (e : E) d, whole_db d -> @safe E A (throw e) d.
Proof. intros E A e d W fu. exists d, fu. split; [right; exists e; reflexivity|exact W]. Qed.
Lemma safe_lift : forall E A (r : result E A) d, whole_db d -> (exists a, r = Ok a) \/ (exists e, r = Err e) -> safe (lift r) d.
Proof. intros E A r d W [(a & ->)|(e & ->)] fu; exists d, fu; (split; [|exact W]); [left|right]; eexists; reflexivity. Qed.
Lemma safe_reads : forall E A (e : E) (m : M E A) d a, whole_db d -> Reads e d m (Ok a) -> safe m d.
Proof.
  intros E A e m d a W R fu. destruct (R fu) as [(fu' & H & _)|(_ & d2 & -> & H)].
  - exists d, fu'. split; [left; exists a; exact H|exact W].
  - exists d, (Some 0%nat). split; [right; exists e; exact H|exact W].
Qed.
Lemma safe_bind : forall E A B (m : M E A) (f : A -> M E B) d, safe m d -> (forall a d', whole_db d' -> safe (f a) d') -> safe (mbind m f) d.
Proof.
  intros E A B m f d S0 S1 fu. unfold mbind. destruct (S0 fu) as (d1 & fu1 & [(a & H)|(e & H)] & W); rewrite H.
  - exact (S1 a d1 W fu1).
  - exists d1, fu1. split; [right; exists e; reflexivity|exact W].
Qed.
Lemma safe_map_err : forall E F A (g : E -> F) (m : M E A) d, safe m d -> safe (mmap_err g m) d.
Proof.
  intros E F A g m d S0 fu. unfold mmap_err. destruct (S0 fu) as (d1 & fu1 & [(a & H)|(e & H)] & W); rewrite H; exists d1, fu1; (split; [|exact W]);
    [left; exists a|right; exists (g e)]; reflexivity.
Qed.
Lemma safe_sql : forall A (f : db -> A * db) d, whole_db d -> (whole_db (snd (f d))) -> safe (sql f) d.
Proof.
  intros A f d W W' fu. unfold sql. cbn [w_fuse w_db]. destruct fu as [[|k]|]; [exists d, (Some 0%nat); split; [right; eexists; reflexivity|exact W]| |];
    destruct (f d) as [a d1]; [exists d1, (Some k)|exists d1, None]; (split; [left; exists a; reflexivity|exact W']).
Qed.
Lemma safe_gc : forall now d, whole_db d -> safe (remove_expired now) d.
Proof.
  intros now d W. apply safe_sql; [exact W|]. cbn [snd]. destruct W as (W1 & W2). split; [|exact W2]. apply Forall_filter. exact W1.
Qed.
Lemma collect_cases : forall E A B (f : A -> result E B) l, (forall x, In x l -> (exists b, f x = Ok b) \/ (exists e, f x = Err e)) ->
  (exists bs, collect f l = Ok bs) \/ (exists e, collect f l = Err e).
Proof.
  intros E A B f l. induction l as [|x l IH]; intros H; cbn [collect]; [left; eexists; reflexivity|].
  destruct (H x (or_introl eq_refl)) as [(b & ->)|(e & ->)]; cbn [bind]; [|right; eexists; reflexivity].
  destruct (IH (fun y Y => H y (or_intror Y))) as [(bs & ->)|(e & ->)]; cbn [bind]; eauto.
Qed.
Lemma safe_roots : forall d, whole_db d -> safe (root_keys C) d.
Proof.
  intros d W. unfold root_keys. unfold safe. intros fu. unfold mbind, sql. cbn [w_fuse w_db].
  assert (K : (exists bs, collect (fun r => map_err SE_PublicKeyFromStr (pk_from_str C (fst r))) (tbl_roots d) = Ok bs) \/
    (exists e, collect (fun r => map_err SE_PublicKeyFromStr (pk_from_str C (fst r))) (tbl_roots d) = Err e)).
  { apply collect_cases. intros x X. cbv beta. destruct W as (_ & W). rewrite Forall_forall in W. pose proof (pk_from_str_cases (fst x) (W x X)) as [(k & K)|(e & K)]; rewrite K; cbn; eauto. }
  destruct fu as [[|k]|]; cbn; unfold lift.
  - exists d, (Some 0%nat). split; [right; eexists; reflexivity|exact W].
  - exists d, (Some k). split; [|exact W]. destruct K as [(bs & ->)|(e & ->)]; eauto.
  - exists d, None. split; [|exact W]. destruct K as [(bs & ->)|(e & ->)]; eauto.
Qed.
Lemma safe_factor : forall pk d, whole_db d -> safe (get_root_weight_factor pk) d.
Proof.
  intros pk d W. apply safe_bind; [apply safe_sql; exact W|]. intros [[t w]|] d' W'; [|apply safe_ret; exact W'].
  destruct ((0 <=? w) && (w <? Z.of_N u32_bound))%Z; [apply safe_ret|apply safe_throw]; exact W'.
Qed.
Lemma safe_get_relation : forall f b d, whole_db d -> safe (get_relation C f b) d.
Proof.
  intros f b d W fu. unfold get_relation, mbind, sql. cbn [w_fuse w_db].
  set (o := find _ (tbl_relations d)).
  assert (K : forall fu', exists d' fu'', ((exists a, match o with Some r => lift (map_ok Some (parse_relation C r)) | None => ret None end (mk_world d fu') = (Ok a, mk_world d' fu'')) \/
    (exists e, match o with Some r => lift (map_ok Some (parse_relation C r)) | None => ret None end (mk_world d fu') = (Err e, mk_world d' fu''))) /\ whole_db d').
  { intros fu'. exists d, fu'. split; [|exact W]. destruct o as [r|] eqn:E; [|left; eexists; reflexivity].
    unfold o in E. apply find_some in E. destruct E as (I & E). apply andb_true_iff in E. destruct E as (_ & E). apply bytes_eqb_eq in E.
    assert (F : fine r) by (destruct W as (W & _); unfold d_fine in W; rewrite Forall_forall in W; exact (W r I)).
    destruct (parse_cases r) as [(x & ->)|(e & ->)]; [rewrite E; apply display_not_empty|exact F| |]; unfold lift; cbn [map_ok]; eauto. }
  destruct fu as [[|k]|]; [exists d, (Some 0%nat); split; [right; eexists; reflexivity|exact W]|exact (K (Some k))|exact (K None)].
Qed.
Lemma safe_insert : forall x d, whole_db d -> safe (insert x) d.
Proof.
  intros x d W. apply safe_sql; [exact W|]. cbn [snd]. destruct W as (W1 & W2). split; [|exact W2].
  unfold d_fine, insert_row. cbn [tbl_relations]. apply Forall_app. split; [apply Forall_filter; exact W1|]. constructor; [|constructor].
  split; [apply display_not_empty|discriminate].
Qed.
Lemma safe_update : forall x d, whole_db d -> safe (update_relation C x) d.
Proof.
  intros x d W. apply safe_bind; [apply safe_get_relation; exact W|]. intros [[a|v]|] d' W'.
  - destruct (duration_ltb _ _); [apply safe_insert|apply safe_ret]; exact W'.
  - destruct (duration_ltb _ _); [apply safe_insert|apply safe_ret]; exact W'.
  - apply safe_insert. exact W'.
Qed.
Lemma safe_all_certs : forall pk now d, whole_db d -> safe (get_all_certs C pk now) d.
Proof.
  intros pk now d W. apply safe_bind; [apply safe_map_err, safe_gc; exact W|]. intros _ d1 W1.
  apply safe_bind; [apply safe_map_err, safe_roots; exact W1|]. intros rks d2 W2.
  apply safe_bind; [eapply safe_reads; [exact W2|apply m_search; apply W2]|]. intros ps d3 W3. apply safe_ret. exact W3.
Qed.
Lemma safe_min_factor : forall cs acc d, whole_db d -> safe (certs_min_factor cs acc) d.
Proof.
  intros cs. induction cs as [|[|t c] cs IH]; intros acc d W; cbn [certs_min_factor]; [apply safe_ret; exact W|apply safe_throw; exact W|].
  apply safe_bind; [apply safe_map_err, safe_factor; exact W|]. intros [f|] d' W'; [apply IH; exact W'|apply safe_throw; exact W'].
Qed.
Lemma safe_certs_factor : forall cs d, whole_db d -> safe (certificates_weight_factor cs) d.
Proof.
  intros [|c cs] d W; [apply safe_ret; exact W|]. apply safe_bind; [apply safe_min_factor; exact W|]. intros f d' W'. apply safe_ret. exact W'.
Qed.
Lemma safe_weight : forall pk now d, whole_db d -> safe (weight C pk now) d.
Proof.
  intros pk now d W. apply safe_bind; [apply safe_map_err, safe_factor; exact W|]. intros rf d1 W1.
  apply safe_bind; [apply safe_all_certs; exact W1|]. intros cs d2 W2.
  apply safe_bind; [apply safe_certs_factor; exact W2|]. intros cf d3 W3. apply safe_ret. exact W3.
Qed.
Lemma safe_certs_from : forall pk i now d, whole_db d -> safe (get_all_certs_from C pk i now) d.
Proof. intros pk i now d W. apply safe_bind; [apply safe_all_certs; exact W|]. intros cs d1 W1. apply safe_ret. exact W1. Qed.
Lemma safe_add_trust : forall t b now d, whole_db d -> safe (add_trust C t b now) d.
Proof.
  intros t b now d W. apply safe_bind.
  { apply safe_lift; [exact W|]. destruct (trust_verify_total C t b now) as [->|(e & ->)]; cbn; eauto. }
  intros _ d1 W1. apply safe_bind.
  { apply safe_bind; [apply safe_weight; exact W1|]. intros w d2 W2. apply safe_ret. exact W2. }
  intros w d2 W2. destruct (w =? 0); [apply safe_ret; exact W2|].
  apply safe_bind; [apply safe_map_err, safe_update; exact W2|]. intros _ d3 W3. apply safe_ret. exact W3.
Qed.
Lemma safe_add_chain : forall c b now d, whole_db d -> safe (add_chain C c b now) d.
Proof.
  intros c. induction c as [|t c IH]; intros b now d W; cbn [add_chain]; [apply safe_ret; exact W|].
  apply safe_bind; [apply safe_add_trust; exact W|]. intros _ d1 W1. apply IH. exact W1.
Qed.
Lemma safe_mmap : forall E A B (f : A -> B) (m : M E A) d, safe m d -> safe (mmap f m) d.
Proof. intros E A B f m d H. apply safe_bind; [exact H|]. intros a d' W. apply safe_ret. exact W. Qed.
Lemma safe_call : forall c d, whole_db d -> safe (graph_do C c) d.
Proof.
  intros c d W. destruct c; cbn [graph_do]; apply safe_mmap.
  - apply safe_map_err, safe_sql; [exact W|]. cbn [snd]. destruct W as (W1 & W2). split; [exact W1|]. cbn [tbl_roots].
    apply Forall_app. split; [exact W2|]. constructor; [apply display_not_empty|constructor].
  - apply safe_add_trust. exact W.
  - unfold add. destruct c; [apply safe_throw; exact W|apply safe_add_chain; exact W].
  - apply safe_weight. exact W.
  - apply safe_bind; [apply safe_certs_from; exact W|]. intros cs d1 W1.
    apply safe_bind; [apply safe_certs_factor; exact W1|]. intros cf d2 W2. apply safe_ret. exact W2.
  - apply safe_all_certs. exact W.
  - apply safe_certs_from. exact W.
  - apply safe_bind; [apply safe_lift; [exact W|]|].
    + unfold revocation_verify. destruct (pk_verify_total C (revoked_by v) (revocation_signature_bytes C (rev_pk v) (revoked_at v)) (rev_sig v)) as [->|(e & ->)]; cbn; eauto.
    + intros _ d1 W1. apply safe_map_err, safe_update. exact W1.
  - eapply safe_reads; [exact W|]. apply st_reads. apply m_revocations. apply W.
Qed.

(** ** Rows that do not count *)
Variable P : public_key -> public_key -> Prop.
Definition clear (d : db) : Prop :=
  whole_db d /\ forall r f b, P f b -> In r (tbl_relations d) -> row_of_pair r f b -> keeps r = true.
Definition agree {E A} (m : M E A) (d : db) : Prop :=
  exists r d1, m (mk_world d None) = (r, mk_world d1 None) /\ m (mk_world (drop d) None) = (r, mk_world (drop d1) None) /\ clear d1.

Lemma drop_fine : forall d, whole_db d -> whole_db (drop d).
Proof. intros d (W1 & W2). split; [apply Forall_filter; exact W1|exact W2]. Qed.
Lemma agree_pure : forall E A (m : M E A) d r, clear d -> (forall w, m w = (r, w)) -> agree m d.
Proof. intros E A m d r W H. exists r, d. rewrite !H. auto. Qed.
Lemma agree_reads : forall E A (e : E) (m : M E A) d r, clear d -> Reads e d m r -> Reads e (drop d) m r -> agree m d.
Proof.
  intros E A e m d r W R1 R2. exists r, d. split; [exact (Runs_none _ _ _ _ _ _ _ _ R1)|]. split; [exact (Runs_none _ _ _ _ _ _ _ _ R2)|exact W].
Qed.
Lemma agree_bind : forall E A B (m : M E A) (f : A -> M E B) d, agree m d -> (forall a d', clear d' -> agree (f a) d') -> agree (mbind m f) d.
Proof.
  intros E A B m f d (r & d1 & H1 & H2 & W) H. unfold mbind. destruct r as [a|e| |].
  - destruct (H a d1 W) as (r & d2 & G1 & G2 & W2). exists r, d2. rewrite H1, H2. auto.
  - exists (Err e), d1. rewrite H1, H2. auto.
  - exists Panic, d1. rewrite H1, H2. auto.
  - exists OutOfFuel, d1. rewrite H1, H2. auto.
Qed.
Lemma agree_map_err : forall E F A (g : E -> F) (m : M E A) d, agree m d -> agree (mmap_err g m) d.
Proof. intros E F A g m d (r & d1 & H1 & H2 & W). exists (map_err g r), d1. unfold mmap_err. rewrite H1, H2. auto. Qed.
Lemma agree_sql : forall A (f : db -> A * db) d, f (drop d) = (fst (f d), drop (snd (f d))) -> clear (snd (f d)) -> agree (sql f) d.
Proof.
  intros A f d H W. exists (Ok (fst (f d))), (snd (f d)). unfold sql. cbn [w_fuse w_db]. rewrite H.
  destruct (f d) as [a d1]. auto.
Qed.
Lemma filter_filter : forall A (p q : A -> bool) l, filter p (filter q l) = filter q (filter p l).
Proof.
  intros A p q l. induction l as [|x l IH]; [reflexivity|]. cbn [filter]. destruct (q x) eqn:Q, (p x) eqn:R; cbn [filter]; rewrite ?Q, ?R, IH; reflexivity.
Qed.
Lemma clear_filter : forall p d, clear d -> clear (mk_db (filter p (tbl_relations d)) (tbl_roots d)).
Proof.
  intros p d ((W1 & W2) & K). split; [split; [apply Forall_filter; exact W1|exact W2]|]. cbn [tbl_relations]. intros r f b H I. apply filter_In in I.
  apply (K r f b H). apply I.
Qed.
Lemma agree_gc : forall now d, clear d -> agree (remove_expired now) d.
Proof.
  intros now d W. apply agree_sql; [|apply clear_filter; exact W]. cbn [fst snd]. unfold drop. cbn [tbl_relations tbl_roots]. rewrite filter_filter. reflexivity.
Qed.
Lemma agree_roots : forall d, clear d -> agree (root_keys C) d.
Proof.
  intros d W. apply agree_bind; [apply agree_sql; [reflexivity|exact W]|]. intros rs d' W'.
  apply (agree_pure _ _ _ _ (collect (fun r => map_err SE_PublicKeyFromStr (pk_from_str C (fst r))) rs) W'). reflexivity.
Qed.
Lemma agree_factor : forall pk d, clear d -> agree (get_root_weight_factor pk) d.
Proof.
  intros pk d W. apply agree_bind; [apply agree_sql; [reflexivity|exact W]|]. intros [[t w]|] d' W'; [|eapply agree_pure; [exact W'|reflexivity]].
  destruct ((0 <=? w) && (w <? Z.of_N u32_bound))%Z; eapply agree_pure; try exact W'; reflexivity.
Qed.
Lemma agree_search : forall pk rks d, clear d -> agree (bf_search_paths C pk rks) d.
Proof.
  intros pk rks d W. eapply agree_reads; [exact W|apply m_search; apply W|].
  pose proof (m_search (drop d) pk rks (proj1 (drop_fine d (proj1 W)))) as R. change (tbl_relations (drop d)) with (filter keeps (tbl_relations d)) in R. rewrite drop_reads in R. exact R.
Qed.
Lemma agree_revocations : forall pk d, clear d -> agree (get_revocations C pk) d.
Proof.
  intros pk d W. eapply agree_reads; [exact W|apply m_revocations; apply W|].
  pose proof (m_revocations (drop d) pk (proj1 (drop_fine d (proj1 W)))) as R. change (tbl_relations (drop d)) with (filter keeps (tbl_relations d)) in R. rewrite drop_reads in R. exact R.
Qed.
Lemma agree_get_relation : forall f b d, P f b -> clear d -> agree (get_relation C f b) d.
Proof.
  intros f b d H W. apply agree_bind.
  - apply agree_sql; [|exact W]. cbn [fst snd]. f_equal. unfold drop. cbn [tbl_relations].
    destruct W as (_ & K). assert (K' : forall r, In r (tbl_relations d) -> row_of_pair r f b -> keeps r = true) by (intros; eapply K; eassumption).
    clear K. induction (tbl_relations d) as [|r l IH]; [reflexivity|]. cbn [filter find].
    destruct (bytes_eqb (r_by r) (pk_display b) && bytes_eqb (r_for r) (pk_display f)) eqn:M.
    + assert (R : keeps r = true).
      { apply K'; [left; reflexivity|]. apply andb_true_iff in M. destruct M as (M1 & M2). apply bytes_eqb_eq in M1, M2. split; assumption. }
      rewrite R. cbn [find]. rewrite M. reflexivity.
    + destruct (keeps r); cbn [find]; rewrite ?M; apply IH; intros r' I; apply K'; right; exact I.
  - intros [r|] d' W'; eapply agree_pure; try exact W'; reflexivity.
Qed.
Lemma keeps_written : forall x, rel_typed C x -> keeps (row_of_relation x) = true.
Proof.
  intros x T. apply keeps_counts. rewrite <- row_of_trunc. pose proof (rel_trunc_wf C x T) as Wf.
  pose proof (parse_row C _ Wf) as Pr. apply parse_ok in Pr. destruct Pr as (f & b & s & H1 & H2 & H3 & _).
  split; [repeat split; eexists; eassumption|]. destruct x; [left|right]; reflexivity.
Qed.
Lemma agree_insert : forall x d, rel_typed C x -> clear d -> agree (insert x) d.
Proof.
  intros x d T W. apply agree_sql.
  - cbn [fst snd]. unfold drop, insert_row. cbn [tbl_relations tbl_roots]. rewrite filter_app. cbn [filter]. rewrite (keeps_written x T), filter_filter. reflexivity.
  - cbn [snd]. destruct W as ((W1 & W2) & K). split; [split; [|exact W2]|].
    + unfold d_fine, insert_row. cbn [tbl_relations]. apply Forall_app. split; [apply Forall_filter; exact W1|]. constructor; [|constructor].
      split; [apply display_not_empty|discriminate].
    + intros r f b H I Rp. unfold insert_row in I. cbn [tbl_relations] in I. apply in_app_iff in I. destruct I as [I|[<-|[]]]; [|apply keeps_written; exact T].
      apply filter_In in I. exact (K r f b H (proj1 I) Rp).
Qed.
Lemma agree_update : forall x d, rel_typed C x -> P (rel_issued_for x) (rel_issued_by x) -> clear d -> agree (update_relation C x) d.
Proof.
  intros x d T H W. apply agree_bind; [apply agree_get_relation; assumption|]. intros [[a|v]|] d' W'.
  - destruct (duration_ltb _ _); [apply agree_insert; assumption|eapply agree_pure; [exact W'|reflexivity]].
  - destruct (duration_ltb _ _); [apply agree_insert; assumption|eapply agree_pure; [exact W'|reflexivity]].
  - apply agree_insert; assumption.
Qed.
Lemma agree_ret : forall E A (a : A) d, clear d -> @agree E A (ret a) d.
Proof. intros E A a d W. eapply agree_pure; [exact W|reflexivity]. Qed.
Lemma agree_throw : forall E A (e : E) d, clear d -> @agree E A (throw e) d.
Proof. intros E A a d W. eapply agree_pure; [exact W|reflexivity]. Qed.
Lemma agree_all_certs : forall pk now d, clear d -> agree (get_all_certs C pk now) d.
Proof.
  intros pk now d W. apply agree_bind; [apply agree_map_err, agree_gc; exact W|]. intros _ d1 W1.
  apply agree_bind; [apply agree_map_err, agree_roots; exact W1|]. intros rks d2 W2.
  apply agree_bind; [apply agree_search; exact W2|]. intros ps d3 W3. apply agree_ret. exact W3.
Qed.
Lemma agree_min_factor : forall cs acc d, clear d -> agree (certs_min_factor cs acc) d.
Proof.
  intros cs. induction cs as [|[|t c] cs IH]; intros acc d W; cbn [certs_min_factor]; [apply agree_ret; exact W|apply agree_throw; exact W|].
  apply agree_bind; [apply agree_map_err, agree_factor; exact W|]. intros [f|] d' W'; [apply IH; exact W'|apply agree_throw; exact W'].
Qed.
Lemma agree_certs_factor : forall cs d, clear d -> agree (certificates_weight_factor cs) d.
Proof.
  intros [|c cs] d W; [apply agree_ret; exact W|]. apply agree_bind; [apply agree_min_factor; exact W|]. intros f d' W'. apply agree_ret. exact W'.
Qed.
Lemma agree_weight : forall pk now d, clear d -> agree (weight C pk now) d.
Proof.
  intros pk now d W. apply agree_bind; [apply agree_map_err, agree_factor; exact W|]. intros rf d1 W1.
  apply agree_bind; [apply agree_all_certs; exact W1|]. intros cs d2 W2.
  apply agree_bind; [apply agree_certs_factor; exact W2|]. intros cf d3 W3. apply agree_ret. exact W3.
Qed.
Lemma agree_certs_from : forall pk i now d, clear d -> agree (get_all_certs_from C pk i now) d.
Proof. intros pk i now d W. apply agree_bind; [apply agree_all_certs; exact W|]. intros cs d1 W1. apply agree_ret. exact W1. Qed.
Lemma agree_add_trust : forall t b now d, trust_typed C t -> pk_valid C b -> P (issued_for t) b -> clear d -> agree (add_trust C t b now) d.
Proof.
  intros t b now d (T1 & T2 & T3 & T4) Tb H W. apply agree_bind; [eapply agree_pure; [exact W|reflexivity]|].
  intros _ d1 W1. apply agree_bind.
  { apply agree_bind; [apply agree_weight; exact W1|]. intros w d2 W2. apply agree_ret. exact W2. }
  intros w d2 W2. destruct (w =? 0); [apply agree_ret; exact W2|].
  apply agree_bind; [apply agree_map_err, agree_update; [|exact H|exact W2]|].
  - unfold rel_typed, duration_wf in *. cbn. tauto.
  - intros _ d3 W3. apply agree_ret. exact W3.
Qed.
Lemma agree_add_chain : forall c b now d, Forall (trust_typed C) c -> pk_valid C b -> (forall x y, In (x, y) (chain_pairs c b) -> P x y) -> clear d -> agree (add_chain C c b now) d.
Proof.
  intros c. induction c as [|t c IH]; intros b now d F Tb H W; cbn [add_chain]; [apply agree_ret; exact W|].
  inversion F as [|? ? F1 F2]; subst. apply agree_bind; [apply agree_add_trust; [exact F1|exact Tb|apply H; left; reflexivity|exact W]|].
  intros _ d1 W1. apply IH; [exact F2|apply F1| |exact W1]. intros x y I. apply H. right. exact I.
Qed.
Lemma agree_mmap : forall E A B (f : A -> B) (m : M E A) d, agree m d -> agree (mmap f m) d.
Proof. intros E A B f m d H. apply agree_bind; [exact H|]. intros a d' W. apply agree_ret. exact W. Qed.
Lemma agree_call : forall c d, call_typed C c -> (forall x y, In (x, y) (call_pairs c) -> P x y) -> clear d -> agree (graph_do C c) d.
Proof.
  intros c d T H W. destruct c; cbn [graph_do]; apply agree_mmap.
  - apply agree_map_err, agree_sql; [reflexivity|]. cbn [snd]. destruct W as ((W1 & W2) & K). split; [split; [exact W1|]|exact K]. cbn [tbl_roots].
    apply Forall_app. split; [exact W2|]. constructor; [apply display_not_empty|constructor].
  - destruct T as (T1 & T2 & _). apply agree_add_trust; [exact T1|exact T2|apply H; left; reflexivity|exact W].
  - unfold add. destruct c; [apply agree_throw; exact W|]. destruct T as (T & _). apply agree_add_chain; [exact T|inversion T as [|? ? T1 T2]; apply T1|exact H|exact W].
  - apply agree_weight. exact W.
  - apply agree_bind; [apply agree_certs_from; exact W|]. intros cs d1 W1.
    apply agree_bind; [apply agree_certs_factor; exact W1|]. intros cf d2 W2. apply agree_ret. exact W2.
  - apply agree_all_certs. exact W.
  - apply agree_certs_from. exact W.
  - apply agree_bind; [eapply agree_pure; [exact W|reflexivity]|]. intros _ d1 W1. destruct T as (T1 & T2 & T3 & T4).
    apply agree_map_err, agree_update; [|apply H; left; reflexivity|exact W1]. unfold rel_typed, duration_wf in *. cbn. split; [exact T1|]. split; [exact T2|]. split; [exact T3|]. split; [apply T4|reflexivity || apply T4].
  - apply agree_map_err, agree_revocations. exact W.
Qed.
End WithCrypto.
