(** Databases that hold anything: C169 to C173. *)
From Coq Require Import List NArith ZArith Bool Lia ZifyBool ZifyNat ZifyN.
From Verif Require Import Base BaseFacts Text TextFacts Keys KeysFacts Trust TrustFacts Certificate Relation Storage StorageFacts Graph SearchFacts PathFacts
  Service Spec SpecFacts ServiceSpec MachineSpec ServiceFacts ServiceWitness DamageSpec DamageFacts Toy ToyFacts.
From Coq Require String. Import String.StringSyntax.
Import ListNotations.
Open Scope N_scope.

(** ** C169 *)
(** If no row lacks its issuer or signature and no root its key, no call panics or hangs, whatever else is in the database and at
    whichever statement it fails. No call leaves such a row or root. *)
Lemma p_C169_no_panic_partial : forall C d c fu r d', no_blanks d -> graph_step C d (c, fu) = (r, d') ->
  ((exists x, r = Ok x) \/ (exists e, r = Err e)) /\ no_blanks d'.
Proof.
  intros C d c fu r d' N0 E. apply whole_no_blanks in N0. destruct (safe_call C c d N0 fu) as (d1 & fu1 & H & W). apply whole_no_blanks in W.
  unfold graph_step in E. cbn [fst snd] in E. destruct H as [(x & H)|(e & H)]; rewrite H in E; injection E as <- <-; (split; [|exact W]); eauto.
Qed.
(** Through the service: every call responds, except [insert_cert_raw] with a text on which the parser of certificates panics. *)
Lemma p_C169_service_responds_partial : forall C d cp c fu r d', no_blanks d -> service_step C d (cp, c, fu) = (r, d') ->
  ((exists resp, r = Ok resp) \/ (exists s ts, c = S_insert_cert_raw s ts /\ cert_from_str C s = Panic /\ r = Panic /\ d' = d)) /\ no_blanks d'.
Proof.
  intros C d cp c fu r d' N0 E. rewrite service_plan in E. destruct (plan C cp c) as [[g|a]|e| |] eqn:P; cbn [carry_out] in E.
  - destruct (graph_step C d (g, fu)) as [y d1] eqn:Eg.
    destruct (p_C169_no_panic_partial C d g fu y d1 N0 Eg) as ([(x & ->)|(e & ->)] & N1); injection E as <- <-; (split; [left; eexists; reflexivity|exact N1]).
  - injection E as <- <-. split; [left; eexists; reflexivity|exact N0].
  - injection E as <- <-. split; [left; eexists; reflexivity|exact N0].
  - injection E as <- <-. destruct (plan_total C cp c (or_introl P)) as (s & ts & -> & H). split; [right; exists s, ts; auto|exact N0].
  - destruct (plan_total C cp c (or_intror P)) as (s & ts & -> & H). cbn [plan] in P. rewrite H in P. discriminate.
Qed.
(** Every store the library leaves is of this kind. *)
Lemma p_C169_reachable : forall C d, reachable C d -> no_blanks d.
Proof.
  intros C d0 (es & _ & <-). assert (H : no_blanks empty_db) by (split; intros ? []). revert H. generalize empty_db. induction es as [|[c fu] es IH]; intros d H; [exact H|].
  cbn [graph_history fold_left]. apply IH. cbn [fst snd]. destruct (graph_step C d (c, fu)) as [r d'] eqn:E.
  exact (proj2 (p_C169_no_panic_partial C d c fu r d' H E)).
Qed.

(** A store with a root, its trust in itself and its trust in key 2. *)
Definition hurt (rows : list row) (roots : list (text * Z)) : db := mk_db (tbl_relations base_store ++ rows) (tbl_roots base_store ++ roots).
(** A row of key 1 about key 3, with this signature. *)
Definition row13 (by_text sg : text) : row := mk_row 0 (key_text (toy_key 3)) by_text 1 900 sg.
(** It is false for all contents: a row without signature makes the questions about its key panic, a row without issuer too, and a root
    without key makes the questions about all keys panic. *)
Lemma p_C169_no_panic_refuted : exists C d1 d2 d3, crypto_laws C /\
  fst (graph_step C d1 (G_get_all_certs (toy_key 3) (from_secs 6), None)) = Panic /\
  fst (graph_step C d2 (G_weight (toy_key 3) (from_secs 6), None)) = Panic /\
  fst (graph_step C d3 (G_weight (toy_key 2) (from_secs 6), None)) = Panic /\
  length (tbl_relations d1) = 3%nat /\ length (tbl_relations d2) = 3%nat /\ length (tbl_roots d3) = 2%nat.
Proof.
  exists (toy true), (hurt [row13 (key_text (toy_key 1)) []] []), (hurt [row13 [] (str "no")] []), (hurt [] [([], 3%Z)]).
  split; [apply toy_laws|]. repeat split; vm_compute; reflexivity.
Qed.

(** ** C170 *)
Lemma filter_same : forall A (p q : A -> bool) l, (forall x, In x l -> p x = q x) -> filter p l = filter q l.
Proof.
  intros A p q l H. induction l as [|x l IH]; [reflexivity|]. cbn [filter]. rewrite (H x (or_introl eq_refl)), IH; [reflexivity|].
  intros y I. apply H. right. exact I.
Qed.
Lemma cleaned_drop : forall C d d', cleaned C d d' <-> d' = drop C d.
Proof.
  intros C d d'. split.
  - intros (H1 & k & H2 & H3). destruct d' as [x y]. cbn [tbl_relations tbl_roots] in *. subst. unfold drop. f_equal. apply filter_same.
    intros r I. specialize (H3 r I). rewrite <- keeps_counts in H3. destruct (k r), (keeps C r); try reflexivity; [symmetry|]; apply H3; reflexivity.
  - intros ->. split; [reflexivity|]. exists (keeps C). split; [reflexivity|]. intros r _. apply keeps_counts.
Qed.
(** Rows that cannot be read, or are neither trusts nor revocations, do not count: every history of calls gets the answers it gets without
    them, if none of the calls offers a relation of the two keys of such a row. *)
Lemma p_C170_do_not_count : forall C d d' cs, no_blanks d -> cleaned C d d' -> Forall (call_typed C) cs -> Forall (clear_of C d) cs ->
  answers C d (no_failures cs) = answers C d' (no_failures cs) /\
  cleaned C (graph_history C d (no_failures cs)) (graph_history C d' (no_failures cs)).
Proof.
  intros C d d' cs N0 Cl T F. apply cleaned_drop in Cl. subst d'.
  set (P := fun f b => exists c, In c cs /\ In (f, b) (call_pairs c)).
  assert (K : clear C P d).
  { split; [apply whole_no_blanks; exact N0|]. intros r f b (c & I & Ip) Ir Rp. apply keeps_counts. rewrite Forall_forall in F. exact (F c I r f b Ip Ir Rp). }
  assert (HP : forall c, In c cs -> forall x y, In (x, y) (call_pairs c) -> P x y) by (intros c I x y H; exists c; auto).
  clearbody P. clear F N0. revert d K HP. induction cs as [|c cs IH]; intros d K HP.
  - split; [reflexivity|]. apply cleaned_drop. reflexivity.
  - inversion T as [|? ? T1 T2]; subst. destruct (agree_call C P c d T1 (HP c (or_introl eq_refl)) K) as (r & d1 & H1 & H2 & K1).
    cbn [no_failures map answers graph_history fold_left]. unfold graph_step at 1 2 3 4. cbn [fst snd]. rewrite H1, H2. cbn [fst snd w_db].
    destruct (IH T2 d1 K1 (fun c I => HP c (or_intror I))) as (A & B). split; [f_equal; exact A|].
    unfold graph_history, graph_step at 2 4. cbn [fst snd]. rewrite H1, H2. exact B.
Qed.

(** ** C171 *)
Lemma find_pair : forall d r f b, pairs_unique d -> In r (tbl_relations d) -> row_of_pair r f b ->
  find (fun r => bytes_eqb (r_by r) (pk_display b) && bytes_eqb (r_for r) (pk_display f)) (tbl_relations d) = Some r.
Proof.
  intros d r f b. unfold pairs_unique. induction (tbl_relations d) as [|x l IH]; intros U I (R1 & R2); [destruct I|]. destruct I as [->|I]; cbn [find].
  - rewrite R1, R2. unfold key_text. rewrite !bytes_eqb_refl. reflexivity.
  - cbn [map] in U. inversion U as [|? ? U1 U2]; subst. destruct (bytes_eqb (r_by x) (pk_display b) && bytes_eqb (r_for x) (pk_display f)) eqn:E.
    + exfalso. apply andb_true_iff in E. destruct E as (E1 & E2). apply bytes_eqb_eq in E1, E2. apply U1. apply in_map_iff. exists r.
      split; [|exact I]. unfold key_text in *. rewrite R1, R2, E1, E2. reflexivity.
    + apply IH; [exact U2|exact I|split; assumption].
Qed.
Lemma unread_err : forall C r, ~ readable C r -> fine r -> r_for r <> [] -> exists e, parse_relation C r = Err (SE_Decode e).
Proof.
  intros C r N0 F Ne. destruct (parse_cases C r Ne F) as [(x & H)|(e & H)]; [|eauto]. exfalso. apply N0. apply parse_ok in H.
  destruct H as (f & b & s & H1 & H2 & H3 & _). repeat split; eexists; eassumption.
Qed.
Lemma update_blocked : forall C d r x, whole_db d -> pairs_unique d -> In r (tbl_relations d) -> row_of_pair r (rel_issued_for x) (rel_issued_by x) ->
  ~ readable C r -> exists e, update_relation C x (mk_world d None) = (Err (SE_Decode e), mk_world d None).
Proof.
  intros C d r x W U I Rp N0. destruct (unread_err C r N0) as (e & H).
  { destruct W as (W & _). unfold d_fine in W. rewrite Forall_forall in W. apply W. exact I. }
  { destruct Rp as (-> & _). apply (display_not_empty C). }
  exists e. unfold update_relation, get_relation, mbind, sql. cbn [w_fuse w_db]. rewrite (find_pair d r _ _ U I Rp). unfold lift. rewrite H. reflexivity.
Qed.
(** A signed revocation of a pair whose row cannot be read fails, and changes nothing. *)
Lemma p_C171_revoke_blocked : forall C d r v, no_blanks d -> pairs_unique d -> In r (tbl_relations d) -> row_of_pair r (rev_pk v) (revoked_by v) ->
  ~ readable C r -> signed_revocation C v ->
  exists e, graph_step C d (G_revoke v, None) = (Err (GE_InternalStorage (SE_Decode e)), d).
Proof.
  intros C d r v N0 U I Rp Nr V. apply revocation_verify_exact in V. apply whole_no_blanks in N0. destruct (update_blocked C d r (RRev v) N0 U I Rp Nr) as (e & H). exists e.
  unfold graph_step. cbn [fst snd graph_do]. unfold mmap, mbind, revoke, mbind, lift. rewrite V. cbn [map_err]. unfold storage_revoke, st, mmap_err, mbind.
  unfold mmap_err. rewrite H. reflexivity.
Qed.

(** What the questions about certificates and weights come to. *)
Definition gc (now : duration) (d : db) : db := mk_db (filter (fun r => negb (expired_row now r)) (tbl_relations d)) (tbl_roots d).
Definition keys_read (C : crypto) (d : db) : result storage_error (list public_key) :=
  collect (fun r => map_err SE_PublicKeyFromStr (pk_from_str C (fst r))) (tbl_roots d).
Lemma certs_run : forall C d pk now, whole_db d -> get_all_certs C pk now (mk_world d None) =
  (let? rks := map_err GE_InternalStorage (keys_read C d) in
   Ok (filter (fun c : certificate => Nat.ltb 1 (length c)) (map (fun p => rev (map auth_trust p)) (found_paths (rows_read C (tbl_relations (gc now d))) rks pk))),
   mk_world (gc now d) None).
Proof.
  intros C d pk now W. unfold get_all_certs, st, mbind at 1, mmap_err at 1, remove_expired, sql at 1. cbn [w_fuse w_db map_err]. fold (gc now d).
  unfold mbind at 1, mmap_err, root_keys, mbind at 1, sql at 1. cbn [w_fuse w_db]. unfold lift. change (tbl_roots (gc now d)) with (tbl_roots d).
  change (collect _ (tbl_roots d)) with (keys_read C d). destruct (keys_read C d) as [rks| | |]; cbn [map_err bind]; try reflexivity.
  assert (F : d_fine (gc now d)) by (apply Forall_filter; apply W). unfold mbind.
  pose proof (Runs_none _ _ _ _ _ _ _ _ (m_search C (gc now d) pk rks F)) as R. rewrite R. reflexivity.
Qed.
Definition leaves_db {E A} (m : M E A) : Prop := forall d, exists r, m (mk_world d None) = (r, mk_world d None).
Lemma leaves_bind : forall E A B (m : M E A) (f : A -> M E B), leaves_db m -> (forall a, leaves_db (f a)) -> leaves_db (mbind m f).
Proof.
  intros E A B m f H1 H2 d. unfold mbind. destruct (H1 d) as ([a|e| |] & ->); try (eexists; reflexivity). apply H2.
Qed.
Lemma leaves_map_err : forall E F A (g : E -> F) (m : M E A), leaves_db m -> leaves_db (mmap_err g m).
Proof. intros E F A g m H d. unfold mmap_err. destruct (H d) as (r & ->). eexists. reflexivity. Qed.
Lemma leaves_pure : forall E A (m : M E A) r, (forall w, m w = (r, w)) -> leaves_db m.
Proof. intros E A m r H d. exists r. apply H. Qed.
Lemma leaves_factor : forall pk, leaves_db (get_root_weight_factor pk).
Proof.
  intros pk. apply leaves_bind; [intros d; eexists; reflexivity|]. intros [[t w]|]; [|eapply leaves_pure; reflexivity].
  destruct ((0 <=? w) && (w <? Z.of_N u32_bound))%Z; eapply leaves_pure; reflexivity.
Qed.
Lemma leaves_certs_factor : forall cs, leaves_db (certificates_weight_factor cs).
Proof.
  assert (H : forall cs acc, leaves_db (certs_min_factor cs acc)).
  { intros cs. induction cs as [|[|t c] cs IH]; intros acc; cbn [certs_min_factor]; try (eapply leaves_pure; reflexivity).
    apply leaves_bind; [apply leaves_map_err, leaves_factor|]. intros [f|]; [apply IH|eapply leaves_pure; reflexivity]. }
  intros [|c cs]; [eapply leaves_pure; reflexivity|]. apply leaves_bind; [apply H|]. intros f. eapply leaves_pure. reflexivity.
Qed.
Lemma weight_run : forall C d pk now w w1, whole_db d -> weight C pk now (mk_world d None) = (Ok w, w1) -> w1 = mk_world (gc now d) None.
Proof.
  intros C d pk now w w1 W E. unfold weight in E. unfold mbind at 1, st, mmap_err in E. destruct (leaves_factor pk d) as (rf & H). rewrite H in E.
  destruct rf as [rf| | |]; cbn [map_err] in E; try discriminate E. unfold mbind at 1 in E. rewrite (certs_run C d pk now W) in E.
  destruct (map_err GE_InternalStorage (keys_read C d)) as [rks| | |]; cbn [bind] in E; try discriminate E.
  match type of E with mbind (certificates_weight_factor ?cs) _ _ = _ => destruct (leaves_certs_factor cs (gc now d)) as (cf & H2) end.
  unfold mbind in E. rewrite H2 in E. destruct cf; try discriminate E. injection E as _ <-. reflexivity.
Qed.
Lemma expired_iff : forall now r, expired_row now r = true <-> row_expired now r.
Proof. intros now r. unfold expired_row, row_expired, AUTH_TYPE. lia. Qed.
Lemma gc_unique : forall now d, pairs_unique d -> pairs_unique (gc now d).
Proof.
  intros now d. unfold pairs_unique, gc. cbn [tbl_relations]. induction (tbl_relations d) as [|r l IH]; intros U; [exact U|].
  cbn [map] in U. inversion U as [|? ? U1 U2]; subst. cbn [filter]. destruct (negb (expired_row now r)); [|apply IH; exact U2].
  cbn [map]. constructor; [|apply IH; exact U2]. intros I. apply U1. apply in_map_iff in I. destruct I as (x & E & I). apply filter_In in I.
  apply in_map_iff. exists x. split; [exact E|apply I].
Qed.
(** A signed, unexpired trust for a pair whose row cannot be read, from a key of enough weight: it fails and the row stays, unless
    the row is of a trust whose time is up; then the trust takes its place. *)
Lemma p_C171_add_blocked : forall C d r t b now w d1 x d2, no_blanks d -> pairs_unique d -> In r (tbl_relations d) -> row_of_pair r (issued_for t) b ->
  ~ readable C r -> trust_typed C t -> pk_valid C b -> signed_trust C b t -> ~ before (expires_at t) now ->
  graph_step C d (G_weight b now, None) = (Ok (GR_weight w), d1) -> 2 <= w ->
  graph_step C d (G_add_trust t b now, None) = (x, d2) ->
  (~ row_expired now r -> exists e, x = Err (GE_InternalStorage (SE_Decode e)) /\ In r (tbl_relations d2)) /\
  (row_expired now r -> (exists w', x = Ok (GR_weight w')) /\ ~ In r (tbl_relations d2) /\
     In (mk_row 0 (key_text (issued_for t)) (key_text b) (i64_of_u64 (secs (issued_at t))) (i64_of_u64 (secs (expires_at t))) (sig_encode (trust_sig t))) (tbl_relations d2)).
Proof.
  intros C d r t b now w d1 x d2 N0 U I Rp Nr Tt Tb Sg Ex Ew Hw Ea. apply whole_no_blanks in N0.
  assert (V : trust_verify C t b now = Ok tt) by (apply trust_verify_exact; split; assumption).
  unfold graph_step in Ew, Ea. cbn [fst snd graph_do] in Ew, Ea. unfold mmap in Ew, Ea. unfold mbind at 1 in Ew.
  destruct (weight C b now (mk_world d None)) as [[w0| | |] ww] eqn:Hr; try discriminate Ew. pose proof (weight_run C d b now w0 ww N0 Hr) as ->.
  cbn in Ew. injection Ew as <- <-.
  unfold mbind at 1, add_trust in Ea. unfold mbind at 1, lift in Ea. rewrite V in Ea. cbn [map_err] in Ea. unfold mbind at 1, get_next_weight, mbind at 1 in Ea.
  rewrite Hr in Ea. cbn [ret] in Ea. unfold ret at 1 in Ea.
  assert (Nz : (if pk_eqb b (issued_for t) then w0 else w0 / 2) <> 0).
  { destruct (pk_eqb b (issued_for t)); [lia|]. pose proof (N.div_str_pos w0 2 ltac:(lia)). lia. }
  apply N.eqb_neq in Nz. rewrite Nz in Ea. unfold mbind at 1, st, mmap_err, update_auth in Ea.
  assert (W1 : whole_db (gc now d)) by (split; [apply Forall_filter; apply N0|apply N0]).
  split; intros Hx.
  - assert (I1 : In r (tbl_relations (gc now d))).
    { apply filter_In. split; [exact I|]. apply negb_true_iff. destruct (expired_row now r) eqn:E; [|reflexivity]. exfalso. apply Hx. apply expired_iff. exact E. }
    destruct (update_blocked C (gc now d) r (RAuth (mk_auth t b)) W1 (gc_unique now d U) I1 Rp Nr) as (e & H). rewrite H in Ea. cbn in Ea.
    injection Ea as <- <-. exists e. split; [reflexivity|exact I1].
  - assert (Nf : find (fun y => bytes_eqb (r_by y) (pk_display b) && bytes_eqb (r_for y) (pk_display (issued_for t))) (tbl_relations (gc now d)) = None).
    { destruct (find _ (tbl_relations (gc now d))) as [y|] eqn:F; [|reflexivity]. exfalso. apply find_some in F. destruct F as (Iy & M).
      apply andb_true_iff in M. destruct M as (M1 & M2). apply bytes_eqb_eq in M1, M2. apply filter_In in Iy. destruct Iy as (Iy & Ny).
      pose proof (find_pair d r _ _ U I Rp) as F1. pose proof (find_pair d y _ _ U Iy (conj M2 M1)) as F2. rewrite F1 in F2. injection F2 as <-.
      apply expired_iff in Hx. rewrite Hx in Ny. discriminate Ny. }
    unfold update_relation, get_relation, mbind at 1, mbind at 1, sql at 1 in Ea. cbn [w_fuse w_db rel_issued_for rel_issued_by issued_by auth_trust] in Ea.
    rewrite Nf in Ea. cbn in Ea. injection Ea as <- <-. split; [eexists; reflexivity|]. cbn [tbl_relations]. split.
    + intros I2. apply in_app_iff in I2. destruct I2 as [I2|[E|[]]].
      * apply filter_In in I2. destruct I2 as (I2 & _). apply filter_In in I2. destruct I2 as (_ & I2). apply expired_iff in Hx. rewrite Hx in I2. discriminate I2.
      * apply Nr. subst r. apply (keeps_counts C). apply (keeps_written C (RAuth (mk_auth t b))). destruct Tt as (T1 & T2 & (T3 & _) & (T4 & _)).
        unfold rel_typed. cbn. auto.
    + apply in_app_iff. right. left. reflexivity.
Qed.

(** A row of key 1 about key 3 whose signature cannot be read, at second 1, until second 900. *)
Definition unread13 : row := row13 (key_text (toy_key 1)) (str "no").
Lemma unread13_not : ~ readable (toy true) unread13.
Proof. intros (_ & _ & s & H). vm_compute in H. discriminate H. Qed.
Lemma hurt_no_blanks : no_blanks (hurt [unread13] []).
Proof. split; intros x I; vm_compute in I; repeat (destruct I as [<-|I]; [repeat split; discriminate|]); destruct I. Qed.
Lemma hurt_unique : pairs_unique (hurt [unread13] []).
Proof.
  unfold pairs_unique. vm_compute map. repeat (constructor; [intros I; repeat (destruct I as [E|I]; [discriminate E|]); destruct I|]). constructor.
Qed.
(** So it is false that a damaged row can be replaced: root 1 tries with a newer trust and with a newer revocation, in vain. *)
Lemma p_C171_replaced_refuted : exists C d r t v now e1 e2 d', crypto_laws C /\ no_blanks d /\ pairs_unique d /\ In r (tbl_relations d) /\
  row_of_pair r (issued_for t) (toy_key 1) /\ row_of_pair r (rev_pk v) (revoked_by v) /\ (r_issued_at r < Z.of_N (secs (issued_at t)) < Z.of_N (secs (revoked_at v)))%Z /\
  trust_typed C t /\ signed_trust C (toy_key 1) t /\ revocation_typed C v /\ signed_revocation C v /\
  graph_step C d (G_weight (toy_key 1) now, None) = (Ok (GR_weight 32), d) /\
  graph_step C d (G_add_trust t (toy_key 1) now, None) = (Err (GE_InternalStorage e1), d') /\ In r (tbl_relations d') /\
  graph_step C d (G_revoke v, None) = (Err (GE_InternalStorage e2), d).
Proof.
  exists (toy true), (hurt [unread13] []), unread13, (toy_trust 1 3 800 5), (toy_rev 1 3 6), (from_secs 6). do 3 eexists.
  split; [apply toy_laws|]. split; [exact hurt_no_blanks|]. split; [exact hurt_unique|]. split; [vm_compute; auto|]. split; [split; reflexivity|]. split; [split; reflexivity|].
  split; [split; reflexivity|]. split; [repeat split; reflexivity|]. split; [apply toy_trust_signed|]. split; [repeat split; reflexivity|]. split; [apply toy_rev_signed|].
  split; [vm_compute; reflexivity|]. split; [vm_compute; reflexivity|]. split; [vm_compute; auto|]. vm_compute. reflexivity.
Qed.
(** The damaged row does not hurt the others: with it and without, key 2 has the same weight, and a call that does not touch the pair of the row does the same. *)
Example e_C170_other_keys : no_blanks (hurt [unread13] []) /\ cleaned (toy true) (hurt [unread13] []) base_store /\
  call_typed (toy true) (G_add_trust (toy_trust 2 3 800 5) (toy_key 2) (from_secs 6)) /\
  clear_of (toy true) (hurt [unread13] []) (G_add_trust (toy_trust 2 3 800 5) (toy_key 2) (from_secs 6)) /\
  answers (toy true) (hurt [unread13] []) (no_failures [G_add_trust (toy_trust 2 3 800 5) (toy_key 2) (from_secs 6); G_weight (toy_key 3) (from_secs 7)]) =
    [Ok (GR_weight 8); Ok (GR_weight 8)].
Proof.
  split; [exact hurt_no_blanks|]. split; [apply cleaned_drop; vm_compute; reflexivity|]. split; [repeat split; reflexivity|]. split; [|vm_compute; reflexivity].
  intros r f b [E|[]] I (R1 & R2). injection E as <- <-. vm_compute in I. repeat (destruct I as [<-|I]; [vm_compute in R1, R2; discriminate|]). destruct I.
Qed.
(** Later than second 900 the row is gone with the expired trusts, and the pair can be set again. *)
Example e_C171_expired : row_expired (from_secs 950) unread13 /\
  map (fun a => match a with Ok _ => true | _ => false end)
    (answers (toy true) (hurt [unread13] []) (no_failures [G_add_trust (toy_trust 1 3 2000 5) (toy_key 1) (from_secs 6); G_add_trust (toy_trust 1 3 2000 5) (toy_key 1) (from_secs 950)])) =
    [false; true].
Proof. split; [split; [reflexivity|vm_compute; discriminate]|vm_compute; reflexivity]. Qed.
(** Calls on a store with an unreadable row: errors and answers, no panics. *)
Example e_C169_unreadable : no_blanks (hurt [unread13] []) /\
  fst (graph_step (toy true) (hurt [unread13] []) (G_get_all_certs (toy_key 3) (from_secs 6), None)) = Ok (GR_certs []).
Proof. split; [exact hurt_no_blanks|vm_compute; reflexivity]. Qed.

(** ** C172 *)
Lemma keys_read_ok : forall C d, (exists rks, keys_read C d = Ok rks) <-> roots_readable C d.
Proof.
  intros C d. unfold keys_read, roots_readable. induction (tbl_roots d) as [|x l IH].
  - split; [intros _ x []|intros _; exists []; reflexivity].
  - cbn [collect]. destruct (pk_from_str C (fst x)) as [k|e| |] eqn:K; cbn [map_err bind].
    + split.
      * intros (rks & H). apply bind_ok in H. destruct H as (ks & H & _). intros y [<-|I]; [eauto|]. apply (proj1 IH); [eauto|exact I].
      * intros H. destruct (proj2 IH (fun y I => H y (or_intror I))) as (ks & ->). eexists. reflexivity.
    + split; [intros (? & H); discriminate H|]. intros H. destruct (H x (or_introl eq_refl)). congruence.
    + split; [intros (? & H); discriminate H|]. intros H. destruct (H x (or_introl eq_refl)). congruence.
    + split; [intros (? & H); discriminate H|]. intros H. destruct (H x (or_introl eq_refl)). congruence.
Qed.
(** [get_all_certs] succeeds, for whatever key, exactly if the keys of all roots can be read. *)
Lemma p_C172_certs_exact : forall C d pk now, no_blanks d ->
  ((exists cs d', graph_step C d (G_get_all_certs pk now, None) = (Ok (GR_certs cs), d')) <-> roots_readable C d).
Proof.
  intros C d pk now N0. apply whole_no_blanks in N0. rewrite <- keys_read_ok. unfold graph_step. cbn [fst snd graph_do]. unfold mmap, mbind. rewrite (certs_run C d pk now N0).
  destruct (keys_read C d) as [rks|e| |]; cbn [map_err bind ret].
  - unfold ret. split; [intros _; eauto|]. intros _. do 2 eexists. reflexivity.
  - split; intros (x & H); [destruct H as (? & H)|]; discriminate H.
  - split; intros (x & H); [destruct H as (? & H)|]; discriminate H.
  - split; intros (x & H); [destruct H as (? & H)|]; discriminate H.
Qed.
(** Then no trust can be added either, and no weight asked for: these calls fail too. *)
Lemma p_C172_all_fail : forall C d now, no_blanks d -> ~ roots_readable C d ->
  (forall pk, exists e, fst (graph_step C d (G_weight pk now, None)) = Err e) /\
  (forall pk i, exists e, fst (graph_step C d (G_weight_from pk i now, None)) = Err e) /\
  (forall t b, exists e, fst (graph_step C d (G_add_trust t b now, None)) = Err e).
Proof.
  intros C d now N0 Nr. apply whole_no_blanks in N0.
  assert (K : exists e, map_err GE_InternalStorage (keys_read C d) = Err e).
  { destruct (safe_roots C d N0 None) as (d1 & fu1 & H & _). unfold root_keys, mbind, sql, lift in H. cbn [w_fuse w_db] in H. fold (keys_read C d) in H.
    destruct H as [(rks & H)|(e & H)].
    - exfalso. apply Nr. apply keys_read_ok. exists rks. injection H as H _ _. exact H.
    - injection H as H _ _. exists (GE_InternalStorage e). change (collect _ (tbl_roots d)) with (keys_read C d) in H. rewrite H. reflexivity. }
  destruct K as (e & K).
  assert (W : forall pk, exists e w, weight C pk now (mk_world d None) = (Err e, w)).
  { intros pk. unfold weight. unfold mbind at 1, st, mmap_err at 1. destruct (leaves_factor pk d) as (rf & H).
    destruct (safe_factor pk d N0 None) as (d1 & fu1 & [(a & H1)|(e1 & H1)] & _); rewrite H1 in *.
    - injection H as _ -> ->. cbn [map_err]. unfold mbind at 1. rewrite (certs_run C d pk now N0), K. cbn [bind]. eauto.
    - cbn [map_err]. eauto. }
  split; [|split].
  - intros pk. destruct (W pk) as (e1 & w & H). exists e1. unfold graph_step. cbn [fst snd graph_do]. unfold mmap, mbind. rewrite H. reflexivity.
  - intros pk i. exists e. unfold graph_step. cbn [fst snd graph_do]. unfold mmap, mbind at 1, weight_from, mbind at 1, get_all_certs_from, mbind at 1.
    rewrite (certs_run C d pk now N0), K. reflexivity.
  - intros t b. unfold graph_step. cbn [fst snd graph_do]. unfold mmap, mbind at 1, add_trust, mbind at 1, lift.
    destruct (trust_verify_total C t b now) as [V|(e1 & V)]; rewrite V; cbn [map_err].
    + unfold mbind at 1, get_next_weight, mbind at 1. destruct (W b) as (e1 & w & H). rewrite H. exists e1. reflexivity.
    + eexists. reflexivity.
Qed.

(** A store whose second root has the text "?". *)
Definition root_hurt : db := hurt [] [(str "?", 3%Z)].
Lemma root_hurt_no_blanks : no_blanks root_hurt.
Proof. split; intros x I; vm_compute in I; repeat (destruct I as [<-|I]; [repeat split; discriminate|]); destruct I. Qed.
(** So it is false that an unreadable root is lost alone: key 2 loses its certificates from root 1, which can be read. *)
Lemma p_C172_lost_alone_refuted : exists C d d' pk now cs e, crypto_laws C /\ no_blanks d' /\ tbl_relations d' = tbl_relations d /\
  (exists x, tbl_roots d' = tbl_roots d ++ [x] /\ ~ (exists k, pk_from_str C (fst x) = Ok k)) /\
  fst (graph_step C d (G_get_all_certs pk now, None)) = Ok (GR_certs cs) /\ length cs = 1%nat /\
  fst (graph_step C d' (G_get_all_certs pk now, None)) = Err e.
Proof.
  exists (toy true), base_store, root_hurt, (toy_key 2), (from_secs 6). do 2 eexists. split; [apply toy_laws|]. split; [exact root_hurt_no_blanks|].
  split; [vm_compute; reflexivity|]. split; [|split; [vm_compute; reflexivity|split; [reflexivity|vm_compute; reflexivity]]].
  exists (str "?", 3%Z). split; [vm_compute; reflexivity|]. intros (k & H). vm_compute in H. discriminate H.
Qed.
(** Both sides of the equivalence. *)
Example e_C172_roots : roots_readable (toy true) base_store /\ ~ roots_readable (toy true) root_hurt /\ no_blanks base_store /\ no_blanks root_hurt.
Proof.
  split; [|split; [|split; [|exact root_hurt_no_blanks]]].
  - intros x I. vm_compute in I. destruct I as [<-|[]]. eexists. vm_compute. reflexivity.
  - intros H. destruct (H (str "?", 3%Z)) as (k & K); [vm_compute; auto|]. vm_compute in K. discriminate K.
  - split; intros x I; vm_compute in I; repeat (destruct I as [<-|I]; [repeat split; discriminate|]); destruct I.
Qed.

(** ** C173 *)
Lemma parse_says : forall C r a, In (RAuth a) (row_reads C r) -> row_says C r (auth_trust a) (issued_by a).
Proof.
  intros C r a I. unfold row_reads in I. destruct (parse_relation C r) as [x| | |] eqn:P; try (destruct I).
  destruct (((r_type r =? 0) || (r_type r =? 1))%Z); [|destruct I]. destruct I as [->|[]].
  unfold parse_relation in P. apply bind_ok in P. destruct P as (f & H1 & P). apply bind_ok in P. destruct P as (b & H2 & P).
  apply bind_ok in P. destruct P as (s & H3 & P). apply map_err_ok in H1, H2, H3. unfold AUTH_TYPE in P. destruct (r_type r =? 0)%Z eqn:T; [|discriminate P].
  injection P as <-. unfold row_says. cbn. repeat split; try assumption. lia.
Qed.
(** Every trust of a returned certificate is what a trust row of the table says, given by the key before it or, the first, by itself, and the
    first is of a key of the table of roots; signatures are not looked at. *)
Lemma p_C173_rows_shown : forall C d pk now cs d' c, no_blanks d -> graph_step C d (G_get_all_certs pk now, None) = (Ok (GR_certs cs), d') -> In c cs ->
  (forall i t, nth_error c i = Some t -> exists g r, nth_error c (pred i) = Some g /\ In r (tbl_relations d') /\ row_says C r t (issued_for g)) /\
  (exists t x, nth_error c 0 = Some t /\ In x (tbl_roots d') /\ pk_from_str C (fst x) = Ok (issued_for t)) /\
  (exists t, nth_error c (length c - 1) = Some t /\ issued_for t = pk) /\
  (forall r, In r (tbl_relations d') <-> In r (tbl_relations d) /\ ~ row_expired now r).
Proof.
  intros C d pk now cs d' c N0 E I. apply whole_no_blanks in N0. unfold graph_step in E. cbn [fst snd graph_do] in E. unfold mmap, mbind in E.
  rewrite (certs_run C d pk now N0) in E. destruct (keys_read C d) as [rks|e| |] eqn:K; cbn [map_err bind] in E; try discriminate E.
  unfold ret in E. injection E as <- <-. apply filter_In in I. destruct I as (I & _). apply in_map_iff in I. destruct I as (p & <- & I).
  apply in_found_paths' in I. destruct I as ([P1 P2 P3 _ _] & l & L1 & L2 & L3 & L4). set (c := rev (map auth_trust p)).
  assert (Len : length c = length p) by (unfold c; rewrite rev_length, map_length; reflexivity).
  assert (TR : forall i, (i < length p)%nat -> nth_error c i = option_map auth_trust (nth_error p (length p - 1 - i))).
  { intros i Hi. unfold c. rewrite nth_error_rev by (rewrite map_length; exact Hi). rewrite map_length, nth_error_map. reflexivity. }
  split; [|split; [|split]].
  - intros i t Ht. assert (Hi : (i < length p)%nat) by (rewrite <- Len; apply nth_error_Some; congruence). rewrite TR in Ht by exact Hi.
    destruct (nth_error p (length p - 1 - i)) as [a|] eqn:Ha; [|discriminate Ht]. injection Ht as <-.
    assert (Hr : exists r, In r (tbl_relations (gc now d)) /\ row_says C r (auth_trust a) (issued_by a)).
    { assert (Ia : In (RAuth a) (rows_read C (tbl_relations (gc now d)))) by (apply P1; eapply nth_error_In; exact Ha).
      apply in_flat_map in Ia. destruct Ia as (r & Ir & Ir2). exists r. split; [exact Ir|apply parse_says; exact Ir2]. }
    destruct Hr as (r & Ir & Hs). destruct i as [|i]; cbn [pred].
    + exists (auth_trust a), r. rewrite TR by lia. rewrite Ha. split; [reflexivity|]. split; [exact Ir|]. rewrite Nat.sub_0_r, L1 in Ha. injection Ha as <-.
      unfold key_of in L2. rewrite <- L2. exact Hs.
    + destruct (nth_error p (length p - 1 - i)) as [b|] eqn:Hb; [|apply nth_error_None in Hb; lia].
      exists (auth_trust b), r. rewrite TR by lia. rewrite Hb. split; [reflexivity|]. split; [exact Ir|].
      assert (Ek : key_of b = issued_by a) by (apply (P3 (length p - 1 - S i)%nat); [exact Ha|]; replace (S (length p - 1 - S i)) with (length p - 1 - i)%nat by lia; exact Hb).
      unfold key_of in Ek. rewrite Ek. exact Hs.
  - exists (auth_trust l). unfold key_of in L2. rewrite L2 in L3. unfold keys_read in K.
    assert (X : exists x, In x (tbl_roots d) /\ pk_from_str C (fst x) = Ok (issued_for (auth_trust l))).
    { revert K L3. clear. revert rks. induction (tbl_roots d) as [|x rs IH]; intros rks K I; cbn [collect] in K.
      - injection K as <-. destruct I.
      - destruct (pk_from_str C (fst x)) as [k| | |] eqn:Ek; cbn [map_err bind] in K; try discriminate K. apply bind_ok in K. destruct K as (ks & K & K2).
        injection K2 as <-. destruct I as [->|I]; [exists x; split; [left; reflexivity|exact Ek]|]. destruct (IH ks K I) as (y & Iy & Hy). exists y. split; [right; exact Iy|exact Hy]. }
    destruct X as (x & Ix & Hx). exists x. rewrite TR by lia. rewrite Nat.sub_0_r, L1. auto.
  - destruct P2 as (a & A1 & A2). exists (auth_trust a). rewrite Len, TR by lia. replace (length p - 1 - (length p - 1))%nat with 0%nat by lia. rewrite A1.
    split; [reflexivity|exact A2].
  - intros r. cbn [gc tbl_relations]. rewrite filter_In, negb_true_iff, <- expired_iff. rewrite not_true_iff_false. reflexivity.
Qed.

(** A row of key 1 about key 3 signed by key 9. *)
Definition forged13 : row := row13 (key_text (toy_key 1)) (sig_encode (trust_sig (toy_trust 9 3 900 1))).
(** So it is false that returned certificates verify, whatever the database holds: a forged row is shown as a trust of key 1. *)
Lemma p_C173_certs_verify_refuted : exists C d pk now g t, crypto_laws C /\ no_blanks d /\ pairs_unique d /\ roots_readable C d /\ (forall r, In r (tbl_relations d) -> counts C r) /\
  fst (graph_step C d (G_get_all_certs pk now, None)) = Ok (GR_certs [[g; t]]) /\ ~ signed_trust C (issued_for g) t.
Proof.
  exists (toy true), (hurt [forged13] []), (toy_key 3), (from_secs 6). do 2 eexists. split; [apply toy_laws|].
  split; [split; intros x I; vm_compute in I; repeat (destruct I as [<-|I]; [repeat split; discriminate|]); destruct I|].
  split; [unfold pairs_unique; vm_compute map; repeat (constructor; [intros I; repeat (destruct I as [E|I]; [discriminate E|]); destruct I|]); constructor|].
  split; [intros x I; vm_compute in I; destruct I as [<-|[]]; eexists; vm_compute; reflexivity|].
  split; [intros r I; apply keeps_counts; vm_compute in I; repeat (destruct I as [<-|I]; [vm_compute; reflexivity|]); destruct I|].
  split; [vm_compute; reflexivity|]. intros H. vm_compute in H. discriminate H.
Qed.
(** A certificate from a store with a row that cannot be read. *)
Example e_C173_shown : no_blanks (hurt [unread13] []) /\ exists c, fst (graph_step (toy true) (hurt [unread13] []) (G_get_all_certs (toy_key 2) (from_secs 6), None)) = Ok (GR_certs [c]) /\
  length c = 2%nat.
Proof. split; [exact hurt_no_blanks|]. eexists. split; [vm_compute; reflexivity|reflexivity]. Qed.
