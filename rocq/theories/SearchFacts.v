(** Facts about the search of Graph.v: it terminates and enumerates exactly the admissible paths,
    shorter ones first, without repetition. *)
From Coq Require Import List NArith ZArith Bool Lia ZifyBool ZifyNat ZifyN.
From Verif Require Import Base BaseFacts Text TextFacts Keys KeysFacts Trust TrustFacts Certificate Relation Storage StorageFacts Graph.
Import ListNotations.

Section WithCrypto.
Variable C : crypto.

Definition SQL : graph_error := GE_InternalStorage SE_SQLite.

Lemma st_reads : forall A d (m : M storage_error A) a, Reads SE_SQLite d m (Ok a) -> Reads SQL d (st m) (Ok a).
Proof. intros A d m a H. apply (Runs_map_err _ _ _ GE_InternalStorage) in H. exact H. Qed.
Lemma st_runs : forall A d (m : M storage_error A) a d' I, Runs SE_SQLite d m (Ok a) d' I -> Runs SQL d (st m) (Ok a) d' I.
Proof. intros A d m a d' I H. apply (Runs_map_err _ _ _ GE_InternalStorage) in H. exact H. Qed.

(** Pure search. *)
Definition push (rs : list relation) (c : chain) (a : auth) : chain :=
  ch_push (ch_add_revocations c (revs_of rs (issued_by a))) a.
Definition ext_with (rs : list relation) (c : chain) (l : list auth) : list chain :=
  map (push rs c) (filter (fun a => can_be_extended_by c (issued_by a)) l).
Definition ext (rs : list relation) (c : chain) : list chain :=
  ext_with rs c (auths_of rs (issued_by (ch_last c))).
Definition sstep (rs : list relation) (rks : list public_key) (s : search_state) : search_state :=
  match fst s with
  | [] => s
  | c :: q => (q ++ ext rs c, if chain_terminates rks c then snd s ++ [ch_auths c] else snd s)
  end.

Lemma extend_chain_reads : forall d rs roots c l, repr C d rs roots ->
  Reads SQL d (extend_chain C c l) (Ok (ext_with rs c l)).
Proof.
  intros d rs roots c l R. induction l as [|a l IH]; cbn [extend_chain].
  - apply Runs_ret.
  - unfold ext_with. cbn [filter]. destruct (can_be_extended_by c (issued_by a)).
    + eapply Runs_bind; [apply st_reads; apply (get_revocations_reads C d rs roots); assumption|].
      cbn beta. eapply Runs_bind; [apply IH|]. apply Runs_ret.
    + apply IH.
Qed.

Lemma search_step_reads : forall d rs roots rks s, repr C d rs roots ->
  Reads SQL d (search_step C rks s) (Ok (sstep rs rks s)).
Proof.
  intros d rs roots rks s R. unfold search_step, sstep. destruct (fst s) as [|c q] eqn:E.
  - apply Runs_ret.
  - eapply Runs_bind; [apply st_reads; apply (get_authorizations_reads C d rs roots); assumption|].
    cbn beta. eapply Runs_bind; [apply (extend_chain_reads d rs roots); assumption|]. apply Runs_ret.
Qed.

Fixpoint iter (k : nat) {A} (f : A -> A) (x : A) : A := match k with O => x | S k' => iter k' f (f x) end.

Lemma iter_add : forall A (f : A -> A) a b x, iter (a + b) f x = iter b f (iter a f x).
Proof. intros A f a b. induction a as [|a IH]; intros x; [reflexivity|]. simpl. apply IH. Qed.

Lemma iter_fix : forall A (f : A -> A) k x, f x = x -> iter k f x = x.
Proof. intros A f k x H. induction k as [|k IH]; [reflexivity|]. simpl. rewrite H. exact IH. Qed.

Lemma sstep_idle : forall rs rks s, fst s = [] -> sstep rs rks s = s.
Proof. intros rs rks s H. unfold sstep. rewrite H. reflexivity. Qed.

Lemma search_run_reads : forall d rs roots rks n s, repr C d rs roots ->
  Reads SQL d (search_run C n rks s) (Ok (iter (2 ^ n) (sstep rs rks) s)).
Proof.
  intros d rs roots rks n. induction n as [|n IH]; intros s R.
  - apply (search_step_reads d rs roots); assumption.
  - cbn [search_run]. rewrite Nat.pow_succ_r'. replace (2 * 2 ^ n)%nat with (2 ^ n + 2 ^ n)%nat by lia.
    rewrite iter_add. eapply Runs_bind; [apply IH; assumption|]. cbn beta.
    destruct (fst (iter (2 ^ n) (sstep rs rks) s)) eqn:E.
    + rewrite (iter_fix _ _ (2 ^ n) (iter (2 ^ n) (sstep rs rks) s)) by (apply sstep_idle; assumption). apply Runs_ret.
    + apply IH; assumption.
Qed.

(** Breadth-first levels. *)
Fixpoint level (rs : list relation) (pk : public_key) (i : nat) : list chain :=
  match i with
  | O => map (fun a => ch_new a (revs_of rs pk)) (auths_of rs pk)
  | S i' => flat_map (ext rs) (level rs pk i')
  end.

Lemma sstep_queue : forall rs rks q q2 t,
  iter (length q) (sstep rs rks) (q ++ q2, t) =
  (q2 ++ flat_map (ext rs) q, t ++ map ch_auths (filter (chain_terminates rks) q)).
Proof.
  intros rs rks q. induction q as [|c q IH]; intros q2 t.
  - simpl. rewrite !app_nil_r. reflexivity.
  - cbn [length iter]. unfold sstep at 2. cbn [fst snd app].
    replace ((q ++ q2) ++ ext rs c) with (q ++ (q2 ++ ext rs c)) by (rewrite app_assoc; reflexivity).
    rewrite IH. cbn [flat_map filter]. rewrite <- app_assoc. f_equal.
    destruct (chain_terminates rks c); cbn [map]; [rewrite <- app_assoc; reflexivity|reflexivity].
Qed.

Definition levels (rs : list relation) (pk : public_key) (n : nat) : list chain :=
  flat_map (level rs pk) (seq 0 n).

Lemma levels_S : forall rs pk n, levels rs pk (S n) = levels rs pk n ++ level rs pk n.
Proof.
  intros. unfold levels. rewrite seq_S. rewrite flat_map_app. cbn [flat_map Nat.add]. rewrite app_nil_r. reflexivity.
Qed.

Lemma sstep_levels : forall rs rks pk n,
  iter (length (levels rs pk n)) (sstep rs rks) (level rs pk 0, []) =
  (level rs pk n, map ch_auths (filter (chain_terminates rks) (levels rs pk n))).
Proof.
  intros rs rks pk n. induction n as [|n IH]; [reflexivity|].
  rewrite levels_S, app_length, iter_add, IH.
  rewrite <- (app_nil_r (level rs pk n)) at 2. rewrite sstep_queue. cbn [app level].
  rewrite filter_app, map_app. reflexivity.
Qed.

(** Ranking: the number of issuers not yet visited. *)
Definition issuers (rs : list relation) : list public_key := nodup pk_eq_dec (map issued_by (only_auths rs)).
Definition visited (c : chain) : list public_key := map (fun a => issued_for (auth_trust a)) (ch_auths c).
Definition in_keys (k : public_key) (l : list public_key) : bool := existsb (pk_eqb k) l.
Definition unvisited (rs : list relation) (c : chain) : nat :=
  length (filter (fun k => negb (in_keys k (visited c))) (issuers rs)).
Definition rank (rs : list relation) (c : chain) : nat :=
  2 * unvisited rs c + (if in_keys (issued_by (ch_last c)) (visited c) then 1 else 0).

Lemma in_issuers : forall rs k, In k (issuers rs) <-> exists a, In (RAuth a) rs /\ issued_by a = k.
Proof.
  intros rs k. unfold issuers. rewrite nodup_In, in_map_iff. split.
  - intros (a & H1 & H2). apply in_only_auths in H2. exists a. auto.
  - intros (a & H1 & H2). exists a. split; [assumption|]. apply in_only_auths. assumption.
Qed.

Lemma only_auths_length : forall rs, (length (only_auths rs) <= length rs)%nat.
Proof.
  induction rs as [|[a|v] rs IH]; [simpl; lia| |]; unfold only_auths in *; simpl; lia.
Qed.

Lemma issuers_length : forall rs, (length (issuers rs) <= length rs)%nat.
Proof.
  intros rs. pose proof (only_auths_length rs). unfold issuers.
  assert (length (nodup pk_eq_dec (map issued_by (only_auths rs))) <= length (map issued_by (only_auths rs)))%nat.
  { apply NoDup_incl_length; [apply NoDup_nodup|]. intros k Hk. apply nodup_In in Hk. assumption. }
  rewrite map_length in H0. lia.
Qed.

Lemma filter_length_le : forall A (p q : A -> bool) l, (forall x, In x l -> p x = true -> q x = true) ->
  (length (filter p l) <= length (filter q l))%nat.
Proof.
  intros A p q. induction l as [|x l IH]; intros H; simpl; [lia|].
  assert (IH' : (length (filter p l) <= length (filter q l))%nat) by (apply IH; intros; apply H; [right|]; assumption).
  destruct (p x) eqn:P.
  - rewrite (H x (or_introl eq_refl) P). simpl. lia.
  - destruct (q x); simpl; lia.
Qed.

Lemma filter_length_lt : forall A (p q : A -> bool) l y, (forall x, In x l -> p x = true -> q x = true) ->
  In y l -> p y = false -> q y = true -> (length (filter p l) < length (filter q l))%nat.
Proof.
  intros A p q. induction l as [|x l IH]; intros y H Hy Hp Hq; [destruct Hy|].
  assert (L : (length (filter p l) <= length (filter q l))%nat).
  { apply filter_length_le. intros; apply H; [right|]; assumption. }
  simpl. destruct Hy as [->|Hy].
  - rewrite Hp, Hq. simpl. lia.
  - assert (IH' : (length (filter p l) < length (filter q l))%nat).
    { apply (IH y); try assumption. intros; apply H; [right|]; assumption. }
    destruct (p x) eqn:P.
    + rewrite (H x (or_introl eq_refl) P). simpl. lia.
    + destruct (q x); simpl; lia.
Qed.

Lemma filter_length : forall A (p : A -> bool) l, (length (filter p l) <= length l)%nat.
Proof. intros A p l. induction l as [|x l IH]; simpl; [lia|]. destruct (p x); simpl; lia. Qed.

Lemma in_keys_In : forall k l, in_keys k l = true <-> In k l.
Proof. intros. apply existsb_pk. Qed.

Lemma ch_auths_push : forall rs c a, ch_auths (push rs c a) = ch_auths c ++ [a].
Proof. reflexivity. Qed.

Lemma ch_last_push : forall rs c a, ch_last (push rs c a) = a.
Proof. intros. unfold ch_last, push, ch_push. cbn [ch_rest ch_first]. apply last_last. Qed.

Lemma ch_last_in : forall c, In (ch_last c) (ch_auths c).
Proof.
  intros c. unfold ch_last, ch_auths. destruct (ch_rest c) as [|x l] using rev_ind; [left; reflexivity|].
  rewrite last_last. right. apply in_or_app. right. left. reflexivity.
Qed.

Lemma visited_push : forall rs c a, visited (push rs c a) = visited c ++ [issued_for (auth_trust a)].
Proof. intros. unfold visited. rewrite ch_auths_push, map_app. reflexivity. Qed.

Lemma can_extend : forall c k, can_be_extended_by c k = true <-> ~ In k (ch_revoked_by c) /\ ~ In k (visited c).
Proof.
  intros c k. unfold can_be_extended_by. rewrite andb_true_iff, !negb_true_iff. rewrite existsb_pk_false.
  assert (E : existsb (fun a => pk_eqb (issued_for (auth_trust a)) k) (ch_auths c) = existsb (pk_eqb k) (visited c)).
  { unfold visited. induction (ch_auths c) as [|x l IH]; simpl; [reflexivity|]. rewrite IH, (pk_eqb_sym k). reflexivity. }
  rewrite E, existsb_pk_false. reflexivity.
Qed.

Lemma in_ext : forall rs c c', In c' (ext rs c) <->
  exists a, c' = push rs c a /\ In (RAuth a) rs /\ issued_for (auth_trust a) = issued_by (ch_last c) /\
            ~ In (issued_by a) (ch_revoked_by c) /\ ~ In (issued_by a) (visited c).
Proof.
  intros rs c c'. unfold ext, ext_with. rewrite in_map_iff. split.
  - intros (a & <- & Ha). apply filter_In in Ha. destruct Ha as [H1 H2]. apply in_auths_of in H1.
    apply can_extend in H2. exists a. tauto.
  - intros (a & -> & H1 & H2 & H3 & H4). exists a. split; [reflexivity|]. apply filter_In.
    split; [apply in_auths_of; auto|apply can_extend; auto].
Qed.

Lemma rank_ext : forall rs c c', In (RAuth (ch_last c)) rs -> In c' (ext rs c) -> (rank rs c' < rank rs c)%nat.
Proof.
  intros rs c c' Hlast H. apply in_ext in H. destruct H as (a & -> & Ha & Hf & _ & Hv).
  assert (Hfr : In (issued_by (ch_last c)) (issuers rs)) by (apply in_issuers; exists (ch_last c); auto).
  unfold rank. rewrite ch_last_push. unfold unvisited. rewrite visited_push, Hf.
  destruct (in_keys (issued_by (ch_last c)) (visited c)) eqn:E.
  - assert (L : (length (filter (fun k => negb (in_keys k (visited c ++ [issued_by (ch_last c)]))) (issuers rs))
        <= length (filter (fun k => negb (in_keys k (visited c))) (issuers rs)))%nat).
    { apply filter_length_le. intros x _ Hx. rewrite negb_true_iff in *. unfold in_keys in *.
      rewrite existsb_app in Hx. apply orb_false_iff in Hx. apply Hx. }
    assert (E2 : in_keys (issued_by a) (visited c ++ [issued_by (ch_last c)]) = false).
    { unfold in_keys. apply existsb_pk_false. intros Hin. apply in_app_or in Hin. destruct Hin as [Hin|[Hin|[]]]; [contradiction|].
      apply in_keys_In in E. congruence. }
    rewrite E2. lia.
  - assert (L : (length (filter (fun k => negb (in_keys k (visited c ++ [issued_by (ch_last c)]))) (issuers rs))
        < length (filter (fun k => negb (in_keys k (visited c))) (issuers rs)))%nat).
    { apply filter_length_lt with (y := issued_by (ch_last c)); try assumption.
      - intros x _ Hx. rewrite negb_true_iff in *. unfold in_keys in *.
        rewrite existsb_app in Hx. apply orb_false_iff in Hx. apply Hx.
      - apply negb_false_iff. apply in_keys_In. apply in_or_app. right. left. reflexivity.
      - rewrite E. reflexivity. }
    destruct (in_keys (issued_by a) (visited c ++ [issued_by (ch_last c)])); lia.
Qed.

Lemma rank_bound : forall rs c, (rank rs c <= 2 * length rs + 1)%nat.
Proof.
  intros rs c. unfold rank, unvisited. pose proof (issuers_length rs).
  pose proof (filter_length _ (fun k => negb (in_keys k (visited c))) (issuers rs)).
  destruct (in_keys (issued_by (ch_last c)) (visited c)); lia.
Qed.

Lemma level_stored : forall rs pk i c, In c (level rs pk i) -> forall a, In a (ch_auths c) -> In (RAuth a) rs.
Proof.
  intros rs pk i. induction i as [|i IH]; intros c Hc a Ha.
  - cbn [level] in Hc. apply in_map_iff in Hc. destruct Hc as (b & <- & Hb). apply in_auths_of in Hb.
    destruct Ha as [<-|[]]. apply Hb.
  - cbn [level] in Hc. apply in_flat_map in Hc. destruct Hc as (c0 & H0 & Hc). apply in_ext in Hc.
    destruct Hc as (b & -> & Hb & _). rewrite ch_auths_push in Ha. apply in_app_or in Ha.
    destruct Ha as [Ha|[<-|[]]]; [|assumption]. apply (IH c0); assumption.
Qed.

Lemma level_rank : forall rs pk i c, In c (level rs pk i) -> (rank rs c + i <= 2 * length rs + 1)%nat.
Proof.
  intros rs pk i. induction i as [|i IH]; intros c Hc.
  - pose proof (rank_bound rs c). lia.
  - cbn [level] in Hc. apply in_flat_map in Hc. destruct Hc as (c0 & H0 & Hc).
    pose proof (IH c0 H0). apply rank_ext in Hc; [lia|]. eapply level_stored; [eassumption|apply ch_last_in].
Qed.

Lemma level_dies : forall rs pk, level rs pk (2 * length rs + 2) = [].
Proof.
  intros rs pk. destruct (level rs pk (2 * length rs + 2)) as [|c l] eqn:E; [reflexivity|].
  assert (H : In c (level rs pk (2 * length rs + 2))) by (rewrite E; left; reflexivity).
  apply level_rank in H. lia.
Qed.

(** Sizes. *)
Lemma auths_of_length : forall rs pk, (length (auths_of rs pk) <= length rs)%nat.
Proof.
  intros. unfold auths_of.
  pose proof (only_auths_length (filter (fun x => pk_eqb (rel_issued_for x) pk) rs)).
  pose proof (filter_length _ (fun x => pk_eqb (rel_issued_for x) pk) rs).
  lia.
Qed.

Lemma ext_length : forall rs c, (length (ext rs c) <= length rs)%nat.
Proof.
  intros. unfold ext, ext_with. rewrite map_length.
  pose proof (auths_of_length rs (issued_by (ch_last c))).
  pose proof (filter_length _ (fun a => can_be_extended_by c (issued_by a)) (auths_of rs (issued_by (ch_last c)))).
  lia.
Qed.

Lemma flat_map_length_le : forall A B (f : A -> list B) n l, (forall x, (length (f x) <= n)%nat) ->
  (length (flat_map f l) <= length l * n)%nat.
Proof.
  intros A B f n l H. induction l as [|x l IH]; simpl; [lia|]. rewrite app_length. specialize (H x). lia.
Qed.

Lemma level_length : forall rs pk i, (length (level rs pk i) <= length rs * S (length rs) ^ i)%nat.
Proof.
  intros rs pk i. induction i as [|i IH].
  - cbn [level]. rewrite map_length. pose proof (auths_of_length rs pk). rewrite Nat.pow_0_r. lia.
  - cbn [level]. pose proof (flat_map_length_le _ _ (ext rs) (length rs) (level rs pk i) (ext_length rs)) as L.
    rewrite Nat.pow_succ_r'. nia.
Qed.

Lemma levels_length : forall rs pk n, (length (levels rs pk n) <= S (length rs) ^ S n)%nat.
Proof.
  intros rs pk n. induction n as [|n IH].
  - simpl. lia.
  - rewrite levels_S, app_length. pose proof (level_length rs pk n) as L.
    rewrite (Nat.pow_succ_r' _ (S n)). rewrite Nat.pow_succ_r' in *. nia.
Qed.

Lemma pow2_ge : forall n, (n <= 2 ^ n)%nat.
Proof. induction n as [|n IH]; [lia|]. rewrite Nat.pow_succ_r'. pose proof (Nat.pow_nonzero 2 n ltac:(lia)). lia. Qed.

Lemma fuel_enough : forall rs pk d, length (tbl_relations d) = length rs ->
  (length (levels rs pk (2 * length rs + 2)) <= 2 ^ search_fuel d)%nat.
Proof.
  intros rs pk d H. pose proof (levels_length rs pk (2 * length rs + 2)) as L.
  unfold search_fuel. rewrite H. set (m := S (length rs)) in *.
  replace (S (2 * length rs + 2)) with (2 * m + 1)%nat in L by lia.
  replace ((2 * m + 3) * m)%nat with (m * (2 * m + 3))%nat by lia.
  rewrite Nat.pow_mul_r.
  assert (A : (m ^ (2 * m + 1) <= (2 ^ m) ^ (2 * m + 1))%nat) by (apply Nat.pow_le_mono_l; apply pow2_ge).
  assert (B : ((2 ^ m) ^ (2 * m + 1) <= (2 ^ m) ^ (2 * m + 3))%nat).
  { apply Nat.pow_le_mono_r; [apply Nat.pow_nonzero; lia|lia]. }
  lia.
Qed.

(** All chains the search visits, in order. *)
Definition all_chains (rs : list relation) (pk : public_key) : list chain := levels rs pk (2 * length rs + 2).
Definition found_paths (rs : list relation) (rks : list public_key) (pk : public_key) : list (list auth) :=
  map ch_auths (filter (chain_terminates rks) (all_chains rs pk)).

Lemma iter_past : forall rs rks s k n, (k <= n)%nat -> fst (iter k (sstep rs rks) s) = [] ->
  iter n (sstep rs rks) s = iter k (sstep rs rks) s.
Proof.
  intros rs rks s k n H E. replace n with (k + (n - k))%nat by lia. rewrite iter_add.
  apply iter_fix. apply sstep_idle. assumption.
Qed.

Lemma bf_search_paths_reads : forall d rs roots pk rks, repr C d rs roots ->
  Reads SQL d (bf_search_paths C pk rks) (Ok (found_paths rs rks pk)).
Proof.
  intros d rs roots pk rks R. unfold bf_search_paths.
  eapply Runs_bind; [apply st_reads; apply (get_authorizations_reads C d rs roots); assumption|]. cbn beta.
  eapply Runs_bind; [apply st_reads; apply (get_revocations_reads C d rs roots); assumption|]. cbn beta zeta.
  change (map (fun a => ch_new a (revs_of rs pk)) (auths_of rs pk)) with (level rs pk 0).
  assert (HL : length (tbl_relations d) = length rs) by (rewrite (repr_rows _ _ _ _ R); apply map_length).
  assert (HE : iter (2 ^ search_fuel d) (sstep rs rks) (level rs pk 0, []) = ([], found_paths rs rks pk)).
  { rewrite (iter_past rs rks _ (length (levels rs pk (2 * length rs + 2)))).
    - rewrite sstep_levels, level_dies. reflexivity.
    - apply fuel_enough; assumption.
    - rewrite sstep_levels. cbn [fst]. apply level_dies. }
  eapply Runs_bind with (d1 := d) (a := ([], found_paths rs rks pk)).
  - rewrite <- HE. intros fu. cbn [w_db]. apply (search_run_reads d rs roots); assumption.
  - cbn [fst snd]. apply Runs_ret.
Qed.

(** Characterisation of the chains. [p] is in search order: target first. *)
Inductive path (rs : list relation) (pk : public_key) : list auth -> list public_key -> Prop :=
| path_one : forall a, In (RAuth a) rs -> issued_for (auth_trust a) = pk ->
    path rs pk [a] (map revoked_by (revs_of rs pk))
| path_push : forall p rv l a, path rs pk p rv -> last p l = l -> In l p ->
    In (RAuth a) rs -> issued_for (auth_trust a) = issued_by l ->
    ~ In (issued_by a) rv -> ~ In (issued_by a) (map (fun x => issued_for (auth_trust x)) p) ->
    path rs pk (p ++ [a]) (map revoked_by (revs_of rs (issued_by a)) ++ rv).

Lemma last_ch : forall c l, last (ch_auths c) l = ch_last c.
Proof.
  intros c l. unfold ch_auths, ch_last. destruct (ch_rest c) as [|x r] using rev_ind; [reflexivity|].
  rewrite last_last. change (ch_first c :: r ++ [x]) with ((ch_first c :: r) ++ [x]). apply last_last.
Qed.

Lemma level_path : forall rs pk i c, In c (level rs pk i) ->
  path rs pk (ch_auths c) (ch_revoked_by c) /\ length (ch_auths c) = S i.
Proof.
  intros rs pk i. induction i as [|i IH]; intros c Hc; cbn [level] in Hc.
  - apply in_map_iff in Hc. destruct Hc as (a & <- & Ha). apply in_auths_of in Ha. split; [|reflexivity].
    unfold ch_new, ch_add_revocations. cbn [ch_revoked_by ch_first ch_rest]. rewrite app_nil_r.
    constructor; apply Ha.
  - apply in_flat_map in Hc. destruct Hc as (c0 & H0 & Hc). apply IH in H0. destruct H0 as [H0 HL]. apply in_ext in Hc.
    destruct Hc as (a & -> & Ha & Hf & Hr & Hv). rewrite ch_auths_push, app_length. simpl length at 2.
    split; [|lia]. eapply path_push with (l := ch_last c0); try eassumption; [apply last_ch|apply ch_last_in].
Qed.

Lemma path_level : forall rs pk p rv, path rs pk p rv ->
  exists c, ch_auths c = p /\ ch_revoked_by c = rv /\ In c (level rs pk (length p - 1)).
Proof.
  intros rs pk p rv H. induction H as [a Ha Hf|p rv l a Hp IH Hl Hin Ha Hf Hr Hv].
  - exists (ch_new a (revs_of rs pk)). repeat split.
    + unfold ch_new, ch_add_revocations. cbn. apply app_nil_r.
    + cbn [length Nat.sub level]. apply in_map_iff. exists a. split; [reflexivity|]. apply in_auths_of. auto.
  - destruct IH as (c & <- & <- & Hc). exists (push rs c a). rewrite ch_auths_push. repeat split.
    rewrite app_length. simpl length at 2.
    assert (L : length (ch_auths c) = S (length (ch_auths c) - 1)) by (unfold ch_auths; simpl; lia).
    replace (length (ch_auths c) + 1 - 1)%nat with (S (length (ch_auths c) - 1)) by lia.
    cbn [level]. apply in_flat_map. exists c. split; [assumption|]. apply in_ext. exists a.
    rewrite last_ch in Hl. rewrite Hl. auto.
Qed.

Lemma in_all_chains : forall rs pk c, In c (all_chains rs pk) <-> exists i, In c (level rs pk i).
Proof.
  intros rs pk c. unfold all_chains, levels. rewrite in_flat_map. split.
  - intros (i & _ & H). exists i. assumption.
  - intros (i & H). exists i. split; [|assumption]. apply in_seq. apply level_rank in H. lia.
Qed.

Lemma in_found_paths : forall rs rks pk p, In p (found_paths rs rks pk) <->
  exists rv l, path rs pk p rv /\ last p l = l /\ In l p /\ issued_by l = issued_for (auth_trust l) /\
    In (issued_by l) rks /\ (1 < length p)%nat.
Proof.
  intros rs rks pk p. unfold found_paths. rewrite in_map_iff. split.
  - intros (c & <- & Hc). apply filter_In in Hc. destruct Hc as [Hc Ht]. apply in_all_chains in Hc. destruct Hc as (i & Hc).
    apply level_path in Hc. destruct Hc as [Hc _]. unfold chain_terminates in Ht. rewrite !andb_true_iff in Ht.
    destruct Ht as [[T1 T2] T3]. apply pk_eqb_eq in T1. apply existsb_pk in T2. apply Nat.ltb_lt in T3.
    exists (ch_revoked_by c), (ch_last c). repeat split; try assumption; [apply last_ch|apply ch_last_in].
  - intros (rv & l & Hp & Hl & Hin & T1 & T2 & T3). apply path_level in Hp. destruct Hp as (c & <- & <- & Hc).
    exists c. split; [reflexivity|]. apply filter_In. split; [apply in_all_chains; eexists; eassumption|].
    unfold chain_terminates. rewrite last_ch in Hl. rewrite Hl. rewrite !andb_true_iff. repeat split.
    + apply pk_eqb_eq. assumption.
    + apply existsb_pk. assumption.
    + apply Nat.ltb_lt. assumption.
Qed.

End WithCrypto.
