(** Pure semantics of the graph calls: what each call answers and which writes it makes. *)
From Coq Require Import List NArith ZArith Bool Lia ZifyBool ZifyNat ZifyN.
From Verif Require Import Base BaseFacts Text TextFacts Keys KeysFacts Trust TrustFacts Certificate CertFacts Relation Storage StorageFacts Graph SearchFacts PathFacts Spec SpecFacts.
Import ListNotations.
Open Scope N_scope.

(** Typed states and elementary writes. *)
Record state := mk_state { rels : list relation; roots : list (public_key * N) }.
Definition empty_state : state := mk_state [] [].
Definition db_of (s : state) : db :=
  mk_db (map row_of_relation (rels s)) (map (fun kf => (pk_display (fst kf), Z.of_N (snd kf))) (roots s)).

Inductive write := W_gc (now : duration) | W_upd (x : relation) | W_root (pk : public_key) (f : N).
Definition apply_w (s : state) (w : write) : state :=
  match w with
  | W_gc now => mk_state (gc now (rels s)) (roots s)
  | W_upd x => mk_state (upd (rels s) x) (roots s)
  | W_root pk f => mk_state (rels s) (roots s ++ [(pk, f)])
  end.
Definition run_ws (ws : list write) (s : state) : state := fold_left apply_w ws s.

Section WithCrypto.
Variable C : crypto.
Local Notation trust_typed := (trust_typed C).
Local Notation revocation_typed := (revocation_typed C).
Local Notation call_typed := (call_typed C).
Local Notation reachable := (reachable C).

Record wf (s : state) : Prop := mk_wf {
  wf_rels : Forall (rel_wf C) (rels s);
  wf_nodup : NoDup (map (fun x => (rel_issued_for x, rel_issued_by x)) (rels s));
  wf_roots : Forall (fun kf => pk_valid C (fst kf) /\ snd kf < u32_bound) (roots s)
}.

Definition write_ok (w : write) : Prop :=
  match w with
  | W_gc now => True
  | W_upd x => rel_typed C x
  | W_root pk f => pk_valid C pk /\ f < u32_bound
  end.

Lemma wf_repr : forall s, wf s -> repr C (db_of s) (rels s) (roots s).
Proof. intros s [H1 H2 H3]. split; try assumption; reflexivity. Qed.

Lemma repr_db_of : forall d rs ros, repr C d rs ros -> d = db_of (mk_state rs ros).
Proof. intros [a b] rs ros [H1 H2 H3 H4 H5]. cbn in *. subst. reflexivity. Qed.

Lemma wf_empty : wf empty_state.
Proof. split; constructor. Qed.

Lemma upd_wf : forall rs x, Forall (rel_wf C) rs -> rel_typed C x -> Forall (rel_wf C) (upd rs x).
Proof.
  intros rs x H T. assert (P : Forall (rel_wf C) (put (rel_trunc x) rs)).
  { unfold put. apply Forall_app. split; [apply Forall_filter; assumption|]. constructor; [apply rel_trunc_wf; assumption|constructor]. }
  unfold upd. destruct (find_rel rs (rel_issued_for x) (rel_issued_by x)); [|assumption].
  destruct (duration_ltb _ _); assumption.
Qed.

Lemma upd_nodup : forall rs x, NoDup (map (fun x => (rel_issued_for x, rel_issued_by x)) rs) ->
  NoDup (map (fun x => (rel_issued_for x, rel_issued_by x)) (upd rs x)).
Proof.
  intros rs x H. pose proof (put_nodup (rel_trunc x) rs H) as P. unfold upd.
  destruct (find_rel rs (rel_issued_for x) (rel_issued_by x)); [|assumption].
  destruct (duration_ltb _ _); assumption.
Qed.

Lemma apply_wf : forall s w, wf s -> write_ok w -> wf (apply_w s w).
Proof.
  intros s w [H1 H2 H3] Hw. destruct w as [now|x|pk f]; cbn in *.
  - split; cbn; [apply Forall_filter; assumption|apply NoDup_filter_map; assumption|assumption].
  - split; cbn; [apply upd_wf; assumption|apply upd_nodup; assumption|assumption].
  - split; cbn; try assumption. apply Forall_app. split; [assumption|]. constructor; [exact Hw|constructor].
Qed.

Lemma run_wf : forall ws s, wf s -> Forall write_ok ws -> wf (run_ws ws s).
Proof.
  induction ws as [|w ws IH]; intros s H F; [assumption|]. inversion F; subst. cbn. apply IH; [|assumption].
  apply apply_wf; assumption.
Qed.

(** The effect of a call: its result when no statement fails, and its writes; when a statement
    fails a prefix of the writes has been made. *)
Definition prefix_of (ws : list write) (s : state) (d : db) : Prop :=
  exists k, d = db_of (run_ws (firstn k ws) s).
Definition Does {A} (s : state) (m : M graph_error A) (r : result graph_error A) (ws : list write) : Prop :=
  Runs SQL (db_of s) m r (db_of (run_ws ws s)) (prefix_of ws s).

Lemma prefix_0 : forall ws s, prefix_of ws s (db_of s).
Proof. intros. exists 0%nat. reflexivity. Qed.

Lemma prefix_app1 : forall ws ws' s d, prefix_of ws s d -> prefix_of (ws ++ ws') s d.
Proof.
  intros ws ws' s d (k & H). exists (Nat.min k (length ws)). rewrite H.
  destruct (Nat.le_ge_cases k (length ws)) as [L|L].
  - rewrite Nat.min_l by assumption. rewrite firstn_app. replace (k - length ws)%nat with 0%nat by lia.
    rewrite firstn_O, app_nil_r. reflexivity.
  - rewrite Nat.min_r by assumption. rewrite firstn_app, Nat.sub_diag, firstn_O, app_nil_r, firstn_all.
    rewrite firstn_all2 by assumption. reflexivity.
Qed.

Lemma run_ws_app : forall ws ws' s, run_ws (ws ++ ws') s = run_ws ws' (run_ws ws s).
Proof. intros. apply fold_left_app. Qed.

Lemma prefix_app2 : forall ws ws' s d, prefix_of ws' (run_ws ws s) d -> prefix_of (ws ++ ws') s d.
Proof.
  intros ws ws' s d (k & H). exists (length ws + k)%nat. rewrite H, firstn_app_2, run_ws_app. reflexivity.
Qed.

Lemma Does_bind : forall A B s (m : M graph_error A) a ws (f : A -> M graph_error B) r ws',
  Does s m (Ok a) ws -> Does (run_ws ws s) (f a) r ws' -> Does s (mbind m f) r (ws ++ ws').
Proof.
  intros A B s m a ws f r ws' H1 H2. unfold Does in *. rewrite run_ws_app. eapply Runs_bind.
  - eapply Runs_weaken; [|exact H1]. intros. apply prefix_app1. assumption.
  - eapply Runs_weaken; [|exact H2]. intros. apply prefix_app2. assumption.
Qed.

Lemma Does_reads : forall A B s (m : M graph_error A) a (f : A -> M graph_error B) r ws,
  Reads SQL (db_of s) m (Ok a) -> Does s (f a) r ws -> Does s (mbind m f) r ws.
Proof.
  intros A B s m a f r ws H1 H2. unfold Does. eapply Runs_bind; [|exact H2].
  apply Reads_Runs; [apply prefix_0|assumption].
Qed.

Lemma Does_reads_last : forall A s (m : M graph_error A) r, Reads SQL (db_of s) m r -> Does s m r [].
Proof. intros A s m r H. unfold Does. apply Reads_Runs; [apply prefix_0|assumption]. Qed.

Lemma Does_ret : forall A s (a : A), Does s (ret a) (Ok a) [].
Proof. intros. apply Runs_ret. Qed.
Lemma Does_throw : forall A s e, Does s (@throw graph_error A e) (Err e) [].
Proof. intros. apply Runs_throw. Qed.

Lemma Does_mmap : forall A B s (f : A -> B) (m : M graph_error A) r ws, Does s m r ws ->
  Does s (mmap f m) (map_ok f r) ws.
Proof.
  intros A B s f m r ws H fu. unfold mmap, mbind.
  destruct (H fu) as [(fu' & E & N)|(N & d'' & I & E)]; rewrite E.
  - left. exists fu'. destruct r; auto.
  - right. split; [assumption|]. exists d''. auto.
Qed.

(** The elementary writes. *)
Lemma gc_does : forall s now, Does s (st (remove_expired now)) (Ok tt) [W_gc now].
Proof.
  intros s now. unfold Does. cbn [run_ws fold_left].
  replace (db_of (apply_w s (W_gc now))) with (gc_db now (db_of s)).
  - apply st_runs. apply remove_expired_runs. apply prefix_0.
  - unfold gc_db, db_of. cbn. f_equal. rewrite filter_map. unfold gc. f_equal. apply filter_ext.
    intros x. rewrite expired_row_of. reflexivity.
Qed.

Lemma upd_does : forall s x, wf s -> rel_typed C x -> Does s (st (update_relation C x)) (Ok tt) [W_upd x].
Proof.
  intros s x H T. unfold Does.
  destruct (update_relation_runs C (db_of s) (rels s) (roots s) x (prefix_of [W_upd x] s) (wf_repr s H) T (prefix_0 _ _))
    as (d' & R & P).
  apply repr_db_of in P. subst d'. apply st_runs. exact R.
Qed.

Lemma root_does : forall s pk n, wf s -> pk_valid C pk ->
  Does s (set_root pk n) (Ok tt) [W_root pk (get_weight_factor n)].
Proof.
  intros s pk n H V. unfold Does, set_root.
  assert (F : get_weight_factor n < u32_bound) by (unfold get_weight_factor, MAX_WEIGHT_FACTOR, u32_bound; lia).
  destruct (set_root_weight_factor_runs C (db_of s) (rels s) (roots s) pk (get_weight_factor n)
      (prefix_of [W_root pk (get_weight_factor n)] s) (wf_repr s H) V F (prefix_0 _ _)) as (d' & R & P).
  apply repr_db_of in P. subst d'. apply st_runs. exact R.
Qed.

(** Queries. *)
Definition certs_of (s : state) (pk : public_key) : list certificate :=
  found_certs (rels s) (map fst (roots s)) pk.

Lemma filter_all : forall A (p : A -> bool) l, (forall x, In x l -> p x = true) -> filter p l = l.
Proof.
  induction l as [|x l IH]; intros H; [reflexivity|]. simpl. rewrite H by (left; reflexivity).
  rewrite IH; [reflexivity|]. intros; apply H; right; assumption.
Qed.

Lemma found_certs_len : forall rs rks pk c, In c (found_certs rs rks pk) -> (1 < length c)%nat.
Proof.
  intros rs rks pk c H. unfold found_certs in H. apply in_map_iff in H. destruct H as (p & <- & Hp).
  apply in_found_paths in Hp. destruct Hp as (_ & _ & _ & _ & _ & _ & _ & L). rewrite rev_length, map_length. assumption.
Qed.

Lemma certs_does : forall s pk now, wf s ->
  Does s (get_all_certs C pk now) (Ok (certs_of (apply_w s (W_gc now)) pk)) [W_gc now].
Proof.
  intros s pk now H. unfold get_all_certs.
  change [W_gc now] with ([W_gc now] ++ []). eapply Does_bind; [apply gc_does|]. cbn [run_ws fold_left].
  assert (H' : wf (apply_w s (W_gc now))) by (apply apply_wf; [assumption|exact I]).
  eapply Does_reads; [apply st_reads; eapply root_keys_reads; apply wf_repr; assumption|].
  eapply Does_reads; [eapply bf_search_paths_reads; apply wf_repr; assumption|].
  cbv beta.
  fold (found_certs (rels (apply_w s (W_gc now))) (map fst (roots (apply_w s (W_gc now)))) pk).
  rewrite filter_all.
  - apply Does_ret.
  - intros c Hc. apply Nat.ltb_lt. eapply found_certs_len. eassumption.
Qed.

Definition certs_from_of (s : state) (pk issuer : public_key) : list certificate :=
  filter (fun c : certificate => existsb (fun t => pk_eqb (issued_for t) issuer) c) (certs_of s pk).

Lemma certs_from_does : forall s pk i now, wf s ->
  Does s (get_all_certs_from C pk i now) (Ok (certs_from_of (apply_w s (W_gc now)) pk i)) [W_gc now].
Proof.
  intros s pk i now H. unfold get_all_certs_from. change [W_gc now] with ([W_gc now] ++ []).
  eapply Does_bind; [apply certs_does; assumption|]. apply Does_ret.
Qed.

(** Weights. *)
Definition cert_factor (ros : list (public_key * N)) (c : certificate) : N :=
  match c with
  | [] => 0
  | t :: _ => match root_factor ros (issued_for t) with
              | Some f => u32_sub (u32_add f (u32_of_nat (length c))) 1
              | None => 0
              end
  end.
Definition min_factor (ros : list (public_key * N)) (cs : list certificate) (acc : N) : N :=
  fold_left (fun acc c => N.min acc (cert_factor ros c)) cs acc.
Definition certs_weight (ros : list (public_key * N)) (cs : list certificate) : N :=
  match cs with [] => 0 | _ => get_weight_from_factor (min_factor ros cs u32_max) end.
Definition root_weight (ros : list (public_key * N)) (pk : public_key) : N :=
  match root_factor ros pk with Some f => get_weight_from_factor f | None => 0 end.

Lemma root_factor_some : forall ros k, In k (map fst ros) -> exists f, root_factor ros k = Some f.
Proof.
  intros ros k H. unfold root_factor. apply in_map_iff in H. destruct H as ((k' & f) & E & Hin). cbn in E. subst k'.
  destruct (find (fun kf => pk_eqb (fst kf) k) ros) as [[k' f']|] eqn:F; [exists f'; reflexivity|].
  exfalso. pose proof (find_none _ _ F _ Hin) as X. cbn in X. rewrite pk_eqb_refl in X. discriminate.
Qed.

Lemma min_factor_reads : forall s cs acc, wf s ->
  (forall c, In c cs -> exists t c', c = t :: c' /\ In (issued_for t) (map fst (roots s))) ->
  Reads SQL (db_of s) (certs_min_factor cs acc) (Ok (min_factor (roots s) cs acc)).
Proof.
  intros s cs acc H. revert acc. induction cs as [|c cs IH]; intros acc Hc; cbn [certs_min_factor].
  - apply Runs_ret.
  - destruct (Hc c (or_introl eq_refl)) as (t & c' & -> & Hr).
    destruct (root_factor_some _ _ Hr) as (f & Hf).
    eapply Runs_bind; [apply st_reads; eapply get_root_weight_factor_reads; apply wf_repr; eassumption|].
    cbv beta. rewrite Hf. unfold min_factor. cbn [fold_left]. unfold cert_factor at 2. rewrite Hf.
    apply IH. intros x Hx. apply Hc. right. assumption.
Qed.

Lemma certs_root : forall s pk c, wf s -> In c (certs_of s pk) ->
  exists t c', c = t :: c' /\ In (issued_for t) (map fst (roots s)).
Proof.
  intros s pk c H Hc. apply in_found_certs in Hc; [|apply wf_nodup; assumption].
  destruct Hc as [_ _ (t & T1 & T2 & _) _ _ _]. destruct c as [|t' c']; [discriminate|]. cbn in T1.
  injection T1 as ->. exists t, c'. auto.
Qed.

Lemma certs_factor_reads : forall s cs, wf s ->
  (forall c, In c cs -> exists t c', c = t :: c' /\ In (issued_for t) (map fst (roots s))) ->
  Reads SQL (db_of s) (certificates_weight_factor cs)
    (Ok (match cs with [] => None | _ => Some (min_factor (roots s) cs u32_max) end)).
Proof.
  intros s cs H Hc. unfold certificates_weight_factor. destruct cs as [|c cs]; [apply Runs_ret|].
  eapply Runs_bind; [apply min_factor_reads; assumption|]. apply Runs_ret.
Qed.

Definition weight_of (s : state) (pk : public_key) : N :=
  N.max (root_weight (roots s) pk) (certs_weight (roots s) (certs_of s pk)).
Definition weight_from_of (s : state) (pk i : public_key) : N :=
  certs_weight (roots s) (certs_from_of s pk i).

Lemma weight_does : forall s pk now, wf s ->
  Does s (weight C pk now) (Ok (weight_of (apply_w s (W_gc now)) pk)) [W_gc now].
Proof.
  intros s pk now H. unfold weight.
  assert (H' : wf (apply_w s (W_gc now))) by (apply apply_wf; [assumption|exact I]).
  eapply Does_reads; [apply st_reads; eapply get_root_weight_factor_reads; apply wf_repr; assumption|]. cbv beta zeta.
  change [W_gc now] with ([W_gc now] ++ []). eapply Does_bind; [apply certs_does; assumption|]. cbn [run_ws fold_left].
  eapply Does_reads; [apply certs_factor_reads; [assumption|]; intros c Hc; eapply certs_root; eassumption|].
  cbv beta. unfold weight_of, certs_weight, root_weight. cbn [roots apply_w].
  match goal with |- context [certs_of ?x pk] => destruct (certs_of x pk) as [|c cs] end.
  - rewrite N.max_0_r. apply Does_ret.
  - apply Does_ret.
Qed.

Lemma weight_from_does : forall s pk i now, wf s ->
  Does s (weight_from C pk i now) (Ok (weight_from_of (apply_w s (W_gc now)) pk i)) [W_gc now].
Proof.
  intros s pk i now H. unfold weight_from.
  assert (H' : wf (apply_w s (W_gc now))) by (apply apply_wf; [assumption|exact I]).
  change [W_gc now] with ([W_gc now] ++ []). eapply Does_bind; [apply certs_from_does; assumption|]. cbn [run_ws fold_left].
  eapply Does_reads; [apply certs_factor_reads; [assumption|]|].
  - intros c Hc. unfold certs_from_of in Hc. apply filter_In in Hc. eapply certs_root; [assumption|apply Hc].
  - cbv beta. unfold weight_from_of, certs_weight. cbn [roots apply_w].
    match goal with |- context [certs_from_of ?x pk i] => destruct (certs_from_of x pk i) as [|c cs] end; [apply Does_ret|].
    rewrite N.max_0_l. apply Does_ret.
Qed.

Definition next_weight_of (s : state) (by_pk for_pk : public_key) : N :=
  if pk_eqb by_pk for_pk then weight_of s by_pk else weight_of s by_pk / 2.

Lemma next_weight_does : forall s b f now, wf s ->
  Does s (get_next_weight C b f now) (Ok (next_weight_of (apply_w s (W_gc now)) b f)) [W_gc now].
Proof.
  intros s b f now H. unfold get_next_weight. change [W_gc now] with ([W_gc now] ++ []).
  eapply Does_bind; [apply weight_does; assumption|]. apply Does_ret.
Qed.

Lemma trust_rel_typed : forall t b, trust_typed t -> pk_valid C b -> rel_typed C (RAuth (mk_auth t b)).
Proof. intros t b (H1 & H2 & (H3 & _) & (H4 & _)) H. exact (conj H1 (conj H (conj H2 (conj H4 H3)))). Qed.
Lemma revocation_rel_typed : forall v, revocation_typed v -> rel_typed C (RRev v).
Proof.
  intros v (H1 & H2 & H3 & (H4 & _)). split; [exact H1|]. split; [exact H2|]. split; [exact H3|]. split; [exact H4|].
  reflexivity.
Qed.

(** add_trust. *)
Definition add_trust_sem (s : state) (t : trust) (b : public_key) (now : duration)
  : result graph_error N * list write :=
  match trust_verify C t b now with
  | Ok _ =>
      let w := next_weight_of (apply_w s (W_gc now)) b (issued_for t) in
      if w =? 0 then (Ok 0, [W_gc now]) else (Ok w, [W_gc now; W_upd (RAuth (mk_auth t b))])
  | Err e => (Err (GE_TrustVerification e), [])
  | Panic => (Panic, [])
  | OutOfFuel => (OutOfFuel, [])
  end.

Lemma add_trust_does : forall s t b now, wf s -> trust_typed t -> pk_valid C b ->
  Does s (add_trust C t b now) (fst (add_trust_sem s t b now)) (snd (add_trust_sem s t b now)).
Proof.
  intros s t b now H T V. unfold add_trust, add_trust_sem.
  destruct (trust_verify_total C t b now) as [E|(e & E)]; rewrite E; cbn [map_err].
  - eapply Does_reads; [apply Runs_lift|]. cbv beta.
    assert (H' : wf (apply_w s (W_gc now))) by (apply apply_wf; [assumption|exact I]).
    pose proof (next_weight_does s b (issued_for t) now H) as NW.
    destruct (next_weight_of (apply_w s (W_gc now)) b (issued_for t) =? 0) eqn:E0; cbn [fst snd].
    + change [W_gc now] with ([W_gc now] ++ []). eapply Does_bind; [exact NW|]. cbv beta. rewrite E0. apply Does_ret.
    + change [W_gc now; W_upd (RAuth (mk_auth t b))] with ([W_gc now] ++ [W_upd (RAuth (mk_auth t b))]).
      eapply Does_bind; [exact NW|]. cbv beta. rewrite E0.
      change [W_upd (RAuth (mk_auth t b))] with ([W_upd (RAuth (mk_auth t b))] ++ []).
      eapply Does_bind; [apply upd_does; [assumption|apply trust_rel_typed; assumption]|]. apply Does_ret.
  - cbn [fst snd]. unfold Does. cbn [run_ws fold_left]. eapply Runs_bind_err. apply Runs_lift.
Qed.

(** add. *)
Fixpoint add_chain_sem (s : state) (c : list trust) (b : public_key) (now : duration)
  : result graph_error unit * list write :=
  match c with
  | [] => (Ok tt, [])
  | t :: c' =>
      match add_trust_sem s t b now with
      | (Ok _, ws) =>
          match add_chain_sem (run_ws ws s) c' (issued_for t) now with
          | (r, ws') => (r, ws ++ ws')
          end
      | (Err e, ws) => (Err e, ws)
      | (Panic, ws) => (Panic, ws)
      | (OutOfFuel, ws) => (OutOfFuel, ws)
      end
  end.
Definition add_sem (s : state) (c : certificate) (now : duration) : result graph_error unit * list write :=
  match c with
  | [] => (Err GE_EmptyChain, [])
  | t :: _ => add_chain_sem s c (issued_for t) now
  end.

Lemma add_trust_sem_writes : forall s t b now, trust_typed t -> pk_valid C b ->
  Forall write_ok (snd (add_trust_sem s t b now)).
Proof.
  intros s t b now T V. unfold add_trust_sem. destruct (trust_verify C t b now); try constructor.
  cbv zeta. pose proof (trust_rel_typed t b T V) as X.
  destruct (_ =? 0); cbn [snd]; repeat constructor; apply X.
Qed.

Lemma Does_bind_err : forall A B s (m : M graph_error A) e (f : A -> M graph_error B) ws,
  Does s m (Err e) ws -> Does s (mbind m f) (Err e) ws.
Proof. intros. apply Runs_bind_err. assumption. Qed.
Lemma Does_bind_panic : forall A B s (m : M graph_error A) (f : A -> M graph_error B) ws,
  Does s m Panic ws -> Does s (mbind m f) Panic ws.
Proof. intros. apply Runs_bind_panic. assumption. Qed.

Lemma add_chain_does : forall c s b now, wf s -> Forall trust_typed c -> pk_valid C b ->
  Does s (add_chain C c b now) (fst (add_chain_sem s c b now)) (snd (add_chain_sem s c b now)).
Proof.
  induction c as [|t c IH]; intros s b now H F V; cbn [add_chain add_chain_sem].
  - apply Does_ret.
  - inversion F; subst. pose proof (add_trust_does s t b now H H2 V) as D.
    pose proof (add_trust_sem_writes s t b now H2 V) as W.
    unfold add_trust_sem in *. destruct (trust_verify_total C t b now) as [E|(e & E)]; rewrite E in *.
    + destruct (next_weight_of (apply_w s (W_gc now)) b (issued_for t) =? 0); cbn [fst snd] in *.
      * specialize (IH (run_ws [W_gc now] s) (issued_for t) now).
        destruct (add_chain_sem (run_ws [W_gc now] s) c (issued_for t) now) as [r ws'] eqn:Es. cbn [fst snd] in *.
        eapply Does_bind; [exact D|]. apply IH; [apply run_wf; assumption|assumption|apply H2].
      * specialize (IH (run_ws [W_gc now; W_upd (RAuth (mk_auth t b))] s) (issued_for t) now).
        destruct (add_chain_sem (run_ws [W_gc now; W_upd (RAuth (mk_auth t b))] s) c (issued_for t) now) as [r ws'] eqn:Es.
        cbn [fst snd] in *.
        eapply Does_bind; [exact D|]. apply IH; [apply run_wf; assumption|assumption|apply H2].
    + cbn [fst snd] in *. apply Does_bind_err. exact D.
Qed.

Lemma add_does : forall c s now, wf s -> Forall trust_typed c ->
  Does s (add C c now) (fst (add_sem s c now)) (snd (add_sem s c now)).
Proof.
  intros [|t c] s now H F; cbn [add add_sem].
  - apply Does_throw.
  - apply add_chain_does; try assumption. inversion F; subst. apply H2.
Qed.

Lemma add_chain_sem_writes : forall c s b now, Forall trust_typed c -> pk_valid C b ->
  Forall write_ok (snd (add_chain_sem s c b now)).
Proof.
  induction c as [|t c IH]; intros s b now F V; cbn [add_chain_sem]; [constructor|].
  inversion F; subst. pose proof (add_trust_sem_writes s t b now H1 V) as W.
  destruct (add_trust_sem s t b now) as [[x|e| |] ws]; cbn [snd] in *; try assumption.
  specialize (IH (run_ws ws s) (issued_for t) now H2 (proj1 H1)).
  destruct (add_chain_sem (run_ws ws s) c (issued_for t) now) as [r ws']. cbn [snd] in *.
  apply Forall_app. auto.
Qed.

Lemma add_sem_writes : forall c s now, Forall trust_typed c -> Forall write_ok (snd (add_sem s c now)).
Proof.
  intros [|t c] s now F; cbn [add_sem]; [constructor|]. apply add_chain_sem_writes; [assumption|]. inversion F; subst. apply H1.
Qed.

(** revoke. *)
Definition revoke_sem (v : revocation) : result graph_error unit * list write :=
  match revocation_verify C v with
  | Ok _ => (Ok tt, [W_upd (RRev v)])
  | Err e => (Err (GE_RevokeCheck e), [])
  | Panic => (Panic, [])
  | OutOfFuel => (OutOfFuel, [])
  end.

Lemma revocation_verify_total : forall v, revocation_verify C v = Ok tt \/ exists e, revocation_verify C v = Err e.
Proof.
  intros v. unfold revocation_verify.
  destruct (pk_verify_total C (revoked_by v) (revocation_signature_bytes C (rev_pk v) (revoked_at v)) (rev_sig v)) as [->|(e & ->)];
    [left; reflexivity|right; eexists; reflexivity].
Qed.

Lemma revoke_does : forall s v, wf s -> revocation_typed v ->
  Does s (revoke C v) (fst (revoke_sem v)) (snd (revoke_sem v)).
Proof.
  intros s v H T. unfold revoke, revoke_sem. destruct (revocation_verify_total v) as [E|(e & E)]; rewrite E; cbn [map_err fst snd].
  - eapply Does_reads; [apply Runs_lift|]. apply upd_does; [assumption|apply revocation_rel_typed; assumption].
  - apply Does_bind_err. unfold Does. apply Runs_lift.
Qed.

(** All calls. *)
Definition sem (s : state) (c : graph_call) : result graph_error graph_reply * list write :=
  match c with
  | G_set_root pk n => (Ok GR_unit, [W_root pk (get_weight_factor n)])
  | G_add_trust t b now => let (r, ws) := add_trust_sem s t b now in (map_ok GR_weight r, ws)
  | G_add c now => let (r, ws) := add_sem s c now in (map_ok (fun _ => GR_unit) r, ws)
  | G_weight pk now => (Ok (GR_weight (weight_of (apply_w s (W_gc now)) pk)), [W_gc now])
  | G_weight_from pk i now => (Ok (GR_weight (weight_from_of (apply_w s (W_gc now)) pk i)), [W_gc now])
  | G_get_all_certs pk now => (Ok (GR_certs (certs_of (apply_w s (W_gc now)) pk)), [W_gc now])
  | G_get_all_certs_from pk i now => (Ok (GR_certs (certs_from_of (apply_w s (W_gc now)) pk i)), [W_gc now])
  | G_revoke v => let (r, ws) := revoke_sem v in (map_ok (fun _ => GR_unit) r, ws)
  | G_get_revocations pk => (Ok (GR_revs (revs_of (rels s) pk)), [])
  end.

Lemma sem_writes : forall s c, call_typed c -> Forall write_ok (snd (sem s c)).
Proof.
  intros s c T. destruct c; cbn [sem]; cbn in T; try (repeat constructor; fail).
  - cbn [snd]. constructor; [|constructor]. split; [apply T|]. unfold get_weight_factor, MAX_WEIGHT_FACTOR, u32_bound. lia.
  - pose proof (add_trust_sem_writes s t by_pk now (proj1 T) (proj1 (proj2 T))) as W.
    destruct (add_trust_sem s t by_pk now). exact W.
  - pose proof (add_sem_writes c s now (proj1 T)) as W. destruct (add_sem s c now). exact W.
  - unfold revoke_sem. destruct (revocation_verify C v); cbn; try constructor; [|constructor].
    apply revocation_rel_typed. assumption.
Qed.

Lemma graph_do_does : forall s c, wf s -> call_typed c -> Does s (graph_do C c) (fst (sem s c)) (snd (sem s c)).
Proof.
  intros s c H T. destruct c; cbn [graph_do sem].
  - pose proof (Does_mmap _ _ _ (fun _ => GR_unit) _ _ _ (root_does s pk max_chain_len H (proj1 T))) as D. exact D.
  - pose proof (Does_mmap _ _ _ GR_weight _ _ _ (add_trust_does s t by_pk now H (proj1 T) (proj1 (proj2 T)))) as D.
    destruct (add_trust_sem s t by_pk now). exact D.
  - pose proof (Does_mmap _ _ _ (fun _ => GR_unit) _ _ _ (add_does c s now H (proj1 T))) as D.
    destruct (add_sem s c now). exact D.
  - pose proof (Does_mmap _ _ _ GR_weight _ _ _ (weight_does s pk now H)) as D. exact D.
  - pose proof (Does_mmap _ _ _ GR_weight _ _ _ (weight_from_does s pk issuer now H)) as D. exact D.
  - pose proof (Does_mmap _ _ _ GR_certs _ _ _ (certs_does s pk now H)) as D. exact D.
  - pose proof (Does_mmap _ _ _ GR_certs _ _ _ (certs_from_does s pk issuer now H)) as D. exact D.
  - pose proof (Does_mmap _ _ _ (fun _ => GR_unit) _ _ _ (revoke_does s v H T)) as D.
    destruct (revoke_sem v). exact D.
  - apply Does_mmap with (r := Ok (revs_of (rels s) pk)). apply Does_reads_last.
    apply st_reads. eapply get_revocations_reads. apply wf_repr. assumption.
Qed.

(** One step from a well-formed state, for every fuse. *)
Lemma graph_step_sem : forall s c fu, wf s -> call_typed c ->
  graph_step C (db_of s) (c, fu) = (fst (sem s c), db_of (run_ws (snd (sem s c)) s)) \/
  (fu <> None /\ exists k, graph_step C (db_of s) (c, fu) = (Err SQL, db_of (run_ws (firstn k (snd (sem s c))) s))).
Proof.
  intros s c fu H T. unfold graph_step. cbn [fst snd].
  destruct (graph_do_does s c H T fu) as [(fu' & E & _)|(N & d'' & (k & ->) & E)]; rewrite E; cbn [w_db].
  - left. reflexivity.
  - right. split; [assumption|]. exists k. reflexivity.
Qed.

Lemma firstn_forall : forall A (P : A -> Prop) k l, Forall P l -> Forall P (firstn k l).
Proof. intros A P k l H. revert k. induction H; intros [|k]; cbn; constructor; auto. Qed.

(** The writes a call may make, whatever the state. *)
(** The trusts a call tries to import, with the key they must be signed by. *)
Definition call_imports (c : graph_call) (t : trust) (b : public_key) : Prop :=
  match c with
  | G_add_trust t' b' _ => t = t' /\ b = b'
  | G_add ch _ => In (mk_auth t b) (cert_auths ch)
  | _ => False
  end.
Definition write_of (c : graph_call) (w : write) : Prop :=
  match w with
  | W_gc now => call_time c = Some now
  | W_upd (RAuth a) =>
      call_imports c (auth_trust a) (issued_by a) /\
      exists now, call_time c = Some now /\ trust_verify C (auth_trust a) (issued_by a) now = Ok tt
  | W_upd (RRev v) => c = G_revoke v /\ revocation_verify C v = Ok tt
  | W_root pk f => exists n, c = G_set_root pk n /\ f = get_weight_factor n
  end.

Lemma add_trust_sem_of : forall s t b now w, In w (snd (add_trust_sem s t b now)) ->
  w = W_gc now \/ (w = W_upd (RAuth (mk_auth t b)) /\ trust_verify C t b now = Ok tt).
Proof.
  intros s t b now w. unfold add_trust_sem. destruct (trust_verify_total C t b now) as [E|(e & E)]; rewrite E.
  - cbv zeta. destruct (_ =? 0); cbn; intuition congruence.
  - intros [].
Qed.

Lemma add_chain_sem_of : forall c s b now w, In w (snd (add_chain_sem s c b now)) ->
  w = W_gc now \/ (exists t b', w = W_upd (RAuth (mk_auth t b')) /\ In (mk_auth t b') (with_issuers b c) /\
                     trust_verify C t b' now = Ok tt).
Proof.
  induction c as [|t c IH]; intros s b now w; cbn [add_chain_sem]; [intros []|].
  pose proof (add_trust_sem_of s t b now) as A.
  destruct (add_trust_sem s t b now) as [[x|e| |] ws]; cbn [snd] in *;
    try (intros H; apply A in H; destruct H as [H|[H1 H2]]; [left; assumption|right]; exists t, b; cbn; auto; fail).
  pose proof (IH (run_ws ws s) (issued_for t) now w) as IH'.
  destruct (add_chain_sem (run_ws ws s) c (issued_for t) now) as [r ws']. cbn [snd] in *.
  intros H. apply in_app_or in H. destruct H as [H|H].
  - apply A in H. destruct H as [H|[H1 H2]]; [left; assumption|right]. exists t, b. cbn. auto.
  - apply IH' in H. destruct H as [H|(t' & b' & H1 & H2 & H3)]; [left; assumption|right].
    exists t', b'. cbn. auto.
Qed.

Lemma sem_write_of : forall s c w, In w (snd (sem s c)) -> write_of c w.
Proof.
  intros s c w H. destruct c; cbn [sem] in H; try (destruct H as [<-|[]]; reflexivity).
  - destruct H as [<-|[]]. cbn. eauto.
  - pose proof (add_trust_sem_of s t by_pk now w) as A. destruct (add_trust_sem s t by_pk now) as [r ws]. cbn [snd] in *.
    apply A in H. destruct H as [->|[-> V]]; [reflexivity|]. cbn. eauto.
  - unfold add_sem in H. destruct c as [|t c]; [destruct H|].
    pose proof (add_chain_sem_of (t :: c) s (issued_for t) now w) as A.
    destruct (add_chain_sem s (t :: c) (issued_for t) now) as [r ws]. cbn [snd] in *.
    apply A in H. destruct H as [->|(t' & b' & -> & Hin & V)]; [reflexivity|].
    cbn [write_of call_imports call_time auth_trust issued_by]. split; [exact Hin|]. eauto.
  - unfold revoke_sem in H. destruct (revocation_verify_total v) as [E|(e & E)]; rewrite E in H; cbn in H; [|destruct H].
    destruct H as [<-|[]]. cbn. auto.
  - destruct H.
Qed.

(** Every history from a well-formed state is a sequence of writes of its calls. *)
Definition writes_of (es : list (graph_call * option nat)) (ws : list write) : Prop :=
  Forall (fun w => exists e, In e es /\ call_typed (fst e) /\ write_of (fst e) w /\ write_ok w) ws.

Lemma in_firstn : forall A k (l : list A) x, In x (firstn k l) -> In x l.
Proof. intros A k l x H. rewrite <- (firstn_skipn k l). apply in_or_app. left. assumption. Qed.

Lemma step_writes : forall s c fu, wf s -> call_typed c ->
  exists ws, snd (graph_step C (db_of s) (c, fu)) = db_of (run_ws ws s) /\ writes_of [(c, fu)] ws.
Proof.
  intros s c fu H T.
  assert (X : forall k, writes_of [(c, fu)] (firstn k (snd (sem s c)))).
  { intros k. apply Forall_forall. intros w Hw. apply in_firstn in Hw. exists (c, fu). cbn [fst].
    split; [left; reflexivity|]. split; [assumption|]. split; [apply sem_write_of with (s := s); assumption|].
    pose proof (sem_writes s c T) as W. rewrite Forall_forall in W. apply W. assumption. }
  destruct (graph_step_sem s c fu H T) as [E|(N & k & E)]; rewrite E; cbn [snd].
  - exists (snd (sem s c)). split; [reflexivity|]. rewrite <- (firstn_all (snd (sem s c))). apply X.
  - eexists. split; [reflexivity|]. apply X.
Qed.

Lemma writes_of_ok : forall es ws, writes_of es ws -> Forall write_ok ws.
Proof. intros es ws H. eapply Forall_impl; [|exact H]. intros w (e & _ & _ & _ & W). exact W. Qed.

Lemma writes_of_incl : forall es es' ws, (forall e, In e es -> In e es') -> writes_of es ws -> writes_of es' ws.
Proof. intros es es' ws I H. eapply Forall_impl; [|exact H]. intros w (e & A & B). exists e. auto. Qed.

Lemma history_writes : forall es s, wf s -> Forall (fun e => call_typed (fst e)) es ->
  exists ws, graph_history C (db_of s) es = db_of (run_ws ws s) /\ writes_of es ws.
Proof.
  induction es as [|[c fu] es IH]; intros s H F.
  - exists []. split; [reflexivity|constructor].
  - inversion F; subst. cbn [fst] in H2. destruct (step_writes s c fu H H2) as (ws & E & W).
    assert (H' : wf (run_ws ws s)) by (apply run_wf; [assumption|eapply writes_of_ok; eassumption]).
    destruct (IH (run_ws ws s) H' H3) as (ws' & E' & W').
    exists (ws ++ ws'). split.
    + unfold graph_history in *. cbn [fold_left]. rewrite E, E', run_ws_app. reflexivity.
    + apply Forall_app. split; [eapply writes_of_incl; [|exact W]|eapply writes_of_incl; [|exact W']].
      * intros e [<-|[]]. left. reflexivity.
      * intros e He. right. assumption.
Qed.

Lemma reachable_state : forall d, reachable d -> exists es ws s,
  d = db_of s /\ wf s /\ s = run_ws ws empty_state /\ writes_of es ws.
Proof.
  intros d (es & F & <-). destruct (history_writes es empty_state wf_empty F) as (ws & E & W).
  exists es, ws, (run_ws ws empty_state). split; [exact E|]. split; [|auto].
  apply run_wf; [apply wf_empty|eapply writes_of_ok; eassumption].
Qed.

Lemma history_reachable : forall d es, reachable d -> Forall (fun e => call_typed (fst e)) es ->
  reachable (graph_history C d es).
Proof.
  intros d es (es0 & F & <-) F'. exists (es0 ++ es). split; [apply Forall_app; auto|].
  unfold graph_history. apply fold_left_app.
Qed.

(** Invariants, one write at a time. *)
Lemma run_invariant : forall (Q : state -> Prop) es,
  (forall s w c fu, wf s -> Q s -> In (c, fu) es -> call_typed c -> write_of c w -> write_ok w -> Q (apply_w s w)) ->
  forall ws s, writes_of es ws -> wf s -> Q s -> Q (run_ws ws s).
Proof.
  intros Q es QS ws. induction ws as [|w ws IH]; intros s W H Q0; [assumption|].
  inversion W; subst. destruct H2 as ([c fu] & A & B & D & E). cbn [fst] in *. cbn [run_ws fold_left].
  apply IH; [assumption|apply apply_wf; assumption|]. eapply QS; eassumption.
Qed.

Lemma reachable_invariant : forall (Q : state -> Prop), Q empty_state ->
  (forall s w c, wf s -> Q s -> call_typed c -> write_of c w -> write_ok w -> Q (apply_w s w)) ->
  forall d, reachable d -> exists s, d = db_of s /\ wf s /\ Q s.
Proof.
  intros Q Q0 QS d H. destruct (reachable_state d H) as (es & ws & s & E & W & Es & Wr).
  exists s. split; [assumption|]. split; [assumption|]. subst s.
  eapply run_invariant; [|exact Wr|apply wf_empty|exact Q0]. intros; eapply QS; eassumption.
Qed.

End WithCrypto.
