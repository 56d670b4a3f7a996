(** Rows in any order. PropsScan.v restates the properties. *)
From Coq Require Import List NArith ZArith Bool Lia Permutation.
From Verif Require Import Base BaseFacts Text Keys KeysFacts Trust TrustFacts Certificate Relation Storage StorageFacts Graph SearchFacts PathFacts
  Spec SpecFacts GraphFacts StateFacts ChainFacts AlikeFacts Toy Witness MachineSpec GraphThms MoreThms Scan ScanSpec ScanFacts.
Import ListNotations.
Open Scope N_scope.

Section Calls.
Variable C : crypto.
Local Notation wf := (wf C).
(** Certificates of a store that holds the same. *)
Definition certs_like (s : state) (pk : public_key) (cs : list certificate) : Prop := exists s', roots s' = roots s /\ alike C s s' /\ cs = certs_of s' pk.
Lemma certs_any : forall s pk now, wf s ->
  Alike s (fun o => get_all_certs_o C o pk now) (fun r => exists cs, r = Ok cs /\ certs_like (apply_w s (W_gc now)) pk cs) [W_gc now].
Proof.
  intros s pk now W. set (g := apply_w s (W_gc now)). assert (W' : wf g) by (apply apply_wf; [exact W|exact I]).
  exists ([db_of s] ++ [db_of g] ++ repeat (db_of g) (search_cost (rels g) pk) ++ []). intros o H. destruct (any_search C o g H W') as (s' & R & A & _ & T).
  exists (Ok (certs_of s' pk)). split; [exists (certs_of s' pk); split; [reflexivity|]; exists s'; auto|].
  unfold get_all_certs_o. eapply traced_bind; [apply gc_traced|]. eapply traced_bind; [apply roots_traced; exact W'|]. eapply traced_bind; [apply T|]. cbv beta.
  unfold certs_of. rewrite R. fold (found_certs (rels s') (map fst (roots g)) pk). rewrite filter_all; [apply traced_ret|].
  intros c I. apply Nat.ltb_lt. eapply found_certs_len. exact I.
Qed.
Lemma from_any : forall s pk i now, wf s ->
  Alike s (fun o => get_all_certs_from_o C o pk i now) (fun r => exists cs, r = Ok cs /\ exists s', roots s' = roots (apply_w s (W_gc now)) /\ alike C (apply_w s (W_gc now)) s' /\ cs = certs_from_of s' pk i) [W_gc now].
Proof.
  intros s pk i now W. change [W_gc now] with ([W_gc now] ++ []). unfold get_all_certs_from_o. eapply alike_bind; [apply certs_any; exact W|].
  exists []. intros o cs H (s' & R & A & ->). eexists. split; [|apply traced_ret]. eexists. split; [reflexivity|]. exists s'. auto.
Qed.
Lemma min_factor_traced : forall s cs acc, wf s -> (forall c, In c cs -> exists t c', c = t :: c' /\ In (issued_for t) (map fst (roots s))) ->
  Traced SQL (db_of s) (certs_min_factor cs acc) (repeat (db_of s) (length cs)) (Ok (min_factor (roots s) cs acc)) (db_of s).
Proof.
  intros s cs acc W. revert acc. induction cs as [|c cs IH]; intros acc Hc; cbn [certs_min_factor length repeat]; [apply traced_ret|].
  destruct (Hc c (or_introl eq_refl)) as (t & c' & -> & Hr). destruct (root_factor_some _ _ Hr) as (f & Hf).
  change (db_of s :: ?x) with ([db_of s] ++ x). eapply traced_bind; [apply (factor_traced C); exact W|]. cbv beta. rewrite Hf. unfold min_factor. cbn [fold_left]. unfold cert_factor at 2. rewrite Hf.
  apply IH. intros x I. apply Hc. right. exact I.
Qed.
Lemma factors_traced : forall s cs, wf s -> (forall c, In c cs -> exists t c', c = t :: c' /\ In (issued_for t) (map fst (roots s))) ->
  Traced SQL (db_of s) (certificates_weight_factor cs) (repeat (db_of s) (length cs)) (Ok (match cs with [] => None | _ => Some (min_factor (roots s) cs u32_max) end)) (db_of s).
Proof.
  intros s cs W Hc. unfold certificates_weight_factor. destruct cs as [|c cs]; [apply traced_ret|]. rewrite <- (app_nil_r (repeat _ _)).
  eapply traced_bind; [apply min_factor_traced; assumption|]. apply traced_ret.
Qed.
Lemma like_roots : forall s s' pk, wf s' -> roots s' = roots s -> forall c, In c (certs_of s' pk) -> exists t c', c = t :: c' /\ In (issued_for t) (map fst (roots s)).
Proof. intros s s' pk W R c I. rewrite <- R. eapply (certs_root C); eassumption. Qed.
Lemma weight_any : forall s pk now, wf s -> Alike s (fun o => weight_o C o pk now) (fun r => r = Ok (weight_of (apply_w s (W_gc now)) pk)) [W_gc now].
Proof.
  intros s pk now W. set (g := apply_w s (W_gc now)). assert (W' : wf g) by (apply apply_wf; [exact W|exact I]).
  change [W_gc now] with ([] ++ [W_gc now]). unfold weight_o. eapply alike_bind with (Q := fun x => x = root_factor (roots s) pk).
  { exists [db_of s]. intros o H. eexists. split; [eexists; split; reflexivity|]. apply (factor_traced C). exact W. }
  assert (X : exists tr, forall o, honest o -> exists r, r = Ok (weight_of g pk) /\ Traced SQL (db_of s) (let! cs := get_all_certs_o C o pk now in let! cf := certificates_weight_factor cs in
     ret (match cf with Some wf => N.max (match root_factor (roots s) pk with Some wf => get_weight_from_factor wf | None => 0 end) (get_weight_from_factor wf) | None => match root_factor (roots s) pk with Some wf => get_weight_from_factor wf | None => 0 end end)) tr r (db_of (run_ws [W_gc now] s))).
  { change [W_gc now] with ([W_gc now] ++ []). apply (alike_bind _ _ s (fun o => get_all_certs_o C o pk now) (certs_like g pk) [W_gc now] (fun cs o => let! cf := certificates_weight_factor cs in _) (fun r => r = Ok (weight_of g pk)) []); [apply certs_any; exact W|].
    exists (repeat (db_of g) (length (certs_of g pk)) ++ []). intros o cs H (s' & R & A & ->). eexists. split; [reflexivity|].
    assert (L : length (certs_of g pk) = length (certs_of s' pk)) by (apply Permutation_length, (alike_certs C); exact A). rewrite L. cbn [run_ws fold_left]. fold g.
    eapply traced_bind; [apply factors_traced; [exact W'|apply like_roots; [apply A|exact R]]|]. cbv beta. fold g.
    assert (E : weight_of g pk = N.max (match root_factor (roots s) pk with Some wf => get_weight_from_factor wf | None => 0 end) (certs_weight (roots g) (certs_of s' pk))).
    { unfold weight_of, root_weight. f_equal. apply certs_weight_alike; [reflexivity|]. apply (alike_certs C). exact A. }
    rewrite E. unfold certs_weight. destruct (certs_of s' pk); [rewrite N.max_0_r|]; apply traced_ret. }
  destruct X as (tr & X). exists tr. intros o x H ->. apply X. exact H.
Qed.
Lemma weight_from_any : forall s pk i now, wf s -> Alike s (fun o => weight_from_o C o pk i now) (fun r => r = Ok (weight_from_of (apply_w s (W_gc now)) pk i)) [W_gc now].
Proof.
  intros s pk i now W. set (g := apply_w s (W_gc now)). assert (W' : wf g) by (apply apply_wf; [exact W|exact I]).
  change [W_gc now] with ([W_gc now] ++ []). unfold weight_from_o. eapply alike_bind; [apply from_any; exact W|]. fold g.
  exists (repeat (db_of g) (length (certs_from_of g pk i)) ++ []). intros o cs H (s' & R & A & ->). eexists. split; [reflexivity|].
  assert (L : length (certs_from_of g pk i) = length (certs_from_of s' pk i)) by (apply Permutation_length, (alike_certs_from C); exact A). rewrite L. cbn [run_ws fold_left]. fold g.
  eapply traced_bind; [apply factors_traced; [exact W'|]|].
  - intros c I. apply (like_roots g s' pk); [apply A|exact R|]. unfold certs_from_of in I. apply filter_In in I. apply I.
  - cbv beta. assert (E : weight_from_of g pk i = certs_weight (roots g) (certs_from_of s' pk i)) by (unfold weight_from_of; apply certs_weight_alike; [reflexivity|apply (alike_certs_from C); exact A]).
    rewrite E. unfold certs_weight. destruct (certs_from_of s' pk i); [|rewrite N.max_0_l]; apply traced_ret.
Qed.
Lemma next_any : forall s b f now, wf s -> Alike s (fun o => get_next_weight_o C o b f now) (fun r => r = Ok (next_weight_of (apply_w s (W_gc now)) b f)) [W_gc now].
Proof.
  intros s b f now W. change [W_gc now] with ([W_gc now] ++ []). unfold get_next_weight_o. eapply alike_bind with (Q := fun w => w = weight_of (apply_w s (W_gc now)) b).
  - destruct (weight_any s b now W) as (tr & H). exists tr. intros o Ho. destruct (H o Ho) as (r & -> & T). eexists. split; [|exact T]. eauto.
  - exists []. intros o w H ->. eexists. split; [|apply traced_ret]. reflexivity.
Qed.
Lemma update_traced : forall s x, wf s -> rel_typed C x -> exists tr, Traced SQL (db_of s) (st (update_relation C x)) tr (Ok tt) (db_of (apply_w s (W_upd x))).
Proof.
  intros s x W T. pose proof (Runs_none _ _ _ _ _ _ _ _ (upd_does C s x W T)) as N. cbn [run_ws fold_left] in N.
  assert (G : Traced SE_SQLite (db_of s) (get_relation C (rel_issued_for x) (rel_issued_by x)) [db_of s] (Ok (find_rel (rels s) (rel_issued_for x) (rel_issued_by x))) (db_of s)).
  { pose proof (Runs_none _ _ _ _ _ _ _ _ (get_relation_reads C _ _ _ (rel_issued_for x) (rel_issued_by x) (wf_repr C s W))) as K.
    assert (X : exists r, Traced SE_SQLite (db_of s) (get_relation C (rel_issued_for x) (rel_issued_by x)) [db_of s] r (db_of s)).
    { unfold get_relation. change [db_of s] with ([db_of s] ++ []).
      destruct (find (fun r => bytes_eqb (r_by r) (pk_display (rel_issued_by x)) && bytes_eqb (r_for r) (pk_display (rel_issued_for x))) (tbl_relations (db_of s))) as [r|] eqn:F;
        eexists; (eapply traced_bind; [eapply traced_sql; rewrite F; reflexivity|]); [apply traced_pure|apply traced_ret]. }
    destruct X as (r & X). eapply traced_as; [exact X|exact K]. }
  assert (I : exists d', Traced SE_SQLite (db_of s) (insert x) [db_of s] (Ok tt) d') by (eexists; unfold insert; eapply traced_sql; reflexivity).
  destruct I as (d' & I). assert (X : exists tr r d2, Traced SE_SQLite (db_of s) (update_relation C x) tr r d2).
  { unfold update_relation. destruct (find_rel (rels s) (rel_issued_for x) (rel_issued_by x)) as [[a|v]|] eqn:F.
    - destruct (duration_ltb (issued_at (auth_trust a)) (rel_issued_at x)) eqn:L; eexists; eexists; eexists; (eapply traced_bind; [exact G|cbv beta iota; rewrite L; first [exact I|apply traced_ret]]).
    - destruct (duration_ltb (revoked_at v) (rel_issued_at x)) eqn:L; eexists; eexists; eexists; (eapply traced_bind; [exact G|cbv beta iota; rewrite L; first [exact I|apply traced_ret]]).
    - eexists. eexists. eexists. eapply traced_bind; [exact G|]. cbv beta iota. exact I. }
  destruct X as (tr & r & d2 & X). exists tr. eapply traced_as; [apply traced_st; exact X|exact N].
Qed.
Lemma add_trust_any : forall s t b now, wf s -> trust_typed C t -> pk_valid C b ->
  Alike s (fun o => add_trust_o C o t b now) (fun r => r = fst (add_trust_sem C s t b now)) (snd (add_trust_sem C s t b now)).
Proof.
  intros s t b now W T V. unfold add_trust_o, add_trust_sem. destruct (trust_verify_total C t b now) as [E|(e & E)]; rewrite E; cbn [map_err].
  - destruct (next_any s b (issued_for t) now W) as (tr & NW). cbv zeta.
    destruct (next_weight_of (apply_w s (W_gc now)) b (issued_for t) =? 0) eqn:E0; cbn [fst snd].
    + exists ([] ++ tr ++ []). intros o H. destruct (NW o H) as (r & -> & Tr). eexists. split; [reflexivity|]. eapply traced_bind; [apply traced_ret|]. eapply traced_bind; [exact Tr|]. cbv beta. rewrite E0. apply traced_ret.
    + assert (W' : wf (apply_w s (W_gc now))) by (apply apply_wf; [exact W|exact I]).
      destruct (update_traced (apply_w s (W_gc now)) (RAuth (mk_auth t b)) W' (trust_rel_typed C t b T V)) as (tu & U).
      exists ([] ++ tr ++ tu ++ []). intros o H. destruct (NW o H) as (r & -> & Tr). eexists. split; [reflexivity|]. eapply traced_bind; [apply traced_ret|]. eapply traced_bind; [exact Tr|]. cbv beta. rewrite E0.
      eapply traced_bind; [exact U|]. apply traced_ret.
  - cbn [fst snd]. exists []. intros o H. eexists. split; [reflexivity|]. apply traced_stop. apply (traced_pure _ _ _ _ (Err (GE_TrustVerification e))).
Qed.
Lemma add_chain_any : forall c s b now, wf s -> Forall (trust_typed C) c -> pk_valid C b ->
  Alike s (fun o => add_chain_o C o c b now) (fun r => r = fst (add_chain_sem C s c b now)) (snd (add_chain_sem C s c b now)).
Proof.
  induction c as [|t c IH]; intros s b now W F V; cbn [add_chain_o add_chain_sem].
  - exists []. intros o H. eexists. split; [reflexivity|]. apply traced_ret.
  - inversion F as [|? ? T F']; subst. destruct (add_trust_any s t b now W T V) as (tr & D). pose proof (add_trust_sem_writes C s t b now T V) as Wr.
    unfold add_trust_sem in *. destruct (trust_verify_total C t b now) as [E|(e & E)]; rewrite E in *; cbv zeta in *.
    + destruct (next_weight_of (apply_w s (W_gc now)) b (issued_for t) =? 0); cbn [fst snd] in *.
      * destruct (IH (run_ws [W_gc now] s) (issued_for t) now (run_wf C _ _ W Wr) F' (proj1 T)) as (tr' & K).
        destruct (add_chain_sem C (run_ws [W_gc now] s) c (issued_for t) now) as [r ws']. cbn [fst snd] in *. exists (tr ++ tr'). intros o H. destruct (D o H) as (x & -> & D1). destruct (K o H) as (y & -> & K1).
        eexists. split; [reflexivity|]. rewrite run_ws_app. eapply traced_bind; [exact D1|exact K1].
      * destruct (IH (run_ws [W_gc now; W_upd (RAuth (mk_auth t b))] s) (issued_for t) now (run_wf C _ _ W Wr) F' (proj1 T)) as (tr' & K).
        destruct (add_chain_sem C (run_ws [W_gc now; W_upd (RAuth (mk_auth t b))] s) c (issued_for t) now) as [r ws']. cbn [fst snd] in *. exists (tr ++ tr'). intros o H. destruct (D o H) as (x & -> & D1). destruct (K o H) as (y & -> & K1).
        eexists. split; [reflexivity|]. rewrite run_ws_app. eapply traced_bind; [exact D1|exact K1].
    + cbn [fst snd] in *. exists tr. intros o H. destruct (D o H) as (x & -> & D1). eexists. split; [reflexivity|]. apply traced_stop. exact D1.
Qed.
Lemma add_any : forall c s now, wf s -> Forall (trust_typed C) c -> Alike s (fun o => add_o C o c now) (fun r => r = fst (add_sem C s c now)) (snd (add_sem C s c now)).
Proof.
  intros [|t c] s now W F; cbn [add_o add_sem].
  - exists []. intros o H. eexists. split; [reflexivity|]. apply (traced_pure _ _ _ _ (Err GE_EmptyChain)).
  - apply add_chain_any; [exact W|exact F|]. inversion F as [|? ? T ?]; subst. apply T.
Qed.
Lemma alike_mmap : forall A B s (f : A -> B) (m : scan -> M graph_error A) (P : result graph_error A -> Prop) (Q : result graph_error B -> Prop) ws, Alike s m P ws -> (forall r, P r -> Q (map_ok f r)) -> Alike s (fun o => mmap f (m o)) Q ws.
Proof. intros A B s f m P Q ws (tr & H) K. exists tr. intros o Ho. destruct (H o Ho) as (r & Pr & T). exists (map_ok f r). split; [apply K; exact Pr|]. apply traced_mmap. exact T. Qed.
Lemma call_any : forall s c, wf s -> call_typed C c -> Alike s (fun o => graph_do_o C o c) (fun r => same_answer r (fst (sem C s c))) (snd (sem C s c)).
Proof.
  intros s c W T. destruct c; cbn [graph_do_o sem].
  - eapply alike_mmap with (P := fun r => r = Ok tt); [|intros r ->; reflexivity]. exists [db_of s]. intros o H. eexists. split; [reflexivity|].
    eapply traced_as; [apply traced_st; eapply traced_sql; reflexivity|]. exact (Runs_none _ _ _ _ _ _ _ _ (root_does C s pk max_chain_len W (proj1 T))).
  - pose proof (add_trust_any s t by_pk now W (proj1 T) (proj1 (proj2 T))) as D. destruct (add_trust_sem C s t by_pk now) as [r ws]. cbn [fst snd] in *. eapply alike_mmap; [exact D|]. intros r' ->. destruct r; reflexivity.
  - pose proof (add_any c s now W (proj1 T)) as D. destruct (add_sem C s c now) as [r ws]. cbn [fst snd] in *. eapply alike_mmap; [exact D|]. intros r' ->. destruct r; reflexivity.
  - cbn [fst snd]. eapply alike_mmap; [apply weight_any; exact W|]. intros r ->. reflexivity.
  - cbn [fst snd]. eapply alike_mmap; [apply weight_from_any; exact W|]. intros r ->. reflexivity.
  - cbn [fst snd]. eapply alike_mmap; [apply certs_any; exact W|]. intros r (cs & -> & s' & R & A & ->). cbn [map_ok same_answer]. apply (alike_certs C), alike_sym. exact A.
  - cbn [fst snd]. eapply alike_mmap; [apply from_any; exact W|]. intros r (cs & -> & s' & R & A & ->). cbn [map_ok same_answer]. apply (alike_certs_from C), alike_sym. exact A.
  - eapply alike_mmap with (P := fun r => r = fst (revoke_sem C v)); [|destruct (revoke_sem C v) as [[x|x| |] ws]; intros r ->; reflexivity].
    unfold revoke, revoke_sem. destruct (revocation_verify_total C v) as [E|(e & E)]; rewrite E; cbn [map_err map_ok fst snd].
    + destruct (update_traced s (RRev v) W (revocation_rel_typed C v T)) as (tr & U). exists ([] ++ tr). intros o H. eexists. split; [reflexivity|]. eapply traced_bind; [apply traced_ret|exact U].
    + exists []. intros o H. eexists. split; [reflexivity|]. apply traced_stop. apply (traced_pure _ _ _ _ (Err (GE_RevokeCheck e))).
  - cbn [fst snd]. eapply alike_mmap with (P := fun r => exists vs, r = Ok vs /\ Permutation vs (revs_of (rels s) pk)).
    + exists [db_of s]. intros o H. destruct (any_search C o s H W) as (s' & R & A & V & _). eexists. split; [|apply V]. eexists. split; [reflexivity|]. apply (alike_revs C), alike_sym. exact A.
    + intros r (vs & -> & P). exact P.
Qed.
End Calls.

(** ** C180 *)
Lemma honest_by_row : honest by_row.
Proof. intros d k ty. apply Permutation_refl. Qed.
Lemma honest_backwards : honest backwards.
Proof. intros d k ty. apply Permutation_sym, Permutation_rev. Qed.
Lemma by_row_step : forall C d e, graph_step_o C by_row d e = graph_step C d e.
Proof. reflexivity. Qed.
Lemma any_step : forall C o s c fu, wf C s -> call_typed C c -> honest o ->
  same_answer (fst (graph_step_o C o (db_of s) (c, fu))) (fst (graph_step C (db_of s) (c, fu))) /\ snd (graph_step_o C o (db_of s) (c, fu)) = snd (graph_step C (db_of s) (c, fu)).
Proof.
  intros C o s c fu W T H. destruct (call_any C s c W T) as (tr & K). destruct (K o H) as (r & S & T1). destruct (K by_row honest_by_row) as (r' & S' & T2).
  rewrite <- (by_row_step C). unfold graph_step_o. cbn [fst snd]. rewrite (T1 fu), (T2 fu).
  assert (Sa : same_answer r r').
  { destruct r as [[| |cs|vs]|e| |], r' as [[| |cs'|vs']|e'| |], (fst (sem C s c)) as [[| |cs0|vs0]|e0| |]; cbn [same_answer] in *; try congruence; (eapply Permutation_trans; [exact S|apply Permutation_sym; exact S']). }
  destruct fu as [k|]; [|split; [exact Sa|reflexivity]]. destruct (nth_error tr k); [split; reflexivity|split; [exact Sa|reflexivity]].
Qed.
(** Whatever order the database gives rows in, query by query, a history leaves the database that it leaves with the rows in the order of the table, and every call answers the same, with lists of certificates and of revocations up to their order; failures of statements included. *)
Lemma p_C180_any_order : forall C es d, reachable C d -> Forall (fun e : scanned => call_typed C (fst (fst e)) /\ honest (snd e)) es ->
  Forall2 same_answer (fst (scanned_run C d es)) (answers C d (map fst es)) /\ snd (scanned_run C d es) = graph_history C d (map fst es).
Proof.
  intros C es d R. apply reachable_inv in R. destruct R as (s & -> & I). assert (W : wf C s) by apply I. clear I. revert s W.
  induction es as [|[[c fu] o] es IH]; intros s W F; [split; [constructor|reflexivity]|]. inversion F as [|? ? [T H] F']; subst. cbn [fst snd] in T, H.
  destruct (any_step C o s c fu W T H) as [S E]. cbn [scanned_run map fst answers graph_history fold_left]. destruct (graph_step_o C o (db_of s) (c, fu)) as [r d1]. cbn [fst snd] in S, E. subst d1.
  assert (N : exists s', snd (graph_step C (db_of s) (c, fu)) = db_of s' /\ wf C s').
  { destruct (graph_step_sem C s c fu W T) as [X|[_ (k & X)]]; rewrite X; cbn [snd]; eexists; (split; [reflexivity|]); apply run_wf; try exact W; [apply sem_writes; exact T|apply firstn_forall, sem_writes; exact T]. }
  destruct N as (s' & -> & W'). destruct (IH s' W' F') as [I1 I2]. destruct (scanned_run C (db_of s') es) as [rs d2]. cbn [fst snd] in *. split; [constructor; assumption|exact I2].
Qed.
(** In every order, too, certificates come shorter ones first and without repetition. *)
Lemma p_C180_shorter_first : forall C o d pk now fu cs d', reachable C d -> call_typed C (G_get_all_certs pk now) -> honest o ->
  graph_step_o C o d (G_get_all_certs pk now, fu) = (Ok (GR_certs cs), d') ->
  NoDup cs /\ forall i j a b, (i < j)%nat -> nth_error cs i = Some a -> nth_error cs j = Some b -> (length a <= length b)%nat.
Proof.
  intros C o d pk now fu cs d' R T H E. apply reachable_inv in R. destruct R as (s & -> & I). assert (W : wf C s) by apply I.
  destruct (certs_any C s pk now W) as (tr & K). destruct (K o H) as (r & (cs0 & -> & s' & Ro & A & ->) & Tr).
  unfold graph_step_o in E. cbn [fst snd graph_do_o] in E. rewrite (traced_mmap _ _ _ _ GR_certs _ _ _ _ Tr fu) in E. assert (X : cs = certs_of s' pk).
  { destruct fu as [k|]; [destruct (nth_error tr k); [discriminate|]|]; cbn [map_ok] in E; injection E as <- _; reflexivity. }
  subst cs. split; [apply found_certs_nodup; apply (wf_nodup C); apply A|apply found_certs_sorted].
Qed.
(** The certificates of [diamond] come in the other order when every query gives its rows backwards. *)
Example e_C180_backwards : exists a b : certificate, a <> b /\
  nth_error (fst (scanned_run (toy false) empty_db (map (fun c => (c, None, by_row)) diamond))) 6 = Some (Ok (GR_certs [a; b])) /\
  nth_error (fst (scanned_run (toy false) empty_db (map (fun c => (c, None, backwards)) diamond))) 6 = Some (Ok (GR_certs [b; a])).
Proof.
  exists [toy_trust R R 1000 1; toy_trust R A 900 1; toy_trust A B 800 1], [toy_trust R R 1000 1; toy_trust R D 900 1; toy_trust D B 800 1].
  split; [intros X; injection X; discriminate|]. split; vm_compute; reflexivity.
Qed.
(** It meets the hypotheses. *)
Example e_C180_hypotheses : reachable (toy false) empty_db /\ Forall (fun e : scanned => call_typed (toy false) (fst (fst e)) /\ honest (snd e)) (map (fun c => (c, None, backwards)) diamond).
Proof.
  split; [exists []; split; [constructor|reflexivity]|].
  assert (T : Forall (call_typed (toy false)) diamond) by (unfold diamond, base; cbn [app]; typed1).
  induction T as [|c cs T1 T2 IH]; [constructor|]. constructor; [|exact IH]. split; [exact T1|exact honest_backwards].
Qed.
