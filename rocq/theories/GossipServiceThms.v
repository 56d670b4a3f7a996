(** Nodes whose services are sent the same records of trusts: C179. *)
From Coq Require Import List NArith ZArith Bool Lia Permutation ZifyBool ZifyNat ZifyN.
From Verif Require Import Base BaseFacts Text Keys KeysFacts Trust TrustFacts Certificate Relation Storage StorageFacts Graph Service ServiceFacts ServiceThms
  Spec SpecFacts StateFacts ChainFacts GraphFacts GraphThms ServiceSpec InfluenceSpec VisitorSpec MachineSpec ServiceMachine MachineThms VisitorThms CopySpec CopyThms
  CopyServiceSpec CopyServiceThms GossipSpec GossipThms GossipServiceSpec MoreThms Witness ServiceWitness Toy ToyFacts.
Import ListNotations.
Open Scope N_scope.

(** ** The time of an offer does not matter while nothing runs out *)
Section Times.
Variable C : crypto.
Variables lo hi : N.
Variable T : list piece.
Hypothesis Bounds : lo <= hi < i64_bound.
Hypothesis Nw : news C (from_secs hi) T.
Lemma expired_between : forall ts x, lo <= ts <= hi -> (db_expired (from_secs hi) x -> db_expired (from_secs lo) x) ->
  (db_expired (from_secs ts) x <-> db_expired (from_secs hi) x).
Proof.
  intros ts x Ht St. split; intros H.
  - apply (expired_mono (from_secs ts)); [split; cbn [from_secs secs]; lia|exact H].
  - apply (expired_mono (from_secs lo)); [split; cbn [from_secs secs]; lia|exact (St H)].
Qed.
Lemma steady_gc : forall s ts, inv C s -> steady (db_of s) lo hi -> lo <= ts <= hi -> gc (from_secs ts) (rels s) = gc (from_secs hi) (rels s).
Proof.
  intros s ts I St Ht. apply filter_ext_in. intros x Ix. f_equal. apply (stored_in C s x (inv_wf C s I)) in Ix.
  pose proof (expired_between ts x Ht (St x Ix)) as E. rewrite <- !db_expired_iff in E. destruct (expired (from_secs ts) x), (expired (from_secs hi) x); intuition congruence.
Qed.
Lemma news_good : forall t b ts, In (t, b) T -> lo <= ts <= hi -> trust_verify C t b (from_secs ts) = Ok tt.
Proof.
  intros t b ts I Ht. destruct (proj1 Nw t b I) as (_ & _ & Sg & _ & Ex). apply trust_verify_exact. split; [|exact Sg].
  unfold before. cbn [from_secs secs nanos] in *. lia.
Qed.
Lemma offer_typed : forall t b ts, In (t, b) T -> lo <= ts <= hi -> call_typed C (G_add_trust t b (from_secs ts)).
Proof.
  intros t b ts I Ht. destruct (proj1 Nw t b I) as (Ty & Vb & _). split; [exact Ty|]. split; [exact Vb|]. apply from_secs_wf. unfold i64_bound, u64_bound in *. lia.
Qed.
Lemma offer_any_time : forall d p ts, reachable C d -> steady d lo hi -> In p T -> lo <= ts <= hi ->
  graph_step C d (offer (from_secs ts) p, None) = graph_step C d (offer (from_secs hi) p, None) /\ steady (snd (graph_step C d (offer (from_secs ts) p, None))) lo hi.
Proof.
  intros d [t b] ts R St Ip Ht. apply reachable_inv in R. destruct R as (s & -> & I). unfold offer. cbn [fst snd].
  assert (Hh : lo <= hi <= hi) by lia.
  pose proof (offer_typed t b ts Ip Ht) as T1. pose proof (offer_typed t b hi Ip Hh) as T2.
  rewrite (step_none C s _ I T1), (step_none C s _ I T2). cbn [sem]. unfold add_trust_sem.
  rewrite (news_good t b ts Ip Ht), (news_good t b hi Ip Hh). cbn [apply_w]. rewrite (steady_gc s ts I St Ht). cbv zeta. cbn [snd].
  set (w := next_weight_of _ _ _). split.
  - destruct (w =? 0); cbn [fst snd run_ws fold_left apply_w]; rewrite (steady_gc s ts I St Ht); reflexivity.
  - assert (Sg : forall x, In x (gc (from_secs hi) (rels s)) -> db_expired (from_secs hi) x -> db_expired (from_secs lo) x).
    { intros x Ix. apply in_gc in Ix. destruct Ix as [_ Ix]. tauto. }
    set (ws := snd _).
    assert (W : Forall (write_ok C) ws).
    { pose proof (sem_writes C s (G_add_trust t b (from_secs ts)) T1) as W. unfold ws. clear - W Nw Ip Ht Bounds St I. cbn [sem] in W. unfold add_trust_sem in W.
      rewrite (news_good t b ts Ip Ht) in W. cbn [apply_w] in W. rewrite (steady_gc s ts I St Ht) in W. exact W. }
    pose proof (run_wf C ws s (inv_wf C s I) W) as I'. intros x Hx. apply (stored_in C _ x I') in Hx. revert Hx. unfold ws.
    destruct (w =? 0); cbn [fst snd run_ws fold_left apply_w]; rewrite (steady_gc s ts I St Ht); cbn [rels]; [apply Sg|].
    intros Hx. apply in_upd in Hx; [|apply (wf_nodup C (apply_w s (W_gc (from_secs hi)))); apply gc_wf; apply I].
    destruct Hx as [[_ Hx]|[(_ & Hx & _)|[-> _]]]; [apply Sg; exact Hx|apply Sg; exact Hx|].
    intros Ex. exfalso. destruct (proj1 Nw t b Ip) as (_ & _ & _ & Wh & E1 & E2). cbn [whole] in Ex. 
    change (db_expired (from_secs hi) (RAuth (mk_auth (whole_trust t) b))) in Ex. rewrite Wh in Ex. apply db_expired_small in Ex; [|exact E2|cbn [from_secs secs]; lia]. lia.
Qed.
Lemma offers_any_time : forall h d, reachable C d -> steady d lo hi -> (forall p ts, In (p, ts) h -> In p T /\ lo <= ts <= hi) ->
  graph_history C d (no_failures (map (fun x => offer (from_secs (snd x)) (fst x)) h)) = graph_history C d (no_failures (map (offer (from_secs hi)) (map fst h))).
Proof.
  induction h as [|[p ts] h IH]; intros d R St H; [reflexivity|]. destruct (H p ts (or_introl eq_refl)) as [Ip Ht].
  destruct (offer_any_time d p ts R St Ip Ht) as [E St']. unfold graph_history in *. cbn [map no_failures fold_left fst snd] in *. rewrite <- E.
  apply IH; [|exact St'|intros q u Iq; apply H; right; exact Iq]. apply reachable_step; [exact R|]. destruct p as [t b]. apply offer_typed; assumption.
Qed.
End Times.

(** ** Posts *)
(** The event passes on the record of the piece. *)
Definition passes_on (C : crypto) (lo hi : N) (T : list piece) (e : service_event) (h : piece * N) : Prop :=
  exists cp x, e = (cp, S_add_trust (fst x) (snd x) (snd h), None) /\ host_time cp 2 /\ dt_issued_at (fst x) <= snd h /\ lo <= snd h <= hi /\ stands_for C x (fst h) /\ In (fst h) T.
Lemma stands_fun : forall C x p q, stands_for C x p -> stands_for C x q -> p = q.
Proof.
  intros C x [t b] [t' b'] [H1 H2] [K1 K2]. cbn [fst snd] in *. apply trust_of_dto_ok in H1, K1. rewrite H1 in K1. injection K1 as <-.
  rewrite (peer_key_fun C _ _ _ H2 K2). reflexivity.
Qed.
Lemma Forall2_in : forall X Y (R : X -> Y -> Prop) xs ys, Forall2 R xs ys -> (forall x, In x xs -> exists y, In y ys /\ R x y) /\ (forall y, In y ys -> exists x, In x xs /\ R x y).
Proof.
  intros X Y R xs ys H. induction H as [|x y xs ys H1 H2 [IH1 IH2]]; [split; intros ? []|]. split.
  - intros z [<-|I]; [exists y; split; [left; reflexivity|exact H1]|]. destruct (IH1 z I) as (u & Iu & Hu). exists u. split; [right; exact Iu|exact Hu].
  - intros z [<-|I]; [exists x; split; [left; reflexivity|exact H1]|]. destruct (IH2 z I) as (u & Iu & Hu). exists u. split; [right; exact Iu|exact Hu].
Qed.
Lemma posting_passes : forall C lo hi ns T es, Forall2 (stands_for C) ns T -> posting ns lo hi es ->
  exists h, Forall2 (passes_on C lo hi T) es h /\ a_round T (map fst h).
Proof.
  intros C lo hi ns T es F [P1 P2]. destruct (Forall2_in _ _ _ _ _ F) as [F1 F2].
  assert (Ex : exists h, Forall2 (passes_on C lo hi T) es h).
  { clear P2. induction es as [|e es IH]; [exists []; constructor|]. destruct IH as (h & Hh); [intros e' Ie; apply P1; right; exact Ie|].
    destruct (P1 e (or_introl eq_refl)) as (x & Ix & cp & ts & -> & Ht & Hi & Hb). destruct (F1 x Ix) as (p & Ip & Sp). exists ((p, ts) :: h). constructor; [|exact Hh].
    exists cp, x. repeat (split; [first [reflexivity|assumption]|]). exact Ip. }
  destruct Ex as (h & Hh). exists h. split; [exact Hh|]. destruct (Forall2_in _ _ _ _ _ Hh) as [H1 H2]. intros p. split.
  - intros I. apply in_map_iff in I. destruct I as ([q ts] & <- & I). destruct (H2 _ I) as (e & _ & cp & x & _ & _ & _ & _ & _ & It). exact It.
  - intros I. destruct (F2 p I) as (x & Ix & Sx). destruct (P2 x Ix) as (e & Ie & cp & ts & -> & _). destruct (H1 _ Ie) as ((q & u) & Iq & cp' & y & E & _ & _ & _ & Sy & _).
    injection E as _ E1 E2 _. cbn [fst] in Sy. apply in_map_iff. exists (q, u). split; [|exact Iq]. cbn [fst]. apply (stands_fun C x); [|exact Sx].
    destruct x, y. cbn [fst snd] in *. subst. exact Sy.
Qed.
Lemma passes_run : forall C lo hi T es h, crypto_laws C -> wasm32 C = true -> lo <= hi < i64_bound -> news C (from_secs hi) T -> Forall2 (passes_on C lo hi T) es h ->
  forall d, service_reachable C d -> service_history C d es = graph_history C d (no_failures (map (fun x => offer (from_secs (snd x)) (fst x)) h)) /\
  service_reachable C (service_history C d es) /\ (forall p ts, In (p, ts) h -> In p T /\ lo <= ts <= hi) /\ length es = length h.
Proof.
  intros C lo hi T es h L W Bd Nw H. induction H as [|e [p ts] es h (cp & x & -> & Ht & Hi & Hb & Sx & Ip) H IH]; intros d R.
  { split; [reflexivity|]. split; [exact R|]. split; [intros p ts []|reflexivity]. }
  cbn [fst snd] in *.
  assert (Ty : service_typed (S_add_trust (fst x) (snd x) ts)).
  { destruct p as [t b]. destruct (proj1 Nw t b Ip) as ((_ & _ & (W1 & _) & (W2 & _)) & _). destruct Sx as [(_ & E1 & E2 & _) _]. cbn [fst] in E1, E2. rewrite E1 in *. rewrite E2 in *. cbn in W1, W2.
    split; [split; assumption|]. unfold i64_bound, u64_bound in *. lia. }
  assert (Rq : requests C cp (S_add_trust (fst x) (snd x) ts) (offer (from_secs ts) p)) by (destruct Sx as [S1 S2]; split; [exact S1|split; [exact S2|reflexivity]]).
  pose proof (service_reachable_step C d cp (S_add_trust (fst x) (snd x) ts) None Ty R) as R1. destruct (service_step C d (cp, S_add_trust (fst x) (snd x) ts, None)) as [r d'] eqn:E. cbn [snd] in R1.
  assert (Ed : snd (graph_step C d (offer (from_secs ts) p, None)) = d').
  { destruct (p_C66_admitted_calls C d cp _ _ None r d' L W R Ty (conj Ht Hi : admitted cp (S_add_trust (fst x) (snd x) ts)) Rq E) as [(? & ? & Eg & _)|(? & Eg & _)]; rewrite Eg; reflexivity. }
  destruct (IH d' R1) as (IH1 & IH2 & IH3 & IH4).
  assert (Eh : service_history C d (((cp, S_add_trust (fst x) (snd x) ts, None) : service_event) :: es) = service_history C d' es) by (unfold service_history; cbn [fold_left]; rewrite E; reflexivity).
  split; [|split; [|split]].
  - rewrite Eh, IH1. unfold graph_history. cbn [no_failures map fold_left fst snd]. rewrite Ed. reflexivity.
  - rewrite Eh. exact IH2.
  - intros q u [I|I]; [injection I as <- <-; auto|exact (IH3 q u I)].
  - cbn [length]. f_equal. exact IH4.
Qed.
Lemma steady_contents : forall d d' lo hi, same_contents d d' -> steady d lo hi -> steady d' lo hi.
Proof. intros d d' lo hi [S0 _] H x Hx. apply H. apply S0. exact Hx. Qed.
Lemma Forall2_concat : forall X Y (R : X -> Y -> Prop) xs ys, Forall2 (Forall2 R) xs ys -> Forall2 R (concat xs) (concat ys).
Proof. intros X Y R xs ys H. induction H; cbn [concat]; [constructor|]. apply Forall2_app; assumption. Qed.
Lemma Forall2_len : forall X Y (R : X -> Y -> Prop) xs ys, Forall2 R xs ys -> length xs = length ys.
Proof. intros X Y R xs ys H. induction H; [reflexivity|]. cbn [length]. f_equal. exact IHForall2. Qed.
Lemma offers_count : forall now h, list_sum (map (fun e : graph_call * option nat => offered (fst e)) (no_failures (map (offer now) h))) = length h.
Proof. intros now h. unfold list_sum. induction h as [|p h IH]; [reflexivity|]. cbn [map no_failures fold_right length fst offer offered]. rewrite <- IH. reflexivity. Qed.

(** Rounds of posts are rounds of offers at the last time. *)
Lemma rounds_run : forall C d lo hi ns T rs, crypto_laws C -> wasm32 C = true -> service_reachable C d -> lo <= hi < i64_bound -> steady d lo hi ->
  Forall2 (stands_for C) ns T -> news C (from_secs hi) T -> (forall r, In r rs -> posting ns lo hi r) -> room d (length (concat rs) + length ns) ->
  exists qs, (forall q, In q qs -> a_round T q) /\ length qs = length rs /\ few d (no_failures (map (offer (from_secs hi)) (concat qs ++ T))) /\
    service_history C d (concat rs) = graph_history C d (no_failures (map (offer (from_secs hi)) (concat qs))) /\ service_reachable C (service_history C d (concat rs)).
Proof.
  intros C d lo hi ns T rs L W R Bd St F Nw P Rm.
  assert (Ex : exists hs, Forall2 (Forall2 (passes_on C lo hi T)) rs hs /\ forall h, In h hs -> a_round T (map fst h)).
  { clear Rm. induction rs as [|r rs IH]; [exists []; split; [constructor|intros h []]|]. destruct IH as (hs & H1 & H2); [intros r' Ir; apply P; right; exact Ir|].
    destruct (posting_passes C lo hi ns T r F (P r (or_introl eq_refl))) as (h & Hh & Rh). exists (h :: hs). split; [constructor; assumption|]. intros h' [<-|Ih]; [exact Rh|exact (H2 h' Ih)]. }
  destruct Ex as (hs & H1 & H2). exists (map (map fst) hs). rewrite <- concat_map.
  destruct (passes_run C lo hi T _ _ L W Bd Nw (Forall2_concat _ _ _ _ _ H1) d R) as (E1 & E2 & E3 & E4).
  split; [|split; [|split; [|split]]].
  - intros q Iq. apply in_map_iff in Iq. destruct Iq as (h & <- & Ih). exact (H2 h Ih).
  - rewrite map_length. symmetry. exact (Forall2_len _ _ _ _ _ H1).
  - unfold few. rewrite offers_count, app_length, map_length, <- E4, <- (Forall2_len _ _ _ _ _ F). exact Rm.
  - rewrite E1. exact (offers_any_time C lo hi T Bd Nw (concat hs) d (service_reachable_graph C d L R) St E3).
  - exact E2.
Qed.

(** ** C179 *)
(** Two nodes hold the same. Their services are sent the same records in as many rounds as there are records, each in its own orders, by any senders, with its own
    clock. If nothing runs out meanwhile they hold the same afterwards, and respond alike to every question. *)
Lemma p_C179_rounds_agree : forall C d1 d2 lo hi ns rs1 rs2, crypto_laws C -> wasm32 C = true -> service_reachable C d1 -> service_reachable C d2 -> same_contents d1 d2 ->
  lo <= hi < i64_bound -> steady d1 lo hi -> notices C hi ns -> (forall r, In r (rs1 ++ rs2) -> posting ns lo hi r) -> (length ns <= length rs1)%nat -> (length ns <= length rs2)%nat ->
  room d1 (length (concat rs1) + length ns) -> room d2 (length (concat rs2) + length ns) ->
  let d1' := service_history C d1 (concat rs1) in let d2' := service_history C d2 (concat rs2) in
  same_contents d1' d2' /\
  forall cq q g k now, service_typed q -> requests C cq q g -> admitted cq q -> question k now g ->
    same_response (fst (service_step C d1' (cq, q, None))) (fst (service_step C d2' (cq, q, None))).
Proof.
  intros C d1 d2 lo hi ns rs1 rs2 L W R1 R2 S0 Bd St (T & F & Nw) P L1 L2 M1 M2 d1' d2'.
  destruct (rounds_run C d1 lo hi ns T rs1 L W R1 Bd St F Nw (fun r I => P r (proj2 (in_app_iff _ _ _) (or_introl I))) M1) as (q1 & A1 & B1 & C1 & D1 & E1).
  destruct (rounds_run C d2 lo hi ns T rs2 L W R2 Bd (steady_contents _ _ _ _ S0 St) F Nw (fun r I => P r (proj2 (in_app_iff _ _ _) (or_intror I))) M2) as (q2 & A2 & B2 & C2 & D2 & E2).
  assert (Sm : same_contents d1' d2').
  { unfold d1', d2'. rewrite D1, D2. rewrite (Forall2_len _ _ _ _ _ F) in L1, L2.
    apply (p_C175_rounds_agree C d1 d2 (from_secs hi) T q1 q2); try assumption; try (rewrite ?B1, ?B2; assumption).
    - exact (service_reachable_graph C d1 L R1).
    - exact (service_reachable_graph C d2 L R2).
    - apply from_secs_wf. unfold i64_bound, u64_bound in *. lia.
    - cbn [from_secs secs]. lia.
    - intros r I. apply in_app_iff in I. destruct I as [I|I]; [exact (A1 r I)|exact (A2 r I)]. }
  split; [exact Sm|]. intros cq q g k now Tq Rq Aq Q. apply (same_step C d1' d2' cq q g k now Rq Aq).
  - destruct Q; unfold about; eauto 6.
  - apply (p_C86_answers_depend_on_contents C d1' d2' [] g (service_reachable_graph C _ L E1) (service_reachable_graph C _ L E2) Sm (Forall_nil _) (requests_typed C cq q g L Tq Rq)).
Qed.

(** ** Concrete nodes *)
Lemma two_timed : host_time (timed_call 2) 2.
Proof. exists from_clock, []. repeat split; vm_compute; reflexivity. Qed.
Lemma rec_stands : forall b f e i, trust_of_dto (toy true) (trust_rec b f e i) = Ok (toy_trust b f e i) -> extract_public_key (toy true) (pid b) = Ok (toy_key b) ->
  stands_for (toy true) (trust_rec b f e i, pid b) (toy_trust b f e i, toy_key b).
Proof. intros b f e i H K. split; [apply trust_of_dto_ok; exact H|apply extract_ok; exact K]. Qed.
(** Two records, of which the second counts once the first is known. *)
Definition two_notices : list notice := [(trust_rec 2 3 800 6, pid 2); (trust_rec 3 4 700 6, pid 3)].
Definition two_pieces : list piece := [(toy_trust 2 3 800 6, toy_key 2); (toy_trust 3 4 700 6, toy_key 3)].
Lemma two_good : notices (toy true) 20 two_notices.
Proof.
  exists two_pieces. split; [constructor; [apply rec_stands; vm_compute; reflexivity|]; constructor; [apply rec_stands; vm_compute; reflexivity|constructor]|]. split.
  - intros t b I. cbn in I. repeat (destruct I as [E|I]; [injection E as <- <-; repeat split; vm_compute; reflexivity|]). destruct I.
  - intros t t' b I I' E F. cbn in I, I'. repeat (destruct I as [X|I]; [injection X as <- <-|]); try destruct I; repeat (destruct I' as [Y|I']; [injection Y; intros; subst; try reflexivity; discriminate|]); destruct I'.
Qed.
Definition post (ts : N) (x : notice) : service_event := (timed_call 2, S_add_trust (fst x) (snd x) ts, None).
Lemma post_posts : forall lo hi ts x, lo <= ts <= hi -> dt_issued_at (fst x) <= ts -> posts lo hi x (post ts x).
Proof. intros lo hi ts x H K. exists (timed_call 2), ts. split; [reflexivity|]. split; [exact two_timed|]. split; assumption. Qed.
Lemma steady_dec : forall d lo hi, forallb (fun r => negb (expired_row (from_secs hi) r) || expired_row (from_secs lo) r) (tbl_relations d) = true -> steady d lo hi.
Proof.
  intros d lo hi H x Hx Ex. rewrite forallb_forall in H. destruct x as [[t b]|v]; [|destruct Ex]. destruct Hx as (_ & _ & Hx). specialize (H _ Hx).
  unfold expired_row in H. cbn [r_expires_at r_type] in H. cbn [db_expired auth_trust] in *. rewrite !andb_true_r in H. apply orb_true_iff in H. destruct H as [H|H]; [|apply Z.leb_le; exact H].
  apply negb_true_iff in H. apply Z.leb_gt in H. lia.
Qed.
(** One node hears them forwards at 10 and 11, the other backwards at 12 and 15. After one round they differ, after two key 4 weighs 4 for both. *)
Definition round_1 := map (post 10) two_notices.
Definition round_2 := map (post 12) (rev two_notices).
Example e_C179_hypotheses : service_reachable (toy true) base_store /\ steady base_store 10 20 /\ notices (toy true) 20 two_notices /\
  (forall r, In r ([round_1; map (post 11) two_notices] ++ [round_2; map (post 15) (rev two_notices)]) -> posting two_notices 10 20 r) /\
  room base_store (4 + 2) /\
  map (fun es => told_weight (service_step (toy true) (service_history (toy true) base_store es) (timed_call 1, S_get_weight (pid 4) 16, None)))
    [round_1; round_2; round_1 ++ map (post 11) two_notices; round_2 ++ map (post 15) (rev two_notices)] = [Some 4; Some 0; Some 4; Some 4].
Proof.
  split; [exact base_reachable|]. split; [apply steady_dec; vm_compute; reflexivity|]. split; [exact two_good|]. split; [|split; [vm_compute; reflexivity|vm_compute; reflexivity]].
  assert (X : forall ts ns, 10 <= ts <= 20 -> (forall x, In x ns <-> In x two_notices) -> posting two_notices 10 20 (map (post ts) ns)).
  { intros ts ns Ht E. assert (Hi : forall x, In x two_notices -> dt_issued_at (fst x) <= ts).
    { intros x I. assert (dt_issued_at (fst x) = 6) by (destruct I as [<-|[<-|[]]]; vm_compute; reflexivity). lia. }
    split.
    - intros e I. apply in_map_iff in I. destruct I as (x & <- & I). apply E in I. exists x. split; [exact I|]. apply post_posts; [exact Ht|exact (Hi x I)].
    - intros x I. exists (post ts x). split; [apply in_map; apply E; exact I|]. apply post_posts; [exact Ht|exact (Hi x I)]. }
  intros r [<-|[<-|[<-|[<-|[]]]]]; apply X; try lia; try reflexivity; intros x; symmetry; apply in_rev.
Qed.
(** The condition that nothing runs out is needed. Key 1 trusts key 2 until 900 and key 2 trusts key 3. A node that hears of this at 899 remembers it; for one that hears of it at
    901 it does not count. When key 1 renews its trust, key 3 weighs 16 for the first and nothing for the other, though both were told the same. *)
Lemma p_C179_running_out : exists C d lo hi ns r1 r2 e q p, crypto_laws C /\ wasm32 C = true /\ service_reachable C d /\ lo <= hi < i64_bound /\ notices C hi ns /\ length ns = 1%nat /\
  posting ns lo hi r1 /\ posting ns lo hi r2 /\ room d 2 /\
  let d1 := service_history C d r1 in let d2 := service_history C d r2 in
  fst (service_step C (snd (service_step C d1 e)) q) = Ok (mk_response true None (P_weight 8 p)) /\
  fst (service_step C (snd (service_step C d2 e)) q) = Ok (mk_response true None (P_weight 0 p)).
Proof.
  exists (toy true), base_store, 899, 901, [(trust_rec 2 3 2000 6, pid 2)], [post 899 (trust_rec 2 3 2000 6, pid 2)], [post 901 (trust_rec 2 3 2000 6, pid 2)],
    (post 902 (trust_rec 1 2 1500 902, pid 1)), (timed_call 1, S_get_weight (pid 3) 903, None), (pid 3).
  split; [apply toy_laws|]. split; [reflexivity|]. split; [exact base_reachable|]. split; [unfold i64_bound; lia|]. split; [|split; [reflexivity|]].
  { exists [(toy_trust 2 3 2000 6, toy_key 2)]. split; [constructor; [apply rec_stands; vm_compute; reflexivity|constructor]|]. split.
    - intros t b [E|[]]. injection E as <- <-. repeat split; vm_compute; reflexivity.
    - intros t t' b [E|[]] [F|[]] _ _. congruence. }
  assert (X : forall ts, 899 <= ts <= 901 -> posting [(trust_rec 2 3 2000 6, pid 2)] 899 901 [post ts (trust_rec 2 3 2000 6, pid 2)]).
  { intros ts Ht. assert (P : posts 899 901 (trust_rec 2 3 2000 6, pid 2) (post ts (trust_rec 2 3 2000 6, pid 2))).
    { apply post_posts; [exact Ht|]. assert (E : dt_issued_at (trust_rec 2 3 2000 6) = 6) by (vm_compute; reflexivity). cbn [fst]. rewrite E. lia. }
    split; [intros e [<-|[]]|intros x [<-|[]]]; eexists; (split; [left; reflexivity|exact P]). }
  split; [apply X; lia|]. split; [apply X; lia|]. split; [vm_compute; reflexivity|]. split; vm_compute; reflexivity.
Qed.
