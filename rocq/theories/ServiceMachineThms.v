(** Proofs that the service is the abstract machine behind its checks. *)
From Coq Require Import List NArith ZArith Bool Lia ZifyBool ZifyNat ZifyN.
From Verif Require Import Base BaseFacts Text TextFacts Keys KeysFacts Trust TrustFacts Certificate CertFacts Relation
  Storage StorageFacts Graph SearchFacts PathFacts Service Spec SpecFacts GraphFacts StateFacts ChainFacts AddFacts ImportFacts HistFacts
  Toy ToyFacts Witness GraphThms ServiceSpec ServiceFacts ServiceThms ServiceWitness MachineSpec MachineThms ServiceMachine.
Import ListNotations.
Open Scope N_scope.

Lemma lines_aux_length : forall s cur, (length (lines_aux cur s) <= length cur + length s)%nat.
Proof.
  induction s as [|c s IH]; intros cur; cbn [lines_aux].
  - destruct cur; cbn [length]; lia.
  - destruct (Byte.eqb c Byte.x0a); cbn [length]; [specialize (IH [])|specialize (IH (c :: cur))]; cbn [length] in IH; lia.
Qed.
Lemma parse_length : forall C ls i ts, cert_parse_trusts C ls i = Ok ts -> (length ts <= length ls)%nat.
Proof.
  intros C ls. remember (length ls) as n eqn:En. revert ls En. induction n as [n IH] using lt_wf_ind. intros ls -> i ts H.
  destruct ls as [|a [|b [|c [|d ls]]]]; cbn [cert_parse_trusts] in H; try discriminate H; [injection H as <-; apply le_n|].
  destruct (trust_from_strings C a b c d) as [t| | |]; cbn [map_err bind] in H; try discriminate H.
  destruct (cert_parse_trusts C ls (i + 4)) as [us| | |] eqn:E; cbn [bind] in H; try discriminate H. injection H as <-.
  apply IH with (m := length ls) in E; [|cbn [length]; lia|reflexivity]. cbn [length]. lia.
Qed.
Lemma from_str_length : forall C s ch, cert_from_str C s = Ok ch -> (length ch <= length s)%nat.
Proof.
  intros C s ch H. unfold cert_from_str in H. pose proof (lines_aux_length s []) as L. fold (lines s) in L.
  destruct (lines s) as [|a [|b ls]]; try discriminate H. destruct (Nat.eqb _ 0); [|discriminate H]. apply parse_length in H. cbn [length] in L. lia.
Qed.
Lemma requests_offered : forall C cp c g, requests C cp c g -> (offered g <= s_offered c)%nat.
Proof.
  intros C cp c g H. destruct c, g; cbn [requests] in H; try contradiction; cbn [offered s_offered]; try lia.
  - destruct H as [H _]. apply from_str_length in H. exact H.
  - destruct H as [H _]. unfold certificate_record in H. induction H; cbn [length] in *; lia.
Qed.

Lemma s_run_sim : forall C es s m, crypto_laws C -> wasm32 C = true -> inv C s -> service_reachable C (db_of s) -> service_events_typed es ->
  room s (list_sum (map (fun e => s_offered (snd (fst e))) es)) -> sim s m ->
  exists m', s_run C m es (responses C (db_of s) es) m' /\ same_machine (contents (service_history C (db_of s) es)) m'.
Proof.
  intros C es. induction es as [|[[cp c] fu] es IH]; intros s m L Hw I Rs T R E.
  - exists m. split; [constructor|exact E].
  - inversion T as [|? ? Tc Te]; subst. cbn [map list_sum fold_right fst snd] in *. cbn [responses].
    pose proof (service_reachable_step C (db_of s) cp c fu Tc Rs) as Rs'.
    change (service_history C (db_of s) (_ :: es)) with (service_history C (snd (service_step C (db_of s) (cp, c, fu))) es).
    destruct (plan C cp c) as [[g|x]|e| |] eqn:P.
    + pose proof (plan_requests C cp c g P) as Q. pose proof (plan_admitted C cp c g P) as A.
      destruct (service_step C (db_of s) (cp, c, fu)) as [r d'] eqn:Es. cbn [fst snd] in *.
      pose proof (requests_offered C cp c g Q) as O. pose proof (requests_typed C cp c g L Tc Q) as Tg.
      assert (R0 : room s (offered g + list_sum (map (fun e => s_offered (snd (fst e))) es))) by (unfold room, list_sum in *; lia).
      destruct (step_sim C s m g fu _ I Tg R0 E) as (a & ms & s' & m' & H1 & H2 & H3 & H4 & H5 & H6).
      assert (Ed : d' = db_of s').
      { destruct (p_C66_admitted_calls C (db_of s) cp c g fu r d' L Hw Rs Tc A Q Es) as [(y & p & G & _)|(e & G & _)]; rewrite G in H2; exact H2. }
      subst d'. destruct (IH s' m' L Hw H3 Rs' Te H4 H5) as (m2 & K1 & K2). exists m2. split; [|exact K2].
      destruct H6 as [[H6 ->]|(Nf & H6 & H7)].
      * apply s_call with (g := g) (a := a) (ms := ms); try assumption.
        destruct (p_C66_admitted_calls C (db_of s) cp c g fu r _ L Hw Rs Tc A Q Es) as [(y & p & G & Er & Tl)|(e & G & Er)]; rewrite G in H6; cbn [fst] in H6.
        -- left. exists y, p. auto.
        -- right. exists e. auto.
      * destruct (p_C66_admitted_calls C (db_of s) cp c g fu r _ L Hw Rs Tc A Q Es) as [(y & p & G & Er & Tl)|(e & G & Er)]; rewrite G in H6; cbn [fst] in H6; [discriminate|].
        subst r. destruct fu as [n|]; [|contradiction]. eapply s_fail; eassumption.
    + rewrite service_plan, P in *. cbn [carry_out fst snd] in *. apply plan_graph in P.
      assert (R0 : room s (list_sum (map (fun e => s_offered (snd (fst e))) es))) by (unfold room, list_sum in *; lia).
      destruct (IH s m L Hw I Rs Te R0 E) as (m2 & K1 & K2). exists m2. split; [apply s_local; assumption|exact K2].
    + assert (Ko : kept_out C cp c).
      { intros g [Q A]. rewrite (plan_complete C cp c g Q A) in P. discriminate. }
      rewrite service_plan, P in *. cbn [carry_out fst snd] in *.
      assert (R0 : room s (list_sum (map (fun e => s_offered (snd (fst e))) es))) by (unfold room, list_sum in *; lia).
      destruct (IH s m L Hw I Rs Te R0 E) as (m2 & K1 & K2). exists m2. split; [apply s_kept_out; assumption|exact K2].
    + pose proof (plan_total C cp c (or_introl P)) as (t & ts & -> & Ep).
      rewrite service_plan, P in *. cbn [carry_out fst snd] in *.
      assert (R0 : room s (list_sum (map (fun e => s_offered (snd (fst e))) es))) by (unfold room, list_sum in *; lia).
      destruct (IH s m L Hw I Rs Te R0 E) as (m2 & K1 & K2). exists m2. split; [apply s_panic; assumption|exact K2].
    + exfalso. pose proof (plan_total C cp c (or_intror P)) as (t & ts & -> & Ep). cbn [plan] in P. unfold gcall in P. rewrite Ep in P. discriminate P.
Qed.

(** ** C156 *)
(** Every history of service calls, by any callers and with the database failing in any of them. *)
Lemma p_C156_service_is_machine : forall C d es, crypto_laws C -> wasm32 C = true -> service_reachable C d -> service_events_typed es -> s_few d es ->
  exists m, s_run C (contents d) es (responses C d es) m /\ same_machine (contents (service_history C d es)) m.
Proof.
  intros C d es L Hw Rs T F. pose proof (p_C66_service_stores C d L Rs) as R. apply reachable_inv in R. destruct R as (s & -> & I).
  apply s_run_sim; try assumption; [|apply same_refl]. unfold s_few in F. cbn [db_of tbl_relations] in F. rewrite map_length in F. exact F.
Qed.
(** From an empty store, the machine starts empty. *)
Lemma p_C156_from_the_start : forall C es, crypto_laws C -> wasm32 C = true -> service_events_typed es -> s_few empty_db es ->
  exists m, s_run C empty_machine es (responses C empty_db es) m /\ same_machine (contents (service_history C empty_db es)) m.
Proof.
  intros C es L Hw T F. apply (s_run_sim C es empty_state empty_machine L Hw (inv_empty C)); [|exact T|exact F|].
  - exists []. split; [constructor|reflexivity].
  - split.
    + intros [a|v]; cbn; (split; [|contradiction]); [intros (_ & _ & [])|intros (_ & [])].
    + intros k l. cbn. split; [|contradiction]. intros (w & H & _). discriminate.
Qed.
(** A stranger's weight query with a time of their own is kept out, the same with the host's time is answered, and an empty text panics. *)
Definition visited : list service_event :=
  service_base ++ [(script_call, S_get_weight (pid 2) 6, None); (timed_call 1, S_get_weight (pid 2) 6, None); (script_call, S_insert_cert_raw [] 5, None)].
Example e_C156_run : crypto_laws (toy true) /\ wasm32 (toy true) = true /\ service_events_typed visited /\ s_few empty_db visited /\
  skipn 3 (responses (toy true) empty_db visited) =
    [Ok (mk_response false (Some SVE_InvalidTimestampTetraplet) (P_weight 0 [])); Ok (mk_response true None (P_weight 16 (pid 2))); Panic].
Proof.
  split; [exact (toy_laws true)|]. split; [reflexivity|]. split.
  - unfold visited, service_base, service_events_typed. cbn [app]. repeat (constructor; [cbn; repeat split; vm_compute; reflexivity|]). constructor.
  - split; vm_compute; reflexivity.
Qed.
