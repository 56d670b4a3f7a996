(** The service over rows in any order. PropsScan.v restates the properties. *)
From Coq Require Import List NArith ZArith Bool Lia Permutation.
From Verif Require Import Base BaseFacts Text Keys KeysFacts Trust TrustFacts Certificate Relation Storage StorageFacts Graph SearchFacts PathFacts
  Service Spec ServiceSpec SpecFacts GraphFacts StateFacts ServiceFacts ServiceMachine Toy ToyFacts ServiceWitness ServiceThms Scan ScanSpec ScanFacts ScanThms.
Import ListNotations.
Open Scope N_scope.

Definition carry_out_o (C : crypto) (o : scan) (d : db) (fu : option nat) (c : service_call) (p : result service_error (graph_call + payload)) : result Empty_set response * db :=
  match p with
  | Err e => (Ok (mk_response false (Some e) (empty_payload c)), d)
  | Panic => (Panic, d)
  | OutOfFuel => (OutOfFuel, d)
  | Ok (inr a) => (Ok (mk_response true None a), d)
  | Ok (inl g) =>
      match graph_step_o C o d (g, fu) with
      | (Ok x, d') => (Ok (mk_response true None (payload_of C c x)), d')
      | (Err e, d') => (Ok (mk_response false (Some (SVE_TGError e)) (empty_payload c)), d')
      | (Panic, d') => (Panic, d')
      | (OutOfFuel, d') => (OutOfFuel, d')
      end
  end.
Section Plan.
Variable C : crypto.
Variable o : scan.
Lemma service_plan_o : forall d cp c fu, service_step_o C o d (cp, c, fu) = carry_out_o C o d fu c (plan C cp c).
Proof.
  intros d cp c fu. unfold service_step_o, carry_out_o, plan, gcall, graph_step_o. cbn [fst snd].
  destruct c; cbn [service_do_o service_do];
    unfold api_set_root, api_insert_cert_raw_o, api_insert_cert_o, api_get_all_certs_o, api_get_all_certs_from_o, api_get_host_certs_o, api_get_host_certs_from_o,
      api_get_weight_o, api_get_weight_from_o, api_get_trust_bytes, api_issue_trust, api_verify_trust, api_add_trust_o, api_get_revocation_bytes,
      api_issue_revocation, api_revoke, api_export_revocations_o, get_certs_o, get_certs_from_o, into, into_result, mbind, lift, tg, mmap_err, ret, throw.
  all: repeat match goal with
    | |- context [match extract_public_key C ?s with _ => _ end] => destruct (extract_public_key C s) as [?|?| |]; cbn [bind w_db map_err]; try reflexivity
    | |- context [bind (extract_public_key C ?s)] => destruct (extract_public_key C s) as [?|?| |]; cbn [bind w_db map_err]; try reflexivity
    | |- context [check_timestamp_tetraplets ?q ?n] => destruct (check_timestamp_tetraplets q n) as [?|?| |]; cbn [bind w_db map_err]; try reflexivity
    | |- context [bytes_eqb ?a ?b] => destruct (bytes_eqb a b); cbn [bind w_db map_err]; try reflexivity
    | |- context [cert_from_str C ?s] => destruct (cert_from_str C s) as [?|?| |]; cbn [bind w_db map_err]; try reflexivity
    | |- context [cert_of_dto C ?s] => destruct (cert_of_dto C s) as [?|?| |]; cbn [bind w_db map_err]; try reflexivity
    | |- context [trust_of_dto C ?s] => destruct (trust_of_dto C s) as [?|?| |]; cbn [bind w_db map_err]; try reflexivity
    | |- context [revocation_of_dto C ?s] => destruct (revocation_of_dto C s) as [?|?| |]; cbn [bind w_db map_err]; try reflexivity
    | |- context [trust_verify C ?a ?b ?x] => destruct (trust_verify C a b x) as [?|?| |]; cbn [bind w_db map_err]; try reflexivity
    | |- context [?a <? ?b] => destruct (a <? b); cbn [bind w_db map_err]; try reflexivity
    end.
  all: cbn [graph_do_o]; unfold mmap, mbind, ret.
  all: match goal with
    | |- context [set_root ?a ?b ?w] => destruct (set_root a b w) as [[?|?| |] ?]
    | |- context [add_o C o ?a ?b ?w] => destruct (add_o C o a b w) as [[?|?| |] ?]
    | |- context [get_all_certs_o C o ?a ?b ?w] => destruct (get_all_certs_o C o a b w) as [[?|?| |] ?]
    | |- context [get_all_certs_from_o C o ?a ?b ?x ?w] => destruct (get_all_certs_from_o C o a b x w) as [[?|?| |] ?]
    | |- context [weight_o C o ?a ?b ?w] => destruct (weight_o C o a b w) as [[?|?| |] ?]
    | |- context [weight_from_o C o ?a ?b ?x ?w] => destruct (weight_from_o C o a b x w) as [[?|?| |] ?]
    | |- context [add_trust_o C o ?a ?b ?x ?w] => destruct (add_trust_o C o a b x w) as [[?|?| |] ?]
    | |- context [revoke C ?a ?w] => destruct (revoke C a w) as [[?|?| |] ?]
    | |- context [st (get_revocations_o C o ?a) ?w] => destruct (st (get_revocations_o C o a) w) as [[?|?| |] ?]
    end; reflexivity.
Qed.
End Plan.
Lemma same_told_refl : forall r, same_told r r.
Proof. intros [[s e [| | | | | | | ]]|x| |]; cbn [same_told]; try reflexivity; repeat split; apply Permutation_refl. Qed.
Lemma told_alike : forall C c x y, same_answer (Ok x) (Ok y) -> same_told (Ok (mk_response true None (payload_of C c x))) (Ok (mk_response true None (payload_of C c y))).
Proof.
  intros C c x y S. destruct x as [|w|cs|vs], y as [|w'|cs'|vs']; cbn [same_answer] in S; try discriminate S.
  - apply same_told_refl.
  - injection S as <-. apply same_told_refl.
  - destruct c; cbn [payload_of]; try reflexivity; cbn [same_told]; (split; [reflexivity|split; [reflexivity|apply Permutation_map; exact S]]).
  - destruct c; cbn [payload_of]; try reflexivity; cbn [same_told]; (split; [reflexivity|split; [reflexivity|apply Permutation_map; exact S]]).
Qed.
Lemma any_service_step : forall C o s cp c fu, crypto_laws C -> wf C s -> service_typed c -> honest o ->
  same_told (fst (service_step_o C o (db_of s) (cp, c, fu))) (fst (service_step C (db_of s) (cp, c, fu))) /\
  snd (service_step_o C o (db_of s) (cp, c, fu)) = snd (service_step C (db_of s) (cp, c, fu)).
Proof.
  intros C o s cp c fu L W T H. rewrite service_plan_o, service_plan. destruct (plan C cp c) as [[g|a]|e| |] eqn:P; cbn [carry_out carry_out_o fst snd]; try (split; [apply same_told_refl|reflexivity]).
  assert (Tg : call_typed C g) by (eapply requests_typed; [exact L|exact T|apply plan_requests; exact P]).
  destruct (any_step C o s g fu W Tg H) as [S E]. destruct (graph_step_o C o (db_of s) (g, fu)) as [r d1], (graph_step C (db_of s) (g, fu)) as [r' d2]. cbn [fst snd] in S, E. subst d2.
  destruct r as [x|e| |], r' as [y|e'| |]; try (destruct x; discriminate S); try discriminate S; cbn [fst snd]; (split; [|reflexivity]).
  - apply told_alike. exact S.
  - injection S as <-. apply same_told_refl.
  - reflexivity.
  - reflexivity.
Qed.
(** The same of histories of service calls by any callers. *)
Lemma p_C180_service_any_order : forall C es d, crypto_laws C -> service_reachable C d -> Forall (fun e : scanned_service => service_typed (snd (fst (fst e))) /\ honest (snd e)) es ->
  Forall2 same_told (fst (served_run C d es)) (responses C d (map fst es)) /\ snd (served_run C d es) = service_history C d (map fst es).
Proof.
  intros C es d L R. apply (service_reachable_graph C d L) in R. apply reachable_inv in R. destruct R as (s & -> & I). assert (W : wf C s) by apply I. clear I. revert s W.
  induction es as [|[[[cp c] fu] o] es IH]; intros s W F; [split; [constructor|reflexivity]|]. inversion F as [|? ? [T H] F']; subst. cbn [fst snd] in T, H.
  destruct (any_service_step C o s cp c fu L W T H) as [S E]. cbn [served_run map fst responses service_history fold_left]. destruct (service_step_o C o (db_of s) (cp, c, fu)) as [r d1]. cbn [fst snd] in S, E. subst d1.
  assert (N : exists s', snd (service_step C (db_of s) (cp, c, fu)) = db_of s' /\ wf C s').
  { rewrite service_step_db. unfold asked. destruct (plan C cp c) as [[g|a]|e| |] eqn:P; try (exists s; split; [reflexivity|exact W]). cbn [graph_history fold_left].
    assert (Tg : call_typed C g) by (eapply requests_typed; [exact L|exact T|apply plan_requests; exact P]).
    destruct (graph_step_sem C s g fu W Tg) as [X|[_ (k & X)]]; rewrite X; cbn [snd]; eexists; (split; [reflexivity|]); apply run_wf; try exact W; [apply sem_writes; exact Tg|apply firstn_forall, sem_writes; exact Tg]. }
  destruct N as (s' & -> & W'). destruct (IH s' W' F') as [I1 I2]. destruct (served_run C (db_of s') es) as [rs d2]. cbn [fst snd] in *. split; [constructor; assumption|exact I2].
Qed.
(** Two revocations of one key, read by a stranger: the records come in the other order. *)
Example e_C180_served_backwards : exists a b : dto_revocation, a <> b /\
  nth_error (fst (served_run (toy true) empty_db (map (fun e => (e, by_row)) two_revocations))) 2 = Some (Ok (mk_response true None (P_revocations [a; b]))) /\
  nth_error (fst (served_run (toy true) empty_db (map (fun e => (e, backwards)) two_revocations))) 2 = Some (Ok (mk_response true None (P_revocations [b; a]))).
Proof.
  exists (rev_rec 1 2 5), (rev_rec 3 2 5). split; [vm_compute; discriminate|]. split; vm_compute; reflexivity.
Qed.
(** It meets the hypotheses. *)
Example e_C180_served_hypotheses : crypto_laws (toy true) /\ service_reachable (toy true) empty_db /\
  Forall (fun e : scanned_service => service_typed (snd (fst (fst e))) /\ honest (snd e)) (map (fun e => (e, backwards)) two_revocations).
Proof.
  split; [apply toy_laws|]. split; [exists []; split; [constructor|reflexivity]|]. unfold two_revocations. cbn [map].
  constructor; [split; [cbn; split; reflexivity|exact honest_backwards]|]. constructor; [split; [cbn; split; reflexivity|exact honest_backwards]|].
  constructor; [split; [exact I|exact honest_backwards]|constructor].
Qed.
