(** The properties of the start script in their final form. PropsBoot.v restates them. *)
From Coq Require Import List NArith ZArith Bool Lia.
From Verif Require Import Base BaseFacts Text Keys KeysFacts Trust TrustFacts Certificate Relation Storage Graph Service Spec SpecFacts ServiceSpec
  StorageFacts SearchFacts PathFacts GraphFacts StateFacts ChainFacts AddFacts GraphThms MoreThms ServiceFacts ServiceThms Aqua AquaSpec AquaFacts AquaThms Boot BootSpec BootFacts.
Import ListNotations.
Open Scope N_scope.

Lemma adding_app : forall C d a b, graph_history C d (adding (a ++ b)) = graph_history C (graph_history C d (adding a)) (adding b).
Proof. intros. unfold adding, graph_history. rewrite map_app. apply fold_left_app. Qed.
Lemma add_all_history : forall C d l, add_all C d l = graph_history C d (adding l).
Proof. intros C d l. revert d. induction l as [|[c now] l IH]; intros d; [reflexivity|]. cbn [add_all fold_left adding map graph_history fst snd] in *. apply IH. Qed.

Lemma family_held : forall C s k0 m l, inv C s -> root_max_len (db_of s) k0 m -> good_family C (db_of s) k0 m l ->
  held C (db_of s) k0 m l s (fun _ => False).
Proof.
  intros C s k0 m l I R F. split; [exact I|exact R| | | | |].
  - intros c now [t b] z Hc Ha Hz K. apply (gf_newer _ _ _ _ _ F c now t b z Hc); [apply in_chain_auths; exact Ha| |exact K]. apply (stored_in C); [apply I|exact Hz].
  - intros c now v Hc Hv. apply (gf_unrevoked _ _ _ _ _ F c now v Hc). apply (stored_rev_in C); [apply I|exact Hv].
  - intros x [].
  - intros x Hx. left. apply (stored_in C); [apply I|exact Hx].
  - intros k n. split; [auto|]. intros [H|[-> ->]]; assumption.
Qed.
Lemma family_run : forall C s k0 m l, inv C s -> root_max_len (db_of s) k0 m -> good_family C (db_of s) k0 m l ->
  (forall c now, In (c, now) l -> call_typed C (G_add c now)) ->
  (forall pre c now post, l = pre ++ (c, now) :: post -> fst (graph_step C (graph_history C (db_of s) (adding pre)) (G_add c now, None)) = Ok GR_unit) /\
  exists s', graph_history C (db_of s) (adding l) = db_of s' /\ held C (db_of s) k0 m l s' (ours l).
Proof.
  intros C s k0 m l I R F T. destruct (held_all C _ k0 m l F T l s (fun _ => False) (fun _ h => h) (family_held C s k0 m l I R F)) as [A (s' & B & H)]; [intros x []|].
  split.
  - intros pre c now post E. rewrite <- add_all_history. apply (A pre c now post E).
  - exists s'. rewrite <- add_all_history. split; [exact B|]. destruct H as [I' R' Nw V Dn Sr Rt]. split; try assumption. intros x Hx. apply Dn. right. exact Hx.
Qed.

(** ** C105 *)
(** Certificates of one root that agree with each other and with the store all count after they were added one after the other: every
    [add] succeeds, *)
Lemma p_C105_adds_succeed : forall C d k0 m l, reachable C d -> root_max_len d k0 m -> good_family C d k0 m l ->
  (forall c now, In (c, now) l -> call_typed C (G_add c now)) ->
  forall pre c now post, l = pre ++ (c, now) :: post -> fst (graph_step C (graph_history C d (adding pre)) (G_add c now, None)) = Ok GR_unit.
Proof.
  intros C d k0 m l R Rm F T. apply reachable_inv in R. destruct R as (s & -> & I). apply (family_run C s k0 m l I Rm F T).
Qed.
(** each certificate is then returned for its last key at every time before its expiries, *)
Lemma p_C105_all_count : forall C d k0 m l c now pk now' fu cs d', reachable C d -> root_max_len d k0 m -> good_family C d k0 m l ->
  (forall c now, In (c, now) l -> call_typed C (G_add c now)) ->
  In (c, now) l -> key_at c (length c - 1) pk -> duration_wf now' -> (forall t, In t c -> secs now' < secs (expires_at t)) ->
  graph_step C (graph_history C d (adding l)) (G_get_all_certs pk now', fu) = (Ok (GR_certs cs), d') -> In (map whole_trust c) cs.
Proof.
  intros C d k0 m l c now pk now' fu cs d' R Rm F T Hc Kl Wn He E. apply reachable_inv in R. destruct R as (s & -> & I).
  destruct (family_run C s k0 m l I Rm F T) as [_ (s' & Hs & H)]. rewrite Hs in E.
  assert (Tk : pk_valid C pk).
  { destruct Kl as (t & Ht & <-). destruct (T c now Hc) as [T' _]. rewrite Forall_forall in T'. apply (T' t). eapply nth_error_In. exact Ht. }
  apply step_ok in E; [|apply H|split; assumption]. destruct E as [E _]. cbn [sem fst] in E. injection E as <-.
  apply (held_returns C _ k0 m l F T s' c now pk now' H Hc Kl He).
Qed.
(** and nothing else was added; all their trusts are stored and the roots are as before. *)
Lemma p_C105_only_they : forall C d k0 m l, reachable C d -> root_max_len d k0 m -> good_family C d k0 m l ->
  (forall c now, In (c, now) l -> call_typed C (G_add c now)) ->
  (forall c now t b, In (c, now) l -> in_chain c t b -> stored (graph_history C d (adding l)) (whole (RAuth (mk_auth t b)))) /\
  (forall x, stored (graph_history C d (adding l)) x -> stored d x \/ exists c now t b, In (c, now) l /\ in_chain c t b /\ x = whole (RAuth (mk_auth t b))) /\
  (forall k n, root_max_len (graph_history C d (adding l)) k n <-> root_max_len d k n).
Proof.
  intros C d k0 m l R Rm F T. apply reachable_inv in R. destruct R as (s & -> & I).
  destruct (family_run C s k0 m l I Rm F T) as [_ (s' & -> & H)]. split; [|split].
  - intros c now t b Hc Ht. apply (stored_in C); [apply H|]. apply (h_done _ _ _ _ _ _ _ H). exists c, now, (mk_auth t b). split; [exact Hc|]. split; [apply in_chain_auths; exact Ht|reflexivity].
  - intros x Hx. apply (stored_in C) in Hx; [|apply H]. destruct (h_src _ _ _ _ _ _ _ H x Hx) as [X|(c & now & [t b] & Hc & Ha & ->)]; [left; exact X|].
    right. exists c, now, t, b. split; [exact Hc|]. split; [apply in_chain_auths; exact Ha|reflexivity].
  - intros k n. rewrite (h_roots _ _ _ _ _ _ _ H k n). split; [|auto]. intros [X|[-> ->]]; assumption.
Qed.
(** The same certificates can be added again at later times. *)
Lemma p_C105_again : forall C d k0 m l l', reachable C d -> root_max_len d k0 m -> good_family C d k0 m l ->
  (forall c now, In (c, now) l -> call_typed C (G_add c now)) ->
  (forall c now, In (c, now) l' -> exists now0, In (c, now0) l) ->
  (forall c now c' now' t, In (c, now) l' -> In (c', now') l' -> In t c -> duration_wf now' /\ secs now' < secs (expires_at t)) ->
  good_family C (graph_history C d (adding l)) k0 m l'.
Proof.
  intros C d k0 m l l' R Rm F T Inc Al. apply reachable_inv in R. destruct R as (s & -> & I).
  destruct (family_run C s k0 m l I Rm F T) as [_ (s' & -> & H)]. split.
  - intros c now Hc. destruct (Inc c now Hc) as (n0 & H0). apply (gf_shape _ _ _ _ _ F c n0 H0).
  - intros c now i Hc Hi. destruct (Inc c now Hc) as (n0 & H0). destruct (gf_good _ _ _ _ _ F c n0 i H0 Hi) as (t & k & Ht & Hk & Sg & _).
    exists t, k. split; [exact Ht|]. split; [exact Hk|]. split; [exact Sg|]. apply nth_error_In in Ht. destruct (Al c now c now t Hc Hc Ht) as [Wn Lt].
    intros [X|[X _]]; lia.
  - intros c now c' now' t Hc Hc' Ht. destruct (Inc c now Hc) as (n0 & H0). destruct (Al c now c' now' t Hc Hc' Ht) as [_ Lt].
    pose proof (gf_alive _ _ _ _ _ F c n0 c n0 t H0 H0 Ht). lia.
  - intros c now c' now' t t' b Hc Hc'. destruct (Inc c now Hc) as (n0 & H0). destruct (Inc c' now' Hc') as (n1 & H1). apply (gf_agree _ _ _ _ _ F c n0 c' n1 t t' b H0 H1).
  - intros c now t b z Hc Ht Hz K. destruct (Inc c now Hc) as (n0 & H0). apply (stored_in C) in Hz; [|apply H].
    apply (h_newer _ _ _ _ _ _ _ H c n0 (mk_auth t b) z H0); [apply in_chain_auths; exact Ht|exact Hz|exact K].
  - intros c now v Hc Hv. destruct (Inc c now Hc) as (n0 & H0). apply (stored_rev_in C) in Hv; [|apply H]. apply (h_revs _ _ _ _ _ _ _ H c n0 v H0 Hv).
Qed.

(** ** C106 *)
Lemma service_step_reachable : forall C d e, service_reachable C d -> service_typed (snd (fst e)) -> service_reachable C (snd (service_step C d e)).
Proof.
  intros C d e (es & T & <-) Te. exists (es ++ [e]). split; [apply Forall_app; split; [exact T|constructor; [exact Te|constructor]]|].
  unfold service_history. rewrite fold_left_app. reflexivity.
Qed.
Lemma reports_errors : forall C d cp c fu resp d', service_step C d (cp, c, fu) = (Ok resp, d') ->
  (success resp = true /\ reports resp = []) \/ (success resp = false /\ exists e, reports resp = [R_error (Some e)]).
Proof.
  intros C d cp c fu resp d' E. unfold reports. destruct (p_C54_failed_calls_are_empty C d cp c fu resp d' E) as [[-> _]|(-> & (e & ->) & _)]; [left|right]; eauto.
Qed.
Definition all_errors (l : list report) : Prop := forall x, In x l -> exists e, x = R_error (Some e).
Lemma reports_all : forall C d cp c fu resp d', service_step C d (cp, c, fu) = (Ok resp, d') -> all_errors (reports resp) /\ (length (reports resp) <= 1)%nat.
Proof.
  intros C d cp c fu resp d' E. destruct (reports_errors C d cp c fu resp d' E) as [[_ ->]|(_ & e & ->)].
  - split; [intros x []|cbn; lia].
  - split; [|cbn; lia]. intros x [<-|[]]. eauto.
Qed.
Lemma boot_certs_ends : forall C me creator node data certs d, crypto_laws C -> service_reachable C d -> boot_typed certs ->
  exists l d', boot_certs C me creator node data certs d = (Ok l, d') /\ all_errors l /\ (length l <= length certs)%nat /\ service_reachable C d'.
Proof.
  intros C me creator node data certs d L. revert d. induction certs as [|[[i t] fu] certs IH]; intros d R T.
  - exists [], d. cbn. split; [reflexivity|]. split; [intros x []|]. split; [lia|exact R].
  - inversion T as [|? ? [T1 T2] T3]; subst. cbn [fst snd] in *. cbn [boot_certs].
    destruct (service_step C d (mk_params me creator node [data; clock_of node], S_insert_cert i t, fu)) as [r d1] eqn:E.
    assert (R1 : service_reachable C d1).
    { change d1 with (snd (r, d1)). rewrite <- E. apply service_step_reachable; [exact R|]. cbn [fst snd service_typed]. auto. }
    destruct (p_C65_calls_respond C d _ (S_insert_cert i t) fu r d1 L R (conj T1 T2) E) as [[resp ->]|(s & ts & X & _)]; [|discriminate X].
    destruct (IH d1 R1 T3) as (l & d' & -> & A & B & Rd). exists (reports resp ++ l), d'. split; [reflexivity|].
    destruct (reports_all _ _ _ _ _ _ _ E) as [A1 B1]. split; [|split; [|exact Rd]].
    + intros x Hx. apply in_app_or in Hx. destruct Hx as [Hx|Hx]; [exact (A1 x Hx)|exact (A x Hx)].
    + rewrite app_length. cbn [length]. lia.
Qed.
(** Whatever the database does, the script ends, returning errors, at most one for the root and one for each certificate, and then
    [true]. *)
Lemma p_C106_always_ends : forall C me creator node data fu certs d, crypto_laws C -> service_reachable C d -> boot_typed certs ->
  exists l d', boot C me creator node data fu certs d = (Ok (l ++ [R_true]), d') /\
    (forall x, In x l -> exists e, x = R_error (Some e)) /\ (length l <= 1 + length certs)%nat /\ service_reachable C d'.
Proof.
  intros C me creator node data fu certs d L R T. unfold boot.
  destruct (service_step C d (mk_params me creator node [result_of me [] []; result_of me [] []], S_set_root fluence_root_peer_id 5, fu)) as [r d1] eqn:E.
  assert (T0 : service_typed (S_set_root fluence_root_peer_id 5)) by reflexivity.
  assert (R1 : service_reachable C d1).
  { change d1 with (snd (r, d1)). rewrite <- E. apply service_step_reachable; [exact R|exact T0]. }
  destruct (p_C65_calls_respond C d _ _ fu r d1 L R T0 E) as [[resp ->]|(s & ts & X & _)]; [|discriminate X].
  destruct (boot_certs_ends C me creator node data certs d1 L R1 T) as (l & d' & -> & A & B & Rd).
  destruct (reports_all _ _ _ _ _ _ _ E) as [A1 B1].
  exists (reports resp ++ l), d'. rewrite app_assoc. split; [reflexivity|]. split; [|split; [|exact Rd]].
  - intros x Hx. apply in_app_or in Hx. destruct Hx as [Hx|Hx]; [exact (A1 x Hx)|exact (A x Hx)].
  - rewrite app_length. lia.
Qed.

(** The calls of the script, carried out. *)
Lemma insert_good : forall C d cp i ts c, crypto_laws C -> wasm32 C = true -> service_reachable C d ->
  Forall dto_trust_typed i -> ts < u64_bound -> certificate_record C i c -> fst (graph_step C d (G_add c (from_secs ts), None)) = Ok GR_unit ->
  exists resp, service_step C d (cp, S_insert_cert i ts, None) = (Ok resp, snd (graph_step C d (G_add c (from_secs ts), None))) /\ reports resp = [].
Proof.
  intros C d cp i ts c L W R T1 T2 Rc G. destruct (service_step C d (cp, S_insert_cert i ts, None)) as [r d'] eqn:E.
  destruct (p_C66_admitted_calls C d cp (S_insert_cert i ts) (G_add c (from_secs ts)) None r d' L W R (conj T1 T2) Logic.I (conj Rc eq_refl) E)
    as [(x & p & Eg & -> & _)|(e & Eg & ->)]; rewrite Eg in *; cbn [fst snd] in *.
  - eexists. split; reflexivity.
  - discriminate G.
Qed.
Lemma boot_certs_good : forall C me creator node data certs l d, crypto_laws C -> wasm32 C = true -> service_reachable C d -> boot_typed certs -> boot_input C certs l ->
  (forall pre c now post, l = pre ++ (c, now) :: post -> fst (graph_step C (graph_history C d (adding pre)) (G_add c now, None)) = Ok GR_unit) ->
  boot_certs C me creator node data certs d = (Ok [], graph_history C d (adding l)).
Proof.
  intros C me creator node data certs l d L W R T I. revert d R. induction I as [|[[i t] fu] [c now] certs l (Rc & En & Ef) I IH]; intros d R H; [reflexivity|].
  cbn [fst snd] in *. subst. inversion T as [|? ? [T1 T2] T3]; subst. cbn [fst snd] in *. cbn [boot_certs].
  destruct (insert_good C d (mk_params me creator node [data; clock_of node]) i t c L W R T1 T2 Rc (H [] c _ l eq_refl)) as (resp & E & Rp).
  rewrite E. assert (R1 : service_reachable C (snd (graph_step C d (G_add c (from_secs t), None)))).
  { match type of E with _ = (_, ?d1) => change d1 with (snd (Ok resp : result Empty_set response, d1)) end. rewrite <- E.
    apply service_step_reachable; [exact R|]. cbn [fst snd service_typed]. auto. }
  rewrite (IH T3 _ R1); [rewrite Rp; reflexivity|]. intros pre c2 now2 post ->. apply (H ((c, from_secs t) :: pre) c2 now2 post eq_refl).
Qed.
Lemma root_good : forall C d me node, crypto_laws C -> wasm32 C = true -> literal_keys C -> service_reachable C d ->
  exists resp d1, service_step C d (mk_params me me node [result_of me [] []; result_of me [] []], S_set_root fluence_root_peer_id 5, None) = (Ok resp, d1) /\
    reports resp = [] /\ root_set d root_key 5 d1 /\ service_reachable C d1.
Proof.
  intros C d me node L W K R. set (cp := mk_params me me node [result_of me [] []; result_of me [] []]).
  destruct (service_step C d (cp, S_set_root fluence_root_peer_id 5, None)) as [r d1] eqn:E.
  assert (T0 : service_typed (S_set_root fluence_root_peer_id 5)) by reflexivity.
  assert (Rq : requests C cp (S_set_root fluence_root_peer_id 5) (G_set_root root_key 5)) by (split; [apply literal_peers; assumption|reflexivity]).
  assert (R1 : service_reachable C d1).
  { change d1 with (snd (r, d1)). rewrite <- E. apply service_step_reachable; [exact R|exact T0]. }
  pose proof (requests_typed C cp _ _ L T0 Rq) as Tg. pose proof (service_reachable_graph C d L R) as Rg.
  destruct (p_C66_admitted_calls C d cp _ _ None r d1 L W R T0 eq_refl Rq E) as [(x & p & Eg & -> & _)|(e & Eg & ->)].
  - eexists. exists d1. split; [reflexivity|]. split; [reflexivity|]. split; [|exact R1].
    apply (p_C40_set_root_exact C d root_key 5 None d1 Rg Tg). rewrite Eg. f_equal.
    pose proof Rg as Rs. apply reachable_inv in Rs. destruct Rs as (s & -> & Inv). rewrite step_none in Eg; [|exact Inv|exact Tg].
    apply pair_equal_spec in Eg. destruct Eg as [Eg _]. symmetry. exact Eg.
  - exfalso. apply reachable_inv in Rg. destruct Rg as (s & -> & Inv). rewrite step_none in Eg; [|exact Inv|exact Tg]. discriminate Eg.
Qed.
Lemma root_set_family : forall C d k m d1 l, root_set d root_key m d1 -> good_family C d k m l -> good_family C d1 k m l.
Proof.
  intros C d k m d1 l (Er & _) F.
  assert (X : forall z, stored d1 z -> stored d z) by (intros [a|v]; cbn; unfold stored_trust, stored_revocation; rewrite Er; auto).
  split; [apply (gf_shape _ _ _ _ _ F)|apply (gf_good _ _ _ _ _ F)|apply (gf_alive _ _ _ _ _ F)|apply (gf_agree _ _ _ _ _ F)| |].
  - intros c now t b z Hc Ht Hz. apply (gf_newer _ _ _ _ _ F c now t b z Hc Ht (X z Hz)).
  - intros c now v Hc Hv. apply (gf_unrevoked _ _ _ _ _ F c now v Hc). apply (X (RRev v) Hv).
Qed.
Lemma input_typed : forall C certs l, crypto_laws C -> boot_typed certs -> boot_input C certs l -> forall c now, In (c, now) l -> call_typed C (G_add c now).
Proof.
  intros C certs l L T I. induction I as [|[[i t] fu] [c now] certs l (Rc & En & Ef) I IH]; intros c' now' Hc; [destruct Hc|].
  cbn [fst snd] in *. inversion T as [|? ? [T1 T2] T3]; subst. cbn [fst snd] in *. destruct Hc as [E|Hc]; [|exact (IH T3 c' now' Hc)].
  injection E as <- <-. apply (requests_typed C (mk_params [] [] [] []) (S_insert_cert i t) _ L (conj T1 T2)). split; [exact Rc|reflexivity].
Qed.
Lemma boot_run : forall C me node data certs d l, crypto_laws C -> wasm32 C = true -> literal_keys C -> good_boot C d certs l ->
  exists d1, boot C me me node data None certs d = (Ok [R_true], graph_history C d1 (adding l)) /\
    root_set d root_key 5 d1 /\ service_reachable C d1 /\ root_max_len d1 root_key 5 /\ good_family C d1 root_key 5 l.
Proof.
  intros C me node data certs d l L W K (R & T & I & F & Rt). destruct (root_good C d me node L W K R) as (resp & d1 & E & Rp & Rs & R1).
  assert (Rm : root_max_len d1 root_key 5).
  { pose proof (service_reachable_graph C d L R) as Rg. apply reachable_inv in Rg. destruct Rg as (s & -> & Inv). destruct Rs as (_ & Rk & Rm). apply Rm.
    destruct (in_dec (list_eq_dec Byte.byte_eq_dec) (key_text root_key) (map fst (tbl_roots (db_of s)))) as [Y|Y].
    - left. apply (is_root_max_len C) in Y; [|exact Inv]. destruct Y as (n & Y). rewrite (Rt n Y) in Y. exact Y.
    - right. auto. }
  assert (F1 := root_set_family C d root_key 5 d1 l Rs F).
  pose proof (input_typed C certs l L T I) as Tg. exists d1. split; [|auto].
  unfold boot. rewrite E, Rp. rewrite (boot_certs_good C me me node data certs l d1 L W R1 T I); [reflexivity|].
  apply (p_C105_adds_succeed C d1 root_key 5 l (service_reachable_graph C d1 L R1) Rm F1 Tg).
Qed.
Lemma boot_reach : forall C me creator node data fu certs d x d', crypto_laws C -> service_reachable C d -> boot_typed certs ->
  boot C me creator node data fu certs d = (x, d') -> service_reachable C d'.
Proof.
  intros C me creator node data fu certs d x d' L R T E. destruct (p_C106_always_ends C me creator node data fu certs d L R T) as (l & d2 & E2 & _ & _ & H). congruence.
Qed.

(** The owner's start with good certificates returns only [true]. Then the root is set, with length 5, exactly the trusts offered were added, *)
Lemma p_C106_good_start : forall C me node data certs d l x d', crypto_laws C -> wasm32 C = true -> literal_keys C -> good_boot C d certs l ->
  boot C me me node data None certs d = (x, d') ->
  x = Ok [R_true] /\ root_max_len d' root_key 5 /\ (forall k, is_root d' k <-> is_root d k \/ k = root_key) /\
  (forall c now t b, In (c, now) l -> in_chain c t b -> stored d' (whole (RAuth (mk_auth t b)))) /\
  (forall z, stored d' z -> stored d z \/ exists c now t b, In (c, now) l /\ in_chain c t b /\ z = whole (RAuth (mk_auth t b))).
Proof.
  intros C me node data certs d l x d' L W K G E. destruct (boot_run C me node data certs d l L W K G) as (d1 & E1 & Rs & R1 & Rm & F1).
  rewrite E1 in E. apply pair_equal_spec in E. destruct E as [<- <-]. split; [reflexivity|]. destruct G as (R & T & I & F & Rt).
  pose proof (input_typed C certs l L T I) as Tg. pose proof (service_reachable_graph C d1 L R1) as Rg.
  destruct (p_C105_only_they C d1 root_key 5 l Rg Rm F1 Tg) as (A & B & Rl). split; [apply Rl; exact Rm|]. split; [|split; [exact A|]].
  - intros k. destruct Rs as (_ & Rk & _). rewrite <- Rk. assert (Q := Rg). apply reachable_inv in Q. destruct Q as (s & -> & Inv).
    destruct (family_run C s root_key 5 l Inv Rm F1 Tg) as [_ (s' & Es & H)]. rewrite Es in *.
    rewrite (is_root_max_len C s' k (h_inv _ _ _ _ _ _ _ H)), (is_root_max_len C s k Inv). split; intros (n & Hn); exists n; apply Rl; exact Hn.
  - intros z Hz. destruct (B z Hz) as [Y|Y]; [left|right; exact Y]. destruct Rs as (Er & _). revert Y. destruct z as [a|v]; cbn; unfold stored_trust, stored_revocation; rewrite Er; auto.
Qed.
(** every certificate is returned until it expires, *)
Lemma p_C106_certificates_count : forall C me node data certs d l x d' c now pk now' fu cs d'', crypto_laws C -> wasm32 C = true -> literal_keys C -> good_boot C d certs l ->
  boot C me me node data None certs d = (x, d') ->
  In (c, now) l -> key_at c (length c - 1) pk -> duration_wf now' -> (forall t, In t c -> secs now' < secs (expires_at t)) ->
  graph_step C d' (G_get_all_certs pk now', fu) = (Ok (GR_certs cs), d'') -> In (map whole_trust c) cs.
Proof.
  intros C me node data certs d l x d' c now pk now' fu cs d'' L W K G E. destruct (boot_run C me node data certs d l L W K G) as (d1 & E1 & Rs & R1 & Rm & F1).
  rewrite E1 in E. apply pair_equal_spec in E. destruct E as [<- <-]. destruct G as (R & T & I & F & Rt).
  apply (p_C105_all_count C d1 root_key 5 l c now pk now' fu cs d'' (service_reachable_graph C d1 L R1) Rm F1 (input_typed C certs l L T I)).
Qed.
(** and a second start with the same certificates, before they expire, is good again and adds nothing. *)
Lemma p_C106_restart : forall C me node data certs d l x d' certs' l' me' data' x' d'', crypto_laws C -> wasm32 C = true -> literal_keys C -> good_boot C d certs l ->
  boot C me me node data None certs d = (x, d') ->
  boot_typed certs' -> boot_input C certs' l' -> (forall c now, In (c, now) l' -> exists now0, In (c, now0) l) ->
  (forall c now c' now' t, In (c, now) l' -> In (c', now') l' -> In t c -> secs now' < secs (expires_at t)) ->
  boot C me' me' node data' None certs' d' = (x', d'') ->
  good_boot C d' certs' l' /\ x' = Ok [R_true] /\ forall z, stored d'' z -> stored d' z.
Proof.
  intros C me node data certs d l x d' certs' l' me' data' x' d'' L W K G E T' I' Inc Al E'.
  pose proof G as (R & T & I & F & Rt). pose proof (boot_reach C _ _ _ _ _ _ _ _ _ L R T E) as Rd'.
  destruct (p_C106_good_start C me node data certs d l x d' L W K G E) as (_ & Rm' & _ & Ac & _).
  assert (G' : good_boot C d' certs' l').
  { split; [exact Rd'|]. split; [exact T'|]. split; [exact I'|]. split.
    - destruct (boot_run C me node data certs d l L W K G) as (d1 & E1 & Rs & R1 & Rm & F1). rewrite E1 in E. apply pair_equal_spec in E. destruct E as [<- <-].
      apply (p_C105_again C d1 root_key 5 l l' (service_reachable_graph C d1 L R1) Rm F1 (input_typed C certs l L T I) Inc).
      intros c now c' now' t Hc Hc' Ht. split; [|exact (Al c now c' now' t Hc Hc' Ht)]. apply (input_typed C certs' l' L T' I' c' now' Hc').
    - intros n Hn. destruct Rm' as (w & W1 & W2). destruct Hn as (w' & W3 & W4). rewrite W1 in W3. injection W3 as <-. lia. }
  split; [exact G'|]. destruct (p_C106_good_start C me' node data' certs' d' l' x' d'' L W K G' E') as (-> & _ & _ & _ & B). split; [reflexivity|].
  intros z Hz. destruct (B z Hz) as [Y|(c & now & t & b & Hc & Ht & ->)]; [exact Y|]. destruct (Inc c now Hc) as (n0 & H0). exact (Ac c n0 t b H0 Ht).
Qed.
Lemma boot_certs_roots : forall C me creator node data certs d r d', crypto_laws C -> service_reachable C d -> boot_typed certs ->
  boot_certs C me creator node data certs d = (r, d') -> tbl_roots d' = tbl_roots d.
Proof.
  intros C me creator node data certs d r d' L. revert d r d'. induction certs as [|[[i t] fu] certs IH]; intros d r d' R T E.
  - cbn in E. injection E as <- <-. reflexivity.
  - inversion T as [|? ? [T1 T2] T3]; subst. cbn [fst snd] in *. cbn [boot_certs] in E.
    set (cp := mk_params me creator node [data; clock_of node]) in *.
    destruct (service_step C d (cp, S_insert_cert i t, fu)) as [r1 d1] eqn:E1.
    assert (R1 : service_reachable C d1).
    { change d1 with (snd (r1, d1)). rewrite <- E1. apply service_step_reachable; [exact R|]. cbn [fst snd service_typed]. auto. }
    assert (Q : tbl_roots d1 = tbl_roots d).
    { destruct (p_C41_only_the_owner_sets_roots C d cp (S_insert_cert i t) fu r1 d1 L R (conj T1 T2) E1) as [X|(p & n & k & X & _)]; [exact X|discriminate X]. }
    destruct r1 as [resp|e| |]; [|injection E as _ <-; exact Q ..].
    destruct (boot_certs C me creator node data certs d1) as [r2 d2] eqn:E2. rewrite <- Q. rewrite <- (IH d1 r2 d2 R1 T3 E2).
    destruct r2; injection E as _ <-; reflexivity.
Qed.
(** Run by anyone else, it reports that first and sets no root. *)
Lemma p_C106_not_the_owner : forall C me creator node data fu certs d, crypto_laws C -> service_reachable C d -> boot_typed certs -> me <> creator ->
  exists l d', boot C me creator node data fu certs d = (Ok (R_error (Some SVE_NotOwner) :: l ++ [R_true]), d') /\ tbl_roots d' = tbl_roots d.
Proof.
  intros C me creator node data fu certs d L R T N. unfold boot. rewrite service_plan. cbn [plan init_peer_id service_creator_peer_id].
  destruct (bytes_eqb creator me) eqn:B; [apply bytes_eqb_eq in B; symmetry in B; contradiction|]. cbn [carry_out].
  destruct (boot_certs_ends C me creator node data certs d L R T) as (l & d' & E & _). rewrite E. exists l, d'. split; [reflexivity|].
  eapply boot_certs_roots; eassumption.
Qed.

(** ** C107 *)
Lemma whole_expired : forall now t b, secs (expires_at t) < i64_bound -> now < secs (expires_at t) -> ~ db_expired (from_secs now) (whole (RAuth (mk_auth t b))).
Proof.
  intros now t b B Lt H. unfold db_expired, whole, whole_trust, from_secs in H. cbn [auth_trust expires_at secs] in H.
  unfold i64_of_u64 in H. replace (secs (expires_at t) <? i64_bound) with true in H by lia. replace (now <? i64_bound) with true in H by lia. lia.
Qed.
(** A node that one of the certificates leads to over the label is told it is a Fluence peer, *)
Lemma p_C107_labels : forall C net me node data certs d l x st r st' t0 t1 t2 n k now, crypto_laws C -> wasm32 C = true -> literal_keys C -> good_boot C d certs l ->
  boot C me me node data None certs d = (x, st node) -> network_state C st -> (forall c, fault net node c = None) ->
  In ([t0; t1; t2], n) l -> issued_for t1 = label_key -> issued_for t2 = k -> peer_key C node k ->
  now < u64_bound -> (forall t, In t [t0; t1; t2] -> now < secs (expires_at t)) ->
  is_fluence_peer C net node now st = (r, st') -> r = Ok ([true], []).
Proof.
  intros C net me node data certs d l x st r st' t0 t1 t2 n k now L W K G E N Nf Hc I1 I2 Pk Bn He Ef.
  destruct (p_C93_is_fluence_peer_exact C net node k now st r st' L W K N Bn Pk Ef) as [_ [(b & -> & Col & Hb)|(e & _ & c & F)]]; [|elim F; apply Nf].
  destruct (p_C106_good_start C me node data certs d l x (st node) L W K G E) as (_ & _ & Rr & St & Src). pose proof G as (R & T & I & F & Rt).
  destruct (gf_shape _ _ _ _ _ F _ _ Hc) as (_ & _ & (t0' & Z & K0) & ND). injection Z as <-. cbn [map] in ND. rewrite K0, I1, I2 in ND.
  assert (Al : forall t, In t [t0; t1; t2] -> secs (expires_at t) < i64_bound) by (intros t Ht; apply (gf_alive _ _ _ _ _ F _ _ _ _ t Hc Hc Ht)).
  assert (Q : forall t b', In t [t0; t1; t2] -> in_chain [t0; t1; t2] t b' -> stored (st' node) (whole (RAuth (mk_auth t b')))).
  { intros t b' Ht Hi. apply Col. split; [exact (St _ _ t b' Hc Hi)|]. apply whole_expired; auto. }
  f_equal. f_equal. f_equal. apply Hb. destruct Col as [Cr Cs]. split; [|split; [|split; [|split; [|split]]]].
  - intros ->. inversion ND as [|? ? X]; subst. apply X. cbn. auto.
  - unfold is_root. rewrite Cr. apply Rr. right. reflexivity.
  - exists (whole_trust t0). split; [exact K0|]. apply (Q t0 root_key); [cbn; auto|]. exists 0%nat. split; [reflexivity|]. exists t0. split; [reflexivity|exact K0].
  - exists (whole_trust t1). split; [exact I1|]. apply (Q t1 root_key); [cbn; auto|]. exists 1%nat. split; [reflexivity|]. exists t0. split; [reflexivity|exact K0].
  - exists (whole_trust t2). split; [exact I2|]. apply (Q t2 label_key); [cbn; auto|]. exists 2%nat. split; [reflexivity|]. exists t1. split; [reflexivity|exact I1].
  - intros (v & V1 & V2 & V3). assert (X : stored (st' node) (RRev v)) by exact V3. apply Cs in X. destruct X as [X _]. apply Src in X.
    destruct X as [X|(c & n1 & t & b' & _ & _ & X)]; [|discriminate X]. apply (gf_unrevoked _ _ _ _ _ F _ _ v Hc X); cbn [map]; rewrite K0, I1, I2; [left; congruence|].
    right. right. left. congruence.
Qed.
(** and after a start from an empty store exactly these nodes are. *)
Lemma p_C107_only_labelled : forall C net me node data certs d l x st r st' k now, crypto_laws C -> wasm32 C = true -> literal_keys C -> good_boot C d certs l ->
  tbl_relations d = [] -> l <> [] ->
  boot C me me node data None certs d = (x, st node) -> network_state C st -> (forall c, fault net node c = None) -> peer_key C node k ->
  now < u64_bound -> (forall c n t, In (c, n) l -> In t c -> now < secs (expires_at t)) ->
  is_fluence_peer C net node now st = (r, st') ->
  exists b, r = Ok ([b], []) /\
    (b = true <-> k <> root_key /\ (exists c n t, In (c, n) l /\ in_chain c t root_key /\ issued_for t = label_key) /\
                  (exists c n t, In (c, n) l /\ in_chain c t label_key /\ issued_for t = k)).
Proof.
  intros C net me node data certs d l x st r st' k now L W K G Em Ne E N Nf Pk Bn He Ef.
  destruct (p_C93_is_fluence_peer_exact C net node k now st r st' L W K N Bn Pk Ef) as [_ [(b & -> & Col & Hb)|(e & _ & c & F)]]; [|elim F; apply Nf].
  exists b. split; [reflexivity|]. rewrite Hb. destruct Col as [Cr Cs].
  destruct (p_C106_good_start C me node data certs d l x (st node) L W K G E) as (_ & _ & Rr & St & Src). pose proof G as (R & T & I & F & Rt).
  assert (Em' : forall z, ~ stored d z) by (intros [a|v]; cbn; unfold stored_trust, stored_revocation; rewrite Em; cbn; tauto).
  assert (Ic : forall c t b', in_chain c t b' -> In t c) by (intros c t b' (i & H & _); eapply nth_error_In; exact H).
  assert (Q : forall c n t b', In (c, n) l -> in_chain c t b' -> stored_trust (st' node) b' (whole_trust t)).
  { intros c n t b' Hc Hi. change (stored (st' node) (whole (RAuth (mk_auth t b')))). apply Cs. split; [exact (St _ _ t b' Hc Hi)|].
    apply whole_expired; [apply (gf_alive _ _ _ _ _ F _ _ _ _ t Hc Hc (Ic _ _ _ Hi))|exact (He c n t Hc (Ic _ _ _ Hi))]. }
  assert (P : forall b' t, stored_trust (st' node) b' t -> exists c n t', In (c, n) l /\ in_chain c t' b' /\ issued_for t' = issued_for t).
  { intros b' t Ht. assert (X : stored (st' node) (RAuth (mk_auth t b'))) by exact Ht. apply Cs in X. destruct X as [X _]. apply Src in X.
    destruct X as [X|(c & n & t' & b1 & Hc & Hi & X)]; [elim (Em' _ X)|]. injection X as -> ->. exists c, n, t'. auto. }
  split.
  - intros (V0 & _ & _ & (t1 & A1 & B1) & (t2 & A2 & B2) & _). split; [exact V0|].
    destruct (P _ _ B1) as (c1 & n1 & u1 & X1 & Y1 & Z1). destruct (P _ _ B2) as (c2 & n2 & u2 & X2 & Y2 & Z2).
    split; [exists c1, n1, u1|exists c2, n2, u2]; (split; [assumption|split; [assumption|congruence]]).
  - intros (V0 & (c1 & n1 & t1 & X1 & Y1 & Z1) & (c2 & n2 & t2 & X2 & Y2 & Z2)).
    split; [exact V0|]. split; [unfold is_root; rewrite Cr; apply Rr; right; reflexivity|].
    split; [|split; [exists (whole_trust t1); split; [exact Z1|exact (Q _ _ _ _ X1 Y1)]|split; [exists (whole_trust t2); split; [exact Z2|exact (Q _ _ _ _ X2 Y2)]|]]].
    + destruct (gf_shape _ _ _ _ _ F _ _ X1) as (_ & _ & (t0 & Z & K0) & _). exists (whole_trust t0). split; [exact K0|].
      apply (Q _ _ _ _ X1). exists 0%nat. split; [exact Z|]. exists t0. split; [exact Z|exact K0].
    + intros (v & V1 & V2 & V3). assert (X : stored (st' node) (RRev v)) by exact V3. apply Cs in X. destruct X as [X _]. apply Src in X.
      destruct X as [X|(c & n & t & b' & _ & _ & X)]; [elim (Em' _ X)|discriminate X].
Qed.

(** ** C108 *)
Definition shipped_trusts : list dto_trust :=
  [shipped_trust_0; shipped_trust_1; shipped_trust_2; shipped_trust_3; shipped_trust_4; shipped_trust_5; shipped_trust_6; shipped_trust_7; shipped_trust_8; shipped_trust_9;
    shipped_trust_10; shipped_trust_11; shipped_trust_12; shipped_trust_13].
Lemma shipped_in : forall r x, In r shipped -> In x r -> In x shipped_trusts.
Proof.
  intros r x Hr Hx. unfold shipped in Hr. cbn [In] in Hr. unfold shipped_trusts. cbn [In].
  repeat (destruct Hr as [<-|Hr]; [cbn [In] in Hx; tauto|]). destruct Hr.
Qed.
Lemma shipped_texts : forall C x, In x shipped_trusts ->
  peer_id_to_base58 (pk_to_peer_id C (read_key (dt_issued_for x))) = dt_issued_for x /\ length (pk_raw (read_key (dt_issued_for x))) = 32%nat /\
  b58_decode (dt_signature x) = Ok (decoded (dt_signature x)) /\ dt_sig_type x = fmt_text Ed25519 /\ dt_expires_at x = 1737828468 /\ dt_issued_at x = 1674756468.
Proof.
  intros C x Hx. unfold shipped_trusts in Hx. cbn [In] in Hx.
  repeat (destruct Hx as [<-|Hx]; [repeat split; vm_compute; reflexivity|]). destruct Hx.
Qed.
Lemma shipped_valid : forall C x, In x shipped_trusts -> ed_point C (pk_raw (read_key (dt_issued_for x))) = true -> pk_valid C (read_key (dt_issued_for x)).
Proof.
  intros C x Hx P. destruct (shipped_texts C x Hx) as (_ & Ln & _). split; [reflexivity|]. cbn [pk_fmt pk_raw read_key] in *. cbn [raw_key_ok].
  unfold len. rewrite P, Ln. reflexivity.
Qed.
Lemma shipped_record : forall C x, crypto_laws C -> wasm32 C = true -> In x shipped_trusts -> ed_point C (pk_raw (read_key (dt_issued_for x))) = true ->
  trust_record C x (read_trust x).
Proof.
  intros C x L W Hx P. destruct (shipped_texts C x Hx) as (Tx & Ln & Sg & St & _). split; [|split; [reflexivity|split; [reflexivity|]]].
  - cbn [read_trust issued_for]. rewrite <- Tx at 1. apply peer_key_text; [exact L|apply shipped_valid; assumption|discriminate].
  - split; [exact Sg|]. split; [reflexivity|exact St].
Qed.
Fixpoint nodupb (l : list bytes) : bool := match l with [] => true | x :: r => negb (existsb (bytes_eqb x) r) && nodupb r end.
Lemma nodupb_ok : forall l, nodupb l = true -> NoDup l.
Proof.
  induction l as [|x l IH]; intros H; [constructor|]. cbn [nodupb] in H. apply andb_true_iff in H. destruct H as [A B]. constructor; [|exact (IH B)].
  intros Hx. apply negb_true_iff in A. assert (existsb (bytes_eqb x) l = true) by (apply existsb_exists; exists x; split; [exact Hx|apply bytes_eqb_refl]). congruence.
Qed.
Lemma nodup_map_inj : forall {A B} (f : A -> B) l x y, NoDup (map f l) -> In x l -> In y l -> f x = f y -> x = y.
Proof.
  intros A B f l x y. induction l as [|a l IH]; intros N Hx Hy E; [destruct Hx|]. cbn [map] in N. inversion N as [|? ? N1 N2]; subst.
  destruct Hx as [<-|Hx], Hy as [<-|Hy]; try reflexivity.
  - elim N1. rewrite E. apply in_map. exact Hy.
  - elim N1. rewrite <- E. apply in_map. exact Hx.
  - exact (IH N2 Hx Hy E).
Qed.
Lemma shipped_inj : forall x y, In x shipped_trusts -> In y shipped_trusts -> read_key (dt_issued_for x) = read_key (dt_issued_for y) -> x = y.
Proof.
  intros x y Hx Hy E. apply (nodup_map_inj (fun x => pk_raw (read_key (dt_issued_for x))) shipped_trusts); try assumption.
  - apply nodupb_ok. vm_compute. reflexivity.
  - rewrite E. reflexivity.
Qed.
Lemma shipped_shape : forall r, In r shipped -> (2 <= length r <= 3)%nat /\ NoDup (map issued_for (map read_trust r)) /\ exists r', r = shipped_trust_0 :: r'.
Proof.
  intros r Hr. split; [|split].
  - unfold shipped in Hr. cbn [In] in Hr. repeat (destruct Hr as [<-|Hr]; [cbn [length]; lia|]). destruct Hr.
  - apply (NoDup_map_inv pk_raw). apply nodupb_ok. unfold shipped in Hr. cbn [In] in Hr. repeat (destruct Hr as [<-|Hr]; [vm_compute; reflexivity|]). destruct Hr.
  - unfold shipped in Hr. cbn [In] in Hr. repeat (destruct Hr as [<-|Hr]; [eexists; reflexivity|]). destruct Hr.
Qed.
Lemma shipped_keys : read_key (dt_issued_for shipped_trust_0) = root_key /\ read_key (dt_issued_for shipped_trust_2) = label_key.
Proof. split; vm_compute; reflexivity. Qed.
Definition shipped_input (certs : list (dto_certificate * N * option nat)) : list (certificate * duration) :=
  map (fun x => (map read_trust (fst (fst x)), from_secs (snd (fst x)))) certs.
Lemma in_shipped_input : forall certs c now, map (fun x => fst (fst x)) certs = shipped -> In (c, now) (shipped_input certs) ->
  exists r t fu, In (r, t, fu) certs /\ In r shipped /\ c = map read_trust r /\ now = from_secs t.
Proof.
  intros certs c now E H. apply in_map_iff in H. destruct H as ([[r t] fu] & X & Hx). cbn [fst snd] in X. injection X as <- <-. exists r, t, fu.
  split; [exact Hx|]. split; [|auto]. rewrite <- E. change r with (fst (fst (r, t, fu))). apply (in_map (fun x => fst (fst x))). exact Hx.
Qed.
Lemma from_shipped : forall r t, In r shipped -> In t (map read_trust r) -> exists x, In x shipped_trusts /\ t = read_trust x.
Proof. intros r t Hr Ht. apply in_map_iff in Ht. destruct Ht as (x & <- & Hx). exists x. split; [exact (shipped_in r x Hr Hx)|reflexivity]. Qed.
Lemma genuine_point : forall C x, shipped_genuine C -> In x shipped_trusts -> ed_point C (pk_raw (read_key (dt_issued_for x))) = true.
Proof.
  intros C x (P & _) Hx. assert (Q : exists r, In r shipped /\ In x r).
  { unfold shipped_trusts in Hx. cbn [In] in Hx.
    destruct Hx as [<-|[<-|[<-|Hx]]]; [exists [shipped_trust_0; shipped_trust_1]|exists [shipped_trust_0; shipped_trust_1]|exists [shipped_trust_0; shipped_trust_2; shipped_trust_3]|
      exists [shipped_trust_0; shipped_trust_2; x]; unfold shipped; cbn [In]; split; [|auto]; repeat (destruct Hx as [<-|Hx]; [tauto|]); destruct Hx];
    unfold shipped; cbn [In]; tauto. }
  destruct Q as (r & Hr & Hxr). apply (P (map read_trust r) (read_trust x)); apply in_map; assumption.
Qed.
Lemma shipped_literal : forall C, shipped_genuine C -> literal_keys C.
Proof.
  intros C G. destruct shipped_keys as [A B]. split.
  - change root_raw with (pk_raw root_key). rewrite <- A. apply genuine_point; [exact G|cbn; auto].
  - change label_raw with (pk_raw label_key). rewrite <- B. apply genuine_point; [exact G|cbn; auto].
Qed.
Lemma shipped_good : forall C certs, crypto_laws C -> wasm32 C = true -> shipped_genuine C -> map (fun x => fst (fst x)) certs = shipped ->
  (forall i t fu, In (i, t, fu) certs -> t < 1737828468 /\ fu = None) -> good_boot C empty_db certs (shipped_input certs).
Proof.
  intros C certs L W G E H. assert (Hs : forall i t fu, In (i, t, fu) certs -> In i shipped).
  { intros i t fu Hi. rewrite <- E. change i with (fst (fst (i, t, fu))). apply (in_map (fun x => fst (fst x))). exact Hi. }
  split; [exists []; split; [constructor|reflexivity]|]. split; [|split; [|split]].
  - apply Forall_forall. intros [[i t] fu] Hi. destruct (H i t fu Hi) as [Lt _]. cbn [fst snd]. split; [|unfold u64_bound; lia].
    apply Forall_forall. intros x Hx. destruct (shipped_texts C x (shipped_in i x (Hs i t fu Hi) Hx)) as (_ & _ & _ & _ & E1 & E2).
    split; [rewrite E1|rewrite E2]; reflexivity.
  - assert (Q : forall cs, (forall i t fu, In (i, t, fu) cs -> fu = None /\ In i shipped) -> boot_input C cs (shipped_input cs)).
    { induction cs as [|[[i t] fu] cs IH]; intros Hq; [constructor|]. constructor; [|apply IH; intros; apply (Hq i0 t0 fu0); right; assumption].
      destruct (Hq i t fu (or_introl eq_refl)) as [Hf Hi]. cbn [fst snd]. split; [|split; [reflexivity|exact Hf]].
      assert (Z : forall r, (forall x, In x r -> In x shipped_trusts) -> certificate_record C r (map read_trust r)).
      { induction r as [|x r IHr]; intros Hr; [constructor|]. constructor; [|apply IHr; intros y Hy; apply Hr; right; exact Hy].
        apply shipped_record; try assumption; [apply Hr; left; reflexivity|]. apply genuine_point; [exact G|apply Hr; left; reflexivity]. }
      apply Z. intros x Hx. exact (shipped_in i x Hi Hx). }
    apply Q. intros i t fu Hi. split; [apply (H i t fu Hi)|exact (Hs i t fu Hi)].
  - assert (Fr : forall c now, In (c, now) (shipped_input certs) -> exists r t, In r shipped /\ c = map read_trust r /\ now = from_secs t /\ t < 1737828468).
    { intros c now Hc. destruct (in_shipped_input certs c now E Hc) as (r & t & fu & Hi & Hr & -> & ->). exists r, t. destruct (H r t fu Hi). auto. }
    assert (Ex : forall c now t, In (c, now) (shipped_input certs) -> In t c -> secs (expires_at t) = 1737828468).
    { intros c now t Hc Ht. destruct (Fr c now Hc) as (r & n & Hr & -> & _). destruct (from_shipped r t Hr Ht) as (x & Hx & ->).
      destruct (shipped_texts C x Hx) as (_ & _ & _ & _ & E1 & _). cbn [read_trust expires_at from_secs secs]. exact E1. }
    split.
    + intros c now Hc. destruct (Fr c now Hc) as (r & n & Hr & -> & _). destruct (shipped_shape r Hr) as (Ln & ND & r' & ->).
      rewrite map_length. split; [lia|]. split; [lia|]. split; [|exact ND]. exists (read_trust shipped_trust_0). split; [reflexivity|apply shipped_keys].
    + intros c now i Hc Hi. destruct (Fr c now Hc) as (r & n & Hr & Ec & -> & Lt). destruct G as [_ Gs].
      destruct (Gs c i) as (t & k & Ht & Hk & Sg); [rewrite Ec; apply in_map; exact Hr|exact Hi|]. exists t, k. split; [exact Ht|]. split; [exact Hk|]. split; [exact Sg|].
      apply nth_error_In in Ht. specialize (Ex c _ t Hc Ht). intros [X|[X _]]; cbn [from_secs secs] in X; lia.
    + intros c now c' now' t Hc Hc' Ht. destruct (Fr c' now' Hc') as (r & n & _ & _ & -> & Lt). rewrite (Ex c now t Hc Ht). cbn [from_secs secs]. split; [exact Lt|reflexivity].
    + intros c now c' now' t t' b Hc Hc' (i & Ht & _) (i' & Ht' & _) Ei. destruct (Fr c now Hc) as (r & n & Hr & -> & _). destruct (Fr c' now' Hc') as (r' & n' & Hr' & -> & _).
      apply nth_error_In in Ht, Ht'. destruct (from_shipped r t Hr Ht) as (x & Hx & ->). destruct (from_shipped r' t' Hr' Ht') as (x' & Hx' & ->).
      f_equal. apply shipped_inj; assumption.
    + intros c now t b z _ _ Hz. destruct z as [a|v]; cbn in Hz; [destruct Hz as (_ & _ & [])|destruct Hz as (_ & [])].
    + intros c now v _ [_ []].
  - intros n (w & X & _). discriminate X.
Qed.
Lemma shipped_third : forall r t, In r shipped -> in_chain (map read_trust r) t label_key -> exists p, In p shipped_nodes /\ issued_for t = read_key p.
Proof.
  intros r t Hr (i & Ht & (g & Hg & Eg)). destruct shipped_keys as [Kr Kl].
  assert (D : root_key <> label_key) by (intros X; vm_compute in X; discriminate X).
  assert (Z : exists x, r = [shipped_trust_0; shipped_trust_1] \/ (r = [shipped_trust_0; shipped_trust_2; x] /\ In (dt_issued_for x) shipped_nodes)).
  { unfold shipped in Hr. cbn [In] in Hr. destruct Hr as [<-|Hr]; [exists shipped_trust_0; left; reflexivity|].
    repeat (destruct Hr as [<-|Hr]; [eexists; right; split; [reflexivity|]; unfold shipped_nodes; cbn [map In]; tauto|]). destruct Hr. }
  unfold at_pos in *. destruct Z as (x & [->|[-> Hx]]); cbn [map] in *.
  - exfalso. destruct i as [|[|i]]; cbn [nth_error Nat.sub] in Ht, Hg.
    + injection Hg as <-. cbn [read_trust issued_for] in Eg. congruence.
    + injection Hg as <-. cbn [read_trust issued_for] in Eg. congruence.
    + destruct i; discriminate Ht.
  - destruct i as [|[|[|i]]]; cbn [nth_error Nat.sub] in Ht, Hg.
    + injection Hg as <-. cbn [read_trust issued_for] in Eg. congruence.
    + injection Hg as <-. cbn [read_trust issued_for] in Eg. congruence.
    + injection Ht as <-. exists (dt_issued_for x). split; [exact Hx|reflexivity].
    + destruct i; discriminate Ht.
Qed.
Lemma shipped_node : forall p, In p shipped_nodes -> exists x, In x shipped_trusts /\ dt_issued_for x = p /\ In [shipped_trust_0; shipped_trust_2; x] shipped.
Proof.
  intros p Hp. unfold shipped_nodes in Hp. cbn [map In] in Hp.
  repeat (destruct Hp as [<-|Hp]; [eexists; split; [|split; [reflexivity|]]; [unfold shipped_trusts|unfold shipped]; cbn [In]; [|now eauto 20]; now eauto 20|]). destruct Hp.
Qed.
(** A new node started with the shipped certificates before 25 January 2025 is told it is a Fluence peer exactly if it is one of their
    eleven nodes. *)
Lemma p_C108_shipped_labels : forall C net me node data certs x st r st' k now, crypto_laws C -> wasm32 C = true -> shipped_genuine C ->
  map (fun x => fst (fst x)) certs = shipped -> (forall i t fu, In (i, t, fu) certs -> t < 1737828468 /\ fu = None) ->
  boot C me me node data None certs empty_db = (x, st node) -> network_state C st -> (forall c, fault net node c = None) -> peer_key C node k ->
  now < 1737828468 -> is_fluence_peer C net node now st = (r, st') ->
  x = Ok [R_true] /\ exists b, r = Ok ([b], []) /\ (b = true <-> exists p, In p shipped_nodes /\ peer_key C p k).
Proof.
  intros C net me node data certs x st r st' k now L W G E H Eb N Nf Pk Bn Ef. pose proof (shipped_literal C G) as K.
  pose proof (shipped_good C certs L W G E H) as Gb.
  destruct (p_C106_good_start C me node data certs empty_db (shipped_input certs) x (st node) L W K Gb Eb) as [Ex _]. split; [exact Ex|].
  assert (Bt : forall c n t, In (c, n) (shipped_input certs) -> In t c -> now < secs (expires_at t)).
  { intros c n t Hc Ht. destruct (in_shipped_input certs c n E Hc) as (i & m & fu & _ & Hr & -> & _). destruct (from_shipped i t Hr Ht) as (y & Hy & ->).
    destruct (shipped_texts C y Hy) as (_ & _ & _ & _ & E1 & _). cbn [read_trust expires_at from_secs secs]. rewrite E1. exact Bn. }
  assert (Has : forall i, In i shipped -> exists n, In (map read_trust i, n) (shipped_input certs)).
  { intros i Hi. rewrite <- E in Hi. apply in_map_iff in Hi. destruct Hi as ([[i' t] fu] & <- & Hi). exists (from_secs t). apply in_map_iff. exists (i', t, fu). auto. }
  assert (Ne : shipped_input certs <> []).
  { destruct (Has [shipped_trust_0; shipped_trust_1]) as (n & X); [left; reflexivity|]. intros Y. rewrite Y in X. destruct X. }
  destruct (p_C107_only_labelled C net me node data certs empty_db (shipped_input certs) x st r st' k now L W K Gb eq_refl Ne Eb N Nf Pk) as (b & -> & Hb);
    [unfold u64_bound; lia|exact Bt|exact Ef|].
  exists b. split; [reflexivity|]. rewrite Hb. split.
  - intros (_ & _ & (c & n & t & Hc & Hi & <-)). destruct (in_shipped_input certs c n E Hc) as (i & m & fu & _ & Hr & -> & _).
    destruct (shipped_third i t Hr Hi) as (p & Hp & ->). exists p. split; [exact Hp|]. destruct (shipped_node p Hp) as (y & Hy & <- & _).
    apply (shipped_record C y L W Hy). apply genuine_point; assumption.
  - intros (p & Hp & Kp). destruct (shipped_node p Hp) as (y & Hy & <- & Hi).
    assert (Ek : k = read_key (dt_issued_for y)).
    { apply (peer_key_fun C (dt_issued_for y)); [exact Kp|]. apply (shipped_record C y L W Hy). apply genuine_point; assumption. }
    destruct (Has _ Hi) as (n & Hn). cbn [map] in Hn. destruct shipped_keys as [Kr Kl]. split; [|split].
    + destruct (shipped_shape _ Hi) as (_ & ND & _). cbn [map read_trust issued_for] in ND. rewrite Kr, <- Ek in ND. intros ->. inversion ND as [|? ? X]; subst. apply X. cbn. auto.
    + exists [read_trust shipped_trust_0; read_trust shipped_trust_2; read_trust y], n, (read_trust shipped_trust_2). split; [exact Hn|]. split; [|exact Kl].
      exists 1%nat. split; [reflexivity|]. exists (read_trust shipped_trust_0). split; [reflexivity|exact Kr].
    + exists [read_trust shipped_trust_0; read_trust shipped_trust_2; read_trust y], n, (read_trust y). split; [exact Hn|]. split; [|symmetry; exact Ek].
      exists 2%nat. split; [reflexivity|]. exists (read_trust shipped_trust_2). split; [reflexivity|exact Kl].
Qed.

Lemma add_expired : forall C d c now fu t, crypto_laws C -> service_reachable C d -> call_typed C (G_add c now) -> at_pos c 0 t -> before (expires_at t) now ->
  exists e, graph_step C d (G_add c now, fu) = (Err e, d).
Proof.
  intros C d c now fu t L R T Ht B. pose proof (service_reachable_graph C d L R) as Rg. apply reachable_inv in Rg. destruct Rg as (s & -> & Inv).
  destruct c as [|t' c]; [discriminate Ht|]. injection Ht as ->.
  assert (V : exists e, trust_verify C t (issued_for t) now = Err e).
  { destruct (trust_verify_total C t (issued_for t) now) as [V|V]; [|exact V]. apply trust_verify_exact in V. destruct V as [V _]. contradiction. }
  destruct V as (e & V). assert (X : sem C s (G_add (t :: c) now) = (Err (GE_TrustVerification e), [])).
  { cbn [sem add_sem add_chain_sem]. unfold add_trust_sem. rewrite V. reflexivity. }
  destruct (graph_step_sem C s (G_add (t :: c) now) fu (inv_wf C s Inv) T) as [Gs|(_ & n & Gs)]; rewrite X in Gs; cbn [fst snd] in Gs.
  - eexists. exact Gs.
  - rewrite firstn_nil in Gs. eexists. exact Gs.
Qed.
Lemma insert_expired : forall C d cp i ts fu x, crypto_laws C -> service_reachable C d -> Forall dto_trust_typed i -> ts < u64_bound ->
  nth_error i 0 = Some x -> dt_expires_at x < ts ->
  exists resp e, service_step C d (cp, S_insert_cert i ts, fu) = (Ok resp, d) /\ reports resp = [R_error (Some e)].
Proof.
  intros C d cp i ts fu x L R T1 T2 Hx Lt. destruct (service_step C d (cp, S_insert_cert i ts, fu)) as [r d'] eqn:E.
  destruct (p_C65_calls_respond C d cp (S_insert_cert i ts) fu r d' L R (conj T1 T2) E) as [[resp ->]|(s & ts' & X & _)]; [|discriminate X].
  assert (Z : d' = d /\ success resp = false).
  { rewrite service_plan in E. destruct (plan C cp (S_insert_cert i ts)) as [[g|a]|e| |] eqn:P; cbn [carry_out] in E; try discriminate E.
    - pose proof (plan_requests C cp _ g P) as Rq. pose proof (requests_typed C cp (S_insert_cert i ts) g L (conj T1 T2) Rq) as Tg. destruct g; cbn [requests] in Rq; try contradiction.
      destruct Rq as [Rc ->]. destruct i as [|y i]; [discriminate Hx|]. injection Hx as ->. inversion Rc as [|? t ? c' [_ [Ee _]] Rc']; subst.
      destruct (add_expired C d (t :: c') (from_secs ts) fu t L R Tg eq_refl) as (e & Eg).
      { rewrite Ee. left. exact Lt. }
      rewrite Eg in E. injection E as <- <-. auto.
    - exfalso. cbn [plan] in P. destruct (map_err SVE_DtoError (cert_of_dto C i)); cbn [bind] in P; discriminate P.
    - injection E as <- <-. auto. }
  destruct Z as [-> Sf]. destruct (reports_errors _ _ _ _ _ _ _ E) as [[X _]|(_ & e & X)]; [congruence|]. exists resp, e. auto.
Qed.
Lemma root_relations : forall C d cp p n fu r d', crypto_laws C -> service_reachable C d -> n < u32_bound ->
  service_step C d (cp, S_set_root p n, fu) = (r, d') -> tbl_relations d' = tbl_relations d.
Proof.
  intros C d cp p n fu r d' L R T E. rewrite service_plan in E.
  destruct (plan C cp (S_set_root p n)) as [[g|a]|e| |] eqn:P; cbn [carry_out] in E; try (injection E as _ <-; reflexivity).
  pose proof (plan_requests C cp _ g P) as Rq. pose proof (requests_typed C cp (S_set_root p n) g L T Rq) as Tg. destruct g; cbn [requests] in Rq; try contradiction.
  pose proof (service_reachable_graph C d L R) as Rg. apply reachable_inv in Rg. destruct Rg as (s & -> & Inv).
  destruct (graph_step C (db_of s) (G_set_root pk max_chain_len, fu)) as [y d2] eqn:Eg. assert (d2 = d') by (destruct y; congruence). subst d2.
  destruct (graph_step_sem C s (G_set_root pk max_chain_len) fu (inv_wf C s Inv) Tg) as [Gs|(_ & k & Gs)]; rewrite Gs in Eg; apply pair_equal_spec in Eg; destruct Eg as [_ <-].
  - reflexivity.
  - destruct k as [|[|k]]; reflexivity.
Qed.
(** Started later it refuses all twelve, whoever runs it and whatever the store holds: nothing is stored, and the script still ends with [true]. *)
Lemma p_C108_shipped_expired : forall C me creator node data fu certs d, crypto_laws C -> service_reachable C d ->
  map (fun x => fst (fst x)) certs = shipped -> (forall i t fu, In (i, t, fu) certs -> 1737828468 < t < u64_bound) ->
  exists l d', boot C me creator node data fu certs d = (Ok (l ++ [R_true]), d') /\ (12 <= length l)%nat /\ (forall x, In x l -> exists e, x = R_error (Some e)) /\
    tbl_relations d' = tbl_relations d.
Proof.
  intros C me creator node data fu certs d L R E H.
  assert (Q : forall cs d, service_reachable C d -> (forall i t fu, In (i, t, fu) cs -> In i shipped /\ 1737828468 < t < u64_bound) ->
    exists l, boot_certs C me creator node data cs d = (Ok l, d) /\ length l = length cs /\ all_errors l).
  { clear - L. intros cs. induction cs as [|[[i t] fu] cs IH]; intros d R H; [exists []; split; [reflexivity|split; [reflexivity|intros x []]]|].
    destruct (H i t fu (or_introl eq_refl)) as [Hi Ht]. destruct (shipped_shape i Hi) as (_ & _ & i' & Ei).
    destruct (insert_expired C d (mk_params me creator node [data; clock_of node]) i t fu shipped_trust_0 L R) as (resp & e & Es & Er).
    - apply Forall_forall. intros x Hx. destruct (shipped_texts C x (shipped_in i x Hi Hx)) as (_ & _ & _ & _ & E1 & E2). split; [rewrite E1|rewrite E2]; reflexivity.
    - lia.
    - rewrite Ei. reflexivity.
    - cbn [shipped_trust_0 shipped_trust dt_expires_at]. lia.
    - cbn [boot_certs]. rewrite Es. destruct (IH d R) as (l & El & Ll & Al); [intros; eapply H; right; eassumption|]. rewrite El, Er.
      eexists. split; [reflexivity|]. cbn [app length]. split; [lia|]. intros x [<-|Hx]; [eauto|exact (Al x Hx)]. }
  unfold boot. set (cp := mk_params me creator node [result_of me [] []; result_of me [] []]).
  destruct (service_step C d (cp, S_set_root fluence_root_peer_id 5, fu)) as [r d1] eqn:E1.
  assert (T0 : service_typed (S_set_root fluence_root_peer_id 5)) by reflexivity.
  assert (R1 : service_reachable C d1).
  { change d1 with (snd (r, d1)). rewrite <- E1. apply service_step_reachable; [exact R|exact T0]. }
  destruct (p_C65_calls_respond C d cp _ fu r d1 L R T0 E1) as [[resp ->]|(s & ts & X & _)]; [|discriminate X].
  destruct (Q certs d1 R1) as (l & El & Ll & Al).
  { intros i t fu' Hi. split; [|exact (H i t fu' Hi)]. rewrite <- E. change i with (fst (fst (i, t, fu'))). apply (in_map (fun x => fst (fst x))). exact Hi. }
  rewrite El. destruct (reports_all _ _ _ _ _ _ _ E1) as [A1 _]. exists (reports resp ++ l), d1. rewrite app_assoc. split; [reflexivity|].
  assert (Lc : length certs = 12%nat) by (rewrite <- (map_length (fun x => fst (fst x)) certs), E; reflexivity).
  split; [rewrite app_length; lia|]. split.
  - intros x Hx. apply in_app_or in Hx. destruct Hx as [Hx|Hx]; [exact (A1 x Hx)|exact (Al x Hx)].
  - apply (root_relations C d cp fluence_root_peer_id 5 fu _ d1 L R T0 E1).
Qed.
