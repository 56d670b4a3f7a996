(** What the functions of the Aqua interface do to the stores, as service calls. *)
From Coq Require Import String List NArith ZArith Bool Lia.
From Verif Require Import Base Text Keys Trust Certificate Relation Storage Graph Service Spec ServiceSpec Aqua AquaSpec.
From Verif Require Import BaseFacts KeysFacts TrustFacts SpecFacts StorageFacts GraphFacts StateFacts ChainFacts HistFacts ServiceFacts AquaFacts.
From Verif Require Import GraphThms MoreThms ServiceThms AquaThms.
Import ListNotations.
Open Scope N_scope.

Section WithCrypto.
Variable C : crypto.
Variable net : network.
Variable src : nat -> origin.

(** A service call that the function makes on its node. *)
Definition good_event (a : api_call) (node : text) (e : service_event) : Prop :=
  match e with
  | (cp, c, _) =>
      init_peer_id cp = initiator net /\ service_creator_peer_id cp = creator_on net node /\ service_typed c /\
      (forall ts i, given_time c = Some (ts, i) -> node_time a = Some ts /\ host_time cp i) /\
      (forall p n, c = S_set_root p n -> root_of a = Some (p, n)) /\
      (inserts_cert c = true -> match a with A_insert_cert _ _ _ => True | _ => False end) /\
      (crypto_laws C -> wasm32 C = true -> forall g y, requests C cp c g -> offers g y -> signed_relation C y -> brings C a y)
  end.
Definition traced (a : api_call) (node : text) (st st' : stores) : Prop :=
  exists es, Forall (good_event a node) es /\ st' node = service_history C (st node) es /\ only_at node st st'.

Lemma traced_none : forall a node st st', unchanged st st' -> traced a node st st'.
Proof. intros a node st st' U. exists []. split; [constructor|]. split; [apply U|apply unchanged_only; exact U]. Qed.
Lemma traced_call : forall a node args c st, good_event a node (mk_params (initiator net) (creator_on net node) node args, c, fault net node c) ->
  traced a node st (snd (call_on C net node args c st)).
Proof.
  intros a node args c st G. exists [(mk_params (initiator net) (creator_on net node) node args, c, fault net node c)].
  split; [constructor; [exact G|constructor]|]. unfold call_on. cbn [service_history fold_left].
  destruct (service_step C (st node) _) as [r d]. cbn [snd]. split; [apply put_same|apply put_only].
Qed.
Lemma traced_trans : forall a node st st1 st2, traced a node st st1 -> traced a node st1 st2 -> traced a node st st2.
Proof.
  intros a node st st1 st2 (es1 & F1 & E1 & O1) (es2 & F2 & E2 & O2). exists (es1 ++ es2). split; [apply Forall_app; auto|].
  split; [|eapply only_trans; eassumption]. rewrite E2, E1. unfold service_history. rewrite fold_left_app. reflexivity.
Qed.
Lemma snd_sbind : forall A B (f : script A) (g : A -> script B) st, snd (sbind f g st) =
  match f st with (Ok x, st1) => snd (g x st1) | (_, st1) => st1 end.
Proof. intros A B f g st. unfold sbind. destruct (f st) as [[x|e| |] st1]; reflexivity. Qed.

Lemma import_traced : forall a node o oi x issuer now st, service_typed (S_add_trust x issuer now) -> node_time a = Some now ->
  (crypto_laws C -> wasm32 C = true -> forall t b, trust_record C x t -> peer_key C issuer b -> signed_trust C b t -> brings C a (RAuth (mk_auth t b))) ->
  traced a node st (snd (aq_import_trust C net node o oi x issuer now st)).
Proof.
  intros a node o oi x issuer now st T N B. unfold aq_import_trust. rewrite snd_sbind.
  assert (G : traced a node st (snd (call_on C net node [o; oi; clock_of node] (S_add_trust x issuer now) st))).
  { apply traced_call. cbn [good_event init_peer_id service_creator_peer_id given_time inserts_cert]. split; [reflexivity|]. split; [reflexivity|]. split; [exact T|].
    split; [intros ts i E; injection E as <- <-; split; [exact N|apply clock_host; reflexivity]|]. split; [discriminate|]. split; [discriminate|].
    intros L W g y Rq Ho Sy. destruct g; cbn [requests] in Rq; try contradiction. destruct y as [[t' b']|v]; cbn [offers offers_trust auth_trust issued_by] in Ho; [|discriminate Ho].
    destruct Ho as [-> ->]. apply B; [exact L|exact W|apply Rq|apply Rq|exact Sy]. }
  destruct (call_on C net node _ _ st) as [[r|e| |] st1]; exact G.
Qed.
Lemma import_rev_traced : forall a node o x now st, service_typed (S_revoke x now) -> node_time a = Some now ->
  (crypto_laws C -> wasm32 C = true -> forall v, revocation_record C x v -> signed_revocation C v -> brings C a (RRev v)) ->
  traced a node st (snd (aq_import_revocation C net node o x now st)).
Proof.
  intros a node o x now st T N B. unfold aq_import_revocation. rewrite snd_sbind.
  assert (G : traced a node st (snd (call_on C net node [o; clock_of node] (S_revoke x now) st))).
  { apply traced_call. cbn [good_event init_peer_id service_creator_peer_id given_time inserts_cert]. split; [reflexivity|]. split; [reflexivity|]. split; [exact T|].
    split; [intros ts i E; injection E as <- <-; split; [exact N|apply clock_host; reflexivity]|]. split; [discriminate|]. split; [discriminate|].
    intros L W g y Rq Ho Sy. destruct g; cbn [requests] in Rq; try contradiction. destruct y as [[t' b']|v']; cbn [offers offers_trust] in Ho; [contradiction|].
    injection Ho as ->. apply B; assumption. }
  destruct (call_on C net node _ _ st) as [[r|e| |] st1]; exact G.
Qed.

Ltac event T := cbn [good_event init_peer_id service_creator_peer_id given_time inserts_cert node_time root_of]; split; [reflexivity|]; split; [reflexivity|];
  split; [exact T|]; split; [intros ts_ i_ E_; first [discriminate E_|injection E_ as <- <-; split; [reflexivity|apply clock_host; reflexivity]]|];
  split; [intros p_ n_ E_; first [discriminate E_|injection E_ as <- <-; reflexivity]|]; split; [intros E_; first [discriminate E_|exact I]|];
  intros L_ W_ g_ y_ Rq_ Ho_ Sy_; destruct g_; cbn [requests] in Rq_; try contradiction; destruct y_; cbn [offers offers_trust] in Ho_; try contradiction; try discriminate Ho_.

Lemma script_traced : forall a node st, api_typed a -> target a = Some node -> traced a node st (run C net src a st).
Proof.
  intros a node st [Tn T] E. destruct a; cbn [target] in E; try discriminate E; injection E as ->; cbn [run node_time] in *;
    try (specialize (Tn now eq_refl)).
  - apply traced_call. event T.
  - apply import_traced; [split; assumption|reflexivity|]. intros L W t b Rt B Sg. split; [exact Sg|]. split; assumption.
  - (* add_trust *) destruct T as [Te Ti]. unfold aq_add_trust. rewrite snd_sbind. destruct (aq_issue_trust C net src issuer p e i st) as [r st1] eqn:E1.
    apply issue_trust_step in E1. destruct E1 as [U H]. eapply traced_trans; [apply traced_none; exact U|].
    destruct H as [(k & s & K & _ & ->)|[(k & _ & _ & ->)|(_ & x & ->)]]; cbn [fst snd bang].
    + rewrite snd_sbind. cbn [bang sret]. rewrite snd_sbind.
      pose proof (import_traced (A_add_trust node issuer p e i now) node (result_of (relay net) (str "trust-graph") (str "issue_trust")) (src 1)
        (dto_of_trust C (mk_trust k (from_secs e) (sig_from_bytes (pk_fmt k) s) (from_secs i))) issuer now st1) as G.
      destruct (aq_import_trust _ _ _ _ _ _ _ _ st1) as [[y|y| |] st2]; (apply G; [split; [split; assumption|exact Tn]|reflexivity|]);
        (intros L W t b' Rt B Sg; apply made_trust_back in Rt; try assumption; [subst t|eapply peer_key_valid; eassumption]; split; [exact Sg|]; exists k;
         split; [exact K|]; split; [exact B|]; repeat split; exact Sg).
    + apply traced_none. intros m. reflexivity.
    + apply traced_none. intros m. reflexivity.
  - (* add_root_trust *) destruct T as (Tr & Te & Ti). unfold aq_add_root_trust. rewrite snd_sbind. destruct (aq_issue_trust C net src p p e i st) as [r st1] eqn:E1.
    apply issue_trust_step in E1. destruct E1 as [U H]. eapply traced_trans; [apply traced_none; exact U|].
    destruct H as [(k & s & K & _ & ->)|[(k & _ & _ & ->)|(_ & x & ->)]]; cbn [fst snd bang].
    + rewrite snd_sbind. pose proof (traced_call (A_add_root_trust node p n e i now) node [src 0; src 1] (S_set_root p n) st1) as G1. unfold aq_set_root in *.
      destruct (call_on C net node [src 0; src 1] (S_set_root p n) st1) as [[r2|r2| |] st2]; cbn [snd] in G1;
        (eapply traced_trans; [apply G1; event Tr|]); try (apply traced_none; intros m; reflexivity).
      destruct (success r2); [|apply traced_none; intros m; reflexivity]. rewrite snd_sbind. cbn [bang sret]. rewrite snd_sbind.
      pose proof (import_traced (A_add_root_trust node p n e i now) node (result_of (relay net) (str "trust-graph") (str "issue_trust")) (src 1)
        (dto_of_trust C (mk_trust k (from_secs e) (sig_from_bytes (pk_fmt k) s) (from_secs i))) p now st2) as G.
      destruct (aq_import_trust _ _ _ _ _ _ _ _ st2) as [[y|y| |] st3]; (apply G; [split; [split; assumption|exact Tn]|reflexivity|]);
        (intros L W t b' Rt B Sg; apply made_trust_back in Rt; try assumption; [subst t|eapply peer_key_valid; eassumption]; split; [exact Sg|];
         pose proof (peer_key_fun C p _ _ K B) as <-; split; [exact K|]; repeat split; exact Sg).
    + apply traced_none. intros m. reflexivity.
    + apply traced_none. intros m. reflexivity.
  - apply traced_call. event (conj T Tn).
  - apply traced_call. event Tn.
  - apply traced_call. event Tn.
  - apply import_rev_traced; [split; assumption|reflexivity|]. intros L W v Rv Sg. split; assumption.
  - (* revoke *) unfold aq_revoke. rewrite snd_sbind. destruct (aq_issue_revocation C net src q p i st) as [r st1] eqn:E1.
    apply issue_revocation_step in E1. destruct E1 as [U H]. eapply traced_trans; [apply traced_none; exact U|].
    destruct H as [(k & b & s & K & B & _ & ->)|[(k & _ & _ & ->)|(_ & x & ->)]]; cbn [fst snd bang].
    + rewrite snd_sbind. cbn [bang sret]. rewrite snd_sbind.
      pose proof (import_rev_traced (A_revoke node q p i now) node (result_of (relay net) (str "trust-graph") (str "issue_revocation"))
        (dto_of_revocation C (mk_rev k (from_secs i) b (sig_from_bytes (pk_fmt b) s))) now st1) as G.
      destruct (aq_import_revocation _ _ _ _ _ _ st1) as [[y|y| |] st2]; (apply G; [split; assumption|reflexivity|]);
        (intros L W v Rv Sg; apply made_revocation_back in Rv; try assumption; try (eapply peer_key_valid; eassumption); subst v; split; [exact Sg|]; exists b, k;
         split; [exact B|]; split; [exact K|]; repeat split; exact Sg).
    + apply traced_none. intros m. reflexivity.
    + apply traced_none. intros m. reflexivity.
  - apply traced_call. event Tn.
  - apply traced_call. event Tn.
  - apply traced_call. event Tn.
  - apply traced_call. event Tn.
  - apply traced_call. event (conj T Tn). destruct Rq_ as [Rc ->]. split; [exact Sy_|]. eexists. split; [exact Rc|exact Ho_].
  - unfold is_fluence_peer. rewrite snd_sbind. unfold aq_get_host_certs_from.
    assert (G : traced (A_is_fluence_peer node now) node st (snd (call_on C net node [literal net; clock_of node] (S_get_host_certs_from label_peer_id now) st)))
      by (apply traced_call; event Tn).
    destruct (call_on C net node _ _ st) as [[r|e| |] st1]; exact G.
Qed.
Lemma issuing_unchanged : forall a st, target a = None -> unchanged st (run C net src a st).
Proof.
  intros a st E. destruct a; cbn [target] in E; try discriminate E; cbn [run].
  - destruct (aq_issue_trust C net src issuer p e i st) as [r st1] eqn:E1. apply issue_trust_step in E1. apply E1.
  - destruct (aq_issue_revocation C net src q p i st) as [r st1] eqn:E1. apply issue_revocation_step in E1. apply E1.
Qed.

Lemma traced_typed : forall a node es, Forall (good_event a node) es -> service_events_typed es.
Proof. intros a node es F. eapply Forall_impl; [|exact F]. intros [[cp c] fu] H. apply H. Qed.
Lemma history_reachable : forall d es, service_reachable C d -> service_events_typed es -> service_reachable C (service_history C d es).
Proof.
  intros d es (es0 & T0 & <-) T. exists (es0 ++ es). split; [apply Forall_app; auto|]. unfold service_history. rewrite fold_left_app. reflexivity.
Qed.

End WithCrypto.

(** ** C94 *)
(** A function of the interface changes at most the store of its node, and leaves a store that a service can leave. *)
Lemma p_C94_one_node : forall C net src a st, api_typed a -> network_state C st ->
  network_state C (run C net src a st) /\ forall n, target a <> Some n -> run C net src a st n = st n.
Proof.
  intros C net src a st T N. destruct (target a) as [node|] eqn:E.
  - destruct (script_traced C net src a node st T E) as (es & F & H & O). split.
    + intros n. destruct (bytes_eqb n node) eqn:B.
      * apply bytes_eqb_eq in B. subst n. rewrite H. apply history_reachable; [apply N|eapply traced_typed; exact F].
      * rewrite O; [apply N|]. intros ->. rewrite bytes_eqb_refl in B. discriminate B.
    + intros n X. apply O. congruence.
  - pose proof (issuing_unchanged C net src a st E) as U. split; [intros n; rewrite U; apply N|intros n _; apply U].
Qed.
(** Only the owner of a service gives it roots through the interface. *)
Lemma history_roots : forall C es d k m, crypto_laws C -> service_reachable C d -> service_events_typed es ->
  root_max_len (service_history C d es) k m ->
  root_max_len d k m \/ exists cp p n fu, In (cp, S_set_root p n, fu) es /\ init_peer_id cp = service_creator_peer_id cp /\ peer_key C p k /\ m = N.min n 16.
Proof.
  intros C es d k m L R. induction es as [|[[cp c] fu] es IH] using rev_ind; intros T H; [left; exact H|].
  apply Forall_app in T. destruct T as [T1 T2]. inversion T2 as [|? ? Tc _]; subst. cbn [fst snd] in Tc.
  unfold service_history in H. rewrite fold_left_app in H. cbn [fold_left] in H. fold (service_history C d es) in H.
  assert (Z : root_max_len (service_history C d es) k m ->
    root_max_len d k m \/ exists cp0 p n fu0, In (cp0, S_set_root p n, fu0) (es ++ [(cp, c, fu)]) /\ init_peer_id cp0 = service_creator_peer_id cp0 /\ peer_key C p k /\ m = N.min n 16).
  { intros X. destruct (IH T1 X) as [Y|(cp0 & p & n & fu0 & Y & Y')]; [left; exact Y|right]. exists cp0, p, n, fu0. split; [apply in_or_app; left; exact Y|exact Y']. }
  destruct (service_step C (service_history C d es) (cp, c, fu)) as [r d'] eqn:E. cbn [snd] in H.
  destruct (p_C41_only_the_owner_sets_roots C _ cp c fu r d' L (history_reachable C d es R T1) Tc E) as [X|(p & n & k' & -> & O & K & (_ & _ & X))].
  - apply Z. eapply root_max_len_tbl; eassumption.
  - apply X in H. destruct H as [H|(-> & _ & ->)]; [apply Z; exact H|]. right. exists cp, p, n, fu. split; [apply in_or_app; right; left; reflexivity|auto].
Qed.
Lemma p_C94_roots_by_owner : forall C net src a st n k m, crypto_laws C -> api_typed a -> network_state C st ->
  root_max_len (run C net src a st n) k m ->
  root_max_len (st n) k m \/
  (target a = Some n /\ owns net n /\ exists p l, root_of a = Some (p, l) /\ peer_key C p k /\ m = N.min l 16).
Proof.
  intros C net src a st n k m L T N H. destruct (target a) as [node|] eqn:E.
  - destruct (script_traced C net src a node st T E) as (es & F & Hn & O). destruct (bytes_eqb n node) eqn:B.
    + apply bytes_eqb_eq in B. subst n. rewrite Hn in H. apply history_roots in H; [|exact L|apply N|eapply traced_typed; exact F].
      destruct H as [H|(cp & p & l & fu & Hin & Ho & Hk & Hm)]; [left; exact H|right]. rewrite Forall_forall in F. specialize (F _ Hin).
      destruct F as (F1 & F2 & _ & _ & F5 & _). split; [reflexivity|]. split; [unfold owns; congruence|]. exists p, l. auto.
    + left. rewrite O in H; [exact H|]. intros ->. rewrite bytes_eqb_refl in B. discriminate B.
  - left. rewrite (issuing_unchanged C net src a st E n) in H. exact H.
Qed.
(** Over any uses of the interface by any users, from a network with nothing stored. *)
Lemma uses_state : forall C us st, uses_typed us -> network_state C st -> network_state C (run_all C us st).
Proof.
  intros C us. induction us as [|[[net src] a] us IH]; intros st T N; [exact N|]. inversion T as [|? ? T1 T2]; subst. cbn [fst snd] in *.
  unfold run_all. cbn [fold_left fst snd]. apply IH; [exact T2|]. apply p_C94_one_node; assumption.
Qed.
Lemma empty_state_ok : forall C, network_state C empty_network.
Proof. intros C n. exists []. split; [constructor|reflexivity]. Qed.
Lemma p_C94_every_root_is_the_owners : forall C us n k m, crypto_laws C -> uses_typed us ->
  root_max_len (run_all C us empty_network n) k m ->
  exists net src a p l, In (net, src, a) us /\ target a = Some n /\ owns net n /\ root_of a = Some (p, l) /\ peer_key C p k /\ m = N.min l 16.
Proof.
  intros C us n k m L. induction us as [|[[net src] a] us IH] using rev_ind; intros T H.
  { exfalso. destruct H as (w & H & _). discriminate H. }
  apply Forall_app in T. destruct T as [T1 T2]. inversion T2 as [|? ? Ta _]; subst. cbn [fst snd] in Ta.
  unfold run_all in H. rewrite fold_left_app in H. cbn [fold_left fst snd] in H. fold (run_all C us empty_network) in H.
  apply p_C94_roots_by_owner in H; [|exact L|exact Ta|apply uses_state; [exact T1|apply empty_state_ok]].
  destruct H as [H|(E & O & p & l & H)].
  - destruct (IH T1 H) as (net0 & src0 & a0 & p & l & Hin & Hr). exists net0, src0, a0, p, l. split; [apply in_or_app; left; exact Hin|exact Hr].
  - exists net, src, a, p, l. split; [apply in_or_app; right; left; reflexivity|]. auto.
Qed.

(** ** C95 *)
(** What a function removes from a store is expired at the clock of the node, or gives way to a newer relation of the same
    keys, signed, that this function was asked to bring. *)
Lemma genuine_signed : forall C c y, genuine C c y -> signed_relation C y.
Proof. intros C c [a|v] H; [apply H|exact H]. Qed.
Lemma p_C95_what_leaves : forall C net src a st n x, crypto_laws C -> wasm32 C = true -> api_typed a -> network_state C st -> stored (st n) x ->
  stored (run C net src a st n) x \/
  (target a = Some n /\
   ((exists now, node_time a = Some now /\ db_expired (from_secs now) x) \/
    (exists y, brings C a y /\ same_keys x y /\ before (rel_issued_at x) (rel_issued_at y)))).
Proof.
  intros C net src a st n x L W T N Sx. destruct (target a) as [node|] eqn:E.
  - destruct (script_traced C net src a node st T E) as (es & F & Hn & O). destruct (bytes_eqb n node) eqn:B.
    + apply bytes_eqb_eq in B. subst n. rewrite Hn, service_history_db.
      destruct (p_C64_why_relations_leave C (st node) (asked_all C es) x) as [H|(c & fu & Hin & H)].
      * eapply service_reachable_graph; [exact L|apply N].
      * apply asked_all_typed; [exact L|eapply traced_typed; exact F].
      * exact Sx.
      * left. exact H.
      * right. split; [reflexivity|]. apply asked_all_in in Hin. destruct Hin as (cp & sc & Hin & P). rewrite Forall_forall in F. specialize (F _ Hin).
        destruct F as (_ & _ & _ & F & _ & _ & Fb). destruct H as [(now & Hc & Hx)|(y & Ho & Hg & Hk & Hb)].
        -- left. destruct (requests_time C cp sc c now (plan_requests C cp sc c P) Hc) as (ts & i & G & ->). exists ts. split; [apply (F ts i G)|exact Hx].
        -- right. exists y. split; [apply (Fb L W c y (plan_requests C cp sc c P) Ho); eapply genuine_signed; exact Hg|]. auto.
    + left. rewrite O; [exact Sx|]. intros ->. rewrite bytes_eqb_refl in B. discriminate B.
  - left. rewrite (issuing_unchanged C net src a st E n). exact Sx.
Qed.
(** What is brought has whole seconds. *)
Lemma record_whole : forall C r t b, trust_record C r t -> whole (RAuth (mk_auth t b)) = RAuth (mk_auth t b).
Proof. intros C r [f x s y] b (_ & E1 & E2 & _). cbn in E1, E2. subst. reflexivity. Qed.
Lemma asked_whole : forall C b k e i t, trust_asked C b k e i t -> whole (RAuth (mk_auth t b)) = RAuth (mk_auth t b).
Proof. intros C b k e i [f x s y] (_ & E1 & E2 & _). cbn in E1, E2. subst. reflexivity. Qed.
Lemma certificate_at : forall C r ch i t, certificate_record C r ch -> nth_error ch i = Some t -> exists x, trust_record C x t.
Proof. intros C r ch i t H. revert i. induction H as [|x t' r ch Hx H IH]; intros [|i] E; try discriminate E; [injection E as ->; exists x; exact Hx|eapply IH; exact E]. Qed.
Lemma brings_whole : forall C a y, brings C a y -> whole y = y.
Proof.
  intros C a y [_ H]. destruct a, y as [[t b]|[f0 x0 b0 s0]]; try contradiction; cbn [auth_trust issued_by] in H.
  - eapply record_whole. apply H.
  - destruct H as (k & _ & _ & H). eapply asked_whole. exact H.
  - eapply asked_whole. apply H.
  - destruct H as (_ & _ & E & _). cbn in E. subst x0. reflexivity.
  - destruct H as (b' & k & _ & _ & _ & _ & E & _). cbn in E. subst x0. reflexivity.
  - destruct H as (ch & Rc & [[Ho _]|(i & g & _ & Ho & _)]); (destruct (certificate_at C _ _ _ _ Rc Ho) as (x1 & Hx); eapply record_whole; exact Hx).
Qed.
(** What a function adds is what it was asked to bring, signed by the key it names and, unless it came in a certificate, not made
    after the time of the clock of the node. *)
Lemma p_C95_what_arrives : forall C net src a st n x, crypto_laws C -> wasm32 C = true -> api_typed a -> network_state C st -> stored (run C net src a st n) x ->
  stored (st n) x \/
  (target a = Some n /\ brings C a x /\
   match a with
   | A_insert_cert _ _ _ => True
   | _ => exists now, node_time a = Some now /\ secs (rel_issued_at x) <= now
   end).
Proof.
  intros C net src a st n x L W T N Sx. destruct (target a) as [node|] eqn:E.
  - destruct (script_traced C net src a node st T E) as (es & F & Hn & O). destruct (bytes_eqb n node) eqn:B.
    + apply bytes_eqb_eq in B. subst n. rewrite Hn, service_history_db in Sx.
      pose proof (service_reachable_graph C _ L (N node)) as Rg. apply reachable_inv in Rg. destruct Rg as (s & Es & I). rewrite Es in *.
      destruct (gained C (asked_all C es) s I (asked_all_typed C es L (traced_typed _ _ _ _ _ F))) as (s' & E' & I' & H).
      rewrite E' in Sx. apply (stored_in C) in Sx; [|apply I']. destruct (H x Sx) as [H'|(g & fu' & y & Hin & Ho & Hg & ->)].
      * left. apply (stored_in C); [apply I|exact H'].
      * right. split; [reflexivity|].
        apply asked_all_in in Hin. destruct Hin as (cp & sc & Hin & P). rewrite Forall_forall in F. specialize (F _ Hin).
        destruct F as (_ & _ & _ & F & _ & Fi & Fb). assert (Br : brings C a y) by (apply (Fb L W g y (plan_requests C cp sc g P) Ho); eapply genuine_signed; exact Hg). split; [rewrite (brings_whole C a y Br); exact Br|]. destruct (inserts_cert sc) eqn:Ic.
        -- specialize (Fi eq_refl). destruct a; try contradiction. exact Logic.I.
        -- destruct (offered_time C cp sc g y (plan_requests C cp sc g P) (plan_admitted C cp sc g P) Ho Ic) as (ts & i & G & _ & Le).
           destruct (F ts i G) as [Ft _]. destruct a; try exact Logic.I; exists ts; auto.
    + left. rewrite O in Sx; [exact Sx|]. intros ->. rewrite bytes_eqb_refl in B. discriminate B.
  - left. rewrite (issuing_unchanged C net src a st E n) in Sx. exact Sx.
Qed.
