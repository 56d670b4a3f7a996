(** What a new root adds: C214. *)
From Coq Require Import List NArith ZArith Bool Lia.
From Verif Require Import Base BaseFacts Text Keys KeysFacts Trust Certificate CertFacts Relation Storage StorageFacts Graph Spec SpecFacts GraphFacts StateFacts ChainFacts GraphThms ReadmeThms InfluenceSpec InfluenceThms ExtendThms Toy ToyFacts Witness.
From Verif Require Import Service ServiceSpec ServiceFacts ServiceThms ServedThms ServiceWitness CopyServiceThms PartsServedThms SeverThms ServedBackThms ExtendSpec CrownSpec.
Import ListNotations.
Open Scope N_scope.

Lemma crowned_counts : forall d k m d' now pk c, root_set d k m d' -> (counting d' now pk c <-> counting d now pk c \/ chain_below d now k pk c).
Proof.
  intros d k m d' now pk c (Rl & Ir & _).
  assert (Lv : forall a t, live d' now a t <-> live d now a t) by (intros a t; unfold live, stored_trust; rewrite Rl; reflexivity).
  assert (Rk : forall i j, revokes_at d' c i j <-> revokes_at d c i j) by (intros i j; unfold revokes_at, stored_revocation; rewrite Rl; reflexivity).
  unfold counting, live_chain, chain_below. split.
  - intros [(C1 & C2 & C3 & C4 & C5) Rv]. destruct c as [|u r]; [cbn in C1; lia|]. destruct (C3 u eq_refl) as [G1 G2]. apply Ir in G1. apply Lv in G2.
    assert (C4' : forall i g t, at_pos (u :: r) i g -> at_pos (u :: r) (S i) t -> live d now (issued_for g) t) by (intros i g t Hg Ht; apply Lv; exact (C4 i g t Hg Ht)).
    assert (Rv' : forall i j, revokes_at d (u :: r) i j -> direct_issuer_pos (u :: r) j) by (intros i j H; apply (Rv i j); apply Rk; exact H).
    destruct G1 as [G1|G1]; [left|right].
    + split; [|exact Rv']. split; [exact C1|]. split; [exact C2|]. split; [|split; [exact C4'|exact C5]]. intros t Ht. injection Ht as <-. split; assumption.
    + split; [exact C1|]. split; [exists u; split; [reflexivity|exact G1]|]. split; [exact C2|]. split; [|split; [exact C4'|split; [exact C5|exact Rv']]]. intros t Ht. injection Ht as <-. rewrite <- G1. exact G2.
  - intros [[(C1 & C2 & C3 & C4 & C5) Rv]|(C1 & C0 & C2 & C3 & C4 & C5 & Rv)]; (split; [split; [exact C1|]; split; [exact C2|]; split; [|split; [intros i g t Hg Ht; apply Lv; exact (C4 i g t Hg Ht)|exact C5]]|intros i j H; apply (Rv i j); apply Rk; exact H]).
    + intros t Ht. destruct (C3 t Ht) as [G1 G2]. split; [apply Ir; left; exact G1|apply Lv; exact G2].
    + intros t Ht. destruct C0 as (u & Hu & Eu). unfold at_pos in Ht, Hu. rewrite Ht in Hu. injection Hu as <-. split; [apply Ir; right; exact Eu|apply Lv; rewrite Eu; apply C3; exact Ht].
Qed.
(** ** C214 *)
(** Once a root was set, the certificates of before are told, and those that begin with the trust of the root for itself. *)
Lemma p_C214_certificates : forall C d k n fu d' pk now fu1 fu2 cs cs' d1 d2, reachable C d -> call_typed C (G_set_root k n) -> call_typed C (G_get_all_certs pk now) ->
  graph_step C d (G_set_root k n, fu) = (Ok GR_unit, d') ->
  graph_step C d (G_get_all_certs pk now, fu1) = (Ok (GR_certs cs), d1) -> graph_step C d' (G_get_all_certs pk now, fu2) = (Ok (GR_certs cs'), d2) ->
  forall c, In c cs' <-> In c cs \/ chain_below d now k pk c.
Proof.
  intros C d k n fu d' pk now fu1 fu2 cs cs' d1 d2 R Tr T Er E1 E2 c.
  assert (R2 : reachable C d') by (pose proof (reachable_step C d (G_set_root k n) fu R Tr) as X; rewrite Er in X; exact X).
  rewrite (certs_are C d' pk now fu2 cs' d2 R2 T E2), (certs_are C d pk now fu1 cs d1 R T E1). exact (crowned_counts d k _ d' now pk c (p_C40_set_root_exact C d k n fu d' R Tr Er)).
Qed.
(** Setting a root again changes no certificates. *)
Lemma p_C214_again : forall C d k n fu d' pk now fu1 fu2 cs cs' d1 d2, reachable C d -> call_typed C (G_set_root k n) -> call_typed C (G_get_all_certs pk now) -> is_root d k ->
  graph_step C d (G_set_root k n, fu) = (Ok GR_unit, d') ->
  graph_step C d (G_get_all_certs pk now, fu1) = (Ok (GR_certs cs), d1) -> graph_step C d' (G_get_all_certs pk now, fu2) = (Ok (GR_certs cs'), d2) ->
  forall c, In c cs' <-> In c cs.
Proof.
  intros C d k n fu d' pk now fu1 fu2 cs cs' d1 d2 R Tr T Hr Er E1 E2 c. rewrite (p_C214_certificates C d k n fu d' pk now fu1 fu2 cs cs' d1 d2 R Tr T Er E1 E2 c).
  split; [|intros H; left; exact H]. intros [H|(C1 & C0 & C2 & C3 & C4 & C5 & Rv)]; [exact H|]. apply (certs_are C d pk now fu1 cs d1 R T E1). split; [|exact Rv]. split; [exact C1|]. split; [exact C2|]. split; [|split; assumption].
  intros t Ht. destruct C0 as (u & Hu & Eu). unfold at_pos in Ht, Hu. rewrite Ht in Hu. injection Hu as <-. rewrite Eu. split; [exact Hr|apply C3; exact Ht].
Qed.
(** The weight of a key is then the greatest of what it was, what those certificates give it, and what it has as that root; if the root was one before, it is what it was. *)
Lemma p_C214_weights : forall C d k n fu d' pk now fu1 fu2 w1 w2 d1 d2, reachable C d -> small d -> call_typed C (G_set_root k n) -> call_typed C (G_weight pk now) ->
  graph_step C d (G_set_root k n, fu) = (Ok GR_unit, d') ->
  graph_step C d (G_weight pk now, fu1) = (Ok (GR_weight w1), d1) -> graph_step C d' (G_weight pk now, fu2) = (Ok (GR_weight w2), d2) ->
  (is_root d k -> w2 = w1) /\
  (~ is_root d k -> greatest (fun x => x = w1 \/ (pk = k /\ x = 2 ^ N.min n 16) \/ exists c, chain_below d now k pk c /\ x = chain_weight (N.min n 16) (length c - 1)) w2).
Proof.
  intros C d k n fu d' pk now fu1 fu2 w1 w2 d1 d2 R Sm Tr T Er E1 E2.
  assert (R2 : reachable C d') by (pose proof (reachable_step C d (G_set_root k n) fu R Tr) as X; rewrite Er in X; exact X).
  pose proof (p_C40_set_root_exact C d k n fu d' R Tr Er) as Rs. pose proof Rs as (Rl & Ir & Rm).
  assert (Sm' : small d') by (unfold small; rewrite Rl; exact Sm).
  pose proof (weight_is C d pk now fu1 w1 d1 R T Sm E1) as [G1 G1']. pose proof (weight_is C d' pk now fu2 w2 d2 R2 T Sm' E2) as [G2 G2'].
  assert (Cw : forall c x, cert_weight d' c x <-> cert_weight d c x \/ (~ is_root d k /\ key_at c 0 k /\ x = chain_weight (N.min n 16) (length c - 1))).
  { intros c x. unfold cert_weight. split.
    - intros (t & m & H1 & H2 & H3). apply Rm in H2. destruct H2 as [H2|(H2 & H4 & ->)]; [left; exists t, m; auto|right]. split; [exact H4|]. split; [exists t; auto|exact H3].
    - intros [(t & m & H1 & H2 & H3)|(H1 & (t & H2 & H3) & H4)]; [exists t, m; split; [exact H1|]; split; [apply Rm; left; exact H2|exact H3]|].
      exists t, (N.min n 16). split; [exact H2|]. split; [apply Rm; right; auto|exact H4]. }
  assert (Up : w1 <= w2).
  { destruct G1' as [[(m & H1 & H2)|(c & H1 & H2)]|[-> _]]; [apply G2; left; exists m; split; [apply Rm; left; exact H1|exact H2]| |apply N.le_0_l].
    apply G2. right. exists c. split; [apply (crowned_counts d k _ d' now pk c Rs); left; exact H1|apply Cw; left; exact H2]. }
  split.
  - intros Hr. apply N.le_antisymm; [|exact Up].
    destruct G2' as [[(m & H1 & H2)|(c & H1 & H2)]|[-> _]]; [| |apply N.le_0_l].
    + apply Rm in H1. destruct H1 as [H1|(_ & H1 & _)]; [|destruct (H1 Hr)]. apply G1. left. exists m. auto.
    + apply Cw in H2. destruct H2 as [H2|(H2 & _)]; [|destruct (H2 Hr)]. apply G1. right. exists c. split; [|exact H2].
      apply (crowned_counts d k _ d' now pk c Rs) in H1. destruct H1 as [H1|(C1 & C0 & C2 & C3 & C4 & C5 & Rv)]; [exact H1|]. split; [|exact Rv]. split; [exact C1|]. split; [exact C2|]. split; [|split; assumption].
      intros t Ht. destruct C0 as (u & Hu & Eu). unfold at_pos in Ht, Hu. rewrite Ht in Hu. injection Hu as <-. rewrite Eu. split; [exact Hr|apply C3; exact Ht].
  - intros Nr. split.
    + intros x [->|[[-> ->]|(c & Hc & ->)]]; [exact Up| |].
      * apply G2. left. exists (N.min n 16). split; [apply Rm; right; auto|reflexivity].
      * apply G2. right. exists c. split; [apply (crowned_counts d k _ d' now pk c Rs); right; exact Hc|]. apply Cw. right. split; [exact Nr|]. split; [apply Hc|reflexivity].
    + destruct G2' as [[(m & H1 & H2)|(c & H1 & H2)]|[-> H]].
      * apply Rm in H1. destruct H1 as [H1|(H1 & _ & ->)]; left.
        -- left. apply N.le_antisymm; [|exact Up]. apply G1. left. exists m. auto.
        -- right. left. auto.
      * apply (crowned_counts d k _ d' now pk c Rs) in H1. apply Cw in H2. left. destruct H2 as [H2|(_ & H2 & H3)].
        -- left. apply N.le_antisymm; [|exact Up]. apply G1. right. exists c. split; [|exact H2]. destruct H1 as [H1|H1]; [exact H1|exfalso].
           destruct H1 as (_ & (u & Hu & Eu) & _). destruct H2 as (t & m & Ht & Hm & _). unfold at_pos in Ht, Hu. rewrite Ht in Hu. injection Hu as <-. rewrite Eu in Hm. apply Nr. exact (root_max_len_root d k m Hm).
        -- right. right. destruct H1 as [H1|H1]; [exfalso|exists c; auto]. destruct H1 as [(_ & _ & C3 & _) _]. destruct H2 as (u & Hu & Eu). destruct (C3 u Hu) as [X _]. rewrite Eu in X. exact (Nr X).
      * left. left. apply N.le_antisymm; [apply N.le_0_l|]. exact Up.
Qed.
(** At the service: once the owner has set a root, the records told of before are told, and beyond them only records of certificates that begin with the peer; none if the peer was a root before. *)
Lemma p_C214_service : forall C d p k n cp d' q ts cp1 cp2 rs, crypto_laws C -> wasm32 C = true -> service_reachable C d -> peer_key C p k -> service_typed (S_set_root p n) -> ts < u64_bound ->
  service_step C d (cp, S_set_root p n, None) = (Ok (mk_response true None P_none), d') ->
  fst (service_step C d (cp1, S_get_all_certs q ts, None)) = Ok (mk_response true None (P_certs rs)) -> host_time cp2 1 ->
  exists rs', fst (service_step C d' (cp2, S_get_all_certs q ts, None)) = Ok (mk_response true None (P_certs rs')) /\
    (forall x, In x rs -> In x rs') /\ (forall x, In x rs' -> In x rs \/ names C x 0 k) /\ (is_root d k -> forall x, In x rs' -> In x rs).
Proof.
  intros C d p k n cp d' q ts cp1 cp2 rs L W R Pk Ty Hs E E1 Ht.
  assert (R' : service_reachable C d') by (pose proof (service_reachable_step C d cp (S_set_root p n) None Ty R) as X; rewrite E in X; exact X).
  assert (Rq : requests C cp (S_set_root p n) (G_set_root k n)) by (split; [exact Pk|reflexivity]).
  assert (Tv : call_typed C (G_set_root k n)) by (apply (requests_typed C cp (S_set_root p n) (G_set_root k n) L Ty); exact Rq).
  assert (Eg : graph_step C d (G_set_root k n, None) = (Ok GR_unit, d')).
  { rewrite service_plan in E. destruct (plan C cp (S_set_root p n)) as [[g|a]|e| |] eqn:P; try discriminate E.
    - pose proof (plan_admitted C cp _ _ P) as A. pose proof (plan_complete C cp (S_set_root p n) (G_set_root k n) Rq A) as P'. rewrite P in P'. injection P' as ->.
      cbn [carry_out] in E. destruct (graph_step C d (G_set_root k n, None)) as [r d2] eqn:Eq. destruct (p_C23_calls_answer C d (G_set_root k n) None r d2 (p_C66_service_stores C d L R) Tv Eq) as [(y & -> & Hy)|(e & ->)]; [|discriminate E].
      destruct y; try contradiction Hy. injection E as <-. reflexivity.
    - exfalso. revert P. cbn [plan]. unfold gcall. destruct (bytes_eqb (service_creator_peer_id cp) (init_peer_id cp)); [|discriminate]. destruct (extract_public_key C p); discriminate. }
  destruct (certs_asked C d cp1 q ts rs L R Hs E1) as (k' & cs & d1 & K & Ec & Ers). destruct (certs_told C d' cp2 q k' ts L R' Hs K Ht) as (cs' & d2 & Ec' & Er').
  exists (map (dto_of_cert C) cs'). split; [exact Er'|].
  assert (T : call_typed C (G_get_all_certs k' (from_secs ts))) by (split; [eapply peer_key_valid; eassumption|apply from_secs_wf; exact Hs]).
  pose proof (p_C66_service_stores C d L R) as Rd.
  pose proof (p_C214_certificates C d k n None d' k' (from_secs ts) None None cs cs' d1 d2 Rd Tv T Eg Ec Ec') as H.
  split; [|split].
  - intros x Hx. rewrite Ers in Hx. apply in_map_iff in Hx. destruct Hx as (c & <- & Hc). apply in_map. apply H. left. exact Hc.
  - intros x Hx. apply in_map_iff in Hx. destruct Hx as (c & <- & Hc). pose proof Hc as Hc0. apply H in Hc. destruct Hc as [Hc|Hc]; [left; rewrite Ers; apply in_map; exact Hc|right].
    destruct Hc as (_ & (u & Hu & Eu) & _). exists (dto_of_trust C u). unfold dto_of_cert. unfold at_pos in Hu. rewrite nth_error_map, Hu. split; [reflexivity|]. rewrite <- Eu.
    exact (certs_keys C d' cp2 q ts (map (dto_of_cert C) cs') k' cs' d2 c 0%nat u L W R' Hs Er' K Ec' eq_refl Hc0 Hu).
  - intros Hr x Hx. apply in_map_iff in Hx. destruct Hx as (c & <- & Hc). apply H in Hc. destruct Hc as [Hc|Hc]; [rewrite Ers; apply in_map; exact Hc|].
    rewrite Ers. apply in_map. apply (certs_are C d k' (from_secs ts) None cs d1 Rd T Ec). destruct Hc as (C1 & C0 & C2 & C3 & C4 & C5 & Rv). split; [|exact Rv]. split; [exact C1|]. split; [exact C2|]. split; [|split; assumption].
    intros t Ht'. destruct C0 as (u & Hu & Eu). unfold at_pos in Ht', Hu. rewrite Ht' in Hu. injection Hu as <-. rewrite Eu. split; [exact Hr|apply C3; exact Ht'].
Qed.
(** R trusts A, A trusts B and B trusts D; A has trusted itself. A becomes a root: the certificates of D of before stay, there is a new one that begins with A, and the weight rises. *)
Definition own_trust : list graph_call := faq ++ [G_add_trust (toy_trust A A 900 1) (toy_key A) (at_ 5)].
Lemma own_trust_typed : Forall (call_typed W) own_trust.
Proof. unfold own_trust, faq. cbn [app]. typed1. Qed.
Example e_C214_own_trust : reachable W (db_of (after own_trust)) /\ small (db_of (after own_trust)) /\ call_typed W (G_set_root (toy_key A) 9) /\
  fst (graph_step W (db_of (after own_trust)) (G_set_root (toy_key A) 9, None)) = Ok GR_unit /\
  fst (graph_step W (db_of (after own_trust)) (G_weight (toy_key D) (at_ 10), None)) = Ok (GR_weight 2) /\
  fst (graph_step W (db_of (after own_trust)) (G_get_all_certs (toy_key D) (at_ 10), None)) =
    Ok (GR_certs [faq_cert; [toy_trust R R 1000 1; toy_trust R A 900 1; toy_trust A A 900 1; toy_trust A B 800 1; toy_trust B D 700 1]]) /\
  answer_after W (db_of (after own_trust)) [G_set_root (toy_key A) 9] (G_weight (toy_key D) (at_ 10)) = Ok (GR_weight 128) /\
  answer_after W (db_of (after own_trust)) [G_set_root (toy_key A) 9] (G_get_all_certs (toy_key D) (at_ 10)) =
    Ok (GR_certs [[toy_trust A A 900 1; toy_trust A B 800 1; toy_trust B D 700 1]; faq_cert; [toy_trust R R 1000 1; toy_trust R A 900 1; toy_trust A A 900 1; toy_trust A B 800 1; toy_trust B D 700 1]]) /\
  answer_after W (db_of (after own_trust)) [G_set_root (toy_key R) 9] (G_weight (toy_key D) (at_ 10)) = Ok (GR_weight 2).
Proof.
  split; [apply after_reachable; exact own_trust_typed|]. split; [vm_compute; reflexivity|]. split; [typed1|].
  split; [apply after_answer; [exact own_trust_typed|typed1|vm_compute; reflexivity]|]. split; [apply after_answer; [exact own_trust_typed|typed1|vm_compute; reflexivity]|].
  split; [apply after_answer; [exact own_trust_typed|typed1|vm_compute; reflexivity]|].
  split; [|split]; (apply after_then; [exact own_trust_typed|typed1|typed1|vm_compute; reflexivity]).
Qed.
(** The owner of the service makes key 2 a root, which is trusted by key 1 and trusts key 4: what is told of key 4 stays, for key 2 has given no record to itself. Key 1 is a root already. *)
Example e_C214_served : service_reachable (toy true) grown_store /\ peer_key (toy true) (pid 2) (toy_key 2) /\ service_typed (S_set_root (pid 2) 9) /\ host_time (timed_call 1) 1 /\
  fst (service_step (toy true) grown_store (owner_call, S_set_root (pid 2) 9, None)) = Ok (mk_response true None P_none) /\
  fst (service_step (toy true) grown_store (timed_call 1, S_get_all_certs (pid 4) 96, None)) = Ok (mk_response true None (P_certs [[trust_rec 1 1 1000 1; trust_rec 1 2 900 1; trust_rec 2 4 800 5]])) /\
  fst (service_step (toy true) (snd (service_step (toy true) grown_store (owner_call, S_set_root (pid 2) 9, None))) (timed_call 1, S_get_all_certs (pid 4) 96, None)) =
    Ok (mk_response true None (P_certs [[trust_rec 1 1 1000 1; trust_rec 1 2 900 1; trust_rec 2 4 800 5]])) /\
  let d := service_history (toy true) grown_store [(owner_call, S_set_root (pid 2) 9, None); (timed_call 2, S_add_trust (trust_rec 2 2 700 90) (pid 2) 95, None)] in
  fst (service_step (toy true) d (timed_call 1, S_get_all_certs (pid 4) 96, None)) =
    Ok (mk_response true None (P_certs [[trust_rec 2 2 700 90; trust_rec 2 4 800 5]; [trust_rec 1 1 1000 1; trust_rec 1 2 900 1; trust_rec 2 4 800 5]; [trust_rec 1 1 1000 1; trust_rec 1 2 900 1; trust_rec 2 2 700 90; trust_rec 2 4 800 5]])).
Proof.
  split; [exact grown_reachable|]. split; [apply pid_key|]. split; [vm_compute; reflexivity|]. split; [apply timed_host|]. split; [vm_compute; reflexivity|]. split; [vm_compute; reflexivity|]. split; vm_compute; reflexivity.
Qed.
