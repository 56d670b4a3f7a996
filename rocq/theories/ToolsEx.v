(** Concrete cases that meet the hypotheses of the properties of the example and of the admin tool. *)
From Coq Require Import List NArith ZArith Bool Lia.
From Coq Require String.
Import String.StringSyntax.
From Verif Require Import Base BaseFacts Text Keys KeysFacts Trust Certificate Relation Storage Graph Service Spec Toy ToyFacts ServiceSpec ServiceWitness
  ServiceFacts ServiceThms Aqua AquaSpec StateFacts AquaThms AquaTrace AquaWitness AquaEx Boot BootSpec BootThms Tools ToolsSpec ToolsThms.
Import ListNotations.
Open Scope N_scope.

(** The relay (peer 6) has the store of ServiceWitness: key 1 is a root and trusts key 2, the client. *)
Definition relay_stores : stores := put empty_network (pid 6) base_store.
Lemma relay_stores_ok : network_state (toy true) relay_stores.
Proof. intros n. unfold relay_stores, Aqua.put. destruct (bytes_eqb (pid 6) n); [exact base_reachable|apply empty_state_ok]. Qed.
Definition client_chain : certificate := [toy_trust 1 1 1000 1; toy_trust 1 2 900 1].
Definition client_net : network := toy_net (pid 2).
Lemma relay_store : relay_stores (pid 6) = base_store.
Proof. unfold relay_stores, Aqua.put. rewrite bytes_eqb_refl. reflexivity. Qed.
Lemma base_rows : forall r, In r (tbl_relations base_store) -> r_type r = 0%Z /\ r_by r = key_text (toy_key 1).
Proof. intros r H. vm_compute in H. repeat destruct H as [<-|H]; try contradiction; vm_compute; auto. Qed.
Lemma base_no_revocation : forall v, ~ stored_revocation base_store v.
Proof. intros v [_ H]. apply base_rows in H. destruct H as [H _]. discriminate H. Qed.
Lemma base_can_grant : forall ks, (forall k, In k ks -> k <> toy_key 1 /\ k <> toy_key 2) -> can_grant base_store (toy_key 2) client_chain ks.
Proof.
  intros ks Hk. split.
  - split; [cbn; lia|]. split; [exists (toy_trust 1 2 900 1); split; reflexivity|]. split; [|split].
    + intros t Ht. injection Ht as <-. split; [vm_compute; auto|]. split; [vm_compute; auto|]. split; [vm_compute; auto|]. vm_compute. auto.
    + intros [|[|j]] g t Hg Ht; [|discriminate Ht|destruct j; discriminate Ht]. injection Hg as <-. injection Ht as <-. split; [vm_compute; auto|]. split; [vm_compute; auto|]. vm_compute. auto.
    + intros a b k Lt (u & Hu & Eu) (w & Hw & Ew). destruct b as [|[|b]]; [lia| |destruct b; discriminate Hw]. destruct a as [|a]; [|lia]. exfalso.
      injection Hu as <-. injection Hw as <-. rewrite <- Ew in Eu. vm_compute in Eu. discriminate Eu.
  - exists (toy_key 1), 5. split; [exists (toy_trust 1 1 1000 1); split; reflexivity|]. split; [exists 11%Z; split; reflexivity|cbn; lia].
  - intros k H [X|[X|[]]]; [apply (proj1 (Hk k H)); symmetry; exact X|]. apply (proj2 (Hk k H)). symmetry. exact X.
  - intros v V. elim (base_no_revocation v V).
  - intros v V. elim (base_no_revocation v V).
Qed.
Lemma base_said : forall k i, said_before base_store (toy_key 2) k i.
Proof.
  intros k i z Hz Hb _. exfalso. assert (X : key_text (rel_issued_by z) = key_text (toy_key 1)).
  { destruct z as [a|v]; [destruct Hz as (_ & _ & H)|destruct Hz as (_ & H)]; apply base_rows in H; destruct H as [_ H]; exact H. }
  rewrite Hb in X. vm_compute in X. discriminate X.
Qed.
Lemma toy_distinct : forall n m, toy_key n = toy_key m -> toy_secret n = toy_secret m.
Proof. intros n m H. exact (f_equal pk_raw H). Qed.
Lemma base_times : forall r, In r (tbl_relations base_store) -> r_issued_at r = 1%Z.
Proof. intros r H. vm_compute in H. repeat destruct H as [<-|H]; try contradiction; vm_compute; reflexivity. Qed.
(** The clock of the relay: one second per answer. *)
Definition ticking (n : nat) : N := 5 + N.of_nat n.
Lemma ticking_ok : example_clock ticking 5.
Proof. unfold example_clock, ticking, i64_bound. split; [intros i j H; lia|]. repeat split; lia. Qed.

(** The network of the client, and what the computation gives before and after a grant. *)
Example e_C109_hypotheses : crypto_laws (toy true) /\ wasm32 (toy true) = true /\ network_state (toy true) relay_stores /\ no_faults client_net /\
  peer_key (toy true) (pid 4) (toy_key 4) /\ peer_key (toy true) (initiator client_net) (toy_key 2) /\
  can_grant (relay_stores (relay client_net)) (toy_key 2) client_chain [toy_key 4] /\
  told (trusted_computation (toy true) client_net [from_script] (pid 4) 6 relay_stores) = Some refused /\
  told (trusted_computation (toy true) client_net [from_script] (pid 2) 6 relay_stores) = Some ran /\
  told (trusted_computation (toy true) client_net [from_script] (str "1") 6 relay_stores) = Some ([], [CE_failed (AE_service (Some (SVE_PublicKeyDecodeError DE_PublicKeyNotInlined)))]).
Proof.
  split; [apply toy_laws|]. split; [reflexivity|]. split; [exact relay_stores_ok|]. split; [intros n c; reflexivity|]. split; [apply pid_key|]. split; [apply pid_key|].
  split; [change (relay client_net) with (pid 6); rewrite relay_store; apply base_can_grant; intros k [<-|[]]; split; intros X; apply toy_distinct in X; vm_compute in X; discriminate X|].
  split; [|split]; vm_compute; reflexivity.
Qed.
(** All the hypotheses of the example. *)
Example e_C110_hypotheses : network_state (toy true) relay_stores /\ signer (toy true) client_net (initiator client_net) (toy_kp 2) /\
  peer_key (toy true) (relay client_net) (toy_key 6) /\ peer_key (toy true) (pid 4) (toy_key 4) /\ peer_key (toy true) (pid 5) (toy_key 5) /\
  NoDup [toy_key 6; toy_key 4; toy_key 5] /\ can_grant (relay_stores (relay client_net)) (kp_public (toy true) (toy_kp 2)) client_chain [toy_key 6; toy_key 4; toy_key 5] /\
  alive_until client_chain (ticking 20) /\ example_clock ticking 5 /\
  (forall k, In k [toy_key 6; toy_key 4; toy_key 5] -> said_before (relay_stores (relay client_net)) (kp_public (toy true) (toy_kp 2)) k (ticking 0)).
Proof.
  split; [exact relay_stores_ok|]. split; [exact (toy_signer (pid 2) (pid 2) (toy_key 2) (pid_key 2) eq_refl)|].
  split; [apply pid_key|]. split; [apply pid_key|]. split; [apply pid_key|]. change (relay client_net) with (pid 6). rewrite relay_store.
  split; [|split; [|split; [|split]]].
  - repeat (constructor; [intros X; cbn [In] in X; repeat destruct X as [X|X]; try contradiction; apply toy_distinct in X; vm_compute in X; discriminate X|]). constructor.
  - apply base_can_grant. intros k H. cbn [In] in H. repeat destruct H as [<-|H]; try contradiction; split; intros X; apply toy_distinct in X; vm_compute in X; discriminate X.
  - intros t [<-|[<-|[]]]; vm_compute; auto.
  - exact ticking_ok.
  - intros k _. apply base_said.
Qed.
(** The model runs the example. *)
Example e_C110_run : told (example_main (toy true) client_net (fun _ _ => [from_script]) ticking (pid 4) (pid 5) 5 relay_stores) =
  Some [refused; refused; refused; refused; ran; ran; refused; refused; ran].
Proof. vm_compute. reflexivity. Qed.

Lemma nodupb_keys : forall l, nodupb (map pk_raw l) = true -> NoDup l.
Proof. intros l H. apply nodupb_ok in H. apply NoDup_map_inv in H. exact H. Qed.
(** The admin tool with the two keys of labelling.aqua, the client 2 and the nodes 4 and 5. *)
Lemma toy_admin : admin_input (toy true) root_pair label_pair (toy_kp 2) [pid 4; pid 5] [toy_key 4; toy_key 5].
Proof.
  split.
  - split; [|split]; (split; [reflexivity|vm_compute; reflexivity]).
  - constructor; [apply pid_key|]. constructor; [apply pid_key|constructor].
  - apply nodupb_keys. vm_compute. reflexivity.
Qed.
Definition admin_net : network := toy_net owner_peer.
Example e_C111_hypotheses : exists cs certs st1 d, let e := 1000 + 63072000 in let boots := map (fun r => (r, 2000, None)) cs in
  admin_input (toy true) root_pair label_pair (toy_kp 2) [pid 4; pid 5] [toy_key 4; toy_key 5] /\
  kp_public (toy true) root_pair = root_key /\ kp_public (toy true) label_pair = label_key /\
  admin_main (toy true) admin_net (fun _ _ => [from_script]) (pid 9) root_pair label_pair (toy_kp 2) [pid 4; pid 5] 1000 empty_network = (Ok cs, st1) /\
  Forall2 (certificate_record (toy true)) cs certs /\ length certs = 3%nat /\ e < i64_bound /\ started_with cs e boots /\
  boot (toy true) owner_peer owner_peer (pid 6) [] None boots empty_db = (Ok [R_true], d) /\ network_state (toy true) (put empty_network (pid 6) d) /\
  signer (toy true) client_net (initiator client_net) (toy_kp 2) /\
  NoDup [root_key; kp_public (toy true) (toy_kp 2); toy_key 6; toy_key 4; toy_key 5] /\
  fst (example_main (toy true) client_net (fun _ _ => [from_script]) (fun n => 2000 + ticking n) (pid 4) (pid 5) 2005 (put empty_network (pid 6) d)) =
    Ok [refused; refused; refused; refused; ran; ran; refused; refused; ran].
Proof.
  pose proof (toy_laws true) as L. pose proof toy_admin as A.
  destruct (p_C111_admin_writes (toy true) admin_net (fun _ _ => [from_script]) (pid 9) root_pair label_pair (toy_kp 2) [pid 4; pid 5] [toy_key 4; toy_key 5] 1000 empty_network L eq_refl A)
    as (cs & certs & st1 & Ea & _ & Rc & Out).
  set (boots := map (fun r : dto_certificate => (r, 2000, @None nat)) cs).
  destruct (boot (toy true) owner_peer owner_peer (pid 6) [] None boots empty_db) as [x d] eqn:Eb.
  assert (Sw : started_with cs (1000 + 63072000) boots).
  { split; [unfold boots; rewrite map_map; apply map_id|]. intros i now fu H. apply in_map_iff in H. destruct H as (r & H & _). injection H as _ <- <-. split; [lia|reflexivity]. }
  assert (Er : kp_public (toy true) root_pair = root_key) by reflexivity. assert (Ei : kp_public (toy true) label_pair = label_key) by reflexivity.
  pose proof A as [(V1 & V2 & V3) _ ND].
  destruct (admin_good (toy true) root_pair label_pair (toy_kp 2) _ _ 1000 cs certs boots L eq_refl ND V1 V2 Er Ei Rc Out ltac:(lia) eq_refl Sw) as (K & l & G & _).
  destruct (p_C106_good_start (toy true) owner_peer (pid 6) [] boots empty_db l x d L eq_refl K G Eb) as [-> _].
  assert (N : network_state (toy true) (put empty_network (pid 6) d)).
  { intros n. unfold Aqua.put. destruct (bytes_eqb (pid 6) n); [|apply empty_state_ok].
    destruct G as (R & T & _). exact (boot_reach (toy true) owner_peer owner_peer (pid 6) [] None boots empty_db _ d L R T Eb). }
  assert (D : NoDup [root_key; kp_public (toy true) (toy_kp 2); toy_key 6; toy_key 4; toy_key 5]) by (apply nodupb_keys; vm_compute; reflexivity).
  assert (Sg : signer (toy true) client_net (initiator client_net) (toy_kp 2)) by exact (toy_signer (pid 2) (pid 2) (toy_key 2) (pid_key 2) eq_refl).
  assert (Lc : length certs = 3%nat) by (destruct Out as (tr & ti & te & ts & _ & _ & _ & A4 & ->); cbn [length]; rewrite map_length, <- (Forall2_len _ _ _ _ _ A4); reflexivity).
  exists cs, certs, st1, d. cbv zeta. split; [exact A|]. split; [exact Er|]. split; [exact Ei|]. split; [exact Ea|]. split; [exact Rc|]. split; [exact Lc|].
  split; [reflexivity|]. split; [exact Sw|]. split; [exact Eb|]. split; [exact N|]. split; [exact Sg|]. split; [exact D|].
  change 2005 with ((fun n : nat => 2000 + ticking n) 0%nat).
  eapply (p_C111_admin_example (toy true) admin_net client_net _ _ owner_peer (pid 9) [] root_pair label_pair (toy_kp 2) _ _ 1000 empty_network cs st1 boots (Ok [R_true]));
    [exact L|reflexivity|exact A|exact Er|exact Ei|exact Ea|reflexivity|exact Sw| |exact N|intros n c; reflexivity|exact Sg|apply pid_key|apply pid_key|apply pid_key|exact D| |].
  - change (relay client_net) with (pid 6). unfold Aqua.put at 1. rewrite bytes_eqb_refl. exact Eb.
  - unfold example_clock, ticking, i64_bound. split; [intros i j H; lia|]. repeat split; lia.
  - unfold ticking. lia.
Qed.

(** ** C112 *)
(** Key 1 trusts 2, 2 trusts 3, 3 trusts 4, all on the relay. *)
Definition delegation : uses :=
  [(toy_net owner_peer, typed_in, A_set_root (pid 6) (pid 1) 5);
   (toy_net (pid 1), typed_in, A_add_trust (pid 6) (pid 1) (pid 1) 900 5 5);
   (toy_net (pid 1), typed_in, A_add_trust (pid 6) (pid 1) (pid 2) 900 5 5);
   (toy_net (pid 2), typed_in, A_add_trust (pid 6) (pid 2) (pid 3) 900 5 5);
   (toy_net (pid 3), typed_in, A_add_trust (pid 6) (pid 3) (pid 4) 900 5 5)].
Definition delegation_stores : stores := run_all (toy true) delegation empty_network.
Lemma delegation_ok : network_state (toy true) delegation_stores.
Proof.
  apply uses_state; [|apply empty_state_ok]. unfold delegation, uses_typed. repeat constructor; cbn; try discriminate; try (intros now E; injection E as <-; reflexivity).
Qed.
(** A root revokes a client. The client's computations go on nodes the client trusts, although not on the client's own:
    the one who trusts the node directly is exempt from revocations by keys higher up. *)
Lemma p_C112_revoked_client_refuted : exists C net net' src kp client b i now now' o node st st1, crypto_laws C /\ wasm32 C = true /\ network_state C st /\
  no_faults net /\ no_faults net' /\ relay net' = relay net /\ signer C net (initiator net) kp /\ is_root (st (relay net)) (kp_public C kp) /\
  peer_key C client b /\ initiator net' = client /\ aq_revoke C net src (relay net) (initiator net) client i now st = (Ok [], st1) /\
  fst (trusted_computation C net' o client now' st1) = Ok refused /\ fst (trusted_computation C net' o node now' st1) = Ok ran.
Proof.
  exists (toy true), (toy_net (pid 1)), (toy_net (pid 3)), typed_in, (toy_kp 1), (pid 3), (toy_key 3), 7, 8, 9, [from_script], (pid 4), delegation_stores. eexists.
  split; [apply toy_laws|]. split; [reflexivity|]. split; [exact delegation_ok|]. split; [intros n c; reflexivity|]. split; [intros n c; reflexivity|].
  split; [reflexivity|]. split; [exact (toy_signer (pid 1) (pid 1) (toy_key 1) (pid_key 1) eq_refl)|]. split; [vm_compute; auto|]. split; [apply pid_key|]. split; [reflexivity|].
  split; [match goal with |- ?x = _ => rewrite (surjective_pairing x) end; apply pair_equal_spec; split; [vm_compute; reflexivity|reflexivity]|].
  split; vm_compute; reflexivity.
Qed.
(** The hypotheses of the part that holds: key 1 is the only one that trusts the client 2. *)
Example e_C112_hypotheses : network_state (toy true) relay_stores /\ no_faults (toy_net (pid 1)) /\ no_faults client_net /\ relay client_net = relay (toy_net (pid 1)) /\
  signer (toy true) (toy_net (pid 1)) (pid 1) (toy_kp 1) /\ peer_key (toy true) (pid 2) (toy_key 2) /\ ~ is_root (relay_stores (pid 6)) (toy_key 2) /\
  (forall a t, stored_trust (relay_stores (pid 6)) a t -> issued_for t = toy_key 2 -> a = kp_public (toy true) (toy_kp 1)) /\
  said_before (relay_stores (pid 6)) (kp_public (toy true) (toy_kp 1)) (toy_key 2) 7.
Proof.
  split; [exact relay_stores_ok|]. split; [intros n c; reflexivity|]. split; [intros n c; reflexivity|]. split; [reflexivity|].
  split; [exact (toy_signer (pid 1) (pid 1) (toy_key 1) (pid_key 1) eq_refl)|]. split; [apply pid_key|]. rewrite relay_store. split; [|split].
  - intros H. vm_compute in H. repeat destruct H as [H|H]; try discriminate H; contradiction.
  - intros a t (_ & _ & H) _. apply base_rows in H. destruct H as [_ H]. cbn [r_by] in H. apply key_text_inj in H. exact H.
  - intros z Hz _ _. destruct z as [a|v]; [|elim (base_no_revocation v Hz)]. destruct Hz as (_ & [Bs _] & H).
    set (s := secs (issued_at (auth_trust a))) in *. assert (X : exists r, In r (tbl_relations base_store) /\ r_issued_at r = i64_of_u64 s) by (eexists; split; [exact H|reflexivity]).
    destruct X as (r & Hr & Er). pose proof (base_times r Hr) as Y.
    rewrite Y in Er. unfold i64_of_u64 in Er. change (rel_issued_at (RAuth a)) with (issued_at (auth_trust a)). fold s. fold s in Bs. destruct (s <? i64_bound) eqn:Q; lia.
Qed.
