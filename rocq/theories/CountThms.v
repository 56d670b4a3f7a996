(** Proofs about how many statements of the database calls need. *)
From Coq Require Import List NArith ZArith Bool Lia.
From Verif Require Import Base BaseFacts Text TextFacts Keys Trust Certificate Relation Storage Graph SearchFacts Service Spec SpecFacts GraphFacts StateFacts
  ServiceSpec ServiceFacts ServiceThms Toy ToyFacts Witness ServiceWitness CountSpec.
Import ListNotations.
Open Scope N_scope.

(** The computation runs at most [k] statements. *)
Definition runs_most {E A} (k : nat) (m : M E A) : Prop := forall d n,
  m (mk_world d (Some (k + n)%nat)) = (fst (m (mk_world d None)), mk_world (w_db (snd (m (mk_world d None)))) (w_fuse (snd (m (mk_world d (Some (k + n)%nat)))))) /\
  (exists j, w_fuse (snd (m (mk_world d (Some (k + n)%nat)))) = Some (n + j)%nat) /\ w_fuse (snd (m (mk_world d None))) = None.
Lemma rm_ret : forall E A (x : A), runs_most 0 (@ret E A x).
Proof. intros E A x d n. split; [reflexivity|]. split; [exists 0%nat; cbn; f_equal; lia|reflexivity]. Qed.
Lemma rm_lift : forall E A (r : result E A), runs_most 0 (lift r).
Proof. intros E A r d n. split; [reflexivity|]. split; [exists 0%nat; cbn; f_equal; lia|reflexivity]. Qed.
Lemma rm_more : forall E A k k' (m : M E A), (k <= k')%nat -> runs_most k m -> runs_most k' m.
Proof.
  intros E A k k' m H R d n. destruct (R d (k' - k + n)%nat) as (H1 & (j & H2) & H3). replace (k + (k' - k + n))%nat with (k' + n)%nat in * by lia.
  split; [exact H1|]. split; [|exact H3]. exists (k' - k + j)%nat. rewrite H2. f_equal. lia.
Qed.
Lemma rm_sql : forall A (f : db -> A * db), runs_most 1 (sql f).
Proof.
  intros A f d n. unfold sql. cbn [w_fuse w_db plus]. destruct (f d) as [x d']. cbn [fst snd w_db w_fuse]. split; [reflexivity|]. split; [exists 0%nat; f_equal; lia|reflexivity].
Qed.
Lemma rm_bind : forall E A B k l (m : M E A) (f : A -> M E B), runs_most k m -> (forall x, runs_most l (f x)) -> runs_most (k + l) (mbind m f).
Proof.
  intros E A B k l m f Hm Hf d n. unfold mbind. destruct (Hm d (l + n)%nat) as (H1 & (j & H2) & H3). replace (k + (l + n))%nat with (k + l + n)%nat in * by lia.
  rewrite H2 in H1. rewrite H1. destruct (m (mk_world d None)) as [r [d1 fu1]]. cbn [fst snd w_db w_fuse] in *. subst fu1. destruct r as [x|e| |].
  2-4: cbn [fst snd w_db w_fuse]; split; [reflexivity|]; split; [exists (l + j)%nat; f_equal; lia|reflexivity].
  destruct (Hf x d1 (n + j)%nat) as (K1 & (i & K2) & K3). replace (l + (n + j))%nat with (l + n + j)%nat in * by lia.
  split; [exact K1|]. split; [|exact K3]. exists (j + i)%nat. rewrite K2. f_equal. lia.
Qed.
Lemma rm_err : forall E E' A k (g : E -> E') (m : M E A), runs_most k m -> runs_most k (mmap_err g m).
Proof.
  intros E E' A k g m H d n. unfold mmap_err. destruct (H d n) as (H1 & H2 & H3).
  destruct (m (mk_world d None)) as [r w]. destruct (m (mk_world d (Some (k + n)%nat))) as [r' w']. cbn [fst snd] in *. injection H1 as -> H1. rewrite H1 at 1. 
  split; [|split; assumption]. reflexivity.
Qed.
Lemma rm_insert : forall x, runs_most 1 (insert x).
Proof. intros x. unfold insert. apply rm_sql. Qed.
Lemma rm_update : forall C x, runs_most 2 (update_relation C x).
Proof.
  intros C x. unfold update_relation, get_relation. apply (rm_bind _ _ _ 1 1).
  - apply (rm_bind _ _ _ 1 0); [apply rm_sql|]. intros [r|]; [apply rm_lift|apply rm_ret].
  - intros [[a|v]|]; [destruct (duration_ltb _ _)|destruct (duration_ltb _ _)|]; try apply rm_insert; apply (rm_more _ _ 0 1); try lia; apply rm_ret.
Qed.
Lemma rm_step : forall C d c k, runs_most k (graph_do C c) -> at_most C d c k.
Proof.
  intros C d c k H n L. unfold graph_step. cbn [fst snd]. destruct (H d (n - k)%nat) as (H1 & _). replace (k + (n - k))%nat with n in H1 by lia.
  rewrite H1. destruct (graph_do C c (mk_world d None)) as [r w]. reflexivity.
Qed.
Lemma rm_map : forall E A B k (f : A -> B) (m : M E A), runs_most k m -> runs_most k (mmap f m).
Proof. intros E A B k f m H. unfold mmap. replace k with (k + 0)%nat by lia. apply rm_bind; [exact H|intros; apply rm_ret]. Qed.

(** ** C193 *)
(** The library: a revocation takes at most two statements, setting a root and asking for revocations one, whatever the tables hold. *)
Lemma p_C193_revoke : forall C d v, at_most C d (G_revoke v) 2.
Proof.
  intros C d v. apply rm_step. cbn [graph_do]. apply rm_map. unfold revoke. apply (rm_bind _ _ _ 0 2); [apply rm_lift|]. intros _. apply rm_err. unfold storage_revoke. apply rm_update.
Qed.
(** Setting a root. *)
Lemma p_C193_set_root : forall C d k n, at_most C d (G_set_root k n) 1.
Proof. intros C d k n. apply rm_step. cbn [graph_do]. apply rm_map. unfold set_root. apply rm_err. apply rm_sql. Qed.
(** Asking for the revocations of a key. *)
Lemma p_C193_revocations : forall C d k, at_most C d (G_get_revocations k) 1.
Proof.
  intros C d k. apply rm_step. cbn [graph_do]. apply rm_map. unfold graph_get_revocations, st. apply rm_err. unfold get_revocations. apply (rm_bind _ _ _ 1 0); [unfold get_relations; apply (rm_bind _ _ _ 1 0); [apply rm_sql|]|]; intros l; first [apply rm_ret|apply rm_lift].
Qed.
(** A trust that does not verify costs no statement. *)
Lemma p_C193_refused : forall C d t b now e, trust_verify C t b now = Err e -> at_most C d (G_add_trust t b now) 0.
Proof.
  intros C d t b now e H n _. unfold graph_step. cbn [fst snd graph_do]. unfold mmap, add_trust, mbind, lift. rewrite H. reflexivity.
Qed.
(** The service: as many, and none where it only computes. *)
Lemma p_C193_service : forall C d cp c, 
  match c with
  | S_revoke _ _ => service_at_most C d cp c 2
  | S_set_root _ _ | S_export_revocations _ => service_at_most C d cp c 1
  | _ => local_call c = true -> service_at_most C d cp c 0
  end.
Proof.
  intros C d cp c.
  assert (X : forall k, (forall g, plan C cp c = Ok (inl g) -> at_most C d g k) -> service_at_most C d cp c k).
  { intros k H n L. rewrite !service_plan. destruct (plan C cp c) as [[g|a]|e| |]; try reflexivity. cbn [carry_out]. rewrite (H g eq_refl n L). reflexivity. }
  assert (Y : forall g, plan C cp c = Ok (inl g) -> requests C cp c g) by (apply plan_requests).
  destruct c; try (intros Lc; apply X; intros g P; specialize (Y g P); destruct g; first [contradiction Y|discriminate Lc]).
  - apply X. intros g P. specialize (Y g P). destruct g; try contradiction Y. apply p_C193_set_root.
  - apply X. intros g P. specialize (Y g P). destruct g; try contradiction Y. apply p_C193_revoke.
  - apply X. intros g P. specialize (Y g P). destruct g; try contradiction Y. apply p_C193_revocations.
Qed.
(** No fewer will do: there is a store on which the second statement of a revocation, and the first of the others, makes a difference. *)
Lemma p_C193_least : exists C d v k, reachable C d /\ ~ at_most C d (G_revoke v) 1 /\ ~ at_most C d (G_set_root k 5) 0 /\ ~ at_most C d (G_get_revocations k) 0.
Proof.
  exists W, (db_of (after short)), (toy_rev R A 80), (toy_key A). split; [apply after_reachable; exact short_typed|].
  split; [|split]; intros H.
  - specialize (H 1%nat (le_n _)). apply (f_equal fst) in H. vm_compute in H. discriminate H.
  - specialize (H 0%nat (le_n _)). apply (f_equal fst) in H. vm_compute in H. discriminate H.
  - specialize (H 0%nat (le_n _)). apply (f_equal fst) in H. vm_compute in H. discriminate H.
Qed.
(** A store with three rows, and a revocation that replaces one of them. *)
Example e_C193_revoke : graph_step W (db_of (after short)) (G_revoke (toy_rev R A 80), Some 2%nat) = graph_step W (db_of (after short)) (G_revoke (toy_rev R A 80), None) /\
  fst (graph_step W (db_of (after short)) (G_revoke (toy_rev R A 80), Some 2%nat)) = Ok GR_unit /\
  trust_verify W (toy_trust R A 3 1) (toy_key R) (from_secs 5) = Err (TE_Expired (from_secs 3) (from_secs 5)).
Proof. split; [apply p_C193_revoke; lia|]. split; vm_compute; reflexivity. Qed.
