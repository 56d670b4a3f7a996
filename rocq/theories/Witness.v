(** Concrete histories with the toy keys: witnesses of the refutations and examples. *)
From Coq Require Import List NArith ZArith Bool Lia ZifyBool ZifyNat ZifyN.
From Verif Require Import Base BaseFacts Text TextFacts Keys KeysFacts Trust TrustFacts Certificate CertFacts Relation
  Storage StorageFacts Graph SearchFacts PathFacts Spec SpecFacts GraphFacts StateFacts ChainFacts ImportFacts AddFacts Toy ToyFacts.
Import ListNotations.
Open Scope N_scope.

Notation W := (toy false).
Notation after cs := (run_calls W cs empty_state).

Lemma toy_trust_typed : forall b f ex iss, ex < u64_bound -> iss < u64_bound -> trust_typed W (toy_trust b f ex iss).
Proof.
  intros b f ex iss H1 H2. split; [exact (toy_key_valid false f)|]. split; [reflexivity|].
  split; split; cbn; auto; reflexivity.
Qed.
Lemma toy_rev_typed : forall b f a, a < u64_bound -> revocation_typed W (toy_rev b f a).
Proof.
  intros b f a H. split; [exact (toy_key_valid false f)|]. split; [exact (toy_key_valid false b)|]. split; [reflexivity|].
  split; [exact H|reflexivity].
Qed.
Lemma secs_wf : forall n, n < u64_bound -> duration_wf (from_secs n).
Proof. intros n H. split; [exact H|reflexivity]. Qed.

Ltac in_tac := vm_compute; repeat (first [left; reflexivity | right]).

Ltac typed1 :=
  first [ apply toy_key_valid | apply toy_trust_typed; reflexivity | apply toy_rev_typed; reflexivity | apply secs_wf; reflexivity
        | reflexivity
        | match goal with
          | |- Forall _ [] => constructor
          | |- Forall _ (_ :: _) => constructor; [typed1|typed1]
          | |- call_typed _ _ => cbn [call_typed]; typed1
          | |- trust_typed _ _ /\ _ => split; typed1
          | |- _ /\ _ => split; typed1
          end ].

Lemma after_inv : forall cs, Forall (call_typed W) cs -> inv W (after cs).
Proof. intros cs T. apply run_calls_inv; [apply inv_empty|exact T]. Qed.

Lemma after_reachable : forall cs, Forall (call_typed W) cs -> reachable W (db_of (after cs)).
Proof.
  intros cs T. rewrite <- run_calls_history by (try apply inv_empty; exact T).
  exists (map (fun c => (c, None)) cs). split; [|reflexivity]. unfold typed_history. rewrite Forall_map. exact T.
Qed.

Lemma after_step : forall cs c r, Forall (call_typed W) cs -> call_typed W c -> fst (sem W (after cs) c) = r ->
  graph_step W (db_of (after cs)) (c, None) = (r, db_of (after (cs ++ [c]))).
Proof.
  intros cs c r T Tc E. rewrite step_none; [|apply after_inv; exact T|exact Tc]. rewrite E.
  unfold run_calls. rewrite fold_left_app. reflexivity.
Qed.

Definition R := 1. Definition A := 2. Definition B := 3. Definition D := 4.
Definition at_ (n : N) : duration := from_secs n.


(** R -> A -> B -> D, and R revokes B, the direct issuer of D. *)
Definition base : list graph_call := [G_set_root (toy_key R) 5; G_add_trust (toy_trust R R 1000 1) (toy_key R) (at_ 5)].
Definition long : list graph_call := base ++
  [G_add_trust (toy_trust R A 900 1) (toy_key R) (at_ 5); G_add_trust (toy_trust A B 800 1) (toy_key A) (at_ 5);
   G_add_trust (toy_trust B D 700 1) (toy_key B) (at_ 5); G_revoke (toy_rev R B 9)].
Definition long_cert : certificate := [toy_trust R R 1000 1; toy_trust R A 900 1; toy_trust A B 800 1; toy_trust B D 700 1].
Lemma long_typed : Forall (call_typed W) long.
Proof. unfold long, base. cbn [app]. typed1. Qed.
Lemma long_certs : fst (sem W (after long) (G_get_all_certs (toy_key D) (at_ 10))) = Ok (GR_certs [long_cert]).
Proof. vm_compute. reflexivity. Qed.
Lemma long_certs_b : fst (sem W (after long) (G_get_all_certs (toy_key B) (at_ 10))) = Ok (GR_certs []).
Proof. vm_compute. reflexivity. Qed.

(** R -> A. *)
Definition short : list graph_call := base ++ [G_add_trust (toy_trust R A 900 50) (toy_key R) (at_ 5)].
Definition short_cert : certificate := [toy_trust R R 1000 1; toy_trust R A 900 50].
Lemma short_typed : Forall (call_typed W) short.
Proof. unfold short, base. cbn [app]. typed1. Qed.
Lemma short_certs : fst (sem W (after short) (G_get_all_certs (toy_key A) (at_ 10))) = Ok (GR_certs [short_cert]).
Proof. vm_compute. reflexivity. Qed.
Lemma short_weight : fst (sem W (after short) (G_weight (toy_key A) (at_ 10))) = Ok (GR_weight 16).
Proof. vm_compute. reflexivity. Qed.
(** Asked at 2^63 seconds the expired certificate is returned. *)
Lemma short_certs_late : fst (sem W (after short) (G_get_all_certs (toy_key A) (at_ i64_bound))) = Ok (GR_certs [short_cert]).
Proof. vm_compute. reflexivity. Qed.
(** A certificate "through" its own subject. *)
Lemma short_certs_from : fst (sem W (after short) (G_get_all_certs_from (toy_key A) (toy_key A) (at_ 10))) = Ok (GR_certs [short_cert]).
Proof. vm_compute. reflexivity. Qed.
(** An older revocation is accepted and dropped. *)
Definition old_revoke : list graph_call := short ++ [G_revoke (toy_rev R A 40)].
Lemma old_revoke_typed : Forall (call_typed W) old_revoke.
Proof. unfold old_revoke, short, base. cbn [app]. typed1. Qed.
Lemma old_revoke_ok : fst (sem W (after short) (G_revoke (toy_rev R A 40))) = Ok GR_unit.
Proof. vm_compute. reflexivity. Qed.
Lemma old_revoke_certs : fst (sem W (after old_revoke) (G_get_all_certs (toy_key A) (at_ 60))) = Ok (GR_certs [short_cert]).
Proof. vm_compute. reflexivity. Qed.
(** A newer one takes effect. *)
Definition new_revoke : list graph_call := short ++ [G_revoke (toy_rev R A 80)].
Lemma new_revoke_typed : Forall (call_typed W) new_revoke.
Proof. unfold new_revoke, short, base. cbn [app]. typed1. Qed.
Lemma new_revoke_certs : fst (sem W (after new_revoke) (G_get_all_certs (toy_key A) (at_ 90))) = Ok (GR_certs []).
Proof. vm_compute. reflexivity. Qed.

(** A trust that never expires is dropped by the first query. *)
Definition eternal : list graph_call := [G_set_root (toy_key R) 5; G_add_trust (toy_trust R R u64_max 1) (toy_key R) (at_ 5)].
Lemma eternal_typed : Forall (call_typed W) eternal.
Proof. unfold eternal. typed1. Qed.
Lemma eternal_rels : rels (after eternal) = [RAuth (mk_auth (toy_trust R R u64_max 1) (toy_key R))].
Proof. vm_compute. reflexivity. Qed.
Lemma eternal_lost : rels (after (eternal ++ [G_weight (toy_key R) (at_ 6)])) = [].
Proof. vm_compute. reflexivity. Qed.
(** So a certificate of [issue_root] has no effect. *)
Definition issued : certificate := [toy_trust R R u64_max 1; toy_trust R A 900 1].
Lemma issued_root : cert_issue_root W (toy_kp R) (toy_key A) (at_ 900) (at_ 1) = Ok issued.
Proof. vm_compute. reflexivity. Qed.
Definition root_only : list graph_call := [G_set_root (toy_key R) 5].
Lemma root_only_typed : Forall (call_typed W) root_only.
Proof. unfold root_only. typed1. Qed.
Lemma issued_typed : call_typed W (G_add issued (at_ 5)).
Proof. unfold issued. typed1. Qed.
Lemma issued_ok : fst (sem W (after root_only) (G_add issued (at_ 5))) = Ok GR_unit.
Proof. vm_compute. reflexivity. Qed.
Lemma issued_certs : fst (sem W (after (root_only ++ [G_add issued (at_ 5)])) (G_get_all_certs (toy_key A) (at_ 5))) = Ok (GR_certs []).
Proof. vm_compute. reflexivity. Qed.

(** A trust and a revocation of the same keys in the same second. *)
Definition same_second_trust : trust :=
  mk_trust (toy_key A) (at_ 900) (trust_sig (toy_trust R A 900 5)) (mk_duration 5 700000000).
Definition same_second_rev : revocation := mk_rev (toy_key A) (mk_duration 5 200000000) (toy_key R) (rev_sig (toy_rev R A 5)).
Definition xs12 : list relation := [RAuth (mk_auth same_second_trust (toy_key R)); RRev same_second_rev].
Definition xs21 : list relation := [RRev same_second_rev; RAuth (mk_auth same_second_trust (toy_key R))].
Lemma xs12_rels : upd_all xs12 [] = [RRev (toy_rev R A 5)].
Proof. vm_compute. reflexivity. Qed.
Lemma xs21_rels : upd_all xs21 [] = [RAuth (mk_auth (toy_trust R A 900 5) (toy_key R))].
Proof. vm_compute. reflexivity. Qed.

(** Replay after collection. *)
Definition replay : list graph_call := short ++
  [G_revoke (toy_rev R A 80); G_add_trust (toy_trust R A 150 100) (toy_key R) (at_ 110); G_weight (toy_key A) (at_ 151)].
Lemma replay_typed : Forall (call_typed W) replay.
Proof. unfold replay, short, base. cbn [app]. typed1. Qed.
Lemma replay_certs : fst (sem W (after replay) (G_get_all_certs (toy_key A) (at_ 151))) = Ok (GR_certs []).
Proof. vm_compute. reflexivity. Qed.
Lemma replay_ok : fst (sem W (after (replay ++ [G_add_trust (toy_trust R A 900 50) (toy_key R) (at_ 151)])) (G_get_all_certs (toy_key A) (at_ 151)))
  = Ok (GR_certs [short_cert]).
Proof. vm_compute. reflexivity. Qed.

(** A chain longer than the maximum: R -> A -> B and R -> B, B -> D, then R -> B expires. *)
Definition too_long : list graph_call :=
  [G_set_root (toy_key R) 2; G_add_trust (toy_trust R R 1000 1) (toy_key R) (at_ 5);
   G_add_trust (toy_trust R A 900 1) (toy_key R) (at_ 5); G_add_trust (toy_trust A B 800 1) (toy_key A) (at_ 5);
   G_add_trust (toy_trust R B 20 1) (toy_key R) (at_ 5); G_add_trust (toy_trust B D 700 1) (toy_key B) (at_ 5)].
Lemma too_long_typed : Forall (call_typed W) too_long.
Proof. unfold too_long. typed1. Qed.
Lemma too_long_certs : fst (sem W (after too_long) (G_get_all_certs (toy_key D) (at_ 30))) = Ok (GR_certs [long_cert]).
Proof. vm_compute. reflexivity. Qed.
Lemma too_long_weight : fst (sem W (after too_long) (G_weight (toy_key D) (at_ 30))) = Ok (GR_weight 1).
Proof. vm_compute. reflexivity. Qed.

(** A root with no self-signed trust stored: add_trust promises a weight the key does not get. *)
Lemma promise : fst (sem W (after root_only) (G_add_trust (toy_trust R A 900 1) (toy_key R) (at_ 5))) = Ok (GR_weight 16).
Proof. vm_compute. reflexivity. Qed.
Lemma promise_weight : fst (sem W (after (root_only ++ [G_add_trust (toy_trust R A 900 1) (toy_key R) (at_ 5)])) (G_weight (toy_key A) (at_ 5)))
  = Ok (GR_weight 0).
Proof. vm_compute. reflexivity. Qed.

(** A chain with a bad third trust. *)
Definition bad_chain : certificate := [toy_trust R R 1000 1; toy_trust R A 900 1; toy_trust R B 900 1].
Lemma bad_chain_typed : call_typed W (G_add bad_chain (at_ 5)).
Proof. unfold bad_chain. typed1. Qed.
Lemma bad_chain_rels : rels (after (root_only ++ [G_add bad_chain (at_ 5)])) =
  [RAuth (mk_auth (toy_trust R R 1000 1) (toy_key R)); RAuth (mk_auth (toy_trust R A 900 1) (toy_key R))].
Proof. vm_compute. reflexivity. Qed.
Lemma bad_chain_err : exists e, fst (sem W (after root_only) (G_add bad_chain (at_ 5))) = Err e.
Proof. eexists. vm_compute. reflexivity. Qed.

(** Setting a root twice. *)
Definition root_twice : list graph_call := [G_set_root (toy_key R) 5; G_set_root (toy_key R) 2].
Lemma root_twice_typed : Forall (call_typed W) root_twice.
Proof. unfold root_twice. typed1. Qed.
Lemma root_twice_weight : fst (sem W (after root_twice) (G_weight (toy_key R) (at_ 5))) = Ok (GR_weight 32).
Proof. vm_compute. reflexivity. Qed.

(** Two ways to B: R -> B and R -> A -> B. *)
Definition two_ways : list graph_call := base ++
  [G_add_trust (toy_trust R A 900 1) (toy_key R) (at_ 5); G_add_trust (toy_trust A B 800 1) (toy_key A) (at_ 5);
   G_add_trust (toy_trust R B 700 1) (toy_key R) (at_ 5)].
Definition way1 : certificate := [toy_trust R R 1000 1; toy_trust R B 700 1].
Definition way2 : certificate := [toy_trust R R 1000 1; toy_trust R A 900 1; toy_trust A B 800 1].
Lemma two_ways_typed : Forall (call_typed W) two_ways.
Proof. unfold two_ways, base. cbn [app]. typed1. Qed.
Lemma two_ways_certs : fst (sem W (after two_ways) (G_get_all_certs (toy_key B) (at_ 10))) = Ok (GR_certs [way1; way2]).
Proof. vm_compute. reflexivity. Qed.
Lemma two_ways_later : fst (sem W (after two_ways) (G_get_all_certs (toy_key B) (at_ 700))) = Ok (GR_certs [way2]).
Proof. vm_compute. reflexivity. Qed.
Lemma two_ways_from : fst (sem W (after two_ways) (G_get_all_certs_from (toy_key B) (toy_key A) (at_ 10))) = Ok (GR_certs [way2]).
Proof. vm_compute. reflexivity. Qed.
Lemma two_ways_weight : fst (sem W (after two_ways) (G_weight (toy_key B) (at_ 10))) = Ok (GR_weight 16).
Proof. vm_compute. reflexivity. Qed.
Lemma two_ways_weight_later : fst (sem W (after two_ways) (G_weight (toy_key B) (at_ 700))) = Ok (GR_weight 8).
Proof. vm_compute. reflexivity. Qed.
Lemma two_ways_weight_from : fst (sem W (after two_ways) (G_weight_from (toy_key B) (toy_key A) (at_ 10))) = Ok (GR_weight 8).
Proof. vm_compute. reflexivity. Qed.

(** What is stored after a history, as a list. *)
Lemma after_stored : forall cs x, Forall (call_typed W) cs -> (stored (db_of (after cs)) x <-> In x (rels (after cs))).
Proof. intros cs x T. apply (stored_in W). apply after_inv. exact T. Qed.
Lemma after_answer : forall cs c r, Forall (call_typed W) cs -> call_typed W c -> fst (sem W (after cs) c) = r ->
  fst (graph_step W (db_of (after cs)) (c, None)) = r.
Proof. intros cs c r T Tc E. rewrite (after_step cs c r T Tc E). reflexivity. Qed.
Lemma after_trust : forall cs b t, Forall (call_typed W) cs -> In (RAuth (mk_auth t b)) (rels (after cs)) -> stored_trust (db_of (after cs)) b t.
Proof. intros cs b t T H. apply (stored_trust_in W); [apply after_inv; exact T|exact H]. Qed.
Lemma after_rev : forall cs v, Forall (call_typed W) cs -> In (RRev v) (rels (after cs)) -> stored_revocation (db_of (after cs)) v.
Proof. intros cs v T H. apply (stored_rev_in W); [apply after_inv; exact T|exact H]. Qed.
