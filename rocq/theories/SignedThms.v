(** Proofs about what is signed when scripts run at once: C208. *)
From Coq Require Import List NArith ZArith Bool Lia Arith.
From Verif Require Import Base Text Keys Trust Certificate Relation Storage Graph Service Spec ServiceSpec Aqua AquaSpec Sched SchedSpec.
From Verif Require Import BaseFacts KeysFacts SpecFacts ServiceFacts AquaFacts ServiceThms AquaThms AquaTrace SchedFacts SchedSim SchedThms Toy ToyFacts ServiceWitness AquaWitness AquaEx SchedEx SignedSpec.
Import ListNotations.
Open Scope N_scope.

(** * The ways through a script *)
Section Path.
Variable Pc : text -> N -> Prop.
Variable Ps : text -> bytes -> option bytes -> Prop.
Variable Pa : text -> list origin -> service_call -> response -> Prop.

Inductive path {A} : steps A -> steps A -> Prop :=
| path_nil t : path t t
| path_clock n k x r : Pc n x -> path (k x) r -> path (Clock n k) r
| path_sign p m k x r : Ps p m x -> path (k x) r -> path (Sign p m k) r
| path_ask n args c k x r : Pa n args c x -> path (k x) r -> path (Ask n args c k) r.

Lemma path_trans : forall A (a b c : steps A), path a b -> path b c -> path a c.
Proof. intros A a b c H. induction H; intros G; [exact G| | |]; econstructor; eauto. Qed.
Lemma done_inv : forall A (a : A) r, path (Done a) r -> r = Done a.
Proof. intros A a r H. inversion H. reflexivity. Qed.
Lemma stuck_inv : forall A (r : steps A), path Stuck r -> r = Stuck.
Proof. intros A r H. inversion H. reflexivity. Qed.
Lemma clock_inv : forall A n (k : N -> steps A) r, path (Clock n k) r -> r = Clock n k \/ exists x, Pc n x /\ path (k x) r.
Proof. intros A n k r H. inversion H; subst; [left; reflexivity|right; eauto]. Qed.
Lemma sign_inv : forall A p m (k : option bytes -> steps A) r, path (Sign p m k) r -> r = Sign p m k \/ exists x, Ps p m x /\ path (k x) r.
Proof. intros A p m k r H. inversion H; subst; [left; reflexivity|right; eauto]. Qed.
Lemma ask_inv : forall A n args c (k : response -> steps A) r, path (Ask n args c k) r -> r = Ask n args c k \/ exists x, Pa n args c x /\ path (k x) r.
Proof. intros A n args c k r H. inversion H; subst; [left; reflexivity|right; eauto]. Qed.
Definition ended {A} (t : steps A) : Prop := exists a, t = Done a.
Lemma bind_inv : forall A B (t : steps A) (f : A -> steps B) r, path (tbind t f) r ->
  (exists t', path t t' /\ ~ ended t' /\ r = tbind t' f) \/ (exists a, path t (Done a) /\ path (f a) r).
Proof.
  intros A B t f. induction t as [a| |n k IH|p m k IH|n args c k IH]; intros r H; cbn [tbind] in H.
  - right. exists a. split; [apply path_nil|exact H].
  - apply stuck_inv in H. left. exists Stuck. split; [apply path_nil|]. split; [intros [a X]; discriminate X|exact H].
  - apply clock_inv in H. destruct H as [->|(x & Q & H)].
    + left. exists (Clock n k). split; [apply path_nil|]. split; [intros [a X]; discriminate X|reflexivity].
    + destruct (IH x r H) as [(t' & G & N & E)|(a & G & F)]; [left; exists t'|right; exists a]; (split; [apply path_clock with (x := x); assumption|auto]).
  - apply sign_inv in H. destruct H as [->|(x & Q & H)].
    + left. exists (Sign p m k). split; [apply path_nil|]. split; [intros [a X]; discriminate X|reflexivity].
    + destruct (IH x r H) as [(t' & G & N & E)|(a & G & F)]; [left; exists t'|right; exists a]; (split; [apply path_sign with (x := x); assumption|auto]).
  - apply ask_inv in H. destruct H as [->|(x & Q & H)].
    + left. exists (Ask n args c k). split; [apply path_nil|]. split; [intros [a X]; discriminate X|reflexivity].
    + destruct (IH x r H) as [(t' & G & N & E)|(a & G & F)]; [left; exists t'|right; exists a]; (split; [apply path_ask with (x := x); assumption|auto]).
Qed.
Lemma bind_sign : forall A B (t : steps A) (f : A -> steps B) p m k, ~ ended t -> Sign p m k = tbind t f -> exists k', t = Sign p m k'.
Proof. intros A B t f p m k N E. destruct t; cbn [tbind] in E; try discriminate E; [exfalso; apply N; eexists; reflexivity|]. injection E as <- <- _. eexists. reflexivity. Qed.
Lemma bind_ask : forall A B (t : steps A) (f : A -> steps B) n args c k, ~ ended t -> Ask n args c k = tbind t f -> exists k', t = Ask n args c k'.
Proof. intros A B t f n args c k N E. destruct t; cbn [tbind] in E; try discriminate E; [exfalso; apply N; eexists; reflexivity|]. injection E as <- <- <- _. eexists. reflexivity. Qed.
Lemma bind_done : forall A B (t : steps A) (f : A -> steps B) x, ~ ended t -> Done x = tbind t f -> False.
Proof. intros A B t f x N E. destruct t; cbn [tbind] in E; try discriminate E. apply N. eexists. reflexivity. Qed.
End Path.

(** * What the calls that only compute answer *)
Section Issue.
Variable C : crypto.
Variable net : network.
Variable src : nat -> origin.
Variable Pc : text -> N -> Prop.
Variable Ps : text -> bytes -> option bytes -> Prop.
Definition answered (n : text) (args : list origin) (c : service_call) (r : response) : Prop :=
  exists d fu d', service_step C d (mk_params (initiator net) (creator_on net n) n args, c, fu) = (Ok r, d').
Notation way := (path Pc Ps answered).

Lemma answered_local : forall n args c r, local_call c = true -> answered n args c r ->
  (exists a, plan C (mk_params (initiator net) (creator_on net n) n args) c = Ok (inr a) /\ r = mk_response true None a) \/
  (exists e, plan C (mk_params (initiator net) (creator_on net n) n args) c = Err e /\ r = mk_response false (Some e) (empty_payload c)).
Proof.
  intros n args c r L (d & fu & d' & E). rewrite service_plan in E.
  destruct (plan C _ c) as [[g|a]|e| |] eqn:P; cbn [carry_out fst snd] in E.
  - exfalso. apply plan_requests in P. destruct c; try discriminate L; destruct g; exact P.
  - injection E as <- _. left. exists a. auto.
  - injection E as <- _. right. exists e. auto.
  - discriminate E.
  - discriminate E.
Qed.

Lemma issue_trust_signs : forall issuer p e s m k, way (sc_issue_trust net src issuer p e) (Sign s m k) ->
  s = issuer /\ exists i key, Pc (relay net) i /\ peer_key C p key /\ m = trust_signature_bytes C key (from_secs e) (from_secs i).
Proof.
  intros issuer p e s m k H. unfold sc_issue_trust, clock, ask, sign in H. cbn [tbind] in H.
  apply clock_inv in H. destruct H as [H|(i & Hi & H)]; [discriminate H|].
  apply ask_inv in H. destruct H as [H|(r & Hr & H)]; [discriminate H|].
  apply answered_local in Hr; [|reflexivity]. cbn [plan] in Hr. destruct (extract_cases C p) as [(key & X & K)|(x & X)]; rewrite X in Hr; cbn [bind] in Hr.
  2:{ destruct Hr as [(a & Q & _)|(x1 & _ & ->)]; [discriminate Q|]. cbn [success] in H. apply done_inv in H. discriminate H. }
  destruct Hr as [(a & Q & ->)|(x1 & Q & _)]; [|discriminate Q]. injection Q as <-. cbn [success] in H. unfold bytes_in in H. cbn [reply] in H.
  apply sign_inv in H. destruct H as [H|(sg & Hs & H)].
  - injection H as -> -> _. split; [reflexivity|]. exists i, key. auto.
  - destruct sg as [sg|]; [|apply done_inv in H; discriminate H]. apply ask_inv in H. destruct H as [H|(r & _ & H)]; [discriminate H|].
    destruct (success r); apply done_inv in H; discriminate H.
Qed.
Lemma issue_trust_asks : forall issuer p e n args c k, way (sc_issue_trust net src issuer p e) (Ask n args c k) -> local_call c = true.
Proof.
  intros issuer p e n args c k H. unfold sc_issue_trust, clock, ask, sign in H. cbn [tbind] in H.
  apply clock_inv in H. destruct H as [H|(i & Hi & H)]; [discriminate H|].
  apply ask_inv in H. destruct H as [H|(r & Hr & H)]; [injection H as _ _ -> _; reflexivity|].
  destruct (success r); [|apply done_inv in H; discriminate H].
  apply sign_inv in H. destruct H as [H|(sg & Hs & H)]; [discriminate H|].
  destruct sg as [sg|]; [|apply done_inv in H; discriminate H]. apply ask_inv in H. destruct H as [H|(r' & _ & H)]; [injection H as _ _ -> _; reflexivity|].
  destruct (success r'); apply done_inv in H; discriminate H.
Qed.
Lemma issue_trust_ends : forall issuer p e a, way (sc_issue_trust net src issuer p e) (Done a) ->
  exists i, Pc (relay net) i /\
  ((exists k s, peer_key C p k /\ Ps issuer (trust_signature_bytes C k (from_secs e) (from_secs i)) (Some s) /\
     a = ([dto_of_trust C (mk_trust k (from_secs e) (sig_from_bytes (pk_fmt k) s) (from_secs i))], [])) \/
   (exists k, peer_key C p k /\ Ps issuer (trust_signature_bytes C k (from_secs e) (from_secs i)) None /\ a = ([], [AE_sign])) \/
   ((forall k, ~ peer_key C p k) /\ exists x, a = ([], [AE_service (Some x)]))).
Proof.
  intros issuer p e a H. unfold sc_issue_trust, clock, ask, sign in H. cbn [tbind] in H.
  apply clock_inv in H. destruct H as [H|(i & Hi & H)]; [discriminate H|]. exists i. split; [exact Hi|].
  apply ask_inv in H. destruct H as [H|(r & Hr & H)]; [discriminate H|].
  apply answered_local in Hr; [|reflexivity]. cbn [plan] in Hr. destruct (extract_cases C p) as [(key & X & K)|(x & X)]; rewrite X in Hr; cbn [bind] in Hr.
  2:{ destruct Hr as [(b & Q & _)|(x1 & _ & ->)]; [discriminate Q|]. cbn [success] in H. apply done_inv in H. injection H as ->. unfold error_in. cbn [error].
      right. right. split; [|exists x1; reflexivity]. intros k K. apply extract_ok in K. congruence. }
  destruct Hr as [(b & Q & ->)|(x1 & Q & _)]; [|discriminate Q]. injection Q as <-. cbn [success] in H. unfold bytes_in in H. cbn [reply] in H.
  apply sign_inv in H. destruct H as [H|(sg & Hs & H)]; [discriminate H|].
  destruct sg as [sg|].
  2:{ apply done_inv in H. injection H as ->. right. left. exists key. auto. }
  apply ask_inv in H. destruct H as [H|(r & Hr & H)]; [discriminate H|].
  apply answered_local in Hr; [|reflexivity]. cbn [plan] in Hr. rewrite X in Hr. cbn [bind] in Hr.
  destruct Hr as [(b & Q & ->)|(x1 & Q & _)]; [|discriminate Q]. injection Q as <-. cbn [success] in H. apply done_inv in H. injection H as ->.
  unfold trust_in. cbn [reply]. left. exists key, sg. auto.
Qed.

Lemma issue_revocation_signs : forall q p s m k, way (sc_issue_revocation net src q p) (Sign s m k) ->
  s = q /\ exists i key, Pc (relay net) i /\ peer_key C p key /\ m = revocation_signature_bytes C key (from_secs i).
Proof.
  intros q p s m k H. unfold sc_issue_revocation, clock, ask, sign in H. cbn [tbind] in H.
  apply clock_inv in H. destruct H as [H|(i & Hi & H)]; [discriminate H|].
  apply ask_inv in H. destruct H as [H|(r & Hr & H)]; [discriminate H|].
  apply answered_local in Hr; [|reflexivity]. cbn [plan] in Hr. destruct (extract_cases C p) as [(key & X & K)|(x & X)]; rewrite X in Hr; cbn [bind] in Hr.
  2:{ destruct Hr as [(a & Q & _)|(x1 & _ & ->)]; [discriminate Q|]. cbn [success] in H. apply done_inv in H. discriminate H. }
  destruct Hr as [(a & Q & ->)|(x1 & Q & _)]; [|discriminate Q]. injection Q as <-. cbn [success] in H. unfold bytes_in in H. cbn [reply] in H.
  apply sign_inv in H. destruct H as [H|(sg & Hs & H)].
  - injection H as -> -> _. split; [reflexivity|]. exists i, key. auto.
  - destruct sg as [sg|]; [|apply done_inv in H; discriminate H]. apply ask_inv in H. destruct H as [H|(r & _ & H)]; [discriminate H|].
    destruct (success r); apply done_inv in H; discriminate H.
Qed.
Lemma issue_revocation_asks : forall q p n args c k, way (sc_issue_revocation net src q p) (Ask n args c k) -> local_call c = true.
Proof.
  intros q p n args c k H. unfold sc_issue_revocation, clock, ask, sign in H. cbn [tbind] in H.
  apply clock_inv in H. destruct H as [H|(i & Hi & H)]; [discriminate H|].
  apply ask_inv in H. destruct H as [H|(r & Hr & H)]; [injection H as _ _ -> _; reflexivity|].
  destruct (success r); [|apply done_inv in H; discriminate H].
  apply sign_inv in H. destruct H as [H|(sg & Hs & H)]; [discriminate H|].
  destruct sg as [sg|]; [|apply done_inv in H; discriminate H]. apply ask_inv in H. destruct H as [H|(r' & _ & H)]; [injection H as _ _ -> _; reflexivity|].
  destruct (success r'); apply done_inv in H; discriminate H.
Qed.
Lemma issue_revocation_ends : forall q p a, way (sc_issue_revocation net src q p) (Done a) ->
  exists i, Pc (relay net) i /\
  ((exists k b s, peer_key C p k /\ peer_key C q b /\ Ps q (revocation_signature_bytes C k (from_secs i)) (Some s) /\
     a = ([dto_of_revocation C (mk_rev k (from_secs i) b (sig_from_bytes (pk_fmt b) s))], [])) \/
   (exists k, peer_key C p k /\ Ps q (revocation_signature_bytes C k (from_secs i)) None /\ a = ([], [AE_sign])) \/
   (((forall k, ~ peer_key C p k) \/ (forall k, ~ peer_key C q k)) /\ exists x, a = ([], [AE_service (Some x)]))).
Proof.
  intros q p a H. unfold sc_issue_revocation, clock, ask, sign in H. cbn [tbind] in H.
  apply clock_inv in H. destruct H as [H|(i & Hi & H)]; [discriminate H|]. exists i. split; [exact Hi|].
  apply ask_inv in H. destruct H as [H|(r & Hr & H)]; [discriminate H|].
  apply answered_local in Hr; [|reflexivity]. cbn [plan] in Hr. destruct (extract_cases C p) as [(key & X & K)|(x & X)]; rewrite X in Hr; cbn [bind] in Hr.
  2:{ destruct Hr as [(b & Q & _)|(x1 & _ & ->)]; [discriminate Q|]. cbn [success] in H. apply done_inv in H. injection H as ->. unfold error_in. cbn [error].
      right. right. split; [|exists x1; reflexivity]. left. intros k K. apply extract_ok in K. congruence. }
  destruct Hr as [(b & Q & ->)|(x1 & Q & _)]; [|discriminate Q]. injection Q as <-. cbn [success] in H. unfold bytes_in in H. cbn [reply] in H.
  apply sign_inv in H. destruct H as [H|(sg & Hs & H)]; [discriminate H|].
  destruct sg as [sg|].
  2:{ apply done_inv in H. injection H as ->. right. left. exists key. auto. }
  apply ask_inv in H. destruct H as [H|(r & Hr & H)]; [discriminate H|].
  apply answered_local in Hr; [|reflexivity]. cbn [plan] in Hr. rewrite X in Hr. cbn [bind] in Hr.
  destruct (extract_cases C q) as [(b & Y & B)|(x & Y)]; rewrite Y in Hr; cbn [bind] in Hr.
  - destruct Hr as [(b' & Q & ->)|(x1 & Q & _)]; [|discriminate Q]. injection Q as <-. cbn [success] in H. apply done_inv in H. injection H as ->.
    unfold revocation_in. cbn [reply]. left. exists key, b, sg. auto.
  - destruct Hr as [(b' & Q & _)|(x1 & Q & ->)]; [discriminate Q|]. cbn [success] in H. apply done_inv in H. injection H as ->. unfold error_in. cbn [error].
    right. right. split; [|exists x1; reflexivity]. right. intros k0 K0. apply extract_ok in K0. congruence.
Qed.
End Issue.

(** * Whole scripts *)
Section Whole.
Variable C : crypto.
Variable net : network.
Variable src : nat -> origin.
Variable Pc : text -> N -> Prop.
Variable Ps : text -> bytes -> option bytes -> Prop.
Notation way := (path Pc Ps (answered C net)).

Ltac walk H :=
  repeat match type of H with
  | path _ _ _ (Clock _ _) _ => apply clock_inv in H; destruct H as [H|(? & ? & H)]; [try discriminate H|]
  | path _ _ _ (Sign _ _ _) _ => apply sign_inv in H; destruct H as [H|(? & ? & H)]; [try discriminate H|]
  | path _ _ _ (Ask _ _ _ _) _ => apply ask_inv in H; destruct H as [H|(? & ? & H)]; [try discriminate H|]
  | path _ _ _ (Done _) _ => apply done_inv in H; try discriminate H
  | path _ _ _ Stuck _ => apply stuck_inv in H; discriminate H
  | path _ _ _ (if ?b then _ else _) _ => destruct b; cbn [tbind] in H
  | path _ _ _ (match ?l with [] => _ | _ :: _ => _ end) _ => destruct l; cbn [tbind first] in H
  end.
Ltac open H :=
  cbn [script_of] in H;
  unfold sc_set_root, sc_import_trust, sc_verify_trust, sc_get_weight, sc_get_weight_from, sc_import_revocation, sc_get_host_certs_from,
    sc_get_all_certs, sc_get_all_certs_from, sc_get_host_certs, sc_insert_cert, sc_is_fluence_peer, sc_get_host_certs_from, clock, ask, first in H;
  cbn [tbind] in H.

Lemma script_signs : forall q s m k, way (script_of net src q) (Sign s m k) ->
  (exists p e i key, asked_trust q s p e /\ Pc (relay net) i /\ peer_key C p key /\ m = trust_signature_bytes C key (from_secs e) (from_secs i)) \/
  (exists p i key, asked_revocation q s p /\ Pc (relay net) i /\ peer_key C p key /\ m = revocation_signature_bytes C key (from_secs i)).
Proof.
  intros q s m k H.
  destruct q; try (open H; walk H; fail); cbn [script_of] in H; apply bind_inv in H;
    (destruct H as [(t' & H & N & E)|(a & _ & H)]; [|apply done_inv in H; discriminate H]);
    (apply bind_sign in E; [|exact N]); destruct E as [k' ->]; clear N.
  - apply issue_trust_signs in H. destruct H as [-> (i & key & H)]. left. exists p, e, i, key. split; [left; reflexivity|exact H].
  - unfold sc_add_trust in H. apply bind_inv in H. destruct H as [(t' & H & N & E)|(a & _ & H)].
    + apply bind_sign in E; [|exact N]. destruct E as [k'' ->]. apply issue_trust_signs in H. destruct H as [-> (i & key & H)].
      left. exists p, e, i, key. split; [right; left; exists node; reflexivity|exact H].
    + destruct a as [[|x l] [|y l']]; cbn [fst snd] in H; open H; walk H.
  - unfold sc_add_root_trust in H. apply bind_inv in H. destruct H as [(t' & H & N & E)|(a & _ & H)].
    + apply bind_sign in E; [|exact N]. destruct E as [k'' ->]. apply issue_trust_signs in H. destruct H as [-> (i & key & H)].
      left. exists p, e, i, key. split; [right; right; exists node, n; split; reflexivity|exact H].
    + destruct a as [[|x l] [|y l']]; cbn [fst snd] in H; open H; walk H.
  - apply issue_revocation_signs in H. destruct H as [-> (i & key & H)]. right. exists p, i, key. split; [left; reflexivity|exact H].
  - unfold sc_revoke in H. apply bind_inv in H. destruct H as [(t' & H & N & E)|(a & _ & H)].
    + apply bind_sign in E; [|exact N]. destruct E as [k'' ->]. apply issue_revocation_signs in H. destruct H as [-> (i & key & H)].
      right. exists p, i, key. split; [right; exists node; reflexivity|exact H].
    + destruct a as [[|x l] [|y l']]; cbn [fst snd] in H; open H; walk H.
Qed.

Lemma script_adds : forall q n args x issuer now k, way (script_of net src q) (Ask n args (S_add_trust x issuer now) k) ->
  Pc n now /\ request_node q = Some n /\
  (q = Q_import_trust n x issuer \/
   exists p e l, asked_trust q issuer p e /\ way (sc_issue_trust net src issuer p e) (Done (x :: l, []))).
Proof.
  intros q n args x issuer now k H.
  destruct q; try (open H; walk H; fail).
  - cbn [script_of] in H. apply bind_inv in H. destruct H as [(t' & H & N & E)|(a & _ & H)]; [|apply done_inv in H; discriminate H].
    apply bind_ask in E; [|exact N]. destruct E as [k' ->]. apply issue_trust_asks in H. discriminate H.
  - open H; walk H. injection H as -> _ -> -> -> _. split; [assumption|]. split; [reflexivity|]. left. reflexivity.
  - cbn [script_of] in H. apply bind_inv in H. destruct H as [(t' & H & N & E)|(a & _ & H)]; [|apply done_inv in H; discriminate H].
    apply bind_ask in E; [|exact N]. destruct E as [k' ->]. clear N. unfold sc_add_trust in H. apply bind_inv in H. destruct H as [(t' & H & N & E)|(a & Ha & H)].
    + apply bind_ask in E; [|exact N]. destruct E as [k'' ->]. apply issue_trust_asks in H. discriminate H.
    + destruct a as [[|y l] [|z l']]; cbn [fst snd] in H; open H; walk H. injection H as -> _ -> -> -> _. split; [assumption|]. split; [reflexivity|].
      right. exists p, e, l. split; [right; left; eexists; reflexivity|exact Ha].
  - cbn [script_of] in H. apply bind_inv in H. destruct H as [(t' & H & N & E)|(a & _ & H)]; [|apply done_inv in H; discriminate H].
    apply bind_ask in E; [|exact N]. destruct E as [k' ->]. clear N. unfold sc_add_root_trust in H. apply bind_inv in H. destruct H as [(t' & H & N & E)|(a & Ha & H)].
    + apply bind_ask in E; [|exact N]. destruct E as [k'' ->]. apply issue_trust_asks in H. discriminate H.
    + destruct a as [[|y l] [|z l']]; cbn [fst snd] in H; open H; walk H. injection H as -> _ -> -> -> _. split; [assumption|]. split; [reflexivity|].
      right. exists p, e, l. split; [right; right; eexists _, _; split; reflexivity|exact Ha].
  - cbn [script_of] in H. apply bind_inv in H. destruct H as [(t' & H & N & E)|(a & _ & H)]; [|apply done_inv in H; discriminate H].
    apply bind_ask in E; [|exact N]. destruct E as [k' ->]. apply issue_revocation_asks in H. discriminate H.
  - cbn [script_of] in H. apply bind_inv in H. destruct H as [(t' & H & N & E)|(a & _ & H)]; [|apply done_inv in H; discriminate H].
    apply bind_ask in E; [|exact N]. destruct E as [k' ->]. clear N. unfold sc_revoke in H. apply bind_inv in H. destruct H as [(t' & H & N & E)|(a & Ha & H)].
    + apply bind_ask in E; [|exact N]. destruct E as [k'' ->]. apply issue_revocation_asks in H. discriminate H.
    + destruct a as [[|y l] [|z l']]; cbn [fst snd] in H; open H; walk H.
Qed.
Lemma script_revokes : forall q n args x now k, way (script_of net src q) (Ask n args (S_revoke x now) k) ->
  Pc n now /\ request_node q = Some n /\
  (q = Q_import_revocation n x \/
   exists by_ p l es, asked_revocation q by_ p /\ way (sc_issue_revocation net src by_ p) (Done (x :: l, es))).
Proof.
  intros q n args x now k H.
  destruct q; try (open H; walk H; fail).
  - cbn [script_of] in H. apply bind_inv in H. destruct H as [(t' & H & N & E)|(a & _ & H)]; [|apply done_inv in H; discriminate H].
    apply bind_ask in E; [|exact N]. destruct E as [k' ->]. apply issue_trust_asks in H. discriminate H.
  - cbn [script_of] in H. apply bind_inv in H. destruct H as [(t' & H & N & E)|(a & _ & H)]; [|apply done_inv in H; discriminate H].
    apply bind_ask in E; [|exact N]. destruct E as [k' ->]. clear N. unfold sc_add_trust in H. apply bind_inv in H. destruct H as [(t' & H & N & E)|(a & Ha & H)].
    + apply bind_ask in E; [|exact N]. destruct E as [k'' ->]. apply issue_trust_asks in H. discriminate H.
    + destruct a as [[|y l] [|z l']]; cbn [fst snd] in H; open H; walk H.
  - cbn [script_of] in H. apply bind_inv in H. destruct H as [(t' & H & N & E)|(a & _ & H)]; [|apply done_inv in H; discriminate H].
    apply bind_ask in E; [|exact N]. destruct E as [k' ->]. clear N. unfold sc_add_root_trust in H. apply bind_inv in H. destruct H as [(t' & H & N & E)|(a & Ha & H)].
    + apply bind_ask in E; [|exact N]. destruct E as [k'' ->]. apply issue_trust_asks in H. discriminate H.
    + destruct a as [[|y l] [|z l']]; cbn [fst snd] in H; open H; walk H.
  - cbn [script_of] in H. apply bind_inv in H. destruct H as [(t' & H & N & E)|(a & _ & H)]; [|apply done_inv in H; discriminate H].
    apply bind_ask in E; [|exact N]. destruct E as [k' ->]. apply issue_revocation_asks in H. discriminate H.
  - open H; walk H. injection H as -> _ -> -> _. split; [assumption|]. split; [reflexivity|]. left. reflexivity.
  - cbn [script_of] in H. apply bind_inv in H. destruct H as [(t' & H & N & E)|(a & _ & H)]; [|apply done_inv in H; discriminate H].
    apply bind_ask in E; [|exact N]. destruct E as [k' ->]. clear N. unfold sc_revoke in H. apply bind_inv in H. destruct H as [(t' & H & N & E)|(a & Ha & H)].
    + apply bind_ask in E; [|exact N]. destruct E as [k'' ->]. apply issue_revocation_asks in H. discriminate H.
    + destruct a as [[|y l] es]; [destruct es; cbn [fst snd] in H; open H; walk H|]. cbn [fst snd] in H; open H; walk H. injection H as -> _ -> -> _. split; [assumption|]. split; [reflexivity|].
      right. exists q, p, l, es. split; [right; eexists; reflexivity|exact Ha].
Qed.
End Whole.

(** * Scripts that run at once *)
Section Mixed.
Variable C : crypto.
Variable st0 : stores.
Variable clocks0 : text -> N.
Variable evs : schedule.
Definition signed_as (j : nat) (net : network) (p : text) (m : bytes) (sg : option bytes) : Prop := honest C st0 clocks0 evs j -> sg = sign_with net p m.
Definition went (j : nat) (tk : task) : Prop :=
  tk_rest tk = Stuck \/
  path (said clocks0 evs) (signed_as j (tk_net tk)) (answered C (tk_net tk)) (script_of (tk_net tk) (tk_src tk) (tk_request tk)) (tk_rest tk).

Lemma firstn_next : forall n e, nth_error evs n = Some e -> firstn (S n) evs = firstn n evs ++ [e].
Proof.
  clear. induction evs as [|x l IH]; intros [|n] e H; cbn [nth_error] in H; try discriminate H.
  - injection H as ->. reflexivity.
  - cbn [firstn app]. rewrite <- (IH n e H). reflexivity.
Qed.
Lemma went_all : forall n, (n <= length evs)%nat ->
  let s := happens C (idle st0 clocks0) (firstn n evs) in
  (forall node, said clocks0 evs node (sy_clock s node)) /\ forall j tk, nth_error (sy_tasks s) j = Some tk -> went j tk.
Proof.
  induction n as [|n IH]; intros L.
  - cbn. split; [intros node; left; reflexivity|]. intros [|j] tk H; discriminate H.
  - destruct (nth_error evs n) as [ev|] eqn:E.
    2:{ exfalso. apply nth_error_None in E. lia. }
    rewrite (firstn_next n ev E), happens_app. specialize (IH ltac:(lia)).
    set (s := happens C (idle st0 clocks0) (firstn n evs)) in *. destruct IH as [K T]. change (happens C s [ev]) with (happen C s ev).
    destruct ev as [net src q|i sg fu|node t]; cbn [happen].
    + cbn [sy_clock sy_tasks]. split; [exact K|]. intros j tk H.
      destruct (Nat.lt_ge_cases j (length (sy_tasks s))) as [Lt|Ge].
      * rewrite nth_error_app1 in H by exact Lt. apply T. exact H.
      * rewrite nth_error_app2 in H by exact Ge. destruct (j - length (sy_tasks s))%nat as [|[|?]]; try discriminate H.
        injection H as <-. right. cbn [tk_rest tk_net tk_src tk_request]. apply path_nil.
    + destruct (nth_error (sy_tasks s) i) as [tk0|] eqn:F; [|split; assumption].
      destruct (task_step C (sy_stores s) (sy_clock s) tk0 sg fu) as [tk' st'] eqn:G. cbn [sy_clock sy_tasks]. split; [exact K|].
      intros j tk H. destruct (Nat.eq_dec j i) as [->|D].
      2:{ rewrite nth_replace_other in H by exact D. apply T. exact H. }
      rewrite (nth_replace_same _ _ _ _ _ F) in H. injection H as ->. specialize (T i tk0 F).
      unfold task_step in G. destruct (tk_rest tk0) as [a| |nd k|p m k|nd args c k] eqn:R.
      * injection G as <- _. exact T.
      * injection G as <- _. exact T.
      * injection G as <- _. right. cbn [tk_rest tk_net tk_src tk_request]. destruct T as [T|T]; [congruence|]. rewrite R in T.
        eapply path_trans; [exact T|]. apply path_clock with (x := sy_clock s nd); [apply K|apply path_nil].
      * injection G as <- _. right. cbn [tk_rest tk_net tk_src tk_request]. destruct T as [T|T]; [congruence|]. rewrite R in T.
        eapply path_trans; [exact T|]. apply path_sign with (x := sg); [|apply path_nil].
        intros Hh. apply (Hh n sg fu tk0 p m E F). exists k. exact R.
      * destruct (service_step C (sy_stores s nd) _) as [[r|e| |] d] eqn:Sv; injection G as <- _; [|left; reflexivity..].
        right. cbn [tk_rest tk_net tk_src tk_request]. destruct T as [T|T]; [congruence|]. rewrite R in T.
        eapply path_trans; [exact T|]. apply path_ask with (x := r); [|apply path_nil]. exists (sy_stores s nd), fu, d. exact Sv.
    + cbn [sy_clock sy_tasks]. split; [|exact T]. intros n'. destruct (bytes_eqb node n') eqn:B; [|apply K].
      apply bytes_eqb_eq in B. subst n'. right. apply nth_error_In with (n := n). exact E.
Qed.
Lemma went_end : forall j tk, nth_error (sy_tasks (happens C (idle st0 clocks0) evs)) j = Some tk -> went j tk.
Proof.
  intros j tk H. destruct (went_all (length evs) (le_n _)) as [_ T]. rewrite firstn_all in T. apply T. exact H.
Qed.
End Mixed.

Lemma trust_made : forall C b kp k e i s net, crypto_laws C -> wasm32 C = true -> signer C net b kp -> pk_valid C k ->
  Some s = sign_with net b (trust_signature_bytes C k (from_secs e) (from_secs i)) ->
  trust_asked C (kp_public C kp) k e i (mk_trust k (from_secs e) (sig_from_bytes (pk_fmt k) s) (from_secs i)).
Proof.
  intros C b kp k e i s net L W Sg K E. destruct (sign_trust_good C net b kp k e i L W Sg K) as (s' & G & A). rewrite G in E. injection E as <-. exact A.
Qed.
Lemma revocation_made : forall C b kp k i s net, crypto_laws C -> wasm32 C = true -> signer C net b kp -> pk_valid C k ->
  Some s = sign_with net b (revocation_signature_bytes C k (from_secs i)) ->
  revocation_asked C (kp_public C kp) k i (mk_rev k (from_secs i) (kp_public C kp) (sig_from_bytes (pk_fmt (kp_public C kp)) s)).
Proof.
  intros C b kp k i s net L W Sg K E. destruct (sign_rev_good C net b kp k i L W Sg K) as (s' & G & A). rewrite G in E. injection E as <-. exact A.
Qed.

(** ** C208 *)
(** However scripts are mixed, a script asks for no signature but that of the trust or the revocation that its user asked it for, by the peer they named, made at a time that the clock of the relay said. *)
Lemma p_C208_signed : forall C st clocks evs j tk p m, nth_error (sy_tasks (happens C (idle st clocks) evs)) j = Some tk -> waits_for_signature tk p m ->
  exists q k i, peer_key C q k /\ said clocks evs (relay (tk_net tk)) i /\
    ((exists e t, asked_trust (tk_request tk) p q e /\ issued_for t = k /\ expires_at t = from_secs e /\ issued_at t = from_secs i /\ m = trust_message C t) \/
     (exists v, asked_revocation (tk_request tk) p q /\ rev_pk v = k /\ revoked_at v = from_secs i /\ m = revocation_message C v)).
Proof.
  intros C st clocks evs j tk p m H [k R]. apply went_end in H. destruct H as [H|H]; [congruence|]. rewrite R in H. apply script_signs in H.
  destruct H as [(q & e & i & key & A & I & K & ->)|(q & i & key & A & I & K & ->)]; exists q, key, i; (split; [exact K|]); (split; [exact I|]).
  - left. exists e, (mk_trust key (from_secs e) (mk_sig Ed25519 []) (from_secs i)). repeat (split; [first [exact A|reflexivity]|]). reflexivity.
  - right. exists (mk_rev key (from_secs i) key (mk_sig Ed25519 [])). repeat (split; [first [exact A|reflexivity]|]). reflexivity.
Qed.
(** What it then sends to a node is that trust, signed by that peer, if the Sig service is that of the peer, *)
Lemma p_C208_sent_trust : forall C st clocks evs j tk n x issuer now, crypto_laws C -> wasm32 C = true -> honest C st clocks evs j ->
  nth_error (sy_tasks (happens C (idle st clocks) evs)) j = Some tk -> about_to_call tk n (S_add_trust x issuer now) ->
  said clocks evs n now /\ request_node (tk_request tk) = Some n /\
  (tk_request tk = Q_import_trust n x issuer \/
   exists p e, asked_trust (tk_request tk) issuer p e /\
     forall kp, signer C (tk_net tk) issuer kp -> exists k i t, peer_key C p k /\ said clocks evs (relay (tk_net tk)) i /\
       trust_record C x t /\ trust_asked C (kp_public C kp) k e i t).
Proof.
  intros C st clocks evs j tk n x issuer now L W Hh H (args & k & R). apply went_end in H. destruct H as [H|H]; [congruence|]. rewrite R in H.
  apply script_adds in H. destruct H as (I & Q & H). split; [exact I|]. split; [exact Q|].
  destruct H as [H|(p & e & l & A & H)]; [left; exact H|]. right. exists p, e. split; [exact A|]. intros kp Sg.
  apply issue_trust_ends in H. destruct H as (i & Hi & H).
  destruct H as [(key & s & K & Hs & X)|[(key & _ & _ & X)|(_ & y & X)]]; try discriminate X. injection X as -> _.
  pose proof (peer_key_valid C p key L K) as Kv.
  exists key, i, (mk_trust key (from_secs e) (sig_from_bytes (pk_fmt key) s) (from_secs i)). split; [exact K|]. split; [exact Hi|].
  split; [apply made_record; assumption|]. eapply trust_made; try eassumption. exact (Hs Hh).
Qed.
(** or that revocation. *)
Lemma p_C208_sent_revocation : forall C st clocks evs j tk n x now, crypto_laws C -> wasm32 C = true -> honest C st clocks evs j ->
  nth_error (sy_tasks (happens C (idle st clocks) evs)) j = Some tk -> about_to_call tk n (S_revoke x now) ->
  said clocks evs n now /\ request_node (tk_request tk) = Some n /\
  (tk_request tk = Q_import_revocation n x \/
   exists by_ p, asked_revocation (tk_request tk) by_ p /\
     forall kp, signer C (tk_net tk) by_ kp -> exists k i v, peer_key C p k /\ said clocks evs (relay (tk_net tk)) i /\
       revocation_record C x v /\ revocation_asked C (kp_public C kp) k i v).
Proof.
  intros C st clocks evs j tk n x now L W Hh H (args & k & R). apply went_end in H. destruct H as [H|H]; [congruence|]. rewrite R in H.
  apply script_revokes in H. destruct H as (I & Q & H). split; [exact I|]. split; [exact Q|].
  destruct H as [H|(by_ & p & l & es & A & H)]; [left; exact H|]. right. exists by_, p. split; [exact A|]. intros kp Sg.
  apply issue_revocation_ends in H. destruct H as (i & Hi & H).
  destruct H as [(key & b & s & K & B & Hs & X)|[(key & _ & _ & X)|(_ & y & X)]]; try discriminate X. injection X as -> _ _.
  pose proof (peer_key_valid C p key L K) as Kv. pose proof (peer_key_fun C by_ _ _ (proj1 (proj2 Sg)) B) as <-.
  exists key, i, (mk_rev key (from_secs i) (kp_public C kp) (sig_from_bytes (pk_fmt (kp_public C kp)) s)). split; [exact K|]. split; [exact Hi|].
  split; [apply made_revocation; try assumption; apply kp_public_valid; [assumption|apply Sg]|]. eapply revocation_made; try eassumption. exact (Hs Hh).
Qed.
(** And issuing, mixed with other scripts, returns what was asked for. *)
Lemma p_C208_issued_trust : forall C st clocks evs j tk issuer kp p k e a, crypto_laws C -> wasm32 C = true -> honest C st clocks evs j ->
  nth_error (sy_tasks (happens C (idle st clocks) evs)) j = Some tk -> tk_request tk = Q_issue_trust issuer p e -> returned tk = Some a ->
  signer C (tk_net tk) issuer kp -> peer_key C p k ->
  exists x t i, a = N_trust ([x], []) /\ said clocks evs (relay (tk_net tk)) i /\ trust_record C x t /\ trust_asked C (kp_public C kp) k e i t.
Proof.
  intros C st clocks evs j tk issuer kp p k e a L W Hh H Q R Sg K. apply went_end in H. unfold returned in R. destruct H as [H|H]; [rewrite H in R; discriminate R|].
  destruct (tk_rest tk) as [a'| | | |] eqn:T; try discriminate R. injection R as ->. rewrite Q in H. cbn [script_of] in H.
  apply bind_inv in H. destruct H as [(t' & H & N & E)|(b & H & E)]; [exfalso; eapply bind_done; eassumption|]. apply done_inv in E. injection E as ->.
  apply issue_trust_ends in H. destruct H as (i & Hi & H). pose proof (peer_key_valid C p k L K) as Kv.
  destruct H as [(key & s & K' & Hs & ->)|[(key & K' & Hs & ->)|(Nk & _)]]; [| |exfalso; exact (Nk k K)]; pose proof (peer_key_fun C p _ _ K K') as <-.
  - eexists _, _, i. split; [reflexivity|]. split; [exact Hi|]. split; [apply made_record; assumption|]. eapply trust_made; try eassumption. exact (Hs Hh).
  - exfalso. destruct (sign_trust_good C (tk_net tk) issuer kp k e i L W Sg Kv) as (s' & G & _). specialize (Hs Hh). rewrite G in Hs. discriminate Hs.
Qed.
Lemma p_C208_issued_revocation : forall C st clocks evs j tk by_ kp p k a, crypto_laws C -> wasm32 C = true -> honest C st clocks evs j ->
  nth_error (sy_tasks (happens C (idle st clocks) evs)) j = Some tk -> tk_request tk = Q_issue_revocation by_ p -> returned tk = Some a ->
  signer C (tk_net tk) by_ kp -> peer_key C p k ->
  exists x v i, a = N_revocation ([x], []) /\ said clocks evs (relay (tk_net tk)) i /\ revocation_record C x v /\ revocation_asked C (kp_public C kp) k i v.
Proof.
  intros C st clocks evs j tk by_ kp p k a L W Hh H Q R Sg K. apply went_end in H. unfold returned in R. destruct H as [H|H]; [rewrite H in R; discriminate R|].
  destruct (tk_rest tk) as [a'| | | |] eqn:T; try discriminate R. injection R as ->. rewrite Q in H. cbn [script_of] in H.
  apply bind_inv in H. destruct H as [(t' & H & N & E)|(b & H & E)]; [exfalso; eapply bind_done; eassumption|]. apply done_inv in E. injection E as ->.
  apply issue_revocation_ends in H. destruct H as (i & Hi & H). pose proof (peer_key_valid C p k L K) as Kv. pose proof (proj1 (proj2 Sg)) as B.
  destruct H as [(key & b' & s & K' & B' & Hs & ->)|[(key & K' & Hs & ->)|([Nk|Nk] & _)]]; [| |exfalso; exact (Nk k K)|exfalso; exact (Nk _ B)]; pose proof (peer_key_fun C p _ _ K K') as <-.
  - pose proof (peer_key_fun C by_ _ _ B B') as <-. eexists _, _, i. split; [reflexivity|]. split; [exact Hi|].
    split; [apply made_revocation; try assumption; apply kp_public_valid; [assumption|apply Sg]|]. eapply revocation_made; try eassumption. exact (Hs Hh).
  - exfalso. destruct (sign_rev_good C (tk_net tk) by_ kp k i L W Sg Kv) as (s' & G & _). specialize (Hs Hh). rewrite G in Hs. discriminate Hs.
Qed.

(** The Sig services of a schedule can be checked event by event. *)
Definition wanted (t : steps answer) : option (text * bytes) := match t with Sign p m _ => Some (p, m) | _ => None end.
Definition same_option (a b : option bytes) : bool := match a, b with Some x, Some y => bytes_eqb x y | None, None => true | _, _ => false end.
Definition honest_at (C : crypto) (st : stores) (clocks : text -> N) (evs : schedule) (j n : nat) : bool :=
  match nth_error evs n with
  | Some (E_step i sg _) =>
      if Nat.eqb i j then
        match script_at C st clocks evs n j with
        | Some tk => match wanted (tk_rest tk) with Some (p, m) => same_option sg (sign_with (tk_net tk) p m) | None => true end
        | None => true
        end
      else true
  | _ => true
  end.
Lemma honest_check : forall C st clocks evs j, forallb (honest_at C st clocks evs j) (seq 0 (length evs)) = true -> honest C st clocks evs j.
Proof.
  intros C st clocks evs j H n sg fu tk p m E F [k R]. rewrite forallb_forall in H. specialize (H n).
  assert (I : In n (seq 0 (length evs))). { apply in_seq. assert (n < length evs)%nat by (apply nth_error_Some; congruence). lia. }
  apply H in I. unfold honest_at in I. rewrite E, Nat.eqb_refl, F, R in I. cbn [wanted] in I.
  destruct sg as [a|], (sign_with (tk_net tk) p m) as [b|]; cbn [same_option] in I; try discriminate I; [|reflexivity]. apply bytes_eqb_eq in I. congruence.
Qed.
Definition next_call (t : steps answer) : option (text * service_call) := match t with Ask n _ c _ => Some (n, c) | _ => None end.

(** Two scripts run at once, one trusts peer 4 and one revokes peer 2, both in the name of peer 1. After five events the first waits for the signature of peer 1. *)
Example e_C208_waits : exists tk, nth_error (sy_tasks (happens (toy true) (idle toy_stores at_five) (firstn 5 mixed))) 0 = Some tk /\
  waits_for_signature tk (pid 1) (trust_sum 4 800 5) /\ asked_trust (tk_request tk) (pid 1) (pid 4) 800.
Proof.
  eexists. split; [vm_compute; reflexivity|]. split; [eexists; vm_compute; reflexivity|]. right. left. exists host_peer. reflexivity.
Qed.
(** Near the end it is about to send the trust, and the other was about to send the revocation. The Sig services were honest. *)
Example e_C208_sends : honest (toy true) toy_stores at_five (removelast mixed) 0 /\ honest (toy true) toy_stores at_five (firstn 13 mixed) 1 /\
  signer (toy true) (toy_net stranger_peer) (pid 1) (toy_kp 1) /\
  (exists tk x, nth_error (sy_tasks (happens (toy true) (idle toy_stores at_five) (removelast mixed))) 0 = Some tk /\ tk_request tk = trusting /\
     next_call (tk_rest tk) = Some (host_peer, S_add_trust x (pid 1) 6)) /\
  (exists tk x, nth_error (sy_tasks (happens (toy true) (idle toy_stores at_five) (firstn 13 mixed))) 1 = Some tk /\ tk_request tk = revoking /\
     next_call (tk_rest tk) = Some (host_peer, S_revoke x 6)).
Proof.
  split; [apply honest_check; vm_compute; reflexivity|]. split; [apply honest_check; vm_compute; reflexivity|]. split; [apply e_C88_signs|].
  split; (eexists; eexists; split; [vm_compute; reflexivity|]; split; vm_compute; reflexivity).
Qed.
(** Two scripts that only issue. *)
Definition issuing : schedule :=
  [E_start (toy_net stranger_peer) typed_in (Q_issue_trust (pid 1) (pid 4) 800); E_start (toy_net stranger_peer) typed_in (Q_issue_revocation (pid 1) (pid 2));
   s0; s1; s0; s1; s0; s1; s0; s1].
Example e_C208_issues : honest (toy true) toy_stores at_five issuing 0 /\ honest (toy true) toy_stores at_five issuing 1 /\
  (exists x, told_by toy_stores issuing 0 = Some (Q_issue_trust (pid 1) (pid 4) 800, Some (N_trust ([x], [])))) /\
  (exists x, told_by toy_stores issuing 1 = Some (Q_issue_revocation (pid 1) (pid 2), Some (N_revocation ([x], [])))).
Proof.
  split; [apply honest_check; vm_compute; reflexivity|]. split; [apply honest_check; vm_compute; reflexivity|].
  split; eexists; vm_compute; reflexivity.
Qed.
