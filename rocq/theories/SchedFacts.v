(** Facts about scripts that run at once. *)
From Coq Require Import List NArith ZArith Bool Lia.
From Verif Require Import Base Text Keys Trust Certificate Relation Storage Graph Service Spec ServiceSpec Aqua AquaSpec Sched SchedSpec.
From Verif Require Import BaseFacts KeysFacts ServiceFacts AquaFacts ServiceThms AquaTrace.
Import ListNotations.
Open Scope N_scope.

(** * One script played alone, with given answers of clocks, Sig services and databases *)
Section Play.
Variable C : crypto.
Variable net : network.

Fixpoint play {A} (ts : list N) (sgs : list (option bytes)) (fu : option nat) (t : steps A) (st : stores) : result Empty_set A * stores :=
  match t with
  | Done a => (Ok a, st)
  | Stuck => (Panic, st)
  | Clock _ k => play (tl ts) sgs fu (k (hd 0 ts)) st
  | Sign _ _ k => play ts (tl sgs) fu (k (hd None sgs)) st
  | Ask node args c k =>
      match call_on C (as_met net None fu) node args c st with
      | (Ok r, st') => play ts sgs fu (k r) st'
      | (Err e, st') => (Err e, st')
      | (Panic, st') => (Panic, st')
      | (OutOfFuel, st') => (OutOfFuel, st')
      end
  end.

(** Stores that hold the same are as good as equal. *)
Lemma put_ext : forall st st' n d, unchanged st st' -> unchanged (put st n d) (put st' n d).
Proof. intros st st' n d H m. unfold put. destruct (bytes_eqb n m); [reflexivity|apply H]. Qed.
Lemma call_ext : forall net0 node args c st st', unchanged st st' ->
  fst (call_on C net0 node args c st) = fst (call_on C net0 node args c st') /\
  unchanged (snd (call_on C net0 node args c st)) (snd (call_on C net0 node args c st')).
Proof.
  intros net0 node args c st st' H. unfold call_on. rewrite (H node). destruct (service_step C (st node) _) as [r d]. cbn [fst snd].
  split; [reflexivity|]. apply put_ext. exact H.
Qed.
Lemma play_ext : forall A (t : steps A) ts sgs fu st st', unchanged st st' ->
  fst (play ts sgs fu t st) = fst (play ts sgs fu t st') /\ unchanged (snd (play ts sgs fu t st)) (snd (play ts sgs fu t st')).
Proof.
  intros A t. induction t as [a| |n k IH|p m k IH|n args c k IH]; intros ts sgs fu st st' H; cbn [play].
  - split; [reflexivity|exact H].
  - split; [reflexivity|exact H].
  - apply IH. exact H.
  - apply IH. exact H.
  - destruct (call_ext (as_met net None fu) n args c st st' H) as [E1 E2].
    destruct (call_on C (as_met net None fu) n args c st) as [r s1], (call_on C (as_met net None fu) n args c st') as [r' s1']. cbn [fst snd] in *.
    subst r'. destruct r as [r|e| |]; [apply IH; exact E2| | |]; (split; [reflexivity|exact E2]).
Qed.

(** The requests that never touch a store. *)
Definition params (node : text) (args : list origin) : call_params := mk_params (initiator net) (creator_on net node) node args.
Definition computes (node : text) (args : list origin) (c : service_call) (r : response) : Prop :=
  local_call c = true /\ forall d fu, service_step C d (params node args, c, fu) = (Ok r, d).
Lemma local_computes : forall node args c, local_call c = true -> exists r, computes node args c r.
Proof.
  intros node args c L. destruct (plan C (params node args) c) as [[g|a]|e| |] eqn:P.
  - exfalso. apply plan_requests in P. destruct c; try discriminate L; destruct g; exact P.
  - exists (mk_response true None a). split; [exact L|]. intros d fu. rewrite service_plan, P. reflexivity.
  - exists (mk_response false (Some e) (empty_payload c)). split; [exact L|]. intros d fu. rewrite service_plan, P. reflexivity.
  - exfalso. destruct (plan_total C _ _ (or_introl P)) as (s & ts & -> & _). discriminate L.
  - exfalso. destruct (plan_total C _ _ (or_intror P)) as (s & ts & -> & _). discriminate L.
Qed.
Lemma computes_call : forall node args c r fu st, computes node args c r ->
  fst (call_on C (as_met net None fu) node args c st) = Ok r /\ unchanged st (snd (call_on C (as_met net None fu) node args c st)).
Proof.
  intros node args c r fu st [_ H]. unfold call_on, as_met. cbn [initiator creator_on fault]. unfold params in H. rewrite H. cbn [fst snd].
  split; [reflexivity|]. apply put_unchanged. reflexivity.
Qed.

(** From [t] the script came to [r] and touched no store; clocks said [ts] and Sig services [sgs]. *)
Inductive leads {A} : steps A -> list N -> list (option bytes) -> steps A -> Prop :=
| leads_nil t : leads t [] [] t
| leads_clock n k x ts sgs r : leads (k x) ts sgs r -> leads (Clock n k) (x :: ts) sgs r
| leads_sign p m k x ts sgs r : leads (k x) ts sgs r -> leads (Sign p m k) ts (x :: sgs) r
| leads_ask n args c k x ts sgs r : computes n args c x -> leads (k x) ts sgs r -> leads (Ask n args c k) ts sgs r.

Lemma leads_clock_last : forall A (t : steps A) ts sgs n k x, leads t ts sgs (Clock n k) -> leads t (ts ++ [x]) sgs (k x).
Proof.
  intros A t ts sgs n k x H. remember (Clock n k) as r eqn:Er. induction H; cbn [app]; subst.
  - apply leads_clock. apply leads_nil.
  - apply leads_clock. auto.
  - apply leads_sign. auto.
  - eapply leads_ask; eauto.
Qed.
Lemma leads_sign_last : forall A (t : steps A) ts sgs p m k x, leads t ts sgs (Sign p m k) -> leads t ts (sgs ++ [x]) (k x).
Proof.
  intros A t ts sgs p m k x H. remember (Sign p m k) as r eqn:Er. induction H; cbn [app]; subst.
  - apply leads_sign. apply leads_nil.
  - apply leads_clock. auto.
  - apply leads_sign. auto.
  - eapply leads_ask; eauto.
Qed.
Lemma leads_ask_last : forall A (t : steps A) ts sgs n args c k x, leads t ts sgs (Ask n args c k) -> computes n args c x -> leads t ts sgs (k x).
Proof.
  intros A t ts sgs n args c k x H Hc. remember (Ask n args c k) as r eqn:Er. induction H; subst.
  - eapply leads_ask; [exact Hc|]. apply leads_nil.
  - apply leads_clock. auto.
  - apply leads_sign. auto.
  - eapply leads_ask; eauto.
Qed.
Lemma play_leads : forall A (t : steps A) ts sgs r ts' sgs' fu st, leads t ts sgs r ->
  fst (play (ts ++ ts') (sgs ++ sgs') fu t st) = fst (play ts' sgs' fu r st) /\
  unchanged (snd (play ts' sgs' fu r st)) (snd (play (ts ++ ts') (sgs ++ sgs') fu t st)).
Proof.
  intros A t ts sgs r ts' sgs' fu st H. revert st. induction H; intros st; cbn [app play hd tl].
  - split; [reflexivity|]. intros n. reflexivity.
  - apply IHleads.
  - apply IHleads.
  - destruct (computes_call n args c x fu st H) as [E1 E2]. destruct (call_on C (as_met net None fu) n args c st) as [y st1]. cbn [fst snd] in *. subst y.
    destruct (IHleads st1) as [F1 F2]. destruct (play_ext A r ts' sgs' fu st st1 E2) as [G1 G2]. split; [congruence|].
    eapply unchanged_trans; [exact G2|exact F2].
Qed.
End Play.

(** * A script alone is the function of Aqua.v *)
Definition clock_times (q : request) (i now : N) : list N :=
  match q with
  | Q_set_root _ _ _ => []
  | Q_issue_trust _ _ _ | Q_issue_revocation _ _ => [i]
  | Q_add_trust _ _ _ _ | Q_add_root_trust _ _ _ _ | Q_revoke _ _ _ => [i; now]
  | _ => [now]
  end.
Definition agrees (A B : Type) (f : A -> B) (x : result Empty_set B * stores) (y : result Empty_set A * stores) : Prop :=
  fst x = rmap f (fst y) /\ snd x = snd y.

Section Link.
Variable C : crypto.
Variable net : network.
Variable src : nat -> origin.
Variable sgs : list (option bytes).
Variable fu : option nat.
Ltac link_step :=
  match goal with
  | H : (forall n a c st, call_on C (as_met net None fu) n a c st = _) |- context [call_on C (as_met net None fu) ?n ?a ?c ?st] => rewrite (H n a c st)
  end.
Ltac link_call :=
  match goal with
  | |- context [call_on C ?met ?n ?a ?c ?st] => destruct (call_on C met n a c st) as [[?r|?e| |] ?st]
  end.
Lemma link : forall q i now st,
  play C net (clock_times q i now) sgs fu (script_of net src q) st = (reply_of C (as_met net (hd None sgs) fu) src (alone q i now) st, run C (as_met net (hd None sgs) fu) src (alone q i now) st).
Proof.
  intros q i now st. set (met := as_met net (hd None sgs) fu).
  assert (Hcall : forall n a c st, call_on C (as_met net None fu) n a c st = call_on C met n a c st) by reflexivity. assert (Es : forall p m, sign_with met p m = hd None sgs) by reflexivity.
  assert (Er : relay met = relay net) by reflexivity. assert (Ei : initiator met = initiator net) by reflexivity.
  assert (El : literal met = literal net) by reflexivity. clearbody met.
  destruct q; cbn [alone reply_of run clock_times script_of];
    unfold sc_add_trust, sc_add_root_trust, sc_set_root, sc_revoke, sc_issue_trust, sc_issue_revocation, sc_import_trust, sc_import_revocation, sc_verify_trust, sc_get_weight,
      sc_get_weight_from, sc_get_host_certs_from, sc_get_all_certs, sc_get_all_certs_from, sc_get_host_certs, sc_insert_cert, sc_is_fluence_peer, sc_get_host_certs_from, clock, ask, sign;
    unfold aq_set_root, aq_add_trust, aq_add_root_trust, aq_revoke, aq_issue_trust, aq_issue_revocation, aq_import_trust, aq_import_revocation, aq_verify_trust, aq_get_weight,
      aq_get_weight_from, aq_get_host_certs_from, aq_get_all_certs, aq_get_all_certs_from, aq_get_host_certs, aq_insert_cert, is_fluence_peer, aq_get_host_certs_from, aq_set_root, sbind, sret, bang;
    rewrite ?Er, ?Ei, ?El; cbn [tbind play hd tl fst snd];
    repeat first [
      reflexivity
    | link_step
    | link_call; cbn [tbind play hd tl fst snd rmap first]
    | rewrite Es
    | match goal with
      | |- context [if ?b then _ else _] => destruct b; cbn [tbind play hd tl fst snd rmap first]
      | |- context [match hd None sgs with _ => _ end] => destruct (hd None sgs); cbn [tbind play hd tl fst snd rmap first]
      | |- context [append_error [] ?e] => destruct e; cbn [append_error tbind play hd tl fst snd rmap first]
      end ].
Qed.
End Link.
