(** What histories can add to the store and remove from it. *)
From Coq Require Import List NArith ZArith Bool Lia.
From Verif Require Import Base BaseFacts Keys Trust TrustFacts Certificate Relation Storage StorageFacts Graph PathFacts
  Spec SpecFacts GraphFacts StateFacts.
Import ListNotations.
Open Scope N_scope.

Section WithCrypto.
Variable C : crypto.

Lemma write_of_genuine : forall c x, write_of C c (W_upd x) -> genuine C c x.
Proof.
  intros c [a|v]; cbn [write_of genuine].
  - intros (_ & now & Hn & V). apply trust_verify_exact in V. destruct V as [V1 V2]. eauto.
  - intros (_ & V). apply revocation_verify_exact in V. exact V.
Qed.

Lemma gained : forall es s, inv C s -> typed_history C es -> exists s', graph_history C (db_of s) es = db_of s' /\ inv C s' /\
  forall x, In x (rels s') -> In x (rels s) \/
    exists c fu y, In (c, fu) es /\ offers c y /\ genuine C c y /\ x = whole y.
Proof.
  intros es s I T. destruct (history_writes C es s (inv_wf C s I) T) as (ws & E & W).
  exists (run_ws ws s). split; [exact E|]. split; [eapply inv_run; eassumption|].
  apply (run_invariant C (fun s' => forall x, In x (rels s') -> In x (rels s) \/
    exists c fu y, In (c, fu) es /\ offers c y /\ genuine C c y /\ x = whole y) es); [|exact W|apply I|auto].
  intros s' w c fu W' Q Hin Tc Wr Wo x Hx. destruct w as [now|y|pk f]; cbn [apply_w rels] in Hx.
  - apply in_gc in Hx. apply Q. apply Hx.
  - apply in_upd in Hx; [|apply (wf_nodup C); exact W']. destruct Hx as [[_ H]|[(_ & H & _)|[-> _]]]; auto.
    right. exists c, fu, y. split; [exact Hin|]. split; [apply write_of_offers with (C := C); exact Wr|].
    split; [apply write_of_genuine; exact Wr|reflexivity].
  - auto.
Qed.

Lemma before_dec : forall a b, before a b \/ ~ before a b.
Proof. intros a b. unfold before. lia. Qed.

Lemma db_expired_dec : forall now x, db_expired now x \/ ~ db_expired now x.
Proof. intros now [a|v]; cbn [db_expired]; [lia|tauto]. Qed.

Lemma lost : forall es s x, inv C s -> typed_history C es -> In x (rels s) -> exists s', graph_history C (db_of s) es = db_of s' /\ inv C s' /\
  (In x (rels s') \/ exists c fu, In (c, fu) es /\
    ((exists now, call_time c = Some now /\ db_expired now x) \/
     (exists y, offers c y /\ genuine C c y /\ same_keys x y /\ before (rel_issued_at x) (rel_issued_at y)))).
Proof.
  intros es s x I T Hx. destruct (history_writes C es s (inv_wf C s I) T) as (ws & E & W).
  exists (run_ws ws s). split; [exact E|]. split; [eapply inv_run; eassumption|].
  apply (run_invariant C (fun s' => In x (rels s') \/ exists c fu, In (c, fu) es /\
    ((exists now, call_time c = Some now /\ db_expired now x) \/
     (exists y, offers c y /\ genuine C c y /\ same_keys x y /\ before (rel_issued_at x) (rel_issued_at y)))) es); [|exact W|apply I|auto].
  intros s' w c fu W' Q Hin Tc Wr Wo. destruct Q as [Q|Q]; [|auto]. destruct w as [now|y|pk f]; cbn [apply_w rels].
  - destruct (db_expired_dec now x) as [D|D].
    + right. exists c, fu. split; [exact Hin|]. left. exists now. split; [exact Wr|exact D].
    + left. apply in_gc. auto.
  - destruct (same_pair y x) eqn:P.
    + apply same_pair_keys in P. destruct (before_dec (rel_issued_at x) (rel_issued_at y)) as [D|D].
      * right. exists c, fu. split; [exact Hin|]. right. exists y. split; [apply write_of_offers with (C := C); exact Wr|].
        split; [apply write_of_genuine; exact Wr|]. split; [|exact D]. destruct P. split; congruence.
      * left. apply in_upd; [apply (wf_nodup C); exact W'|]. right. left. auto.
    + apply same_pair_keys_false in P. left. apply in_upd; [apply (wf_nodup C); exact W'|]. auto.
  - auto.
Qed.

End WithCrypto.
