(** Taking a revocation back: C202. *)
From Coq Require Import List NArith ZArith Bool Lia ZifyBool ZifyNat ZifyN.
From Verif Require AquaThms.
From Verif Require Import Base BaseFacts Text Keys KeysFacts Trust TrustFacts Certificate Relation Storage StorageFacts Graph SearchFacts PathFacts
  Spec SpecFacts StateFacts GraphFacts GraphThms MoreThms InfluenceSpec InfluenceThms ReadmeThms BackSpec Witness Toy ToyFacts.
Import ListNotations.
Open Scope N_scope.

Lemma imported_newest : forall d x d', imported d x d' -> (forall z, stored d z -> same_keys x z -> before (rel_issued_at z) (rel_issued_at x)) ->
  forall y, stored d' y <-> (~ same_keys x y /\ stored d y) \/ y = whole x.
Proof.
  intros d x d' [_ H] N y. rewrite H. split.
  - intros [X|[(K & S0 & B)|[E _]]]; [left; exact X| |right; exact E]. destruct (B (N y S0 K)).
  - intros [X|E]; [left; exact X|]. right. right. auto.
Qed.

(** ** C202 *)
(** A key revokes another, or says anything else about it; then it trusts it anew, in a later second. The answer is the one it would have got without all that,
    and if this trust is stored, the store is as if nothing had been said before. *)
Lemma p_C202_taken_back : forall C d es t b now, reachable C d -> typed_history C es -> only_offers (between b (issued_for t)) now es -> last_word d es t b ->
  small d -> small (graph_history C d es) -> call_typed C (G_add_trust t b now) ->
  let plain := graph_step C d (G_add_trust t b now, None) in
  let anew := graph_step C (graph_history C d es) (G_add_trust t b now, None) in
  fst anew = fst plain /\ (forall w, fst plain = Ok (GR_weight w) -> w <> 0 -> same_contents (snd anew) (snd plain)).
Proof.
  intros C d es t b now R Th Oo Lw Sm Sm2 T plain anew. pose proof (history_reachable C d es R Th) as R2.
  destruct (p_C38_add_trust_exact C d t b now R T) as [A1 A2]. destruct (p_C38_add_trust_exact C _ t b now R2 T) as [B1 B2].
  destruct (trust_verify_total C t b now) as [V|(e & V)].
  2:{ unfold plain, anew. rewrite (A1 e V), (B1 e V). split; [reflexivity|]. intros w X. discriminate X. }
  destruct (A2 V) as (w & d1 & w1 & d' & W1 & W2 & W3 & W4 & W5). destruct (B2 V) as (v & e1 & v1 & e' & U1 & U2 & U3 & U4 & U5).
  assert (Tw : call_typed C (G_weight b now)) by (split; [apply T|apply T]).
  assert (E : v = w).
  { refine (p_C150_own_weight C d es now b None None w v d1 e1 R Th _ Sm Sm2 Tw W1 U1). intros c fu I. destruct (Oo c fu I) as (O1 & O2 & O3). split; [exact O1|]. split; [exact O2|]. intros x Hx. apply (O3 x Hx). }
  subst v. assert (E : v1 = w1) by (destruct W3 as [[? ->]|[? ->]], U3 as [[? ->]|[? ->]]; congruence || reflexivity). subst v1.
  unfold plain, anew. rewrite W2, U2. cbn [fst snd]. split; [reflexivity|]. intros w0 X Nz. injection X as ->.
  destruct (W5 Nz) as [Ra Ia]. destruct (U5 Nz) as [Rb Ib].
  assert (Ca : collected d now d1) by exact (AquaThms.queries_collect C d b now w d1 R (proj1 Tw) (proj2 Tw) W1).
  assert (Cb : collected (graph_history C d es) now e1) by exact (AquaThms.queries_collect C _ b now w e1 R2 (proj1 Tw) (proj2 Tw) U1).
  destruct Ca as [Rc Sa]. destruct Cb as [Rd Sb].
  assert (Qk : forall x y, same_keys x y -> ~ between b (issued_for t) x -> ~ between b (issued_for t) y).
  { intros x y [E1 E2] N [F1 F2]. apply N. split; congruence. }
  assert (Oo' : only_offers (fun x => ~ ~ between b (issued_for t) x) now es).
  { intros c f H. destruct (Oo c f H) as (O1 & O2 & O3). split; [exact O1|]. split; [exact O2|]. intros x Hx N. exact (N (O3 x Hx)). }
  destruct (history_keeps C _ now Qk es d R Th Oo') as [Ro X].
  assert (Bt : forall z, same_keys (RAuth (mk_auth t b)) z -> between b (issued_for t) z) by (intros z [E1 E2]; split; symmetry; assumption).
  assert (Na : forall z, stored d1 z -> same_keys (RAuth (mk_auth t b)) z -> before (rel_issued_at z) (issued_at t)).
  { intros z Hz K. left. apply Lw; [left; apply Sa; exact Hz|apply Bt; exact K]. }
  assert (Nb : forall z, stored e1 z -> same_keys (RAuth (mk_auth t b)) z -> before (rel_issued_at z) (issued_at t)).
  { intros z Hz K. left. apply Sb in Hz. destruct Hz as [Hz _]. destruct (p_C63_stored_was_offered C d es z R Th Hz) as [H|(c & fu & y & I1 & I2 & _ & ->)].
    - apply Lw; [left; exact H|apply Bt; exact K].
    - assert (Ky : between b (issued_for t) y) by (apply Bt in K; destruct K as [K1 K2]; destruct y; split; assumption).
      pose proof (Lw y (or_intror (ex_intro _ c (ex_intro _ fu (conj I1 I2)))) Ky) as H. destruct y; exact H. }
  split.
  - intros y. rewrite (imported_newest _ _ _ (U5 Nz) Nb), (imported_newest _ _ _ (W5 Nz) Na), Sa, Sb.
    split; (intros [(K & S1 & S2)|E]; [left|right; exact E]); (split; [exact K|]; split; [|exact S2]); (apply X; [|exact S2|exact S1]); intros [F1 F2]; apply K; split; cbn; congruence.
  - intros k m. unfold root_max_len. rewrite Ra, Rb, Rc, Rd, Ro. reflexivity.
Qed.
(** Then all later calls are answered alike. *)
Lemma p_C202_later : forall C d es t b now w cs c, reachable C d -> typed_history C es -> only_offers (between b (issued_for t)) now es -> last_word d es t b ->
  small d -> small (graph_history C d es) -> call_typed C (G_add_trust t b now) ->
  fst (graph_step C (graph_history C d es) (G_add_trust t b now, None)) = Ok (GR_weight w) -> w <> 0 -> Forall (call_typed C) cs -> call_typed C c ->
  same_answer (answer_after C (graph_history C d es) (G_add_trust t b now :: cs) c) (answer_after C d (G_add_trust t b now :: cs) c).
Proof.
  intros C d es t b now w cs c R Th Oo Lw Sm Sm2 T E Nz Tcs Tc.
  destruct (p_C202_taken_back C d es t b now R Th Oo Lw Sm Sm2 T) as [E1 E2]. rewrite E in E1. specialize (E2 w (eq_sym E1) Nz).
  pose proof (history_reachable C d es R Th) as R2.
  exact (proj1 (p_C86_answers_depend_on_contents C _ _ cs c (reachable_step C _ _ None R2 T) (reachable_step C _ _ None R T) E2 Tcs Tc)).
Qed.

(** Key 1 revokes key 2 twice, at seconds 9 and 12, and trusts it anew at 20. *)
Definition change_of_mind : list (graph_call * option nat) :=
  [(G_revoke (toy_rev R A 9), None); (G_weight (toy_key D) (at_ 10), None); (G_revoke (toy_rev R A 12), None)].
Lemma change_typed : typed_history W change_of_mind.
Proof. unfold change_of_mind. repeat constructor; cbn [fst]; typed1. Qed.
(** Key 4 loses its weight when the key at the head of its chain is revoked, and has it back when that key is trusted anew. *)
Example e_C202_change_of_mind : reachable W (db_of (after faq)) /\ typed_history W change_of_mind /\ only_offers (between (toy_key R) (toy_key A)) (at_ 21) change_of_mind /\
  last_word (db_of (after faq)) change_of_mind (toy_trust R A 950 20) (toy_key R) /\ small (db_of (after faq)) /\ small (graph_history W (db_of (after faq)) change_of_mind) /\
  call_typed W (G_add_trust (toy_trust R A 950 20) (toy_key R) (at_ 21)) /\
  fst (graph_step W (db_of (after faq)) (G_weight (toy_key D) (at_ 8), None)) = Ok (GR_weight 2) /\
  fst (graph_step W (graph_history W (db_of (after faq)) change_of_mind) (G_weight (toy_key D) (at_ 20), None)) = Ok (GR_weight 0) /\
  fst (graph_step W (graph_history W (db_of (after faq)) change_of_mind) (G_add_trust (toy_trust R A 950 20) (toy_key R) (at_ 21), None)) = Ok (GR_weight 8) /\
  answer_after W (graph_history W (db_of (after faq)) change_of_mind) [G_add_trust (toy_trust R A 950 20) (toy_key R) (at_ 21)] (G_weight (toy_key D) (at_ 22)) = Ok (GR_weight 2).
Proof.
  split; [apply after_reachable; exact faq_typed|]. split; [exact change_typed|]. split; [|split; [|split; [|split; [|split; [|split; [|split; [|split]]]]]]].
  - intros c fu [H|[H|[H|[]]]]; injection H as <- <-; (split; [discriminate|]; split; [|]).
    + intros t X. discriminate X.
    + intros [a|v] Hx; [contradiction Hx|]. injection Hx as <-. split; reflexivity.
    + intros t X. injection X as <-. split; [vm_compute; discriminate|reflexivity].
    + intros [a|v] Hx; [contradiction Hx|discriminate Hx].
    + intros t X. discriminate X.
    + intros [a|v] Hx; [contradiction Hx|]. injection Hx as <-. split; reflexivity.
  - intros z [Hz|(c & fu & I & O)] [B1 B2].
    + apply (stored_in W) in Hz; [|apply after_inv; exact faq_typed]. rewrite faq_rels in Hz.
      repeat (destruct Hz as [<-|Hz]; [vm_compute; reflexivity|]). contradiction Hz.
    + destruct I as [H|[H|[H|[]]]]; injection H as <- <-; destruct z as [a|v]; try contradiction O; try discriminate O; injection O as <-; reflexivity.
  - vm_compute. reflexivity.
  - vm_compute. reflexivity.
  - typed1.
  - vm_compute. reflexivity.
  - vm_compute. reflexivity.
  - vm_compute. reflexivity.
  - vm_compute. reflexivity.
Qed.
(** It has to be a later second: a trust of the second of the revocation is answered with the same weight, and not stored. *)
Lemma p_C202_same_second : exists C d v t b k now w, crypto_laws C /\ reachable C d /\ call_typed C (G_revoke v) /\ call_typed C (G_add_trust t b now) /\ signed_revocation C v /\
  between b (issued_for t) (RRev v) /\ secs (revoked_at v) = secs (issued_at t) /\ (forall x, stored d x -> secs (rel_issued_at x) < secs (issued_at t)) /\
  fst (graph_step C d (G_add_trust t b now, None)) = Ok (GR_weight w) /\ answer_after C d [G_revoke v] (G_add_trust t b now) = Ok (GR_weight w) /\ w <> 0 /\
  answer_after C d [G_add_trust t b now] (G_weight k now) = Ok (GR_weight 2) /\ answer_after C d [G_revoke v; G_add_trust t b now] (G_weight k now) = Ok (GR_weight 0).
Proof.
  exists W, (db_of (after faq)), (toy_rev R A 20), (toy_trust R A 950 20), (toy_key R), (toy_key D), (at_ 21), 8.
  split; [apply toy_laws|]. split; [apply after_reachable; exact faq_typed|]. split; [typed1|]. split; [typed1|].
  split; [apply revocation_verify_exact; vm_compute; reflexivity|]. split; [split; reflexivity|]. split; [reflexivity|]. split.
  - intros x Hx. apply (stored_in W) in Hx; [|apply after_inv; exact faq_typed]. rewrite faq_rels in Hx. repeat (destruct Hx as [<-|Hx]; [vm_compute; reflexivity|]). contradiction Hx.
  - split; [vm_compute; reflexivity|]. split; [vm_compute; reflexivity|]. split; [discriminate|]. split; vm_compute; reflexivity.
Qed.
