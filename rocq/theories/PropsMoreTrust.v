(** Hearing of more trusts, and the order of certificates. Every proof is a lemma of MoreTrustThms.v. *)
From Coq Require Import List NArith ZArith Bool.
From Verif Require Import Base Text Keys Trust Certificate Relation Storage Graph Spec MachineSpec MoreTrustSpec.
From Verif Require Import Toy Witness StateFacts GraphFacts ReadmeThms MoreTrustThms.
Import ListNotations.
Open Scope N_scope.

(** ** C77 *)
(** [get_all_certs_from] keeps the certificates of [get_all_certs] in which another key than the last is the issuer's, in their order, and drops the others. *)
Theorem C77_same_order : forall C d pk i now fu fu' cs cs' d1 d2, reachable C d -> call_typed C (G_get_all_certs_from pk i now) -> pk <> i ->
  graph_step C d (G_get_all_certs pk now, fu) = (Ok (GR_certs cs), d1) ->
  graph_step C d (G_get_all_certs_from pk i now, fu') = (Ok (GR_certs cs'), d2) ->
  picks (fun c => exists n, (S n < length c)%nat /\ key_at c n i) cs cs'.
Proof. exact p_C77_same_order. Qed.
Print Assumptions C77_same_order.

Example C77_example_order : toy_key B <> toy_key A /\ picks (fun c => exists n, (S n < length c)%nat /\ key_at c n (toy_key A)) [way1; way2] [way2].
Proof. exact e_C77_order. Qed.

(** ** C194 *)
(** A node that misses revocations and hears of more trusts gives every key at least the weight the other gives it. *)
Theorem C194_no_lower : forall C d cs cs' pk now, reachable C d -> Forall (call_typed C) cs -> Forall (call_typed C) cs' -> few d (no_failures cs) -> few d (no_failures cs') ->
  trusts_more cs cs' -> renewals_extend C d cs' -> call_typed C (G_weight pk now) ->
  exists w w', answer_after C d cs (G_weight pk now) = Ok (GR_weight w) /\ answer_after C d cs' (G_weight pk now) = Ok (GR_weight w') /\ w <= w'.
Proof. exact p_C194_no_lower. Qed.
Print Assumptions C194_no_lower.

(** And every certificate the other returns for a key, it returns too, with the same keys. *)
Theorem C194_same_keys : forall C d cs cs' pk now, reachable C d -> Forall (call_typed C) cs -> Forall (call_typed C) cs' -> few d (no_failures cs) -> few d (no_failures cs') ->
  trusts_more cs cs' -> renewals_extend C d cs' -> call_typed C (G_get_all_certs pk now) ->
  exists l l', answer_after C d cs (G_get_all_certs pk now) = Ok (GR_certs l) /\ answer_after C d cs' (G_get_all_certs pk now) = Ok (GR_certs l') /\
  forall c, In c l -> exists c', In c' l' /\ map issued_for c' = map issued_for c.
Proof. exact p_C194_same_keys. Qed.
Print Assumptions C194_same_keys.

(** After the first D has weight 0 and B weight 4, after the second D has 4 and B has 8. *)
Example C194_example_heard : reachable (toy false) (db_of (after faq)) /\ trusts_more heard_a heard_b /\ renewals_extend (toy false) (db_of (after faq)) heard_b /\
  few (db_of (after faq)) (no_failures heard_a) /\ few (db_of (after faq)) (no_failures heard_b) /\
  answer_after (toy false) (db_of (after faq)) heard_a (G_weight (toy_key B) (at_ 12)) = Ok (GR_weight 4) /\
  answer_after (toy false) (db_of (after faq)) heard_b (G_weight (toy_key B) (at_ 12)) = Ok (GR_weight 8) /\
  answer_after (toy false) (db_of (after faq)) heard_a (G_weight (toy_key D) (at_ 12)) = Ok (GR_weight 0) /\
  answer_after (toy false) (db_of (after faq)) heard_b (G_weight (toy_key D) (at_ 12)) = Ok (GR_weight 4).
Proof. exact e_C194_heard. Qed.

(** The condition on renewals is needed: hearing of a renewal that expires sooner takes a weight away later. *)
Theorem C194_sooner_renewal_lowers : exists C d cs cs' pk now w, crypto_laws C /\ reachable C d /\ Forall (call_typed C) cs /\ Forall (call_typed C) cs' /\
  few d (no_failures cs) /\ few d (no_failures cs') /\ trusts_more cs cs' /\ call_typed C (G_weight pk now) /\ w <> 0 /\
  answer_after C d cs (G_weight pk now) = Ok (GR_weight w) /\ answer_after C d cs' (G_weight pk now) = Ok (GR_weight 0).
Proof. exact p_C194_sooner_renewal_lowers. Qed.
Print Assumptions C194_sooner_renewal_lowers.
