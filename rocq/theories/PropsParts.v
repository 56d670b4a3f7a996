(** The parts of a certificate. Every proof is a lemma of PartsThms.v. *)
From Coq Require Import List NArith ZArith Bool.
From Verif Require Import Base Text Keys Trust Certificate Relation Storage Graph Spec.
From Verif Require Import Toy Witness GraphFacts GraphThms StateFacts InfluenceThms PartsThms.
Import ListNotations.
Open Scope N_scope.

(** ** C207 *)
(** What is told of a key is told in part of the keys before it: the part of a certificate that ends at any key but the last two is a certificate of that key. *)
Theorem C207_parts : forall C d pk now fu cs d1 c n k fu' cs' d2, reachable C d -> call_typed C (G_get_all_certs pk now) -> call_typed C (G_get_all_certs k now) ->
  graph_step C d (G_get_all_certs pk now, fu) = (Ok (GR_certs cs), d1) -> In c cs -> (2 <= n)%nat -> (n + 1 < length c)%nat -> key_at c (n - 1) k ->
  graph_step C d (G_get_all_certs k now, fu') = (Ok (GR_certs cs'), d2) -> In (firstn n c) cs'.
Proof. exact p_C207_parts. Qed.
Print Assumptions C207_parts.

(** The part that ends at the direct issuer is one exactly if no key in it has revoked the direct issuer. *)
Theorem C207_direct_issuer : forall C d pk now fu cs d1 c n k fu' cs' d2, reachable C d -> call_typed C (G_get_all_certs pk now) -> call_typed C (G_get_all_certs k now) ->
  graph_step C d (G_get_all_certs pk now, fu) = (Ok (GR_certs cs), d1) -> In c cs -> (2 <= n)%nat -> (n + 1)%nat = length c -> key_at c (n - 1) k ->
  graph_step C d (G_get_all_certs k now, fu') = (Ok (GR_certs cs'), d2) ->
  (In (firstn n c) cs' <-> forall i v, (i < n - 1)%nat -> stored_revocation d v -> rev_pk v = k -> ~ key_at c i (revoked_by v)).
Proof. exact p_C207_direct_issuer. Qed.
Print Assumptions C207_direct_issuer.

(** So the keys before the direct issuer weigh at least what their places in the certificate give, each twice the next as long as the length of the root lasts. *)
Theorem C207_weights : forall C d pk now fu cs d1 c i k root m fu' w d2, reachable C d -> small d -> call_typed C (G_get_all_certs pk now) -> call_typed C (G_weight k now) ->
  graph_step C d (G_get_all_certs pk now, fu) = (Ok (GR_certs cs), d1) -> In c cs -> (i + 2 < length c)%nat -> key_at c i k -> key_at c 0 root -> root_max_len d root m ->
  graph_step C d (G_weight k now, fu') = (Ok (GR_weight w), d2) -> chain_weight m i <= w.
Proof. exact p_C207_weights. Qed.
Print Assumptions C207_weights.

(** Refuted for the direct issuer: a key that weighs nothing, and of which nothing is told, vouches for another, which weighs something. *)
Theorem C207_parts_refuted : exists C d pk now cs c n k w, crypto_laws C /\ reachable C d /\
  fst (graph_step C d (G_get_all_certs pk now, None)) = Ok (GR_certs cs) /\ In c cs /\ (2 <= n < length c)%nat /\ key_at c (n - 1) k /\
  fst (graph_step C d (G_get_all_certs k now, None)) = Ok (GR_certs []) /\ fst (graph_step C d (G_weight k now, None)) = Ok (GR_weight 0) /\
  fst (graph_step C d (G_weight pk now, None)) = Ok (GR_weight w) /\ w <> 0.
Proof. exact p_C207_parts_refuted. Qed.
Print Assumptions C207_parts_refuted.

(** In the same store key 2, the first after the root in the certificate of key 4, has the part that ends at it. *)
Example C207_example_parts : reachable W (db_of (after long)) /\ small (db_of (after long)) /\ call_typed W (G_get_all_certs (toy_key D) (at_ 10)) /\ call_typed W (G_get_all_certs (toy_key A) (at_ 10)) /\
  fst (graph_step W (db_of (after long)) (G_get_all_certs (toy_key D) (at_ 10), None)) = Ok (GR_certs [long_cert]) /\ key_at long_cert (2 - 1) (toy_key A) /\
  root_max_len (db_of (after long)) (toy_key R) 5 /\
  fst (graph_step W (db_of (after long)) (G_get_all_certs (toy_key A) (at_ 10), None)) = Ok (GR_certs [firstn 2 long_cert]) /\
  fst (graph_step W (db_of (after long)) (G_weight (toy_key A) (at_ 10), None)) = Ok (GR_weight (chain_weight 5 1)).
Proof. exact e_C207_parts. Qed.
