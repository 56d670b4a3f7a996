(** Rating certificates that a caller brings. Every proof is a lemma of FactorThms.v. *)
From Coq Require Import List NArith ZArith Bool.
From Verif Require Import Base Text Keys Trust Certificate Relation Storage Graph Spec FactorSpec.
From Verif Require Import Toy Witness StateFacts GraphFacts ReadmeThms FactorThms FactorSpec.
Import ListNotations.
Open Scope N_scope.

(** ** C204 *)
(** The factor of some certificates whose first trusts are for roots is the least of their factors; nothing is written. *)
Theorem C204_least : forall C d cs, reachable C d -> cs <> [] -> Forall in_memory cs -> (forall c, In c cs -> exists m, starts_at d c m) ->
  exists n, rating d cs None = (Ok (Some n), d) /\ least_factor d cs n.
Proof. exact p_C204_least. Qed.
Print Assumptions C204_least.

(** Of no certificates there is none. *)
Theorem C204_none : forall d fu, rating d [] fu = (Ok None, d).
Proof. exact p_C204_none. Qed.
Print Assumptions C204_none.

(** The first certificate that is empty or does not start at a root is refused, whatever comes after it. *)
Theorem C204_refused : forall C d before c rest, reachable C d -> (forall c, In c before -> exists m, starts_at d c m) -> (forall m, ~ starts_at d c m) ->
  (c = [] -> rating d (before ++ c :: rest) None = (Err (GE_CertificateCheck CE_CertificateLengthError), d)) /\
  (c <> [] -> rating d (before ++ c :: rest) None = (Err GE_NoRoot, d)).
Proof. exact p_C204_refused. Qed.
Print Assumptions C204_refused.

(** A failing statement makes the answer an error of the storage, or no difference; nothing is ever written. *)
Theorem C204_failures : forall C d cs fu, reachable C d -> rating d cs fu = rating d cs None \/ rating d cs fu = (Err (GE_InternalStorage SE_SQLite), d).
Proof. exact p_C204_failures. Qed.
Print Assumptions C204_failures.

(** The weight of a key is the one of the factor of the certificates that are told of it, or of the root it is. *)
Theorem C204_weight : forall C d pk now fu fu' cs w d1 d2, reachable C d -> call_typed C (G_weight pk now) ->
  graph_step C d (G_get_all_certs pk now, fu) = (Ok (GR_certs cs), d1) -> graph_step C d (G_weight pk now, fu') = (Ok (GR_weight w), d2) ->
  (cs = [] /\ rating d1 cs None = (Ok None, d1) /\ ((exists m, root_max_len d pk m /\ w = 2 ^ m) \/ (~ is_root d pk /\ w = 0))) \/
  (exists n, rating d1 cs None = (Ok (Some n), d1) /\
     ((exists m, root_max_len d pk m /\ w = N.max (2 ^ m) (2 ^ (16 - n))) \/ (~ is_root d pk /\ w = 2 ^ (16 - n)))).
Proof. exact p_C204_weight. Qed.
Print Assumptions C204_weight.

(** The certificate of key 4 under the root of length 4 has the factor 15, its beginnings that end with keys 3 and 2 the factors 14 and 13. *)
Example C204_example_three : reachable W (db_of (after faq)) /\ Forall in_memory [path 4; path 2; path 3] /\
  (forall c, In c [path 4; path 2; path 3] -> exists m, starts_at (db_of (after faq)) c m) /\
  (forall m, ~ starts_at (db_of (after faq)) (skipn 1 (path 4)) m) /\
  rating (db_of (after faq)) [path 4] None = (Ok (Some 15), db_of (after faq)) /\
  rating (db_of (after faq)) [path 4; path 2; path 3] None = (Ok (Some 13), db_of (after faq)) /\
  rating (db_of (after faq)) [path 4; skipn 1 (path 4); []] None = (Err GE_NoRoot, db_of (after faq)) /\
  rating (db_of (after faq)) [path 4; []; skipn 1 (path 4)] None = (Err (GE_CertificateCheck CE_CertificateLengthError), db_of (after faq)) /\
  fst (graph_step W (db_of (after faq)) (G_get_all_certs (toy_key D) (at_ 30), None)) = Ok (GR_certs [path 4]) /\
  fst (graph_step W (db_of (after faq)) (G_weight (toy_key D) (at_ 30), None)) = Ok (GR_weight 2).
Proof. exact e_C204_three. Qed.

(** ** C205 *)
(** The answer rests on the lengths of the certificates, their first keys and the lengths of the roots alone: no signature, no expiry and no revocation matters. *)
Theorem C205_outline : forall C d d' cs cs', reachable C d -> reachable C d' -> (forall k m, root_max_len d k m <-> root_max_len d' k m) -> Forall2 same_outline cs cs' ->
  fst (rating d cs None) = fst (rating d' cs' None).
Proof. exact p_C205_outline. Qed.
Print Assumptions C205_outline.

(** So the certificates told of a key have their factor, not none, also when the key has been revoked since and no certificate is told of it any more;
    and so has a list of trusts that nobody signed. *)
Theorem C205_revoked_none_refuted : exists C d v k now cs n c, crypto_laws C /\ reachable C d /\ call_typed C (G_revoke v) /\ signed_revocation C v /\ rev_pk v = k /\
  fst (graph_step C d (G_get_all_certs k now, None)) = Ok (GR_certs cs) /\ fst (graph_step C d (G_revoke v, None)) = Ok GR_unit /\
  let d' := snd (graph_step C d (G_revoke v, None)) in
  fst (graph_step C d' (G_get_all_certs k now, None)) = Ok (GR_certs []) /\ fst (graph_step C d' (G_weight k now, None)) = Ok (GR_weight 0) /\
  fst (rating d' cs None) = Ok (Some n) /\
  (forall t b, In t c -> trust_verify C t b now <> Ok tt) /\ fst (rating d' [c] None) = Ok (Some 13).
Proof. exact p_C205_revoked_none_refuted. Qed.
Print Assumptions C205_revoked_none_refuted.

Example C205_example_outline : Forall2 same_outline [path 3] [[toy_trust R R 2 1; toy_trust A A 2 1; toy_trust 9 9 2 1]] /\ path 3 <> [toy_trust R R 2 1; toy_trust A A 2 1; toy_trust 9 9 2 1].
Proof. exact e_C205_outline. Qed.
