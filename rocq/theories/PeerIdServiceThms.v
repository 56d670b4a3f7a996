(** Calls that differ only in how peer ids are spelled. *)
From Coq Require Import List NArith ZArith Bool Lia.
From Verif Require Import Base BaseFacts Text Keys KeysFacts Trust Certificate Relation Storage Graph Convert ConvertSpec ConvertFacts
  Service Toy ToyFacts PeerId PeerIdSpec PeerIdFacts PeerIdThms.
Import ListNotations.
Open Scope N_scope.

Lemma one_key_eq : forall C p q, one_key C p q -> extract_public_key C q = extract_public_key C p.
Proof. intros C p q [k [-> ->]]. reflexivity. Qed.

Lemma one_key_dto : forall C p q, one_key C p q -> dto_key C q = dto_key C p.
Proof.
  intros C p q [k [P Q]]. unfold extract_public_key, dto_key in *.
  destruct (peer_id_from_str C p); [|discriminate]. destruct (peer_id_from_str C q); [|discriminate].
  destruct (pk_of_peer_id C b); try discriminate. destruct (pk_of_peer_id C b0); try discriminate. cbn in *. congruence.
Qed.

Lemma trust_respelled_eq : forall C t u, trust_respelled C t u -> trust_of_dto C u = trust_of_dto C t.
Proof.
  intros C t u (K & E1 & E2 & E3 & E4). unfold trust_of_dto. rewrite (one_key_dto _ _ _ K), E1, E2, E3, E4. reflexivity.
Qed.
Lemma cert_respelled_eq : forall C c d, Forall2 (trust_respelled C) c d -> cert_of_dto C d = cert_of_dto C c.
Proof.
  intros C c d H. unfold cert_of_dto. induction H as [|t u c d T _ IH]; [reflexivity|]. cbn [collect]. rewrite (trust_respelled_eq _ _ _ T), IH. reflexivity.
Qed.
Lemma revocation_respelled_eq : forall C r s, revocation_respelled C r s -> revocation_of_dto C s = revocation_of_dto C r.
Proof.
  intros C r s (K & E1 & E2 & E3 & K2). unfold revocation_of_dto. rewrite (one_key_dto _ _ _ K), (one_key_dto _ _ _ K2), E1, E2, E3. reflexivity.
Qed.

Lemma same_refl : forall a, same_response a a.
Proof. intros a. left. reflexivity. Qed.

(** ** C182 *)
(** Which of its spellings a call uses makes no difference to the database, nor to the answer, but that a weight is told with the
    peer id as it was spelled. *)
Lemma p_C182_spelling : forall C cp c c' f d, respelled C c c' ->
  same_response (fst (service_step C d (cp, c, f))) (fst (service_step C d (cp, c', f))) /\
  snd (service_step C d (cp, c', f)) = snd (service_step C d (cp, c, f)).
Proof.
  intros C cp c c' f d H. unfold service_step.
  inversion H; subst; cbn [service_do];
    repeat match goal with K : one_key C ?p ?q |- _ => let E := fresh "E" in pose proof (one_key_eq _ _ _ K) as E; revert K end; intros;
    unfold api_set_root, api_insert_cert_raw, api_insert_cert, api_get_all_certs, api_get_all_certs_from, api_get_host_certs, api_get_host_certs_from,
      api_get_weight, api_get_weight_from, api_get_trust_bytes, api_issue_trust, api_verify_trust, api_add_trust, api_get_revocation_bytes,
      api_issue_revocation, api_revoke, api_export_revocations, get_certs, get_certs_from;
    repeat match goal with E : extract_public_key C ?q = extract_public_key C _ |- _ => rewrite E; clear E end;
    try (split; [apply same_refl|reflexivity]).
  - match goal with K : Forall2 _ _ _ |- _ => rewrite (cert_respelled_eq _ _ _ K) end. split; [apply same_refl|reflexivity].
  - unfold into. match goal with |- context [mbind ?a ?b ?w] => destruct (mbind a b w) as [r w0] end.
    split; [|reflexivity]. cbn [fst]. destruct r; cbn [into_result]; try apply same_refl. right. do 2 eexists.
    split; [reflexivity|]. split; [reflexivity|]. cbn. repeat split. right. eauto.
  - unfold into. match goal with |- context [mbind ?a ?b ?w] => destruct (mbind a b w) as [r w0] end.
    split; [|reflexivity]. cbn [fst]. destruct r; cbn [into_result]; try apply same_refl. right. do 2 eexists.
    split; [reflexivity|]. split; [reflexivity|]. cbn. repeat split. right. eauto.
  - match goal with K : trust_respelled _ _ _ |- _ => rewrite (trust_respelled_eq _ _ _ K) end. split; [apply same_refl|reflexivity].
  - match goal with K : trust_respelled _ _ _ |- _ => rewrite (trust_respelled_eq _ _ _ K); destruct K as (_ & _ & _ & _ & ->) end. split; [apply same_refl|reflexivity].
  - match goal with K : revocation_respelled _ _ _ |- _ => rewrite (revocation_respelled_eq _ _ _ K); destruct K as (_ & -> & _) end. split; [apply same_refl|reflexivity].
Qed.

(** Whole histories too. *)
Lemma p_C182_history : forall C es es' d,
  Forall2 (fun e e' => fst (fst e) = fst (fst e') /\ respelled C (snd (fst e)) (snd (fst e')) /\ snd e = snd e') es es' ->
  service_history C d es' = service_history C d es.
Proof.
  intros C es es' d H. revert d. induction H as [|[[cp c] f] [[cp' c'] f'] es es' (E1 & R & E2) _ IH]; intros d; [reflexivity|].
  cbn [fst snd] in *. subst cp' f'. unfold service_history in *. cbn [fold_left].
  destruct (p_C182_spelling C cp c c' f d R) as [_ ->]. apply IH.
Qed.

(** The same calls with two spellings of the peer id of one key, with the code of this model for the peer ids. *)
Example e_C182_two_spellings : let C := with_peer_ids (toy true) (toy_libs (toy true)) in
  let p := b58_encode ([x00; x24; x08; x01; x12; x20] ++ toy_secret 1) in
  let q := b58_encode ([x00; x24; x12; x20] ++ toy_secret 1 ++ [x08; x01]) in
  let cp := mk_params [x61] [x61] [x68] [[]; [mk_tetraplet [x68] (fst TRUSTED_TIMESTAMP) (snd TRUSTED_TIMESTAMP)]] in
  p <> q /\ one_key C p q /\
  map (fun a => let d := snd (service_step C empty_db (cp, S_set_root a 4, None)) in
    map (fun b => match fst (service_step C d (cp, S_get_weight b 10, None)) with Ok r => Some (success r, reply r) | _ => None end) [p; q]) [p; q] =
  [[Some (true, P_weight 16 p); Some (true, P_weight 16 q)]; [Some (true, P_weight 16 p); Some (true, P_weight 16 q)]].
Proof.
  cbv zeta. split; [vm_compute; discriminate|]. split; [exists (toy_key 1); split; vm_compute; reflexivity|].
  vm_compute. reflexivity.
Qed.
