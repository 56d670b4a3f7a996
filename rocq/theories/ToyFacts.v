From Coq Require Import List NArith ZArith Bool Lia ZifyBool ZifyNat ZifyN.
From Verif Require Import Base BaseFacts Text TextFacts Keys KeysFacts Trust TrustFacts Certificate Relation Spec SpecFacts Toy.
Import ListNotations.
Open Scope N_scope.

Lemma toy_sha_len : forall m, len (toy_sha m) = 32.
Proof.
  intros m. unfold toy_sha, len. rewrite firstn_length, app_length, repeat_length. lia.
Qed.

Lemma toy_inlined_ok : forall wasm p k, toy_inlined p = Some k -> pk_valid (toy wasm) k /\ pk_fmt k <> Rsa.
Proof.
  intros wasm p k. unfold toy_inlined.
  destruct p as [|b0 p]; [discriminate|]. destruct b0; try discriminate.
  destruct p as [|b1 p]; [discriminate|]. destruct b1; try discriminate.
  - destruct p as [|b2 p]; [discriminate|]. destruct b2; try discriminate.
    destruct p as [|b3 p]; [discriminate|]. destruct b3; try discriminate.
    destruct p as [|b4 p]; [discriminate|]. destruct b4; try discriminate.
    destruct p as [|b5 p]; [discriminate|]. destruct b5; try discriminate.
    destruct (len p =? 32) eqn:E; [|discriminate]. intros H. injection H as <-.
    split; [|discriminate]. split; [reflexivity|]. cbn. rewrite E. reflexivity.
  - destruct p as [|b2 p]; [discriminate|]. destruct b2; try discriminate.
    destruct p as [|b3 p]; [discriminate|]. destruct b3; try discriminate.
    destruct p as [|b4 p]; [discriminate|]. destruct b4; try discriminate.
    destruct p as [|b5 p]; [discriminate|]. destruct b5; try discriminate.
    destruct (len p =? 33) eqn:E; [|discriminate]. intros H. injection H as <-.
    split; [|discriminate]. split; [reflexivity|]. cbn. rewrite E. reflexivity.
Qed.

Lemma toy_laws : forall wasm, crypto_laws (toy wasm).
Proof.
  intros wasm. split.
  - exact toy_sha_len.
  - intros sk H. split; [exact H|reflexivity].
  - intros sk m _. cbn. apply bytes_eqb_refl.
  - intros sk H _. split; [|reflexivity]. cbn [secp_public toy]. rewrite len_cons. lia.
  - intros sk h _ _ _. split; [reflexivity|]. cbn. apply bytes_eqb_refl.
  - intros sk m s H. cbn in *. injection H as <-. apply bytes_eqb_refl.
  - intros [f raw] [H1 H2] Hf. destruct f; cbn in *.
    + split; [reflexivity|]. apply andb_true_iff in H2. destruct H2 as [H2 _]. rewrite H2. reflexivity.
    + contradiction.
    + split; [reflexivity|]. apply andb_true_iff in H2. destruct H2 as [H2 _]. rewrite H2. reflexivity.
  - intros p k H. apply (toy_inlined_ok wasm p k H).
Qed.

Lemma toy_key_valid : forall wasm n, pk_valid (toy wasm) (toy_key n).
Proof. intros. split; reflexivity. Qed.
Lemma toy_kp_valid : forall wasm n, kp_valid (toy wasm) (toy_kp n).
Proof. intros. split; reflexivity. Qed.
Lemma toy_kp_public : forall wasm n, kp_public (toy wasm) (toy_kp n) = toy_key n.
Proof. reflexivity. Qed.

(** A secp256k1 key accepting what its scheme rejects. *)
Lemma secp_forged : exists C k msg s,
  crypto_laws C /\ pk_valid C k /\ pk_verify C k msg s = Ok tt /\ ~ scheme_accepts C k msg (sig_raw s).
Proof.
  exists (toy true), (mk_pk Secp256k1 (x02 :: toy_secret 1)), [x61], (mk_sig Secp256k1 [x30]).
  split; [apply toy_laws|]. split; [split; reflexivity|]. split; [reflexivity|].
  intros [_ H]. discriminate.
Qed.

Lemma toy_trust_signed : forall w b f ex iss, signed_trust (toy w) (toy_key b) (toy_trust b f ex iss).
Proof.
  intros. unfold signed_trust, pk_verify, toy_key, toy_trust. cbn -[bytes_eqb toy_secret toy_sha].
  rewrite bytes_eqb_refl. reflexivity.
Qed.

Lemma toy_rev_signed : forall w b f a, signed_revocation (toy w) (toy_rev b f a).
Proof.
  intros. unfold signed_revocation, pk_verify, toy_key, toy_rev. cbn -[bytes_eqb toy_secret toy_sha].
  rewrite bytes_eqb_refl. reflexivity.
Qed.

Lemma toy_trust_create : forall w E b f ex iss,
  @trust_create (toy w) E (toy_kp b) (toy_key f) (from_secs ex) (from_secs iss) = Ok (toy_trust b f ex iss).
Proof. reflexivity. Qed.

Lemma toy_trust_fits : forall w b f ex iss, ex < u64_bound -> iss < u64_bound -> trust_fits (toy w) (toy_trust b f ex iss).
Proof.
  intros. split; [exact (toy_key_valid w f)|]. split; [reflexivity|].
  split; apply from_secs_whole; assumption.
Qed.

(** Trusts and certificates that break a property. *)
Lemma rsa_trust_not_decoded : exists C t, trust_fits C t /\ trust_decode C (trust_encode t) <> Ok t.
Proof.
  exists (toy false), (mk_trust (mk_pk Rsa (repeat x05 270)) (from_secs 9) (mk_sig Ed25519 []) (from_secs 1)).
  split; [repeat split|]. intros H. apply trust_roundtrip_iff in H. destruct H as (_ & H & _). vm_compute in H. discriminate.
Qed.

Lemma rsa_domains : exists C k e i k' a, pk_valid C k /\ pk_valid C k' /\ whole_secs e /\ whole_secs i /\ whole_secs a /\
  trust_metadata k e i = revocation_metadata k' a.
Proof.
  exists (toy false), (mk_pk Rsa (x01 :: repeat x00 248)), (from_secs 0), (from_secs 0),
    (mk_pk Rsa (repeat x00 256)), (from_secs 0).
  do 5 (split; [split; reflexivity|]). vm_compute. reflexivity.
Qed.

Lemma unverified_issue : exists C pk t c now c', crypto_laws C /\ cert_issue_with_trust C pk t c now = Ok c' /\
  forall roots, ~ valid_certificate C c' roots now.
Proof.
  exists (toy true), (toy_key 2), (toy_trust 3 4 100 1), [toy_trust 1 1 100 1; toy_trust 1 2 100 1], (from_secs 5),
    [toy_trust 1 1 100 1; toy_trust 1 2 100 1; toy_trust 3 4 100 1].
  split; [apply toy_laws|]. split; [vm_compute; reflexivity|].
  intros roots (_ & _ & L & _). specialize (L 1%nat _ _ eq_refl eq_refl). vm_compute in L. discriminate.
Qed.

Lemma single_trust_not_decoded : exists C c, valid_certificate C c [toy_key 1] (from_secs 5) /\
  (forall t, In t c -> trust_fits C t) /\ cert_decode C (cert_encode c) <> Ok c.
Proof.
  exists (toy true), [toy_trust 1 1 100 1]. split; [|split].
  - apply cert_verify_exact. vm_compute. reflexivity.
  - intros t [<-|[]]. apply toy_trust_fits; reflexivity.
  - intros H. apply cert_roundtrip_iff in H. destruct H as [_ H]. cbn [length] in H. lia.
Qed.
