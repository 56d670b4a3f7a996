(** Proofs about the panics of what makes trusts, revocations and certificates: C210. *)
From Coq Require Import List NArith ZArith Bool Lia.
From Verif Require Import Base BaseFacts Text Keys KeysFacts Trust TrustFacts Certificate CertFacts Relation Spec SpecFacts Convert ConvertSpec Toy ToyFacts.
Import ListNotations.
Open Scope N_scope.

(** Only RSA pairs can fail to sign. *)
Lemma p_C210_only_rsa : forall C kp m e, crypto_laws C -> kp_sign C kp m = Err e -> kp_fmt kp = Rsa /\ rsa_sign C (kp_secret kp) m = None.
Proof.
  intros C kp m e L. unfold kp_sign. destruct (kp_fmt kp); [discriminate| |].
  - destruct (rsa_sign C (kp_secret kp) m); [discriminate|]. split; reflexivity.
  - rewrite (law_sha_len C L). discriminate.
Qed.
Lemma sign_or : forall C kp m, (exists s, kp_sign C kp m = Ok s) \/ (exists e, kp_sign C kp m = Err e).
Proof.
  intros C kp m. unfold kp_sign. destruct (kp_fmt kp); [left; eexists; reflexivity| |].
  - destruct (rsa_sign C (kp_secret kp) m); [left|right]; eexists; reflexivity.
  - cbv zeta. destruct (len (sha256 C m) =? 32); [left|right]; eexists; reflexivity.
Qed.
(** [Trust::create] panics exactly if the pair cannot sign the message of the trust; it always returns a trust otherwise, *)
Lemma p_C210_trust : forall C E kp pk ex iss s, (@trust_create C E kp pk ex iss = Panic <-> exists e, kp_sign C kp (trust_message C (mk_trust pk ex s iss)) = Err e) /\
  (@trust_create C E kp pk ex iss = Panic \/ exists t, @trust_create C E kp pk ex iss = Ok t).
Proof.
  intros C E kp pk ex iss s. unfold trust_create. change (trust_message C (mk_trust pk ex s iss)) with (trust_signature_bytes C pk ex iss).
  destruct (sign_or C kp (trust_signature_bytes C pk ex iss)) as [[x X]|[x X]]; rewrite X; cbn [unwrap bind].
  - split; [|right; eexists; reflexivity]. split; [discriminate|intros [e H]; discriminate].
  - split; [|left; reflexivity]. split; [intros _; exists x; reflexivity|reflexivity].
Qed.
(** and so for [Revocation::create]. *)
Lemma p_C210_revocation : forall C E kp pk at_ s, (@revocation_create C E kp pk at_ = Panic <-> exists e, kp_sign C kp (revocation_message C (mk_rev pk at_ (kp_public C kp) s)) = Err e) /\
  (@revocation_create C E kp pk at_ = Panic \/ exists v, @revocation_create C E kp pk at_ = Ok v).
Proof.
  intros C E kp pk at_ s. unfold revocation_create. change (revocation_message C (mk_rev pk at_ (kp_public C kp) s)) with (revocation_signature_bytes C pk at_).
  destruct (sign_or C kp (revocation_signature_bytes C pk at_)) as [[x X]|[x X]]; rewrite X; cbn [unwrap bind].
  - split; [|right; eexists; reflexivity]. split; [discriminate|intros [e H]; discriminate].
  - split; [|left; reflexivity]. split; [intros _; exists x; reflexivity|reflexivity].
Qed.
(** [Certificate::issue_root] makes two trusts, and panics exactly if one of them cannot be signed. *)
Lemma p_C210_issue_root : forall C kp pk ex iss, let fails k e := @trust_create C unit kp k e iss = Panic in
  (cert_issue_root C kp pk ex iss = Panic <-> fails (kp_public C kp) (from_secs u64_max) \/ fails pk ex) /\
  (cert_issue_root C kp pk ex iss = Panic \/ exists c, cert_issue_root C kp pk ex iss = Ok c).
Proof.
  intros C kp pk ex iss fails. unfold fails, cert_issue_root, trust_create.
  destruct (sign_or C kp (trust_signature_bytes C (kp_public C kp) (from_secs u64_max) iss)) as [[x X]|[x X]]; rewrite X; cbn [unwrap bind].
  - destruct (sign_or C kp (trust_signature_bytes C pk ex iss)) as [[y Y]|[y Y]]; rewrite Y; cbn [unwrap bind].
    + split; [|right; eexists; reflexivity]. split; [discriminate|intros [H|H]; discriminate].
    + split; [|left; reflexivity]. split; [intros _; right; reflexivity|reflexivity].
  - split; [|left; reflexivity]. split; [intros _; left; reflexivity|reflexivity].
Qed.
Lemma prefix_panic : forall C k c now, cert_prefix_for C k c now = Panic <-> c = [].
Proof.
  intros C k [|t0 r] now; cbn [cert_prefix_for]; [split; reflexivity|]. split; [|discriminate].
  destruct (cert_verify_total C (t0 :: r) [issued_for t0] now) as [X|[e X]]; rewrite X; cbn [bind]; [|discriminate]. destruct (last_index_of k (t0 :: r) 0 None); discriminate.
Qed.
(** [Certificate::issue_with_trust] panics exactly if it is given an empty certificate, unless the trust expires before it was made, *)
Lemma p_C210_issue_with_trust : forall C k t c now, cert_issue_with_trust C k t c now = Panic <-> c = [] /\ ~ before (expires_at t) (issued_at t).
Proof.
  intros C k t c now. unfold cert_issue_with_trust. destruct (duration_ltb (expires_at t) (issued_at t)) eqn:B.
  - split; [discriminate|]. intros [_ N]. destruct N. apply duration_ltb_lt. exact B.
  - rewrite <- (prefix_panic C k c now). split.
    + intros H. split; [destruct (cert_prefix_for C k c now); cbn [bind] in H; try discriminate H; reflexivity|]. intros X. apply duration_ltb_lt in X. rewrite X in B. discriminate.
    + intros [H _]. rewrite H. reflexivity.
Qed.
(** and [Certificate::issue] also if the certificate verifies and holds the key, but the pair cannot sign. *)
Lemma p_C210_issue : forall C kp pk c ex iss now, cert_issue C kp pk c ex iss now = Panic <-> ~ before ex iss /\
  (c = [] \/ (exists t0 i, hd_error c = Some t0 /\ cert_verify C c [issued_for t0] now = Ok tt /\ key_at c i (kp_public C kp)) /\ @trust_create C unit kp pk ex iss = Panic).
Proof.
  intros C kp pk c ex iss now. unfold cert_issue. destruct (duration_ltb ex iss) eqn:B.
  - split; [discriminate|]. intros [N _]. destruct N. apply duration_ltb_lt. exact B.
  - assert (NB : ~ before ex iss) by (intros X; apply duration_ltb_lt in X; rewrite X in B; discriminate).
    assert (TC : @trust_create C certificate_error kp pk ex iss = Panic <-> @trust_create C unit kp pk ex iss = Panic).
    { rewrite (proj1 (p_C210_trust C certificate_error kp pk ex iss (mk_sig Ed25519 []))), (proj1 (p_C210_trust C unit kp pk ex iss (mk_sig Ed25519 []))). reflexivity. }
    destruct (cert_prefix_for C (kp_public C kp) c now) as [p|e| |] eqn:P; cbn [bind].
    + destruct (cert_prefix_for_ok _ _ _ _ _ P) as (t0 & n & t & H0 & V & N & F & _). split.
      * intros H. split; [exact NB|]. right. split; [exists t0, n; split; [exact H0|]; split; [exact V|]; exists t; split; [exact N|exact F]|]. apply TC.
        destruct (proj2 (p_C210_trust C certificate_error kp pk ex iss (mk_sig Ed25519 []))) as [X|[x X]]; [exact X|]. rewrite X in H. discriminate.
      * intros [_ [->|[_ X]]]; [discriminate P|]. apply TC in X. rewrite X. reflexivity.
    + split; [discriminate|]. intros [_ [->|[(t0 & i & H0 & V & x & Hx & Ex) _]]]; [discriminate P|].
      destruct c as [|y r]; [discriminate H0|]. injection H0 as ->. cbn [cert_prefix_for] in P. rewrite V in P. cbn [bind] in P.
      pose proof (last_index_of_spec (kp_public C kp) (t0 :: r) 0 None) as S. destruct (last_index_of (kp_public C kp) (t0 :: r) 0 None); [discriminate P|]. destruct S as [_ S].
      destruct (S x (nth_error_In _ _ Hx) Ex).
    + apply prefix_panic in P. subst c. split; [|reflexivity]. intros _. split; [exact NB|left; reflexivity].
    + destruct c as [|y r]; [discriminate P|]. cbn [cert_prefix_for] in P.
      destruct (cert_verify_total C (y :: r) [issued_for y] now) as [X|[e X]]; rewrite X in P; cbn [bind] in P; [|discriminate P]. destruct (last_index_of (kp_public C kp) (y :: r) 0 None); discriminate P.
Qed.
(** [Certificate::new_from_root_trust] and [Certificate::verify] never panic. *)
Lemma p_C210_checks : forall C t u c roots now, cert_new_from_root_trust C t u now <> Panic /\ cert_verify C c roots now <> Panic.
Proof.
  intros C t u c roots now. split.
  - unfold cert_new_from_root_trust. destruct (trust_verify_total C t (issued_for t) now) as [->|[e ->]]; cbn [map_err bind]; [|discriminate].
    destruct (trust_verify_total C u (issued_for t) now) as [->|[e ->]]; discriminate.
  - destruct (cert_verify_total C c roots now) as [->|[e ->]]; discriminate.
Qed.
(** Converting libp2p keys and pairs of kinds this build does not have panics. *)
Lemma p_C210_other_kinds : forall C, (forall k, lk_kind k = L_Ecdsa \/ (lk_kind k = L_Rsa /\ wasm32 C = true) -> of_lib_key C k = Panic) /\
  (forall p, lp_kind p = L_Ecdsa \/ (lp_kind p = L_Rsa /\ wasm32 C = true) -> of_lib_pair C p = Panic).
Proof.
  intros C. split.
  - intros k [H|[H W]]; unfold of_lib_key; rewrite H; [reflexivity|]. rewrite W. reflexivity.
  - intros k [H|[H W]]; unfold of_lib_pair; rewrite H; [reflexivity|]. rewrite W. reflexivity.
Qed.
(** Toy primitives with RSA pairs that cannot sign. *)
Definition mute : crypto := let T := toy false in
  mk_crypto (wasm32 T) (sha256 T) (ed_point T) (ed_public T) (ed_sign T) (ed_verify T) (rsa_public T)
    (fun sk m => match sk with [] => None | _ => Some (sk ++ m) end)
    (rsa_verify T) (secp_point T) (secp_scalar T) (secp_public T) (secp_sign T) (secp_der T) (secp_verify T) (multihash_ok T) (inlined_key T) (rsa_peer_id T).
Lemma mute_laws : crypto_laws mute.
Proof.
  destruct (toy_laws false) as [A1 A2 A3 A4 A5 A6 A7 A8]. split; [exact A1|exact A2|exact A3|exact A4|exact A5| |exact A7|exact A8].
  intros sk m s H. cbn in *. destruct sk; [discriminate H|]. injection H as <-. apply bytes_eqb_refl.
Qed.
(** An RSA pair that cannot sign: everything that signs with it panics. With another pair nothing does, unless the certificate to prolong is empty. *)
Example e_C210_mute : crypto_laws mute /\ kp_valid mute (mk_kp Rsa []) /\ @trust_create mute unit (mk_kp Rsa []) (toy_key 2) (from_secs 9) (from_secs 7) = Panic /\
  @revocation_create mute unit (mk_kp Rsa []) (toy_key 2) (from_secs 7) = Panic /\ cert_issue_root mute (mk_kp Rsa []) (toy_key 2) (from_secs 9) (from_secs 7) = Panic /\
  cert_issue_root mute (toy_kp 1) (toy_key 2) (from_secs 9) (from_secs 7) <> Panic /\ cert_issue mute (toy_kp 1) (toy_key 2) [] (from_secs 9) (from_secs 7) (from_secs 8) = Panic /\
  cert_issue_with_trust mute (toy_key 2) (toy_trust 1 2 9 7) [] (from_secs 8) = Panic.
Proof. split; [exact mute_laws|]. vm_compute. repeat split; discriminate. Qed.
