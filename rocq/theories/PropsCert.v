(** Property theorems about certificates (C14-C22). *)
From Coq Require Import List NArith ZArith Bool Lia.
From Verif Require Import Base Text Keys Trust Certificate Relation Spec Toy BaseFacts KeysFacts TrustFacts CertFacts SpecFacts ToyFacts ParsedThms.
Import ListNotations.
Open Scope N_scope.

(** C14. *)
Theorem C14_certificate_verify_exact : forall C c roots now,
  cert_verify C c roots now = Ok tt <-> valid_certificate C c roots now.
Proof. exact cert_verify_exact. Qed.
Print Assumptions C14_certificate_verify_exact.

(** Root 1 gives 2, 2 gives 3. *)
Definition toy_cert : certificate := [toy_trust 1 1 100 1; toy_trust 1 2 90 2; toy_trust 2 3 80 3].
Example C14_example : valid_certificate (toy true) toy_cert [toy_key 9; toy_key 1] (from_secs 80) /\
  ~ valid_certificate (toy true) toy_cert [toy_key 9; toy_key 1] (from_secs 81) /\
  ~ valid_certificate (toy true) toy_cert [toy_key 2] (from_secs 80).
Proof.
  split; [apply C14_certificate_verify_exact; vm_compute; reflexivity|].
  split; intros H; apply C14_certificate_verify_exact in H; vm_compute in H; discriminate.
Qed.

(** C15. Verification always ends, and the error names a defect of the right trust. *)
Theorem C15_certificate_verify_total : forall C c roots now,
  cert_verify C c roots now = Ok tt \/ exists e, cert_verify C c roots now = Err e.
Proof. exact cert_verify_total. Qed.
Print Assumptions C15_certificate_verify_total.

Theorem C15_error_names_culprit : forall C c roots now e, cert_verify C c roots now = Err e ->
  match e with
  | CE_CertificateLengthError => c = []
  | CE_MalformedRoot te => exists t, at_pos c 0 t /\ trust_defect C (issued_for t) t now te
  | CE_NoTrustedRoot => exists t, at_pos c 0 t /\ signed_trust C (issued_for t) t /\ ~ before (expires_at t) now /\
                                  ~ In (issued_for t) roots
  | CE_VerificationError i te => exists j g t t0, i = S j /\ at_pos c j g /\ at_pos c i t /\
      trust_defect C (issued_for g) t now te /\
      (forall l, (i <= l)%nat -> (S l < length c)%nat -> good_link C c now l) /\
      at_pos c 0 t0 /\ In (issued_for t0) roots /\ signed_trust C (issued_for t0) t0 /\ ~ before (expires_at t0) now
  | _ => False
  end.
Proof. exact cert_verify_culprit. Qed.
Print Assumptions C15_error_names_culprit.

Example C15_example : cert_verify (toy true) toy_cert [toy_key 1] (from_secs 95) =
    Err (CE_VerificationError 2 (TE_Expired (from_secs 80) (from_secs 95))) /\
  cert_verify (toy true) toy_cert [toy_key 2] (from_secs 95) = Err CE_NoTrustedRoot.
Proof. vm_compute. auto. Qed.

(** C16. *)
Theorem C16_validity_monotone : forall C c roots now, valid_certificate C c roots now ->
  forall n roots' now', (0 < n)%nat -> ~ before now now' -> (forall k, In k roots -> In k roots') ->
  valid_certificate C (firstn n c) roots' now'.
Proof. exact cert_valid_monotone. Qed.
Print Assumptions C16_validity_monotone.

Example C16_example : valid_certificate (toy true) toy_cert [toy_key 1] (from_secs 80) /\ ~ before (from_secs 80) (mk_duration 79 5).
Proof. split; [apply C14_certificate_verify_exact; vm_compute; reflexivity|]. intros [H|[H _]]; discriminate. Qed.

(** C17. *)
Theorem C17_issue_root_verifies : forall C kp pk ex iss c now, crypto_laws C -> kp_valid C kp ->
  cert_issue_root C kp pk ex iss = Ok c ->
  ~ before ex now -> ~ before (from_secs u64_max) now -> cert_verify C c [kp_public C kp] now = Ok tt.
Proof. exact issue_root_valid. Qed.
Print Assumptions C17_issue_root_verifies.

Theorem C17_issue_root_total : forall C kp pk ex iss, crypto_laws C -> kp_fmt kp <> Rsa ->
  exists c, cert_issue_root C kp pk ex iss = Ok c.
Proof. exact issue_root_total. Qed.
Print Assumptions C17_issue_root_total.

Theorem C17_issue_verifies : forall C kp pk c ex iss cur c' roots now, crypto_laws C -> kp_valid C kp ->
  cert_issue C kp pk c ex iss cur = Ok c' -> cert_verify C c roots now = Ok tt -> ~ before ex now ->
  cert_verify C c' roots now = Ok tt.
Proof. exact issue_valid. Qed.
Print Assumptions C17_issue_verifies.

(** [issue] succeeds whenever the issuer is in a valid certificate and the times are in order. *)
Theorem C17_issue_succeeds : forall C kp pk c ex iss cur roots n, crypto_laws C -> kp_fmt kp <> Rsa ->
  valid_certificate C c roots cur -> ~ before ex iss -> last_pos c (kp_public C kp) n ->
  exists c', cert_issue C kp pk c ex iss cur = Ok c'.
Proof. exact issue_present. Qed.
Print Assumptions C17_issue_succeeds.

Example C17_example : exists c', cert_issue (toy true) (toy_kp 2) (toy_key 5) toy_cert (from_secs 60) (from_secs 4) (from_secs 5) = Ok c' /\
  c' = firstn 2 toy_cert ++ [toy_trust 2 5 60 4] /\ cert_verify (toy true) toy_cert [toy_key 1] (from_secs 60) = Ok tt.
Proof. eexists. vm_compute. auto. Qed.

(** C18. *)
Theorem C18_issue_extends_exactly : forall C kp pk c ex iss cur c', crypto_laws C -> kp_valid C kp ->
  cert_issue C kp pk c ex iss cur = Ok c' ->
  exists n t, last_pos c (kp_public C kp) n /\ c' = firstn (S n) c ++ [t] /\
    issued_for t = pk /\ expires_at t = ex /\ issued_at t = iss /\ signed_trust C (kp_public C kp) t.
Proof. exact issue_shape. Qed.
Print Assumptions C18_issue_extends_exactly.

Theorem C18_issue_with_trust_extends_exactly : forall C pk t c cur c', cert_issue_with_trust C pk t c cur = Ok c' ->
  exists n, last_pos c pk n /\ c' = firstn (S n) c ++ [t].
Proof. exact issue_with_trust_shape. Qed.
Print Assumptions C18_issue_with_trust_extends_exactly.

Theorem C18_issue_absent_issuer : forall C kp pk c ex iss cur roots, valid_certificate C c roots cur -> ~ before ex iss ->
  (forall i, ~ key_at c i (kp_public C kp)) -> cert_issue C kp pk c ex iss cur = Err CE_KeyInCertificateError.
Proof. exact issue_absent. Qed.
Print Assumptions C18_issue_absent_issuer.

Theorem C18_issue_with_trust_absent_issuer : forall C pk t c cur roots, valid_certificate C c roots cur ->
  ~ before (expires_at t) (issued_at t) -> (forall i, ~ key_at c i pk) ->
  cert_issue_with_trust C pk t c cur = Err CE_KeyInCertificateError.
Proof. exact issue_with_trust_absent. Qed.
Print Assumptions C18_issue_with_trust_absent_issuer.

(** A certificate in which key 2 occurs twice: the last occurrence counts. *)
Example C18_example :
  let c := [toy_trust 1 1 100 1; toy_trust 1 2 90 2; toy_trust 2 2 90 2; toy_trust 2 3 80 3] in
  valid_certificate (toy true) c [toy_key 1] (from_secs 5) /\ last_pos c (toy_key 2) 2 /\
  cert_issue (toy true) (toy_kp 2) (toy_key 5) c (from_secs 60) (from_secs 4) (from_secs 5) =
    Ok (firstn 3 c ++ [toy_trust 2 5 60 4]) /\
  cert_issue (toy true) (toy_kp 7) (toy_key 5) c (from_secs 60) (from_secs 4) (from_secs 5) = Err CE_KeyInCertificateError.
Proof.
  split; [apply C14_certificate_verify_exact; vm_compute; reflexivity|]. split.
  - split; [eexists; split; reflexivity|]. intros j Hj (t & Ht & Hk).
    destruct j as [|[|[|[|j]]]]; try lia.
    + injection Ht as <-. discriminate.
    + destruct j; discriminate.
  - vm_compute. auto.
Qed.

(** C19. Refuted for [issue_with_trust], which does not check the signature of the given trust. *)
Theorem C19_issue_with_trust_verifies_refuted : exists C pk t c now c',
  crypto_laws C /\ cert_issue_with_trust C pk t c now = Ok c' /\ forall roots, ~ valid_certificate C c' roots now.
Proof. exact unverified_issue. Qed.
Print Assumptions C19_issue_with_trust_verifies_refuted.

(** It does verify exactly when the given trust does. *)
Theorem C19_issue_with_trust_verifies_partial : forall C pk t c cur c' roots now,
  cert_issue_with_trust C pk t c cur = Ok c' -> cert_verify C c roots now = Ok tt ->
  (cert_verify C c' roots now = Ok tt <-> trust_verify C t pk now = Ok tt).
Proof. exact issue_with_trust_valid_iff. Qed.
Print Assumptions C19_issue_with_trust_verifies_partial.

Theorem C19_new_from_root_trust_verifies : forall C r t now c, cert_new_from_root_trust C r t now = Ok c ->
  c = [r; t] /\ cert_verify C c [issued_for r] now = Ok tt.
Proof. exact new_from_root_trust_valid. Qed.
Print Assumptions C19_new_from_root_trust_verifies.

Example C19_example : cert_new_from_root_trust (toy true) (toy_trust 1 1 100 1) (toy_trust 1 2 90 2) (from_secs 90) =
    Ok [toy_trust 1 1 100 1; toy_trust 1 2 90 2] /\
  cert_issue_with_trust (toy true) (toy_key 3) (toy_trust 3 4 70 4) toy_cert (from_secs 5) = Ok (toy_cert ++ [toy_trust 3 4 70 4]).
Proof. vm_compute. auto. Qed.

(** C20. Refuted: the valid certificate holding only a root's trust does not decode. *)
Theorem C20_certificate_decode_encode_refuted : exists C c, valid_certificate C c [toy_key 1] (from_secs 5) /\
  (forall t, In t c -> trust_fits C t) /\ cert_decode C (cert_encode c) <> Ok c.
Proof. exact single_trust_not_decoded. Qed.
Print Assumptions C20_certificate_decode_encode_refuted.

(** Exactly the certificates of 2 to 255 trusts that take fewer than 256 bytes each round trip. *)
Theorem C20_certificate_decode_encode_partial : forall C c, cert_decode C (cert_encode c) = Ok c <->
  (forall t, In t c -> trust_fits C t /\ len (trust_encode t) < 256) /\ (2 <= length c <= 255)%nat.
Proof. exact cert_roundtrip_iff. Qed.
Print Assumptions C20_certificate_decode_encode_partial.

Theorem C20_trust_encoding_length : forall t,
  len (trust_encode t) = 18 + len (pk_encode (issued_for t)) + len (sig_encode (trust_sig t)).
Proof. exact trust_encode_len. Qed.
Print Assumptions C20_trust_encoding_length.

(** What decodes: the six bytes of format and version are ignored, and so is anything at the end. *)
Theorem C20_certificate_decode_ok : forall C b c, cert_decode C b = Ok c ->
  (2 <= length c <= 255)%nat /\ (forall t, In t c -> trust_fits C t) /\
  exists hdr post, len hdr = 6 /\ b = hdr ++ skipn 6 (cert_encode c) ++ post.
Proof. exact cert_decode_ok. Qed.
Print Assumptions C20_certificate_decode_ok.

Example C20_example : cert_decode (toy true) (cert_encode toy_cert) = Ok toy_cert /\
  cert_decode (toy true) (repeat x07 6 ++ skipn 6 (cert_encode toy_cert) ++ [x09]) = Ok toy_cert.
Proof. vm_compute. auto. Qed.

(** C21. *)
Theorem C21_certificate_text_roundtrip : forall C c, (forall t, In t c -> trust_fits C t) ->
  cert_from_str C (cert_to_string c) = Ok c.
Proof. exact cert_text_roundtrip. Qed.
Print Assumptions C21_certificate_text_roundtrip.

Theorem C21_certificates_serde_roundtrip : forall C cs, (forall c t, In c cs -> In t c -> trust_fits C t) ->
  certs_deserialize C (certs_serialize cs) = Ok cs.
Proof. exact certs_serde_roundtrip. Qed.
Print Assumptions C21_certificates_serde_roundtrip.

Theorem C21_parsed_certificate_fits : forall C s c, cert_from_str C s = Ok c -> forall t, In t c -> trust_fits C t.
Proof. exact cert_from_str_fits. Qed.
Print Assumptions C21_parsed_certificate_fits.

Example C21_example : forall t, In t toy_cert -> trust_fits (toy true) t.
Proof. intros t [<-|[<-|[<-|[]]]]; apply toy_trust_fits; reflexivity. Qed.

(** C22. Refuted: the inputs on which the parsers panic, exactly. *)
Theorem C22_certificate_decode_total_refuted : forall C b, cert_decode C b = Panic <->
  exists hdr n ts l sl post, b = hdr ++ n :: flat_map enc1 ts ++ l :: sl ++ post /\ len hdr = 6 /\ 2 <= N_of_u8 n /\
    N.of_nat (length ts) < N_of_u8 n /\ (forall t, In t ts -> trust_fits C t /\ len (trust_encode t) < 256) /\
    len sl = N_of_u8 l /\ trust_decode C sl = Panic.
Proof. exact cert_decode_panic. Qed.
Print Assumptions C22_certificate_decode_total_refuted.

Theorem C22_certificate_from_str_total_refuted : forall C s, cert_from_str C s = Panic <->
  (length (lines s) < 2)%nat \/
  exists f v k pre a b c d post, lines s = f :: v :: pre ++ a :: b :: c :: d :: post /\
    Nat.modulo (length (lines s) - 2) 4 = 0%nat /\ length pre = (4 * k)%nat /\
    (forall j, (j < k)%nat -> exists a b c d t, firstn 4 (skipn (4 * j) pre) = [a; b; c; d] /\ trust_from_strings C a b c d = Ok t) /\
    (a = [] \/ ((exists p, pk_from_str C a = Ok p) /\ b = [])).
Proof. exact parsed_panics. Qed.
Print Assumptions C22_certificate_from_str_total_refuted.

Example C22_example : cert_from_str (toy true) [] = Panic /\ cert_from_str (toy true) [x31; x0a; x31; x0a; x0a; x0a; x0a; x0a] = Panic /\
  cert_decode (toy true) (cert_encode [toy_trust 1 1 100 1; mk_trust (toy_key 2) (from_secs 9) (mk_sig Ed25519 (repeat x00 255)) (from_secs 1)]) = Panic.
Proof. vm_compute. auto. Qed.
