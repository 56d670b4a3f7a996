(** When making trusts, revocations and certificates panics. Every proof is a lemma of PanicThms.v. *)
From Coq Require Import List NArith ZArith Bool.
From Verif Require Import Base Text Keys Trust Certificate Relation Spec Convert ConvertSpec.
From Verif Require Import Toy PanicThms.
Import ListNotations.
Open Scope N_scope.

(** ** C210 *)
(** Only RSA pairs can fail to sign. *)
Theorem C210_only_rsa : forall C kp m e, crypto_laws C -> kp_sign C kp m = Err e -> kp_fmt kp = Rsa /\ rsa_sign C (kp_secret kp) m = None.
Proof. exact p_C210_only_rsa. Qed.
Print Assumptions C210_only_rsa.

(** [Trust::create] panics exactly if the pair cannot sign the message of the trust; it always returns a trust otherwise, *)
Theorem C210_trust : forall C E kp pk ex iss s, (@trust_create C E kp pk ex iss = Panic <-> exists e, kp_sign C kp (trust_message C (mk_trust pk ex s iss)) = Err e) /\
  (@trust_create C E kp pk ex iss = Panic \/ exists t, @trust_create C E kp pk ex iss = Ok t).
Proof. exact p_C210_trust. Qed.
Print Assumptions C210_trust.

(** and so for [Revocation::create]. *)
Theorem C210_revocation : forall C E kp pk at_ s, (@revocation_create C E kp pk at_ = Panic <-> exists e, kp_sign C kp (revocation_message C (mk_rev pk at_ (kp_public C kp) s)) = Err e) /\
  (@revocation_create C E kp pk at_ = Panic \/ exists v, @revocation_create C E kp pk at_ = Ok v).
Proof. exact p_C210_revocation. Qed.
Print Assumptions C210_revocation.

(** [Certificate::issue_root] makes two trusts, and panics exactly if one of them cannot be signed. *)
Theorem C210_issue_root : forall C kp pk ex iss, let fails k e := @trust_create C unit kp k e iss = Panic in
  (cert_issue_root C kp pk ex iss = Panic <-> fails (kp_public C kp) (from_secs u64_max) \/ fails pk ex) /\
  (cert_issue_root C kp pk ex iss = Panic \/ exists c, cert_issue_root C kp pk ex iss = Ok c).
Proof. exact p_C210_issue_root. Qed.
Print Assumptions C210_issue_root.

(** [Certificate::issue_with_trust] panics exactly if it is given an empty certificate, unless the trust expires before it was made, *)
Theorem C210_issue_with_trust : forall C k t c now, cert_issue_with_trust C k t c now = Panic <-> c = [] /\ ~ before (expires_at t) (issued_at t).
Proof. exact p_C210_issue_with_trust. Qed.
Print Assumptions C210_issue_with_trust.

(** and [Certificate::issue] also if the certificate verifies and holds the key, but the pair cannot sign. *)
Theorem C210_issue : forall C kp pk c ex iss now, cert_issue C kp pk c ex iss now = Panic <-> ~ before ex iss /\
  (c = [] \/ (exists t0 i, hd_error c = Some t0 /\ cert_verify C c [issued_for t0] now = Ok tt /\ key_at c i (kp_public C kp)) /\ @trust_create C unit kp pk ex iss = Panic).
Proof. exact p_C210_issue. Qed.
Print Assumptions C210_issue.

(** [Certificate::new_from_root_trust] and [Certificate::verify] never panic. *)
Theorem C210_checks : forall C t u c roots now, cert_new_from_root_trust C t u now <> Panic /\ cert_verify C c roots now <> Panic.
Proof. exact p_C210_checks. Qed.
Print Assumptions C210_checks.

(** Converting libp2p keys and pairs of kinds this build does not have panics. *)
Theorem C210_other_kinds : forall C, (forall k, lk_kind k = L_Ecdsa \/ (lk_kind k = L_Rsa /\ wasm32 C = true) -> of_lib_key C k = Panic) /\
  (forall p, lp_kind p = L_Ecdsa \/ (lp_kind p = L_Rsa /\ wasm32 C = true) -> of_lib_pair C p = Panic).
Proof. exact p_C210_other_kinds. Qed.
Print Assumptions C210_other_kinds.

(** An RSA pair that cannot sign: everything that signs with it panics. With another pair nothing does, unless the certificate to prolong is empty. *)
Example C210_example_mute : crypto_laws mute /\ kp_valid mute (mk_kp Rsa []) /\ @trust_create mute unit (mk_kp Rsa []) (toy_key 2) (from_secs 9) (from_secs 7) = Panic /\
  @revocation_create mute unit (mk_kp Rsa []) (toy_key 2) (from_secs 7) = Panic /\ cert_issue_root mute (mk_kp Rsa []) (toy_key 2) (from_secs 9) (from_secs 7) = Panic /\
  cert_issue_root mute (toy_kp 1) (toy_key 2) (from_secs 9) (from_secs 7) <> Panic /\ cert_issue mute (toy_kp 1) (toy_key 2) [] (from_secs 9) (from_secs 7) (from_secs 8) = Panic /\
  cert_issue_with_trust mute (toy_key 2) (toy_trust 1 2 9 7) [] (from_secs 8) = Panic.
Proof. exact e_C210_mute. Qed.
