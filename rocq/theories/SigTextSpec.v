(** What the theorems about the messages of wrong signatures speak of. *)
From Coq Require Import List NArith.
From Coq Require String.
Import String.StringSyntax.
From Verif Require Import Base Text Keys Trust Certificate Relation Service Spec ServiceSpec ErrorText.
Import ListNotations.
Open Scope N_scope.

(** The name of the kind of a key, and what the library of this kind says. *)
Definition kind_name (k : public_key) : text :=
  match pk_fmt k with Ed25519 => str "ed25519" | Rsa => str "RSA" | Secp256k1 => str "secp256k1" end.
Definition kind_says (F : foreign) (k : public_key) : text :=
  F match pk_fmt k with Ed25519 => H_dalek | Rsa => H_ring | Secp256k1 => H_secp end.
(** The message about a signature that is not one of [k]. *)
Definition signature_words : text := str "Failed to verify signature".
Definition signature_message (F : foreign) (k : public_key) : text :=
  signature_words ++ str " " ++ F H_signature ++ str " with " ++ F H_public_key ++ str " " ++ kind_name k ++ str " public key: " ++ kind_says F k.
Definition revoke_words : text := str "Error on revoking a trust:".
Definition offer_words : text := str "Trust verification error: ".

(** A revocation that the service looks at and that is not signed by its revoker. *)
Definition unsigned_revocation (C : crypto) (cp : call_params) (c : service_call) (v : revocation) : Prop :=
  exists r ts, c = S_revoke r ts /\ host_time cp 1 /\ dr_revoked_at r <= ts /\ revocation_record C r v /\ ~ signed_revocation C v.
(** A trust to be verified, not expired, and not signed by the key [k] of the given issuer. *)
Definition unsigned_checked (C : crypto) (cp : call_params) (c : service_call) (k : public_key) : Prop :=
  exists r i ts t, c = S_verify_trust r i ts /\ host_time cp 2 /\ peer_key C i k /\ trust_record C r t /\ ts <= dt_expires_at r /\ ~ signed_trust C k t.
(** A trust to be added, not expired, not from the future, and not signed by the key [k] of the given issuer. *)
Definition unsigned_added (C : crypto) (cp : call_params) (c : service_call) (k : public_key) : Prop :=
  exists r i ts t, c = S_add_trust r i ts /\ host_time cp 2 /\ peer_key C i k /\ trust_record C r t /\ dt_issued_at r <= ts <= dt_expires_at r /\ ~ signed_trust C k t.
(** The certificate that an insertion brings. *)
Definition inserted (C : crypto) (c : service_call) (ch : certificate) : Prop :=
  match c with
  | S_insert_cert r _ => certificate_record C r ch
  | S_insert_cert_raw s _ => cert_from_str C s = Ok ch
  | _ => False
  end.
Definition inserted_at (c : service_call) : duration :=
  match c with S_insert_cert _ ts | S_insert_cert_raw _ ts => from_secs ts | _ => from_secs 0 end.
(** The key that has to have signed the trust at position [i]: the one trusted before it, for the first trust the trusted key itself. *)
Definition signer_at (c : certificate) (i : nat) (k : public_key) : Prop :=
  match i with O => key_at c 0 k | S j => key_at c j k end.
