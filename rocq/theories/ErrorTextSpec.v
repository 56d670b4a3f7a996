(** What the theorems about the texts of errors speak of. *)
From Coq Require Import List NArith.
From Coq Require String.
Import String.StringSyntax.
From Verif Require Import Base Text Keys Trust Certificate Service ServiceSpec ErrorText.
Import ListNotations.

Definition begins (p s : text) : Prop := exists rest, s = p ++ rest.
Definition clock_words : text := str "you should use host peer.timestamp_sec to pass timestamp:".
(** The words before the text of an error of the database. *)
Definition storage_words : text := str "Internal storage error:".

(** The argument of a call whose origin the service looks at. *)
Definition looked_at (c : service_call) : option nat :=
  match c with
  | S_get_host_certs _ => Some 0
  | S_get_all_certs _ _ | S_get_host_certs_from _ _ | S_get_weight _ _ | S_get_weight_from _ _ _ | S_revoke _ _ => Some 1
  | S_get_all_certs_from _ _ _ | S_verify_trust _ _ _ | S_add_trust _ _ _ => Some 2
  | S_set_root _ _ | S_insert_cert_raw _ _ | S_insert_cert _ _ | S_get_trust_bytes _ _ _ | S_issue_trust _ _ _ _
  | S_get_revocation_bytes _ _ | S_issue_revocation _ _ _ _ | S_export_revocations _ => None
  end%nat.
(** It was not made by the host's clock. *)
Definition not_from_clock (cp : call_params) (c : service_call) : Prop := exists arg, looked_at c = Some arg /\ ~ host_time cp arg.
(** The kinds of signatures a caller writes into the records of a call. *)
Definition kinds_given (c : service_call) : list text :=
  match c with
  | S_insert_cert rs _ => map dt_sig_type rs
  | S_verify_trust r _ _ | S_add_trust r _ _ => [dt_sig_type r]
  | S_revoke r _ => [dr_sig_type r]
  | _ => []
  end.
(** [add_trust] reads the issuer before it looks at the clock. *)
Definition issuer_readable (C : crypto) (c : service_call) : Prop :=
  match c with S_add_trust _ i _ => exists k, peer_key C i k | _ => True end.

(** The message about an expired trust. *)
Definition expired_message (expires now : duration) : text :=
  str "Trust is expired at: '" ++ duration_debug expires ++ str "', current time: '" ++ duration_debug now ++ str "'".
(** A duration as Rust's type has it. *)
Definition a_duration (d : duration) : Prop := (nanos d < 1000000000)%N.
(** The trusts a call offers to the graph. *)
Definition offered (C : crypto) (c : service_call) (t : trust) : Prop :=
  match c with
  | S_add_trust r _ _ => trust_record C r t
  | S_insert_cert rs _ => exists r, In r rs /\ trust_record C r t
  | S_insert_cert_raw s _ => exists ch, cert_from_str C s = Ok ch /\ In t ch
  | _ => False
  end.
(** The current time given to it. *)
Definition offered_at (c : service_call) : duration :=
  match c with
  | S_add_trust _ _ ts | S_insert_cert _ ts | S_insert_cert_raw _ ts => from_secs ts
  | _ => from_secs 0
  end.
