(** Model of trust-graph/src/certificate.rs and certificate_serde.rs. *)
From Coq Require Import List NArith ZArith Bool.
From Verif Require Import Base Text Keys Trust.
Import ListNotations.
Open Scope N_scope.

(** certificate.rs 39-41: [Certificate { chain }]; represented by the chain. *)
Definition certificate := list trust.

(** certificate.rs 31-34. *)
Definition FORMAT : bytes := [x00; x00].
Definition VERSION : bytes := [x00; x00; x00; x00].

(** certificate.rs 43-70; message strings dropped. *)
Inductive certificate_error :=
| CE_IncorrectCertificateFormat (s : text)
| CE_DecodeError (e : trust_error)
| CE_ExpirationError (expires issued : duration)
| CE_NoTrustedRoot
| CE_MalformedRoot (e : trust_error)
| CE_KeyInCertificateError
| CE_CertificateLengthError
| CE_DecodeTrustError (i : nat) (e : trust_error)
| CE_VerificationError (i : nat) (e : trust_error).

Section WithCrypto.
Variable C : crypto.

(** certificate.rs 223-230: the loop over [(1..chain.len()).rev()], from index [i] down to 1.
    [chain[i]] is in bounds. *)
Fixpoint cert_verify_from (chain : list trust) (i : nat) (cur_time : duration) : result certificate_error unit :=
  match i with
  | O => Ok tt
  | S j =>
      match nth_error chain i, nth_error chain j with
      | Some t, Some giver =>
          let? _ := map_err (CE_VerificationError i) (trust_verify C t (issued_for giver) cur_time) in
          cert_verify_from chain j cur_time
      | _, _ => Panic
      end
  end.

(** [Certificate::verify], certificate.rs 204-233. *)
Definition cert_verify (chain : certificate) (trusted_roots : list public_key) (cur_time : duration)
  : result certificate_error unit :=
  match chain with
  | [] => Err CE_CertificateLengthError
  | root :: _ =>
      let? _ := map_err CE_MalformedRoot (trust_verify C root (issued_for root) cur_time) in
      if existsb (pk_eqb (issued_for root)) trusted_roots
      then cert_verify_from chain (length chain - 1) cur_time
      else Err CE_NoTrustedRoot
  end.

(** [Certificate::new_from_root_trust], certificate.rs 77-89. *)
Definition cert_new_from_root_trust (root_trust issued_trust : trust) (cur_time : duration)
  : result certificate_error certificate :=
  let? _ := map_err CE_MalformedRoot (trust_verify C root_trust (issued_for root_trust) cur_time) in
  let? _ := map_err (CE_VerificationError 1) (trust_verify C issued_trust (issued_for root_trust) cur_time) in
  Ok [root_trust; issued_trust].

(** certificate.rs 110-115 and 178-183: last index whose trust is for [pk], -1 if none. The
    index is cast to i32; modelled without wrap (chains shorter than 2^31). *)
Fixpoint last_index_of (pk : public_key) (chain : list trust) (i : nat) (acc : option nat) : option nat :=
  match chain with
  | [] => acc
  | t :: chain' => last_index_of pk chain' (S i) (if pk_eqb (issued_for t) pk then Some i else acc)
  end.

(** certificate.rs 104-126 and 169-194, shared by [issue_with_trust] and [issue]: verify
    the certificate against its own first key ([extend_cert.chain[0]] panics on an
    empty chain), find the issuer, cut the chain after it. *)
Definition cert_prefix_for (by_pk : public_key) (extend_cert : certificate) (cur_time : duration)
  : result certificate_error certificate :=
  match extend_cert with
  | [] => Panic
  | t0 :: _ =>
      let? _ := cert_verify extend_cert [issued_for t0] cur_time in
      match last_index_of by_pk extend_cert 0 None with
      | None => Err CE_KeyInCertificateError
      | Some i => Ok (firstn (i + 1) extend_cert)
      end
  end.

(** [Certificate::issue_with_trust], certificate.rs 91-131. *)
Definition cert_issue_with_trust (by_pk : public_key) (t : trust) (extend_cert : certificate) (cur_time : duration)
  : result certificate_error certificate :=
  if duration_ltb (expires_at t) (issued_at t) then Err (CE_ExpirationError (expires_at t) (issued_at t))
  else
    let? new_chain := cert_prefix_for by_pk extend_cert cur_time in
    Ok (new_chain ++ [t]).

(** [Certificate::issue_root], certificate.rs 135-149. *)
Definition cert_issue_root (root_kp : keypair) (for_pk : public_key) (expires issued : duration)
  : result certificate_error certificate :=
  let? root_trust := trust_create C root_kp (kp_public C root_kp) (from_secs u64_max) issued in
  let? t := trust_create C root_kp for_pk expires issued in
  Ok [root_trust; t].

(** [Certificate::issue], certificate.rs 153-201. *)
Definition cert_issue (by_kp : keypair) (for_pk : public_key) (extend_cert : certificate)
  (expires issued cur_time : duration) : result certificate_error certificate :=
  if duration_ltb expires issued then Err (CE_ExpirationError expires issued)
  else
    let? new_chain := cert_prefix_for (kp_public C by_kp) extend_cert cur_time in
    let? t := trust_create C by_kp for_pk expires issued in
    Ok (new_chain ++ [t]).

(** [Certificate::encode], certificate.rs 238-251. *)
Definition cert_encode (chain : certificate) : bytes :=
  FORMAT ++ VERSION ++ u8_of_N (N.of_nat (length chain)) ::
  flat_map (fun t => let e := trust_encode t in u8_of_N (len e) :: e) chain.

(** [Certificate::check_arr_len], certificate.rs 253-259. *)
Definition cert_check_arr_len (arr : bytes) (n : N) : result certificate_error unit :=
  if len arr <? n then Err CE_CertificateLengthError else Ok tt.

(** certificate.rs 280-290: [n] iterations from [offset]. *)
Fixpoint cert_decode_trusts (arr : bytes) (n : nat) (offset : N) : result certificate_error (list trust) :=
  match n with
  | O => Ok []
  | S n' =>
      let? _ := cert_check_arr_len arr (offset + 1) in
      let? trust_len_byte := index arr offset in
      let trust_len := N_of_u8 trust_len_byte in
      let from := offset + 1 in
      let to := from + trust_len in
      let? _ := cert_check_arr_len arr to in
      let? sl := slice arr from to in
      let? t := map_err CE_DecodeError (trust_decode C sl) in
      let? rest := cert_decode_trusts arr n' (offset + (1 + trust_len)) in
      Ok (t :: rest)
  end.

(** [Certificate::decode], certificate.rs 262-293. Format and version are skipped unread. *)
Definition cert_decode (arr : bytes) : result certificate_error certificate :=
  let? _ := cert_check_arr_len arr 7 in
  let? number_byte := index arr 6 in
  let number := N_of_u8 number_byte in
  if number <? 2 then Err CE_CertificateLengthError
  else cert_decode_trusts arr (N.to_nat number) 7.

(** [Display for Certificate], certificate.rs 296-305. *)
Definition cert_to_string (chain : certificate) : text :=
  b58_encode FORMAT ++ [x0a] ++ b58_encode VERSION ++ [x0a] ++
  flat_map (fun t => trust_to_string t ++ [x0a]) chain.

(** certificate.rs 324-334: lines taken four at a time from line [i] on. A remainder
    cannot occur (checked before); [str_lines[i + 1]] would panic. *)
Fixpoint cert_parse_trusts (ls : list text) (i : nat) : result certificate_error (list trust) :=
  match ls with
  | [] => Ok []
  | a :: b :: c :: d :: ls' =>
      let? t := map_err (CE_DecodeTrustError i) (trust_from_strings C a b c d) in
      let? ts := cert_parse_trusts ls' (i + 4) in
      Ok (t :: ts)
  | _ => Panic
  end.

(** [FromStr for Certificate], certificate.rs 307-338. [str_lines[0]] and [str_lines[1]] panic
    on fewer than two lines. *)
Definition cert_from_str (s : text) : result certificate_error certificate :=
  match lines s with
  | _format :: _version :: ls =>
      if Nat.eqb (Nat.modulo (length ls) 4) 0
      then cert_parse_trusts ls 2
      else Err (CE_IncorrectCertificateFormat s)
  | _ => Panic
  end.

(** certificate_serde.rs [vec::serialize]/[vec::deserialize] 46-70: a list of strings. *)
Definition certs_serialize (cs : list certificate) : list text := map cert_to_string cs.
Definition certs_deserialize (l : list text) : result certificate_error (list certificate) :=
  collect cert_from_str l.

End WithCrypto.
