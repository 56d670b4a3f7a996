(** Model of service/src: dto.rs, misc.rs, results.rs, service_api.rs. *)
From Coq Require Import List NArith ZArith Bool.
From Coq Require String.
Import String.StringSyntax.
From Verif Require Import Base Text Keys Trust Certificate Relation Storage Graph.
Import ListNotations.
Open Scope N_scope.

(** dto.rs 63-74, 116-127, 36-38. *)
Record dto_trust := mk_dto_trust {
  dt_issued_for : text; dt_expires_at : N; dt_signature : text; dt_sig_type : text; dt_issued_at : N }.
Record dto_revocation := mk_dto_revocation {
  dr_revoked_peer_id : text; dr_revoked_at : N; dr_signature : text; dr_sig_type : text; dr_revoked_by : text }.
Definition dto_certificate := list dto_trust.
(** [#[derive(Default)]]. dto.rs 62, 115. *)
Definition dto_trust_default : dto_trust := mk_dto_trust [] 0 [] [] 0.
Definition dto_revocation_default : dto_revocation := mk_dto_revocation [] 0 [] [] [].

(** dto.rs 12-33. *)
Inductive dto_error := DTO_Base58 (e : b58_error) | DTO_PeerIdDecodeError | DTO_InvalidKeyFormat (e : key_format_error).

(** service/src/error.rs 22-64; message strings dropped. *)
Inductive service_error :=
| SVE_PublicKeyExtractionError
| SVE_PublicKeyDecodeError (e : decoding_error)
| SVE_TGError (e : graph_error)
| SVE_CertError (e : certificate_error)
| SVE_DtoError (e : dto_error)
| SVE_TrustError (e : trust_error)
| SVE_InvalidTimestampTetraplet
| SVE_InvalidTimestamp
| SVE_NotOwner.

(** marine [SecurityTetraplet] and [CallParameters]; fields the service does not read dropped. Read in misc.rs 31-46 and service_api.rs 20-22, 110-122. *)
Record tetraplet := mk_tetraplet { tp_peer_pk : text; tp_service_id : text; tp_function_name : text }.
Record call_params := mk_params {
  init_peer_id : text; service_creator_peer_id : text; host_id : text; tetraplets : list (list tetraplet) }.

(** main.rs [TRUSTED_TIMESTAMP]. main.rs 17. *)
Definition TRUSTED_TIMESTAMP : text * text := (str "peer", str "timestamp_sec").

(** [check_timestamp_tetraplets], misc.rs 31-46. *)
Definition check_timestamp_tetraplets (cp : call_params) (arg : nat) : result service_error unit :=
  match nth_error (tetraplets cp) arg with
  | None => Err SVE_InvalidTimestampTetraplet
  | Some [] => Err SVE_InvalidTimestampTetraplet
  | Some (t :: _) =>
      if bytes_eqb (fst TRUSTED_TIMESTAMP) (tp_service_id t)
         && bytes_eqb (snd TRUSTED_TIMESTAMP) (tp_function_name t)
         && bytes_eqb (tp_peer_pk t) (host_id cp)
      then Ok tt else Err SVE_InvalidTimestampTetraplet
  end.

Section WithCrypto.
Variable C : crypto.

(** [parse_peer_id] and [extract_public_key], misc.rs 48-51 and 71-77. *)
Definition extract_public_key (peer_id : text) : result service_error public_key :=
  match peer_id_from_str C peer_id with
  | None => Err SVE_PublicKeyExtractionError
  | Some p => map_err SVE_PublicKeyDecodeError (pk_of_peer_id C p)
  end.

(** dto.rs 80-83, 133-141: peer id text to public key. *)
Definition dto_key (s : text) : result dto_error public_key :=
  match peer_id_from_str C s with
  | None => Err DTO_PeerIdDecodeError
  | Some p => map_err (fun _ => DTO_PeerIdDecodeError) (pk_of_peer_id C p)
  end.

(** dto.rs 84-85, 142-143. *)
Definition dto_sig (sig_text sig_type : text) : result dto_error signature :=
  let? b := map_err DTO_Base58 (b58_decode sig_text) in
  let? f := map_err DTO_InvalidKeyFormat (fmt_of_text C sig_type) in
  Ok (sig_from_bytes f b).

(** [TryFrom<dto::Trust> for Trust], dto.rs 76-95. *)
Definition trust_of_dto (t : dto_trust) : result dto_error trust :=
  let? k := dto_key (dt_issued_for t) in
  let? s := dto_sig (dt_signature t) (dt_sig_type t) in
  Ok (mk_trust k (from_secs (dt_expires_at t)) s (from_secs (dt_issued_at t))).

(** [From<Trust> for dto::Trust], dto.rs 97-112. *)
Definition dto_of_trust (t : trust) : dto_trust :=
  mk_dto_trust (peer_id_to_base58 (pk_to_peer_id C (issued_for t))) (secs (expires_at t))
    (b58_encode (sig_raw (trust_sig t))) (fmt_text (sig_fmt (trust_sig t))) (secs (issued_at t)).

(** dto.rs 40-59. *)
Definition cert_of_dto (c : dto_certificate) : result dto_error certificate := collect trust_of_dto c.
Definition dto_of_cert (c : certificate) : dto_certificate := map dto_of_trust c.

(** [TryFrom<dto::Revocation> for Revocation], dto.rs 129-152. *)
Definition revocation_of_dto (r : dto_revocation) : result dto_error revocation :=
  let? k := dto_key (dr_revoked_peer_id r) in
  let? b := dto_key (dr_revoked_by r) in
  let? s := dto_sig (dr_signature r) (dr_sig_type r) in
  Ok (mk_rev k (from_secs (dr_revoked_at r)) b s).

(** [From<Revocation> for dto::Revocation], dto.rs 154-169. *)
Definition dto_of_revocation (v : revocation) : dto_revocation :=
  mk_dto_revocation (peer_id_to_base58 (pk_to_peer_id C (rev_pk v))) (secs (revoked_at v))
    (b58_encode (sig_raw (rev_sig v))) (fmt_text (sig_fmt (rev_sig v)))
    (peer_id_to_base58 (pk_to_peer_id C (revoked_by v))).

(** results.rs: every result struct has [success], [error] and at most one payload; the
    [error] string is kept as the error value ([None] = empty string). results.rs 5-282. *)
Inductive payload :=
| P_none
| P_weight (w : N) (peer_id : text)                (* WeightResult *)
| P_certs (cs : list dto_certificate)              (* AllCertsResult *)
| P_bytes (b : bytes)                              (* GetTrustBytesResult, GetRevokeBytesResult *)
| P_trust (t : dto_trust)                          (* IssueTrustResult *)
| P_added (w : N)                                  (* AddTrustResult *)
| P_revocation (r : dto_revocation)                (* IssueRevocationResult *)
| P_revocations (rs : list dto_revocation).        (* ExportRevocationsResult *)
Record response := mk_response { success : bool; error : option service_error; reply : payload }.

(** The [From<Result<_, ServiceError>>] impls of results.rs 11-24, 34-51, 60-75, 83-96, 105-120, 129-144, 152-165,
    174-189, 198-213, 222-237, 245-258, 267-282: [dflt] is the payload on error. *)
Definition into_result {A} (ok : A -> payload) (dflt : payload) (r : result service_error A)
  : result Empty_set response :=
  match r with
  | Ok a => Ok (mk_response true None (ok a))
  | Err e => Ok (mk_response false (Some e) dflt)
  | Panic => Panic
  | OutOfFuel => OutOfFuel
  end.
Definition into {A} (ok : A -> payload) (dflt : payload) (m : M service_error A) : M Empty_set response :=
  fun w => match m w with (r, w') => (into_result ok dflt r, w') end.

Definition tg {A} (m : M graph_error A) : M service_error A := mmap_err SVE_TGError m.

(** service_api.rs 19-35. *)
Definition api_set_root (cp : call_params) (peer_id : text) (max_chain_len : N) : M Empty_set response :=
  if bytes_eqb (service_creator_peer_id cp) (init_peer_id cp) then
    into (fun _ => P_none) P_none
      (let! k := lift (extract_public_key peer_id) in tg (set_root k max_chain_len))
  else ret (mk_response false (Some SVE_NotOwner) P_none).

(** service_api.rs 40-48. *)
Definition api_insert_cert_raw (c : text) (timestamp_sec : N) : M Empty_set response :=
  into (fun _ => P_none) P_none
    (let! c := lift (map_err SVE_CertError (cert_from_str C c)) in
     tg (add C c (from_secs timestamp_sec))).

(** service_api.rs 53-63. *)
Definition api_insert_cert (c : dto_certificate) (timestamp_sec : N) : M Empty_set response :=
  into (fun _ => P_none) P_none
    (let! c := lift (map_err SVE_DtoError (cert_of_dto c)) in
     tg (add C c (from_secs timestamp_sec))).

(** service_api.rs 65-73. *)
Definition get_certs (p : text) (timestamp_sec : N) : M service_error (list dto_certificate) :=
  let! k := lift (extract_public_key p) in
  let! cs := tg (get_all_certs C k (from_secs timestamp_sec)) in
  ret (map dto_of_cert cs).

(** service_api.rs 75-86. *)
Definition get_certs_from (p issuer : text) (timestamp_sec : N) : M service_error (list dto_certificate) :=
  let! k := lift (extract_public_key p) in
  let! i := lift (extract_public_key issuer) in
  let! cs := tg (get_all_certs_from C k i (from_secs timestamp_sec)) in
  ret (map dto_of_cert cs).

(** service_api.rs 89-95. *)
Definition api_get_all_certs (cp : call_params) (p : text) (timestamp_sec : N) : M Empty_set response :=
  into P_certs (P_certs [])
    (let! _ := lift (check_timestamp_tetraplets cp 1) in get_certs p timestamp_sec).

(** service_api.rs 98-105. *)
Definition api_get_all_certs_from (cp : call_params) (p issuer : text) (timestamp_sec : N) : M Empty_set response :=
  into P_certs (P_certs [])
    (let! _ := lift (check_timestamp_tetraplets cp 2) in get_certs_from p issuer timestamp_sec).

(** service_api.rs 108-115. *)
Definition api_get_host_certs (cp : call_params) (timestamp_sec : N) : M Empty_set response :=
  into P_certs (P_certs [])
    (let! _ := lift (check_timestamp_tetraplets cp 0) in get_certs (host_id cp) timestamp_sec).

(** service_api.rs 118-125. *)
Definition api_get_host_certs_from (cp : call_params) (issuer : text) (timestamp_sec : N) : M Empty_set response :=
  into P_certs (P_certs [])
    (let! _ := lift (check_timestamp_tetraplets cp 1) in get_certs_from (host_id cp) issuer timestamp_sec).

(** service_api.rs 128-137. *)
Definition api_get_weight (cp : call_params) (p : text) (timestamp_sec : N) : M Empty_set response :=
  into (fun w => P_weight w p) (P_weight 0 [])
    (let! _ := lift (check_timestamp_tetraplets cp 1) in
     let! k := lift (extract_public_key p) in
     tg (weight C k (from_secs timestamp_sec))).

(** service_api.rs 140-151. The checked argument number is 1, the issuer. *)
Definition api_get_weight_from (cp : call_params) (p issuer : text) (timestamp_sec : N) : M Empty_set response :=
  into (fun w => P_weight w p) (P_weight 0 [])
    (let! _ := lift (check_timestamp_tetraplets cp 1) in
     let! k := lift (extract_public_key p) in
     let! i := lift (extract_public_key issuer) in
     tg (weight_from C k i (from_secs timestamp_sec))).

(** service_api.rs 154-169. *)
Definition api_get_trust_bytes (p : text) (expires issued : N) : M Empty_set response :=
  into P_bytes (P_bytes [])
    (let! k := lift (extract_public_key p) in
     ret (trust_signature_bytes C k (from_secs expires) (from_secs issued))).

(** service_api.rs 172-191. The kind of the signature is taken from the key the trust is for. *)
Definition api_issue_trust (p : text) (expires issued : N) (trust_bytes : bytes) : M Empty_set response :=
  into P_trust (P_trust dto_trust_default)
    (let! k := lift (extract_public_key p) in
     ret (dto_of_trust (mk_trust k (from_secs expires) (sig_from_bytes (pk_fmt k) trust_bytes) (from_secs issued)))).

(** service_api.rs 194-207. *)
Definition api_verify_trust (cp : call_params) (t : dto_trust) (issuer : text) (timestamp_sec : N)
  : M Empty_set response :=
  into (fun _ => P_none) P_none
    (let! _ := lift (check_timestamp_tetraplets cp 2) in
     let! k := lift (extract_public_key issuer) in
     let! t := lift (map_err SVE_DtoError (trust_of_dto t)) in
     lift (map_err SVE_TrustError (trust_verify C t k (from_secs timestamp_sec)))).

(** service_api.rs 210-226. *)
Definition api_add_trust (cp : call_params) (t : dto_trust) (issuer : text) (timestamp_sec : N)
  : M Empty_set response :=
  into P_added (P_added 0)
    (let! k := lift (extract_public_key issuer) in
     let! _ := lift (check_timestamp_tetraplets cp 2) in
     if timestamp_sec <? dt_issued_at t then throw SVE_InvalidTimestamp
     else
       let! t := lift (map_err SVE_DtoError (trust_of_dto t)) in
       tg (add_trust C t k (from_secs timestamp_sec))).

(** service_api.rs 229-238. *)
Definition api_get_revocation_bytes (p : text) (at_ : N) : M Empty_set response :=
  into P_bytes (P_bytes [])
    (let! k := lift (extract_public_key p) in ret (revocation_signature_bytes C k (from_secs at_))).

(** service_api.rs 241-256. *)
Definition api_issue_revocation (by_p p : text) (at_ : N) (signature_bytes : bytes) : M Empty_set response :=
  into P_revocation (P_revocation dto_revocation_default)
    (let! k := lift (extract_public_key p) in
     let! b := lift (extract_public_key by_p) in
     ret (dto_of_revocation (mk_rev k (from_secs at_) b (sig_from_bytes (pk_fmt b) signature_bytes)))).

(** service_api.rs 259-270. *)
Definition api_revoke (cp : call_params) (r : dto_revocation) (timestamp_sec : N) : M Empty_set response :=
  into (fun _ => P_none) P_none
    (let! _ := lift (check_timestamp_tetraplets cp 1) in
     if timestamp_sec <? dr_revoked_at r then throw SVE_InvalidTimestamp
     else
       let! v := lift (map_err SVE_DtoError (revocation_of_dto r)) in
       tg (revoke C v)).

(** service_api.rs 273-283. *)
Definition api_export_revocations (p : text) : M Empty_set response :=
  into P_revocations (P_revocations [])
    (let! k := lift (extract_public_key p) in
     let! vs := tg (graph_get_revocations C k) in
     ret (map dto_of_revocation vs)).

(** The exported functions. service_api.rs 17-283. *)
Inductive service_call :=
| S_set_root (peer_id : text) (max_chain_len : N)
| S_insert_cert_raw (c : text) (timestamp_sec : N)
| S_insert_cert (c : dto_certificate) (timestamp_sec : N)
| S_get_all_certs (p : text) (timestamp_sec : N)
| S_get_all_certs_from (p issuer : text) (timestamp_sec : N)
| S_get_host_certs (timestamp_sec : N)
| S_get_host_certs_from (issuer : text) (timestamp_sec : N)
| S_get_weight (p : text) (timestamp_sec : N)
| S_get_weight_from (p issuer : text) (timestamp_sec : N)
| S_get_trust_bytes (p : text) (expires issued : N)
| S_issue_trust (p : text) (expires issued : N) (b : bytes)
| S_verify_trust (t : dto_trust) (issuer : text) (timestamp_sec : N)
| S_add_trust (t : dto_trust) (issuer : text) (timestamp_sec : N)
| S_get_revocation_bytes (p : text) (at_ : N)
| S_issue_revocation (by_p p : text) (at_ : N) (b : bytes)
| S_revoke (r : dto_revocation) (timestamp_sec : N)
| S_export_revocations (p : text).

Definition service_do (cp : call_params) (c : service_call) : M Empty_set response :=
  match c with
  | S_set_root p n => api_set_root cp p n
  | S_insert_cert_raw c ts => api_insert_cert_raw c ts
  | S_insert_cert c ts => api_insert_cert c ts
  | S_get_all_certs p ts => api_get_all_certs cp p ts
  | S_get_all_certs_from p i ts => api_get_all_certs_from cp p i ts
  | S_get_host_certs ts => api_get_host_certs cp ts
  | S_get_host_certs_from i ts => api_get_host_certs_from cp i ts
  | S_get_weight p ts => api_get_weight cp p ts
  | S_get_weight_from p i ts => api_get_weight_from cp p i ts
  | S_get_trust_bytes p e i => api_get_trust_bytes p e i
  | S_issue_trust p e i b => api_issue_trust p e i b
  | S_verify_trust t i ts => api_verify_trust cp t i ts
  | S_add_trust t i ts => api_add_trust cp t i ts
  | S_get_revocation_bytes p a => api_get_revocation_bytes p a
  | S_issue_revocation b p a s => api_issue_revocation b p a s
  | S_revoke r ts => api_revoke cp r ts
  | S_export_revocations p => api_export_revocations p
  end.

(** One service call: caller, call, fuse. An exported function of service_api.rs 17-283. *)
Definition service_event := (call_params * service_call * option nat)%type.
Definition service_step (d : db) (e : service_event) : result Empty_set response * db :=
  match e with
  | (cp, c, f) => match service_do cp c (mk_world d f) with (r, w) => (r, w_db w) end
  end.
Definition service_history (d : db) (es : list service_event) : db :=
  fold_left (fun d e => snd (service_step d e)) es d.

End WithCrypto.
