(** Specification of peer ids: base-128 numbers, protobuf messages, and calls that differ only in how peer ids are spelled. *)
From Coq Require Import List NArith ZArith Bool.
From Verif Require Import Base Text Keys Convert ConvertSpec Service.
Import ListNotations.
Open Scope N_scope.

(** ** The protobuf wire format *)
(** A number in groups of seven bits, the least significant first; every byte but the last has the top bit. *)
Inductive groups_of : N -> bytes -> Prop :=
| last_group : forall x, N_of_u8 x < 128 -> groups_of (N_of_u8 x) [x]
| more_groups : forall x n b, 128 <= N_of_u8 x -> groups_of n b -> groups_of (N_of_u8 x - 128 + 128 * n) (x :: b).
Definition varint (n : N) (b : bytes) : Prop := groups_of n b /\ (length b <= 10)%nat.

(** A field has a number below 2^29 and a value: a number, bytes, or four or eight bytes. *)
Inductive field :=
| Number (no v : N) | Chunk (no : N) (data : bytes) | Word (no : N) (data : bytes) | Long (no : N) (data : bytes).
Inductive field_of : field -> bytes -> Prop :=
| a_number : forall no v t n, no < 2 ^ 29 -> v < 2 ^ 32 -> varint (8 * no) t -> varint v n -> field_of (Number no v) (t ++ n)
| a_long : forall no d t, no < 2 ^ 29 -> len d = 8 -> varint (8 * no + 1) t -> field_of (Long no d) (t ++ d)
| a_chunk : forall no d t l, no < 2 ^ 29 -> len d < 2 ^ 32 -> varint (8 * no + 2) t -> varint (len d) l -> field_of (Chunk no d) (t ++ l ++ d)
| a_word : forall no d t, no < 2 ^ 29 -> len d = 4 -> varint (8 * no + 5) t -> field_of (Word no d) (t ++ d).
Inductive message_of : list field -> bytes -> Prop :=
| no_field : message_of [] []
| a_field : forall f fs b bs, field_of f b -> message_of fs bs -> message_of (f :: fs) (b ++ bs).

(** The message PublicKey of libp2p: field 1 is the kind of the key, field 2 the key. The last field of a number counts. *)
Definition kind_in (fs : list field) : N := fold_left (fun k f => match f with Number 1 v => v | _ => k end) fs 0.
Definition data_in (fs : list field) : bytes := fold_left (fun d f => match f with Chunk 2 x => x | _ => d end) fs [].

(** ** Laws of the signature schemes: those of [crypto_laws] that are not about peer ids. *)
Record scheme_laws (C : crypto) : Prop := mk_scheme_laws {
  scheme_sha_len : forall m, len (sha256 C m) = 32;
  scheme_ed_public : forall sk, len sk = 32 -> len (ed_public C sk) = 32 /\ ed_point C (ed_public C sk) = true;
  scheme_ed_sign : forall sk m, len sk = 32 -> ed_verify C (ed_public C sk) m (ed_sign C sk m) = true;
  scheme_secp_public : forall sk, len sk = 32 -> secp_scalar C sk = true ->
      len (secp_public C sk) = 33 /\ secp_point C (secp_public C sk) = true;
  scheme_secp_sign : forall sk h, len sk = 32 -> secp_scalar C sk = true -> len h = 32 ->
      secp_der C (secp_sign C sk h) = true /\
      secp_verify C (secp_public C sk) h (secp_sign C sk h) = true;
  scheme_rsa_sign : forall sk m s, rsa_sign C sk m = Some s -> rsa_verify C (rsa_public C sk) m s = true
}.

(** ** Spellings *)
(** Two texts that stand for one key. *)
Definition one_key (C : crypto) (p q : text) : Prop :=
  exists k, extract_public_key C p = Ok k /\ extract_public_key C q = Ok k.
Definition trust_respelled (C : crypto) (t u : dto_trust) : Prop :=
  one_key C (dt_issued_for t) (dt_issued_for u) /\ dt_expires_at t = dt_expires_at u /\ dt_signature t = dt_signature u /\
  dt_sig_type t = dt_sig_type u /\ dt_issued_at t = dt_issued_at u.
Definition revocation_respelled (C : crypto) (r s : dto_revocation) : Prop :=
  one_key C (dr_revoked_peer_id r) (dr_revoked_peer_id s) /\ dr_revoked_at r = dr_revoked_at s /\
  dr_signature r = dr_signature s /\ dr_sig_type r = dr_sig_type s /\ one_key C (dr_revoked_by r) (dr_revoked_by s).
(** The same call with other spellings of its peer ids. *)
Inductive respelled (C : crypto) : service_call -> service_call -> Prop :=
| rs_set_root : forall p q n, one_key C p q -> respelled C (S_set_root p n) (S_set_root q n)
| rs_insert_cert_raw : forall c ts, respelled C (S_insert_cert_raw c ts) (S_insert_cert_raw c ts)
| rs_insert_cert : forall c d ts, Forall2 (trust_respelled C) c d -> respelled C (S_insert_cert c ts) (S_insert_cert d ts)
| rs_get_all_certs : forall p q ts, one_key C p q -> respelled C (S_get_all_certs p ts) (S_get_all_certs q ts)
| rs_get_all_certs_from : forall p q i j ts, one_key C p q -> one_key C i j ->
    respelled C (S_get_all_certs_from p i ts) (S_get_all_certs_from q j ts)
| rs_get_host_certs : forall ts, respelled C (S_get_host_certs ts) (S_get_host_certs ts)
| rs_get_host_certs_from : forall i j ts, one_key C i j -> respelled C (S_get_host_certs_from i ts) (S_get_host_certs_from j ts)
| rs_get_weight : forall p q ts, one_key C p q -> respelled C (S_get_weight p ts) (S_get_weight q ts)
| rs_get_weight_from : forall p q i j ts, one_key C p q -> one_key C i j ->
    respelled C (S_get_weight_from p i ts) (S_get_weight_from q j ts)
| rs_get_trust_bytes : forall p q e i, one_key C p q -> respelled C (S_get_trust_bytes p e i) (S_get_trust_bytes q e i)
| rs_issue_trust : forall p q e i b, one_key C p q -> respelled C (S_issue_trust p e i b) (S_issue_trust q e i b)
| rs_verify_trust : forall t u i j ts, trust_respelled C t u -> one_key C i j ->
    respelled C (S_verify_trust t i ts) (S_verify_trust u j ts)
| rs_add_trust : forall t u i j ts, trust_respelled C t u -> one_key C i j ->
    respelled C (S_add_trust t i ts) (S_add_trust u j ts)
| rs_get_revocation_bytes : forall p q a, one_key C p q -> respelled C (S_get_revocation_bytes p a) (S_get_revocation_bytes q a)
| rs_issue_revocation : forall b c p q a s, one_key C b c -> one_key C p q ->
    respelled C (S_issue_revocation b p a s) (S_issue_revocation c q a s)
| rs_revoke : forall r s ts, revocation_respelled C r s -> respelled C (S_revoke r ts) (S_revoke s ts)
| rs_export_revocations : forall p q, one_key C p q -> respelled C (S_export_revocations p) (S_export_revocations q).

(** The same answer; a weight is told together with the peer id as it was spelled in the call. *)
Definition same_reply (a b : payload) : Prop :=
  a = b \/ exists w p q, a = P_weight w p /\ b = P_weight w q.
Definition same_response (a b : result Empty_set response) : Prop :=
  a = b \/ exists x y, a = Ok x /\ b = Ok y /\ success x = success y /\ error x = error y /\ same_reply (reply x) (reply y).
