(** Specifications used in the statements of the property theorems. Nothing here refers to the
    algorithms of the model: only to its data types, to what the two database tables contain and to
    what a public key accepts. *)
From Coq Require Import List NArith ZArith Bool Permutation.
From Verif Require Import Base Text Keys Trust Certificate Relation Storage Graph.
Import ListNotations.
Open Scope N_scope.

(** * Time *)
(** [a] is strictly before [b]. *)
Definition before (a b : duration) : Prop :=
  secs a < secs b \/ (secs a = secs b /\ nanos a < nanos b).

(** * Signatures *)
(** What the signature scheme of the key says, for each kind of key. secp256k1 signs the SHA-256
    of the message and its signatures are DER encoded. *)
Definition scheme_accepts (C : crypto) (k : public_key) (msg sig : bytes) : Prop :=
  match pk_fmt k with
  | Ed25519 => ed_verify C (pk_raw k) msg sig = true
  | Rsa => rsa_verify C (pk_raw k) msg sig = true
  | Secp256k1 => secp_der C sig = true /\ secp_verify C (pk_raw k) (sha256 C msg) sig = true
  end.

(** The message signed for a trust: SHA-256 of key, expiry second, creation second. *)
Definition trust_message (C : crypto) (t : trust) : bytes :=
  sha256 C (pk_encode (issued_for t) ++ le_bytes 8 (secs (expires_at t)) ++ le_bytes 8 (secs (issued_at t))).
(** The message signed for a revocation: SHA-256 of key length, key, second. *)
Definition revocation_message (C : crypto) (v : revocation) : bytes :=
  sha256 C (u8_of_N (len (pk_encode (rev_pk v))) :: pk_encode (rev_pk v) ++ le_bytes 8 (secs (revoked_at v))).

(** [PublicKey::verify] of key [k] accepts the signature in the trust / revocation. *)
Definition signed_trust (C : crypto) (k : public_key) (t : trust) : Prop :=
  pk_verify C k (trust_message C t) (trust_sig t) = Ok tt.
Definition signed_revocation (C : crypto) (v : revocation) : Prop :=
  pk_verify C (revoked_by v) (revocation_message C v) (rev_sig v) = Ok tt.

(** * Values *)
(** A trust about a key the build accepts, with a signature of a kind it accepts and whole-second
    times (all the formats hold). *)
Definition trust_fits (C : crypto) (t : trust) : Prop :=
  pk_valid C (issued_for t) /\ sig_valid C (trust_sig t) /\ whole_secs (expires_at t) /\ whole_secs (issued_at t).

(** A trust inside an encoded certificate: a length byte and its encoding. *)
Definition enc1 (t : trust) : bytes := u8_of_N (len (trust_encode t)) :: trust_encode t.

(** * Certificates *)
(** Position [i] of [c] holds [t]. *)
Definition at_pos {A} (c : list A) (i : nat) (t : A) : Prop := nth_error c i = Some t.
(** [k] is the key of the trust at position [i]. *)
Definition key_at (c : certificate) (i : nat) (k : public_key) : Prop :=
  exists t, at_pos c i t /\ issued_for t = k.

(** A valid certificate for a set of roots at a time. *)
Definition valid_certificate (C : crypto) (c : certificate) (roots : list public_key) (now : duration) : Prop :=
  c <> [] /\
  (forall t, at_pos c 0 t -> In (issued_for t) roots /\ signed_trust C (issued_for t) t) /\
  (forall i g t, at_pos c i g -> at_pos c (S i) t -> signed_trust C (issued_for g) t) /\
  (forall i t, at_pos c i t -> ~ before (expires_at t) now).

(** What is wrong with trust [t] as given by key [k] at a time. *)
Definition trust_defect (C : crypto) (k : public_key) (t : trust) (now : duration) (e : trust_error) : Prop :=
  (before (expires_at t) now /\ e = TE_Expired (expires_at t) now) \/
  (~ before (expires_at t) now /\ ~ signed_trust C k t /\ exists ve, e = TE_SignatureError ve).

(** The trust at position [i + 1] is good. *)
Definition good_link (C : crypto) (c : certificate) (now : duration) (i : nat) : Prop :=
  exists g t, at_pos c i g /\ at_pos c (S i) t /\ signed_trust C (issued_for g) t /\ ~ before (expires_at t) now.

(** [i] is the last position of key [k] in [c]. *)
Definition last_pos (c : certificate) (k : public_key) (i : nat) : Prop :=
  key_at c i k /\ forall j, (i < j)%nat -> ~ key_at c j k.

(** * Contents of the store *)
Definition key_text (k : public_key) : text := b58_encode (pk_encode k).

(** The store holds trust [t] given by [by_pk]: the table has its row. Times in the table are
    whole seconds. *)
Definition stored_trust (d : db) (by_pk : public_key) (t : trust) : Prop :=
  whole_secs (expires_at t) /\ whole_secs (issued_at t) /\
  In (mk_row 0 (key_text (issued_for t)) (key_text by_pk) (i64_of_u64 (secs (issued_at t)))
        (i64_of_u64 (secs (expires_at t))) (sig_encode (trust_sig t))) (tbl_relations d).
(** The store holds revocation [v]. *)
Definition stored_revocation (d : db) (v : revocation) : Prop :=
  whole_secs (revoked_at v) /\
  In (mk_row 1 (key_text (rev_pk v)) (key_text (revoked_by v)) (i64_of_u64 (secs (revoked_at v))) 0
        (sig_encode (rev_sig v))) (tbl_relations d).
(** Either. *)
Definition stored (d : db) (x : relation) : Prop :=
  match x with
  | RAuth a => stored_trust d (issued_by a) (auth_trust a)
  | RRev v => stored_revocation d v
  end.

(** Roots. The number stored is 16 - max_chain_len; the first row of a key is the one used. *)
Fixpoint first_row (rows : list (text * Z)) (k : text) : option Z :=
  match rows with
  | [] => None
  | (t, w) :: rows' => if bytes_eqb t k then Some w else first_row rows' k
  end.
Definition is_root (d : db) (k : public_key) : Prop := In (key_text k) (map fst (tbl_roots d)).
Definition root_max_len (d : db) (k : public_key) (m : N) : Prop :=
  exists w, first_row (tbl_roots d) (key_text k) = Some w /\ (Z.of_N m = 16 - w)%Z.

(** * Chains in the store *)
(** [c] is a chain of stored trusts from a self-signed trust of a root down to [pk]: every trust
    is given by the key of the one before it, and no key occurs twice except that a key other than
    the root may be followed by its own self-signed trust. *)
Definition root_chain (d : db) (pk : public_key) (c : certificate) : Prop :=
  (2 <= length c)%nat /\
  key_at c (length c - 1) pk /\
  (forall t, at_pos c 0 t -> is_root d (issued_for t) /\ stored_trust d (issued_for t) t) /\
  (forall i g t, at_pos c i g -> at_pos c (S i) t -> stored_trust d (issued_for g) t) /\
  (forall i j k, (i < j)%nat -> key_at c i k -> key_at c j k -> j = S i /\ (0 < i)%nat).

(** The key at position [i] has a stored revocation of the key at a later position [j]. *)
Definition revokes_at (d : db) (c : certificate) (i j : nat) : Prop :=
  (i < j)%nat /\ exists v, stored_revocation d v /\ key_at c i (revoked_by v) /\ key_at c j (rev_pk v).

(** Position of the direct issuer of the last key. *)
Definition direct_issuer_pos (c : certificate) (j : nat) : Prop := (j + 2)%nat = length c.

(** Weight of a chain with [hops] trusts after the root trust, below a root with [m]. [m - hops] is
    0 when [hops] exceeds [m]. *)
Definition chain_weight (m : N) (hops : nat) : N := 2 ^ (m - N.of_nat hops).

(** [v] is the weight certificate [c] gives to its last key. *)
Definition cert_weight (d : db) (c : certificate) (v : N) : Prop :=
  exists t m, at_pos c 0 t /\ root_max_len d (issued_for t) m /\ v = chain_weight m (length c - 1).
(** [v] is the weight key [k] has as a root, or through one of the certificates [cs]. *)
Definition key_weight (d : db) (cs : list certificate) (k : public_key) (v : N) : Prop :=
  (exists m, root_max_len d k m /\ v = 2 ^ m) \/ (exists c, In c cs /\ cert_weight d c v).

(** 0 or a power of two up to 2^16. *)
Definition two_power (w : N) : Prop := w = 0 \/ exists e, e <= 16 /\ w = 2 ^ e.

(** [w] is the greatest element of [S], or 0 if [S] is empty. *)
Definition greatest (S : N -> Prop) (w : N) : Prop :=
  (forall v, S v -> v <= w) /\ (S w \/ (w = 0 /\ forall v, ~ S v)).

(** * Calls *)
(** Values of the Rust types. *)
Definition trust_typed (C : crypto) (t : trust) : Prop :=
  pk_valid C (issued_for t) /\ sig_valid C (trust_sig t) /\ duration_wf (expires_at t) /\ duration_wf (issued_at t).
Definition revocation_typed (C : crypto) (v : revocation) : Prop :=
  pk_valid C (rev_pk v) /\ pk_valid C (revoked_by v) /\ sig_valid C (rev_sig v) /\ duration_wf (revoked_at v).
Definition call_typed (C : crypto) (c : graph_call) : Prop :=
  match c with
  | G_set_root pk n => pk_valid C pk /\ n < u32_bound
  | G_add_trust t b now => trust_typed C t /\ pk_valid C b /\ duration_wf now
  | G_add c now => Forall (trust_typed C) c /\ duration_wf now
  | G_weight pk now => pk_valid C pk /\ duration_wf now
  | G_weight_from pk i now => pk_valid C pk /\ pk_valid C i /\ duration_wf now
  | G_get_all_certs pk now => pk_valid C pk /\ duration_wf now
  | G_get_all_certs_from pk i now => pk_valid C pk /\ pk_valid C i /\ duration_wf now
  | G_revoke v => revocation_typed C v
  | G_get_revocations pk => pk_valid C pk
  end.

(** A database some history of calls, each possibly failing at any statement, leaves. *)
Definition typed_history (C : crypto) (es : list (graph_call * option nat)) : Prop :=
  Forall (fun e => call_typed C (fst e)) es.
Definition reachable (C : crypto) (d : db) : Prop :=
  exists es, typed_history C es /\ graph_history C empty_db es = d.

(** The time a call is given. *)
Definition call_time (c : graph_call) : option duration :=
  match c with
  | G_add_trust _ _ now | G_add _ now | G_weight _ now | G_weight_from _ _ now
  | G_get_all_certs _ now | G_get_all_certs_from _ _ now => Some now
  | G_set_root _ _ | G_revoke _ | G_get_revocations _ => None
  end.

(** The trusts a call tries to import, with the key they must be signed by: the first trust of a
    certificate by its own key, the others by the key before. *)
Definition offers_trust (c : graph_call) (t : trust) (b : public_key) : Prop :=
  match c with
  | G_add_trust t' b' _ => t = t' /\ b = b'
  | G_add ch _ => (at_pos ch 0 t /\ b = issued_for t) \/ (exists i g, at_pos ch i g /\ at_pos ch (S i) t /\ b = issued_for g)
  | _ => False
  end.
(** Any relation a call tries to import. *)
Definition offers (c : graph_call) (x : relation) : Prop :=
  match x with
  | RAuth a => offers_trust c (auth_trust a) (issued_by a)
  | RRev v => c = G_revoke v
  end.
Definition same_keys (x y : relation) : Prop :=
  rel_issued_for x = rel_issued_for y /\ rel_issued_by x = rel_issued_by y.

(** [x] with whole-second times, as the table keeps it. *)
Definition whole_trust (t : trust) : trust :=
  mk_trust (issued_for t) (from_secs (secs (expires_at t))) (trust_sig t) (from_secs (secs (issued_at t))).
Definition whole (x : relation) : relation :=
  match x with
  | RAuth a => RAuth (mk_auth (whole_trust (auth_trust a)) (issued_by a))
  | RRev v => RRev (mk_rev (rev_pk v) (from_secs (secs (revoked_at v))) (revoked_by v) (rev_sig v))
  end.

(** [d'] is [d] after importing [x]: every other pair of keys as before; for the pair of [x], the
    stored relation if it is not older than [x], else [x]. *)
Definition imported (d : db) (x : relation) (d' : db) : Prop :=
  tbl_roots d' = tbl_roots d /\
  forall y, stored d' y <->
    (~ same_keys x y /\ stored d y) \/
    (same_keys x y /\ stored d y /\ ~ before (rel_issued_at y) (rel_issued_at x)) \/
    (y = whole x /\ forall z, stored d z -> same_keys x z -> before (rel_issued_at z) (rel_issued_at x)).

(** What the expiry column holds after the cast to a signed integer is not above the time. Below
    2^63 seconds that is just [expires_at <= now] in seconds (see [db_expired_small]). *)
Definition db_expired (now : duration) (x : relation) : Prop :=
  match x with
  | RAuth a => (i64_of_u64 (secs (expires_at (auth_trust a))) <= i64_of_u64 (secs now))%Z
  | RRev _ => False
  end.
(** [d'] is [d] without the trusts expired at [now]. *)
Definition collected (d : db) (now : duration) (d' : db) : Prop :=
  tbl_roots d' = tbl_roots d /\ forall x, stored d' x <-> stored d x /\ ~ db_expired now x.

(** A call that only asks. *)
Definition is_query (c : graph_call) : Prop :=
  match c with
  | G_weight _ _ | G_weight_from _ _ _ | G_get_all_certs _ _ | G_get_all_certs_from _ _ _ | G_get_revocations _ => True
  | _ => False
  end.
(** [a] is not after [b], in seconds, both below 2^63. *)
Definition in_order (a b : duration) : Prop := secs a <= secs b /\ secs b < i64_bound.

(** The trust at position [i] is signed by the key before it (by its own key if it is the first)
    and not expired. *)
Definition good_at (C : crypto) (c : certificate) (now : duration) (i : nat) : Prop :=
  exists t k, at_pos c i t /\ key_at c (i - 1) k /\ signed_trust C k t /\ ~ before (expires_at t) now.

(** * Effects of calls on the store *)
(** [k] becomes a root with [m], unless it already is one; nothing else changes. *)
Definition root_set (d : db) (k : public_key) (m : N) (d' : db) : Prop :=
  tbl_relations d' = tbl_relations d /\
  (forall k', is_root d' k' <-> is_root d k' \/ k' = k) /\
  (forall k' m', root_max_len d' k' m' <-> root_max_len d k' m' \/ (k' = k /\ ~ is_root d k /\ m' = m)).
Inductive effect := E_collect (now : duration) | E_import (x : relation) | E_root (k : public_key) (m : N).
Definition effect_on (d : db) (e : effect) (d' : db) : Prop :=
  match e with
  | E_collect now => collected d now d'
  | E_import x => imported d x d'
  | E_root k m => root_set d k m d'
  end.
(** [d'] is [d] after the effects [es], one after the other. *)
Inductive effects_on : db -> list effect -> db -> Prop :=
| effects_nil : forall d, effects_on d [] d
| effects_cons : forall d e d1 es d', effect_on d e d1 -> effects_on d1 es d' -> effects_on d (e :: es) d'.

(** Adding the trusts of a chain one by one. *)
Fixpoint chain_calls (c : list trust) (by_pk : public_key) (now : duration) : list graph_call :=
  match c with
  | [] => []
  | t :: c' => G_add_trust t by_pk now :: chain_calls c' (issued_for t) now
  end.

(** What a call may do to the store. *)
Definition effect_allowed (c : graph_call) (e : effect) : Prop :=
  match e with
  | E_collect now => call_time c = Some now
  | E_import x => offers c x
  | E_root k m => exists n, c = G_set_root k n /\ m = N.min n 16
  end.

(** No two relations of the same keys were made in the same second. *)
Definition seconds_differ (xs : list relation) : Prop :=
  forall x y, In x xs -> In y xs -> same_keys x y -> secs (rel_issued_at x) = secs (rel_issued_at y) -> x = y.

(** The shape of the answer to a call. *)
Definition reply_of (c : graph_call) (r : graph_reply) : Prop :=
  match c, r with
  | (G_set_root _ _ | G_add _ _ | G_revoke _), GR_unit => True
  | (G_add_trust _ _ _ | G_weight _ _ | G_weight_from _ _ _), GR_weight _ => True
  | (G_get_all_certs _ _ | G_get_all_certs_from _ _ _), GR_certs _ => True
  | G_get_revocations _, GR_revs _ => True
  | _, _ => False
  end.

(** Few enough relations for the arithmetic on chain lengths not to wrap. *)
Definition small (d : db) : Prop := N.of_nat (length (tbl_relations d)) + 17 < u32_bound.

(** Importing relations through the storage, one after the other. *)
Definition relation_typed (C : crypto) (x : relation) : Prop :=
  match x with
  | RAuth a => trust_typed C (auth_trust a) /\ pk_valid C (issued_by a)
  | RRev v => revocation_typed C v
  end.
Definition import (C : crypto) (d : db) (x : relation) : db := w_db (snd (update_relation C x (mk_world d None))).
Definition import_all (C : crypto) (d : db) (xs : list relation) : db := fold_left (import C) xs d.

(** The call found the signature of the offered relation good and, for a trust, the trust not
    expired at the time of the call. *)
Definition genuine (C : crypto) (c : graph_call) (x : relation) : Prop :=
  match x with
  | RAuth a => signed_trust C (issued_by a) (auth_trust a) /\
               exists now, call_time c = Some now /\ ~ before (expires_at (auth_trust a)) now
  | RRev v => signed_revocation C v
  end.

(** Two stores hold the same relations and the same roots, with the same lengths. *)
Definition same_contents (d d' : db) : Prop :=
  (forall x, stored d x <-> stored d' x) /\ (forall k m, root_max_len d k m <-> root_max_len d' k m).

(** The same answer, lists up to their order. *)
Definition same_answer (r r' : result graph_error graph_reply) : Prop :=
  match r, r' with
  | Ok (GR_certs cs), Ok (GR_certs cs') => Permutation cs cs'
  | Ok (GR_revs vs), Ok (GR_revs vs') => Permutation vs vs'
  | _, _ => r = r'
  end.

(** The answer to [c] after the calls [cs], none of which meets a failing statement. *)
Definition no_failures (cs : list graph_call) : list (graph_call * option nat) := map (fun c => (c, None)) cs.
Definition answer_after (C : crypto) (d : db) (cs : list graph_call) (c : graph_call) : result graph_error graph_reply :=
  fst (graph_step C (graph_history C d (no_failures cs)) (c, None)).
