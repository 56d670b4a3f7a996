(** The vocabulary of the properties of the Aqua scripts. *)
From Coq Require Import List NArith ZArith Bool.
From Verif Require Import Base Text Keys Trust Certificate Relation Storage Graph Service Spec ServiceSpec Aqua.
Import ListNotations.
Open Scope N_scope.

(** Every node has a database that its service can leave. *)
Definition network_state (C : crypto) (st : stores) : Prop := forall n, service_reachable C (st n).
(** No store changed; only the store of [node] may have changed. *)
Definition unchanged (st st' : stores) : Prop := forall n, st' n = st n.
Definition only_at (node : text) (st st' : stores) : Prop := forall n, n <> node -> st' n = st n.

(** The Sig service named [p] signs with the key pair whose peer id is [p]. *)
Definition signer (C : crypto) (net : network) (p : text) (kp : keypair) : Prop :=
  kp_valid C kp /\ peer_key C p (kp_public C kp) /\
  forall m s, kp_sign C kp m = Ok s -> sign_with net p m = Some (sig_raw s).
(** No database fails. *)
Definition no_faults (net : network) : Prop := forall n c, fault net n c = None.
(** The user of the script owns the trust-graph service of [node]. *)
Definition owns (net : network) (node : text) : Prop := initiator net = creator_on net node.

(** [t] is the trust the script was asked for, made at second [i] and signed by [b]. *)
Definition trust_asked (C : crypto) (b k : public_key) (e i : N) (t : trust) : Prop :=
  issued_for t = k /\ expires_at t = from_secs e /\ issued_at t = from_secs i /\ signed_trust C b t.
Definition revocation_asked (C : crypto) (b k : public_key) (i : N) (v : revocation) : Prop :=
  rev_pk v = k /\ revoked_by v = b /\ revoked_at v = from_secs i /\ signed_revocation C v.

(** The answer of a script that makes one graph call [g] on [node]. *)
Definition answers_as (C : crypto) (net : network) (node : text) (c : service_call) (g : graph_call) (st st' : stores) (r : result Empty_set response) : Prop :=
  only_at node st st' /\
  ((exists x p, graph_step C (st node) (g, fault net node c) = (Ok x, st' node) /\ r = Ok (mk_response true None p) /\ tells C c x p) \/
   (exists e, graph_step C (st node) (g, fault net node c) = (Err e, st' node) /\ r = Ok (mk_response false (Some (SVE_TGError e)) (empty_payload c)))).

(** The keys in the peer ids of labelling.aqua: base58 of 00 24 08 01 12 20 and the key. *)
Definition root_raw : bytes :=
  [xbd; xdf; xfd; x4c; x2c; x99; x16; x46; xc6; xdf; x3d; x35; x14; xe4; x40; xde; xbb; x6e; x8d; xb3; x8a; x74; xbe; x46; x80; x07; x1f; x98; xa9; xc5; x41; x7a].
Definition label_raw : bytes :=
  [xa6; xf4; x4a; x99; xda; xa1; x10; x92; x14; x68; xab; xb4; x4e; x0c; x3d; xf1; xcf; x72; x34; x5e; x21; xe6; xf4; xdd; x8c; xf4; x34; x41; xe7; x1d; xa6; x0c].
Definition root_key : public_key := mk_pk Ed25519 root_raw.
Definition label_key : public_key := mk_pk Ed25519 label_raw.
(** They are points of the curve. *)
Definition literal_keys (C : crypto) : Prop := ed_point C root_raw = true /\ ed_point C label_raw = true.

(** The functions of the Aqua interface, with the answers of the clocks they ask: [i] from the relay, [now] from the node. *)
Inductive api_call :=
| A_set_root (node p : text) (n : N)
| A_issue_trust (issuer p : text) (e i : N)
| A_import_trust (node : text) (x : dto_trust) (issuer : text) (now : N)
| A_add_trust (node issuer p : text) (e i now : N)
| A_add_root_trust (node p : text) (n e i now : N)
| A_verify_trust (node : text) (x : dto_trust) (issuer : text) (now : N)
| A_get_weight (node p : text) (now : N)
| A_get_weight_from (node p issuer : text) (now : N)
| A_issue_revocation (q p : text) (i : N)
| A_import_revocation (node : text) (x : dto_revocation) (now : N)
| A_revoke (node q p : text) (i now : N)
| A_get_host_certs_from (node issuer : text) (now : N)
| A_get_all_certs (node p : text) (now : N)
| A_get_all_certs_from (node p issuer : text) (now : N)
| A_get_host_certs (node : text) (now : N)
| A_insert_cert (node : text) (c : dto_certificate) (now : N)
| A_is_fluence_peer (node : text) (now : N).

(** The stores after a function. [src] are the origins of its arguments. *)
Definition run (C : crypto) (net : network) (src : nat -> origin) (a : api_call) (st : stores) : stores :=
  match a with
  | A_set_root node p n => snd (aq_set_root C net src node p n st)
  | A_issue_trust issuer p e i => snd (aq_issue_trust C net src issuer p e i st)
  | A_import_trust node x issuer now => snd (aq_import_trust C net node (src 0%nat) (src 1%nat) x issuer now st)
  | A_add_trust node issuer p e i now => snd (aq_add_trust C net src node issuer p e i now st)
  | A_add_root_trust node p n e i now => snd (aq_add_root_trust C net src node p n e i now st)
  | A_verify_trust node x issuer now => snd (aq_verify_trust C net src node x issuer now st)
  | A_get_weight node p now => snd (aq_get_weight C net src node p now st)
  | A_get_weight_from node p issuer now => snd (aq_get_weight_from C net src node p issuer now st)
  | A_issue_revocation q p i => snd (aq_issue_revocation C net src q p i st)
  | A_import_revocation node x now => snd (aq_import_revocation C net node (src 0%nat) x now st)
  | A_revoke node q p i now => snd (aq_revoke C net src node q p i now st)
  | A_get_host_certs_from node issuer now => snd (aq_get_host_certs_from C net node (src 0%nat) issuer now st)
  | A_get_all_certs node p now => snd (aq_get_all_certs C net src node p now st)
  | A_get_all_certs_from node p issuer now => snd (aq_get_all_certs_from C net src node p issuer now st)
  | A_get_host_certs node now => snd (aq_get_host_certs C net node now st)
  | A_insert_cert node c now => snd (aq_insert_cert C net src node c now st)
  | A_is_fluence_peer node now => snd (is_fluence_peer C net node now st)
  end.

(** The node whose service a function is for, and the time that node says. *)
Definition target (a : api_call) : option text :=
  match a with
  | A_issue_trust _ _ _ _ | A_issue_revocation _ _ _ => None
  | A_set_root node _ _ | A_import_trust node _ _ _ | A_add_trust node _ _ _ _ _ | A_add_root_trust node _ _ _ _ _
  | A_verify_trust node _ _ _ | A_get_weight node _ _ | A_get_weight_from node _ _ _ | A_import_revocation node _ _
  | A_revoke node _ _ _ _ | A_get_host_certs_from node _ _ | A_get_all_certs node _ _ | A_get_all_certs_from node _ _ _
  | A_get_host_certs node _ | A_insert_cert node _ _ | A_is_fluence_peer node _ => Some node
  end.
Definition node_time (a : api_call) : option N :=
  match a with
  | A_set_root _ _ _ | A_issue_trust _ _ _ _ | A_issue_revocation _ _ _ => None
  | A_import_trust _ _ _ now | A_add_trust _ _ _ _ _ now | A_add_root_trust _ _ _ _ _ now | A_verify_trust _ _ _ now
  | A_get_weight _ _ now | A_get_weight_from _ _ _ now | A_import_revocation _ _ now | A_revoke _ _ _ _ now
  | A_get_host_certs_from _ _ now | A_get_all_certs _ _ now | A_get_all_certs_from _ _ _ now | A_get_host_certs _ now
  | A_insert_cert _ _ now | A_is_fluence_peer _ now => Some now
  end.
(** The root a function sets. *)
Definition root_of (a : api_call) : option (text * N) :=
  match a with
  | A_set_root _ p n | A_add_root_trust _ p n _ _ _ => Some (p, n)
  | _ => None
  end.
(** The numbers fit the types of the arguments. *)
Definition api_typed (a : api_call) : Prop :=
  (forall now, node_time a = Some now -> now < u64_bound) /\
  match a with
  | A_set_root _ _ n => n < u32_bound
  | A_issue_trust _ _ e i | A_add_trust _ _ _ e i _ => e < u64_bound /\ i < u64_bound
  | A_add_root_trust _ _ n e i _ => n < u32_bound /\ e < u64_bound /\ i < u64_bound
  | A_import_trust _ x _ _ | A_verify_trust _ x _ _ => dto_trust_typed x
  | A_issue_revocation _ _ i | A_revoke _ _ _ i _ => i < u64_bound
  | A_import_revocation _ x _ => dr_revoked_at x < u64_bound
  | A_insert_cert _ c _ => Forall dto_trust_typed c
  | _ => True
  end.
(** A relation that its maker signed. *)
Definition signed_relation (C : crypto) (x : relation) : Prop :=
  match x with
  | RAuth a => signed_trust C (issued_by a) (auth_trust a)
  | RRev v => signed_revocation C v
  end.

(** [y] is a relation that the function was asked to bring to its node: the given one, the one it has signed on the way, or one of
    the trusts of the given certificate (the first by its own key, the others by the key before). *)
Definition brings (C : crypto) (a : api_call) (y : relation) : Prop :=
  signed_relation C y /\
  match a, y with
  | A_import_trust _ x issuer _, RAuth u => trust_record C x (auth_trust u) /\ peer_key C issuer (issued_by u)
  | A_add_trust _ issuer p e i _, RAuth u =>
      exists k, peer_key C p k /\ peer_key C issuer (issued_by u) /\ trust_asked C (issued_by u) k e i (auth_trust u)
  | A_add_root_trust _ p _ e i _, RAuth u => peer_key C p (issued_by u) /\ trust_asked C (issued_by u) (issued_by u) e i (auth_trust u)
  | A_insert_cert _ c now, RAuth u => exists ch, certificate_record C c ch /\ offers_trust (G_add ch (from_secs now)) (auth_trust u) (issued_by u)
  | A_import_revocation _ x _, RRev v => revocation_record C x v
  | A_revoke _ q p i _, RRev v => exists b k, peer_key C q b /\ peer_key C p k /\ revocation_asked C b k i v
  | _, _ => False
  end.

(** Key [k] is vouched for as labelling.aqua asks: the root with a self-signed trust has trusted the label key, the label key
    trusts [k], and the root has not revoked [k] itself. *)
Definition vouched (d : db) (k : public_key) : Prop :=
  k <> root_key /\ is_root d root_key /\
  (exists t, issued_for t = root_key /\ stored_trust d root_key t) /\
  (exists t, issued_for t = label_key /\ stored_trust d root_key t) /\
  (exists t, issued_for t = k /\ stored_trust d label_key t) /\
  ~ exists v, rev_pk v = k /\ revoked_by v = root_key /\ stored_revocation d v.

(** Uses of the interface, by any users: the stores they leave. *)
Definition uses := list (network * (nat -> origin) * api_call).
Definition run_all (C : crypto) (us : uses) (st : stores) : stores :=
  fold_left (fun st u => run C (fst (fst u)) (snd (fst u)) (snd u) st) us st.
Definition uses_typed (us : uses) : Prop := Forall (fun u => api_typed (snd u)) us.
(** A network on which nothing is stored. *)
Definition empty_network : stores := fun _ => empty_db.
