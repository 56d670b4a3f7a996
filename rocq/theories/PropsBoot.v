(** The properties of the start script and of certificates added together. Every proof is a lemma of BootThms.v or BootEx.v. *)
From Coq Require Import List NArith ZArith Bool.
From Coq Require String.
Import String.StringSyntax.
From Verif Require Import Base Text Keys Trust Certificate Relation Storage Graph Service Spec ServiceSpec Aqua AquaSpec Boot BootSpec BootThms BootEx.
Import ListNotations.
Open Scope N_scope.

(** ** C105 *)
(** Certificates of one root that agree with each other and with the store all count after they were added one after the other: every
    [add] succeeds, *)
Theorem C105_adds_succeed : forall C d k0 m l, reachable C d -> root_max_len d k0 m -> good_family C d k0 m l ->
  (forall c now, In (c, now) l -> call_typed C (G_add c now)) ->
  forall pre c now post, l = pre ++ (c, now) :: post -> fst (graph_step C (graph_history C d (adding pre)) (G_add c now, None)) = Ok GR_unit.
Proof. exact p_C105_adds_succeed. Qed.
Print Assumptions C105_adds_succeed.

(** each certificate is then returned for its last key at every time before its expiries, *)
Theorem C105_all_count : forall C d k0 m l c now pk now' fu cs d', reachable C d -> root_max_len d k0 m -> good_family C d k0 m l ->
  (forall c now, In (c, now) l -> call_typed C (G_add c now)) ->
  In (c, now) l -> key_at c (length c - 1) pk -> duration_wf now' -> (forall t, In t c -> secs now' < secs (expires_at t)) ->
  graph_step C (graph_history C d (adding l)) (G_get_all_certs pk now', fu) = (Ok (GR_certs cs), d') -> In (map whole_trust c) cs.
Proof. exact p_C105_all_count. Qed.
Print Assumptions C105_all_count.

(** and nothing else was added; all their trusts are stored and the roots are as before. *)
Theorem C105_only_they : forall C d k0 m l, reachable C d -> root_max_len d k0 m -> good_family C d k0 m l ->
  (forall c now, In (c, now) l -> call_typed C (G_add c now)) ->
  (forall c now t b, In (c, now) l -> in_chain c t b -> stored (graph_history C d (adding l)) (whole (RAuth (mk_auth t b)))) /\
  (forall x, stored (graph_history C d (adding l)) x -> stored d x \/ exists c now t b, In (c, now) l /\ in_chain c t b /\ x = whole (RAuth (mk_auth t b))) /\
  (forall k n, root_max_len (graph_history C d (adding l)) k n <-> root_max_len d k n).
Proof. exact p_C105_only_they. Qed.
Print Assumptions C105_only_they.

(** The same certificates can be added again at later times. *)
Theorem C105_again : forall C d k0 m l l', reachable C d -> root_max_len d k0 m -> good_family C d k0 m l ->
  (forall c now, In (c, now) l -> call_typed C (G_add c now)) ->
  (forall c now, In (c, now) l' -> exists now0, In (c, now0) l) ->
  (forall c now c' now' t, In (c, now) l' -> In (c', now') l' -> In t c -> duration_wf now' /\ secs now' < secs (expires_at t)) ->
  good_family C (graph_history C d (adding l)) k0 m l'.
Proof. exact p_C105_again. Qed.
Print Assumptions C105_again.

Example C105_example_family : exists d l, reachable lenient d /\ root_max_len d root_key 5 /\ good_family lenient d root_key 5 l /\
  (forall c now, In (c, now) l -> call_typed lenient (G_add c now)) /\ length l = 12%nat.
Proof. exact e_C105_family. Qed.

(** ** C106 *)
(** Whatever the database does, the script ends, returning errors, at most one for the root and one for each certificate, and then
    [true]. *)
Theorem C106_always_ends : forall C me creator node data fu certs d, crypto_laws C -> service_reachable C d -> boot_typed certs ->
  exists l d', boot C me creator node data fu certs d = (Ok (l ++ [R_true]), d') /\
    (forall x, In x l -> exists e, x = R_error (Some e)) /\ (length l <= 1 + length certs)%nat /\ service_reachable C d'.
Proof. exact p_C106_always_ends. Qed.
Print Assumptions C106_always_ends.

(** The owner's start with good certificates returns only [true]. Then the root is set, with length 5, exactly the trusts offered were added, *)
Theorem C106_good_start : forall C me node data certs d l x d', crypto_laws C -> wasm32 C = true -> literal_keys C -> good_boot C d certs l ->
  boot C me me node data None certs d = (x, d') ->
  x = Ok [R_true] /\ root_max_len d' root_key 5 /\ (forall k, is_root d' k <-> is_root d k \/ k = root_key) /\
  (forall c now t b, In (c, now) l -> in_chain c t b -> stored d' (whole (RAuth (mk_auth t b)))) /\
  (forall z, stored d' z -> stored d z \/ exists c now t b, In (c, now) l /\ in_chain c t b /\ z = whole (RAuth (mk_auth t b))).
Proof. exact p_C106_good_start. Qed.
Print Assumptions C106_good_start.

(** every certificate is returned until it expires, *)
Theorem C106_certificates_count : forall C me node data certs d l x d' c now pk now' fu cs d'', crypto_laws C -> wasm32 C = true -> literal_keys C -> good_boot C d certs l ->
  boot C me me node data None certs d = (x, d') ->
  In (c, now) l -> key_at c (length c - 1) pk -> duration_wf now' -> (forall t, In t c -> secs now' < secs (expires_at t)) ->
  graph_step C d' (G_get_all_certs pk now', fu) = (Ok (GR_certs cs), d'') -> In (map whole_trust c) cs.
Proof. exact p_C106_certificates_count. Qed.
Print Assumptions C106_certificates_count.

(** and a second start with the same certificates, before they expire, is good again and adds nothing. *)
Theorem C106_restart : forall C me node data certs d l x d' certs' l' me' data' x' d'', crypto_laws C -> wasm32 C = true -> literal_keys C -> good_boot C d certs l ->
  boot C me me node data None certs d = (x, d') ->
  boot_typed certs' -> boot_input C certs' l' -> (forall c now, In (c, now) l' -> exists now0, In (c, now0) l) ->
  (forall c now c' now' t, In (c, now) l' -> In (c', now') l' -> In t c -> secs now' < secs (expires_at t)) ->
  boot C me' me' node data' None certs' d' = (x', d'') ->
  good_boot C d' certs' l' /\ x' = Ok [R_true] /\ forall z, stored d'' z -> stored d' z.
Proof. exact p_C106_restart. Qed.
Print Assumptions C106_restart.

(** Run by anyone else, it reports that first and sets no root. *)
Theorem C106_not_the_owner : forall C me creator node data fu certs d, crypto_laws C -> service_reachable C d -> boot_typed certs -> me <> creator ->
  exists l d', boot C me creator node data fu certs d = (Ok (R_error (Some SVE_NotOwner) :: l ++ [R_true]), d') /\ tbl_roots d' = tbl_roots d.
Proof. exact p_C106_not_the_owner. Qed.
Print Assumptions C106_not_the_owner.

Example C106_example_hypotheses : crypto_laws lenient /\ wasm32 lenient = true /\ literal_keys lenient /\
  good_boot lenient empty_db (shipped_at 1700000000) (shipped_input (shipped_at 1700000000)).
Proof. exact e_C106_hypotheses. Qed.

Example C106_example_start : let '(x, d) := boot lenient [x61] [x61] [x62] [] None (firstn 1 (skipn 1 (shipped_at 1700000000))) empty_db in
  let '(x', d') := boot lenient [x61] [x61] [x62] [] None (firstn 1 (skipn 1 (shipped_at 1700000100))) d in
  x = Ok [R_true] /\ length (tbl_relations d) = 3%nat /\ x' = Ok [R_true] /\ tbl_relations d' = tbl_relations d.
Proof. exact e_C106_start. Qed.

(** With a failing database the errors are reported and the rest goes on. *)
Example C106_example_failures : exists e1 e2,
  fst (boot lenient [x61] [x61] [x62] [] (Some 0%nat) [([shipped_trust_0; shipped_trust_2], 1700000000, Some 0%nat)] empty_db) = Ok [R_error (Some e1); R_error (Some e2); R_true].
Proof. exact e_C106_failures. Qed.

(** ** C107 *)
(** A node that one of the certificates leads to over the label is told it is a Fluence peer, *)
Theorem C107_labels : forall C net me node data certs d l x st r st' t0 t1 t2 n k now, crypto_laws C -> wasm32 C = true -> literal_keys C -> good_boot C d certs l ->
  boot C me me node data None certs d = (x, st node) -> network_state C st -> (forall c, fault net node c = None) ->
  In ([t0; t1; t2], n) l -> issued_for t1 = label_key -> issued_for t2 = k -> peer_key C node k ->
  now < u64_bound -> (forall t, In t [t0; t1; t2] -> now < secs (expires_at t)) ->
  is_fluence_peer C net node now st = (r, st') -> r = Ok ([true], []).
Proof. exact p_C107_labels. Qed.
Print Assumptions C107_labels.

(** and after a start from an empty store exactly these nodes are. *)
Theorem C107_only_labelled : forall C net me node data certs d l x st r st' k now, crypto_laws C -> wasm32 C = true -> literal_keys C -> good_boot C d certs l ->
  tbl_relations d = [] -> l <> [] ->
  boot C me me node data None certs d = (x, st node) -> network_state C st -> (forall c, fault net node c = None) -> peer_key C node k ->
  now < u64_bound -> (forall c n t, In (c, n) l -> In t c -> now < secs (expires_at t)) ->
  is_fluence_peer C net node now st = (r, st') ->
  exists b, r = Ok ([b], []) /\
    (b = true <-> k <> root_key /\ (exists c n t, In (c, n) l /\ in_chain c t root_key /\ issued_for t = label_key) /\
                  (exists c n t, In (c, n) l /\ in_chain c t label_key /\ issued_for t = k)).
Proof. exact p_C107_only_labelled. Qed.
Print Assumptions C107_only_labelled.

(** The node of the certificate and another. *)
Example C107_example_asked : let '(x, d) := boot lenient [x61] [x61] [x62] [] None (firstn 1 (skipn 1 (shipped_at 1700000000))) empty_db in
  fst (is_fluence_peer lenient quiet (dt_issued_for shipped_trust_3) 1700000100 (fun _ => d)) = Ok ([true], []) /\
  fst (is_fluence_peer lenient quiet (dt_issued_for shipped_trust_4) 1700000100 (fun _ => d)) = Ok ([false], []).
Proof. exact e_C107_asked. Qed.

(** ** C108 *)
(** A new node started with the shipped certificates before 25 January 2025 is told it is a Fluence peer exactly if it is one of their
    eleven nodes. *)
Theorem C108_shipped_labels : forall C net me node data certs x st r st' k now, crypto_laws C -> wasm32 C = true -> shipped_genuine C ->
  map (fun x => fst (fst x)) certs = shipped -> (forall i t fu, In (i, t, fu) certs -> t < 1737828468 /\ fu = None) ->
  boot C me me node data None certs empty_db = (x, st node) -> network_state C st -> (forall c, fault net node c = None) -> peer_key C node k ->
  now < 1737828468 -> is_fluence_peer C net node now st = (r, st') ->
  x = Ok [R_true] /\ exists b, r = Ok ([b], []) /\ (b = true <-> exists p, In p shipped_nodes /\ peer_key C p k).
Proof. exact p_C108_shipped_labels. Qed.
Print Assumptions C108_shipped_labels.

(** Started later it refuses all twelve, whoever runs it and whatever the store holds: nothing is stored, and the script still ends with [true]. *)
Theorem C108_shipped_expired : forall C me creator node data fu certs d, crypto_laws C -> service_reachable C d ->
  map (fun x => fst (fst x)) certs = shipped -> (forall i t fu, In (i, t, fu) certs -> 1737828468 < t < u64_bound) ->
  exists l d', boot C me creator node data fu certs d = (Ok (l ++ [R_true]), d') /\ (12 <= length l)%nat /\ (forall x, In x l -> exists e, x = R_error (Some e)) /\
    tbl_relations d' = tbl_relations d.
Proof. exact p_C108_shipped_expired. Qed.
Print Assumptions C108_shipped_expired.

Example C108_example_genuine : crypto_laws lenient /\ wasm32 lenient = true /\ shipped_genuine lenient /\ map (fun x => fst (fst x)) (shipped_at 1700000000) = shipped.
Proof. exact e_C108_genuine. Qed.
