(** The properties of scripts that run at once. Every proof is a lemma of SchedThms.v or SchedEx.v. *)
From Coq Require Import List NArith ZArith Bool.
From Coq Require String.
Import String.StringSyntax.
From Verif Require Import Base Text Keys Trust Certificate Relation Storage Graph Service Spec ServiceSpec Aqua AquaSpec Sched SchedSpec Toy ServiceWitness AquaWitness SchedThms SchedEx.
Import ListNotations.
Open Scope N_scope.

(** ** C113 *)
(** However the steps of any number of scripts are mixed, the stores and the answers are at every moment those of a sequence of
    uses made alone, one after the other. The sequence grows by one use at a time, at a step of the script the use is of. A
    script that has not ended is not in it; only [add_root_trust] is in it as two uses. *)
Theorem C113_mixed_is_one_after_the_other : forall C st clocks evs, crypto_laws C -> network_state C st -> schedule_typed clocks evs ->
  exists order : nat -> entries, order 0%nat = [] /\
    (forall m, order (S m) = order m \/ exists en sg fu, order (S m) = order m ++ [en] /\ nth_error evs m = Some (E_step (en_task en) sg fu)) /\
    forall m, (m <= length evs)%nat -> explains C st clocks (firstn m evs) (order m).
Proof. exact p_C113_mixed_is_one_after_the_other. Qed.
Print Assumptions C113_mixed_is_one_after_the_other.

Example C113_example_mixed : network_state (toy true) toy_stores /\ schedule_typed at_five mixed /\
  told_by toy_stores mixed 0 = Some (trusting, Some (N_errors [])) /\ told_by toy_stores mixed 1 = Some (revoking, Some (N_errors [])).
Proof. exact e_C113_mixed. Qed.

(** ** C114 *)
(** No script gets stuck, whatever the others do. *)
Theorem C114_never_stuck : forall C st clocks evs j tk, crypto_laws C -> network_state C st -> schedule_typed clocks evs ->
  nth_error (sy_tasks (happens C (idle st clocks) evs)) j = Some tk -> ~ stuck tk.
Proof. exact p_C114_never_stuck. Qed.
Print Assumptions C114_never_stuck.

(** Every script returns after at most seven requests of its own (fewer for most functions), whatever the others do in between. *)
Theorem C114_every_script_returns : forall C st clocks evs evs' j tk, crypto_laws C -> network_state C st -> schedule_typed clocks (evs ++ evs') ->
  nth_error (sy_tasks (happens C (idle st clocks) evs)) j = Some tk -> (requests_of (tk_request tk) <= own_steps j evs')%nat ->
  exists tk' x, nth_error (sy_tasks (happens C (idle st clocks) (evs ++ evs'))) j = Some tk' /\ tk_request tk' = tk_request tk /\ returned tk' = Some x.
Proof. exact p_C114_every_script_returns. Qed.
Print Assumptions C114_every_script_returns.

(** The first script needs its six requests: after five it has not returned. *)
Example C114_example_six : requests_of trusting = 6%nat /\ own_steps 0 mixed = 6%nat /\ own_steps 0 (removelast mixed) = 5%nat /\
  told_by toy_stores (removelast mixed) 0 = Some (trusting, None) /\ told_by toy_stores mixed 0 = Some (trusting, Some (N_errors [])).
Proof. exact e_C114_six. Qed.

(** ** C115 *)
Theorem C115_unfinished_leaves_nothing : forall C st clocks evs j tk, crypto_laws C -> network_state C st -> schedule_typed clocks evs ->
  let s := happens C (idle st clocks) evs in let s' := happens C (idle st clocks) (without j evs) in
  nth_error (sy_tasks s) j = Some tk -> returned tk = None -> ~ is_add_root (tk_request tk) ->
  (forall n, sy_stores s' n = sy_stores s n) /\ (forall i, i <> j -> nth_error (sy_tasks s') i = nth_error (sy_tasks s) i).
Proof. exact p_C115_unfinished_leaves_nothing. Qed.
Print Assumptions C115_unfinished_leaves_nothing.

Example C115_example_unfinished : told_by toy_stores (removelast mixed) 0 = Some (trusting, None) /\ ~ is_add_root trusting.
Proof. exact e_C115_unfinished. Qed.

(** ** C116 *)
Theorem C116_at_most_its_root_partial : forall C st clocks evs j tk, crypto_laws C -> network_state C st -> schedule_typed clocks evs ->
  nth_error (sy_tasks (happens C (idle st clocks) evs)) j = Some tk -> returned tk = None ->
  exists us, explains C st clocks evs us /\ forall en, In en us -> en_task en = j -> en_part en = P_root.
Proof. exact p_C116_at_most_its_root_partial. Qed.
Print Assumptions C116_at_most_its_root_partial.

Theorem C116_unfinished_leaves_nothing_refuted : exists C st clocks evs j tk n k, crypto_laws C /\ wasm32 C = true /\ network_state C st /\ schedule_typed clocks evs /\
  let s := happens C (idle st clocks) evs in let s' := happens C (idle st clocks) (without j evs) in
  nth_error (sy_tasks s) j = Some tk /\ returned tk = None /\
  is_root (sy_stores s n) k /\ ~ (exists t, issued_for t = k /\ stored_trust (sy_stores s n) k t) /\ ~ is_root (sy_stores s' n) k.
Proof. exact p_C116_unfinished_leaves_nothing_refuted. Qed.
Print Assumptions C116_unfinished_leaves_nothing_refuted.

Example C116_example_hypotheses : told_by toy_stores stopped 0 = Some (rooting, None).
Proof. exact e_C116_hypotheses. Qed.

(** ** C117 *)
Theorem C117_roots_by_owners : forall C clocks evs n k m, crypto_laws C -> schedule_typed clocks evs ->
  root_max_len (sy_stores (happens C (idle empty_network clocks) evs) n) k m ->
  exists net src q p l, In (E_start net src q) evs /\ request_node q = Some n /\ owns net n /\ root_of (alone q 0 0) = Some (p, l) /\ peer_key C p k /\ m = N.min l 16.
Proof. exact p_C117_roots_by_owners. Qed.
Print Assumptions C117_roots_by_owners.

Theorem C117_roots_stay : forall C st clocks evs evs' n k m, crypto_laws C -> network_state C st -> schedule_typed clocks (evs ++ evs') ->
  root_max_len (sy_stores (happens C (idle st clocks) evs) n) k m -> root_max_len (sy_stores (happens C (idle st clocks) (evs ++ evs')) n) k m.
Proof. exact p_C117_roots_stay. Qed.
Print Assumptions C117_roots_stay.

Example C117_example_owner : schedule_typed at_five owner_sets /\ owns (toy_net owner_peer) host_peer /\ root_max_len (host_after empty_network owner_sets) (toy_key 3) 4.
Proof. exact e_C117_owner. Qed.

(** Another peer sets none. *)
Example C117_example_stranger : tbl_roots (host_after empty_network [E_start (toy_net stranger_peer) typed_in (Q_set_root host_peer (pid 3) 4); step 0]) = [].
Proof. exact e_C117_stranger. Qed.

(** ** C118 *)
Theorem C118_what_leaves : forall C st clocks evs evs' n x, crypto_laws C -> wasm32 C = true -> network_state C st -> schedule_typed clocks (evs ++ evs') ->
  stored (sy_stores (happens C (idle st clocks) evs) n) x ->
  stored (sy_stores (happens C (idle st clocks) (evs ++ evs')) n) x \/
  (exists now, said clocks (evs ++ evs') n now /\ db_expired (from_secs now) x) \/
  (exists y, brought C clocks (evs ++ evs') n y /\ same_keys x y /\ before (rel_issued_at x) (rel_issued_at y)).
Proof. exact p_C118_what_leaves. Qed.
Print Assumptions C118_what_leaves.

Theorem C118_what_arrives : forall C st clocks evs n x, crypto_laws C -> wasm32 C = true -> network_state C st -> schedule_typed clocks evs ->
  stored (sy_stores (happens C (idle st clocks) evs) n) x ->
  stored (st n) x \/
  (brought C clocks evs n x /\
    ((exists net src c, In (E_start net src (Q_insert_cert n c)) evs) \/ exists now, said clocks evs n now /\ secs (rel_issued_at x) <= now)).
Proof. exact p_C118_what_arrives. Qed.
Print Assumptions C118_what_arrives.

(** The trust of key 1 in key 2 gives way to the revocation, and the trust in key 4 arrives. *)
Example C118_example_leaves : stored (host_after toy_stores []) (RAuth (mk_auth (toy_trust 1 2 900 1) (toy_key 1))) /\
  ~ stored (host_after toy_stores mixed) (RAuth (mk_auth (toy_trust 1 2 900 1) (toy_key 1))).
Proof. exact e_C118_leaves. Qed.

Example C118_example_arrives : ~ stored (toy_stores host_peer) (RAuth (mk_auth (toy_trust 1 4 800 5) (toy_key 1))) /\
  stored (host_after toy_stores mixed) (RAuth (mk_auth (toy_trust 1 4 800 5) (toy_key 1))).
Proof. exact e_C118_arrives. Qed.

(** ** C119 *)
Theorem C119_add_trust_lasts : forall C st clocks evs j tk node issuer p e, crypto_laws C -> wasm32 C = true -> network_state C st -> schedule_typed clocks evs ->
  nth_error (sy_tasks (happens C (idle st clocks) evs)) j = Some tk -> tk_request tk = Q_add_trust node issuer p e -> returned tk = Some (N_errors []) ->
  exists b k i now t w m d1, peer_key C issuer b /\ peer_key C p k /\ trust_asked C b k e i t /\ said clocks evs (relay (tk_net tk)) i /\ said clocks evs node now /\
    i <= now /\ now <= e /\ (m < length evs)%nat /\
    graph_step C (sy_stores (happens C (idle st clocks) (firstn m evs)) node) (G_weight b (from_secs now), None) = (Ok (GR_weight w), d1) /\
    ((w = 0 \/ (w = 1 /\ b <> k)) \/
     forall evs', schedule_typed clocks (evs ++ evs') ->
       lasts C st clocks (evs ++ evs') node (RAuth (mk_auth t b))).
Proof. exact p_C119_add_trust_lasts. Qed.
Print Assumptions C119_add_trust_lasts.

Theorem C119_revoke_lasts : forall C st clocks evs j tk node q p, crypto_laws C -> wasm32 C = true -> network_state C st -> schedule_typed clocks evs ->
  nth_error (sy_tasks (happens C (idle st clocks) evs)) j = Some tk -> tk_request tk = Q_revoke node q p -> returned tk = Some (N_errors []) ->
  exists b k i now v, peer_key C q b /\ peer_key C p k /\ revocation_asked C b k i v /\ said clocks evs (relay (tk_net tk)) i /\ said clocks evs node now /\ i <= now /\
    forall evs', schedule_typed clocks (evs ++ evs') ->
      stored_revocation (sy_stores (happens C (idle st clocks) (evs ++ evs')) node) v \/
      exists y, (stored (st node) y \/ brought C clocks (evs ++ evs') node y) /\ same_keys (RRev v) y /\ y <> RRev v /\ ~ before (rel_issued_at y) (revoked_at v).
Proof. exact p_C119_revoke_lasts. Qed.
Print Assumptions C119_revoke_lasts.

(** Both scripts of [mixed] end without error and what they were asked for is stored. *)
Example C119_example_hypotheses : told_by toy_stores mixed 0 = Some (trusting, Some (N_errors [])) /\ told_by toy_stores mixed 1 = Some (revoking, Some (N_errors [])) /\
  stored (host_after toy_stores mixed) (RAuth (mk_auth (toy_trust 1 4 800 5) (toy_key 1))) /\ stored_revocation (host_after toy_stores mixed) (toy_rev 1 2 5).
Proof. exact e_C119_hypotheses. Qed.
