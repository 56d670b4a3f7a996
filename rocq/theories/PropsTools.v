(** The properties of the example program and of the admin tool. Every proof is a lemma of ToolsThms.v or ToolsEx.v. *)
From Coq Require Import List NArith ZArith Bool.
From Coq Require String.
Import String.StringSyntax.
From Verif Require Import Base Text Keys Trust Certificate Relation Storage Graph Service Spec ServiceSpec Aqua AquaSpec Boot BootSpec BootThms Toy ServiceWitness AquaWitness Tools ToolsSpec ToolsThms ToolsEx.
Import ListNotations.
Open Scope N_scope.

(** ** C109 *)
(** Exactly one of a result and an error. The computation runs exactly if the relay, at the time of its clock, has a
    certificate for the node with the key of the client in it. Only a failure of the database gives another error. *)
Theorem C109_runs_exactly : forall C net o node k b now st r st', crypto_laws C -> wasm32 C = true -> network_state C st -> now < u64_bound ->
  peer_key C node k -> peer_key C (initiator net) b -> trusted_computation C net o node now st = (r, st') ->
  only_at (relay net) st st' /\
  ((collected (st (relay net)) (from_secs now) (st' (relay net)) /\
    ((r = Ok ran /\ trusted_by (st' (relay net)) b k) \/ (r = Ok refused /\ ~ trusted_by (st' (relay net)) b k))) \/
   (exists e, r = Ok ([], [CE_failed e]) /\ exists c, fault net (relay net) c <> None)).
Proof. exact p_C109_runs_exactly. Qed.
Print Assumptions C109_runs_exactly.

(** A node the client has revoked is refused while the revocation is stored. *)
Theorem C109_revoked_is_refused : forall C net o node k b v now st, crypto_laws C -> wasm32 C = true -> network_state C st -> now < u64_bound -> no_faults net ->
  peer_key C node k -> peer_key C (initiator net) b -> stored_revocation (st (relay net)) v -> revoked_by v = b -> rev_pk v = k -> k <> b ->
  fst (trusted_computation C net o node now st) = Ok refused.
Proof. exact p_C109_revoked_is_refused. Qed.
Print Assumptions C109_revoked_is_refused.

(** A node the client trusts runs the computation if the client is able to grant and the trusts have not expired. *)
Theorem C109_trusted_runs : forall C net o node k b t c now st, crypto_laws C -> wasm32 C = true -> network_state C st -> now < i64_bound -> no_faults net ->
  peer_key C node k -> peer_key C (initiator net) b -> can_grant (st (relay net)) b c [k] -> stored_trust (st (relay net)) b t -> issued_for t = k ->
  alive_until (t :: c) now -> fst (trusted_computation C net o node now st) = Ok ran.
Proof. exact p_C109_trusted_runs. Qed.
Print Assumptions C109_trusted_runs.

(** The network of the client, and what the computation gives before and after a grant. *)
Example C109_example_hypotheses : crypto_laws (toy true) /\ wasm32 (toy true) = true /\ network_state (toy true) relay_stores /\ no_faults client_net /\
  peer_key (toy true) (pid 4) (toy_key 4) /\ peer_key (toy true) (initiator client_net) (toy_key 2) /\
  can_grant (relay_stores (relay client_net)) (toy_key 2) client_chain [toy_key 4] /\
  told (trusted_computation (toy true) client_net [from_script] (pid 4) 6 relay_stores) = Some refused /\
  told (trusted_computation (toy true) client_net [from_script] (pid 2) 6 relay_stores) = Some ran /\
  told (trusted_computation (toy true) client_net [from_script] (str "1") 6 relay_stores) = Some ([], [CE_failed (AE_service (Some (SVE_PublicKeyDecodeError DE_PublicKeyNotInlined)))]).
Proof. exact e_C109_hypotheses. Qed.

(** ** C110 *)
(** After [add_trust] on the relay by a client that is able to grant, the computation runs until the trust or one above it
    expires. *)
Theorem C110_grant_takes_effect : forall C net src kp node k c e i now now' o st r st1, crypto_laws C -> wasm32 C = true -> network_state C st -> no_faults net ->
  signer C net (initiator net) kp -> peer_key C node k -> can_grant (st (relay net)) (kp_public C kp) c [k] ->
  said_before (st (relay net)) (kp_public C kp) k i -> i <= now -> now <= now' -> now' < e -> e < i64_bound -> alive_until c now' ->
  aq_add_trust C net src (relay net) (initiator net) node e i now st = (r, st1) ->
  r = Ok [] /\ fst (trusted_computation C net o node now' st1) = Ok ran.
Proof. exact p_C110_grant_takes_effect. Qed.
Print Assumptions C110_grant_takes_effect.

(** After [revoke] on the relay the computation is refused at any later time, until the client trusts the node anew. *)
Theorem C110_revoke_takes_effect : forall C net src kp node k i now now' o st r st1, crypto_laws C -> wasm32 C = true -> network_state C st -> no_faults net ->
  signer C net (initiator net) kp -> peer_key C node k -> k <> kp_public C kp -> said_before (st (relay net)) (kp_public C kp) k i ->
  i <= now -> now < u64_bound -> now' < u64_bound -> aq_revoke C net src (relay net) (initiator net) node i now st = (r, st1) ->
  r = Ok [] /\ fst (trusted_computation C net o node now' st1) = Ok refused.
Proof. exact p_C110_revoke_takes_effect. Qed.
Print Assumptions C110_revoke_takes_effect.

(** It does not change the answer for another node the client trusts. *)
Theorem C110_revoke_spares_others : forall C net src kp node k q node' k' t c i now now' o st r st1, crypto_laws C -> wasm32 C = true -> network_state C st -> no_faults net ->
  signer C net (initiator net) kp -> q = kp_public C kp -> peer_key C node k -> peer_key C node' k' -> k <> k' -> can_grant (st (relay net)) q c [k; k'] ->
  stored_trust (st (relay net)) q t -> issued_for t = k' -> i <= now -> now < i64_bound -> now' < i64_bound -> alive_until (t :: c) now' ->
  aq_revoke C net src (relay net) (initiator net) node i now st = (r, st1) ->
  r = Ok [] /\ fst (trusted_computation C net o node' now' st1) = Ok ran.
Proof. exact p_C110_revoke_spares_others. Qed.
Print Assumptions C110_revoke_spares_others.

(** The output of the README of the example: if the relay holds a certificate for the client that is short enough and no
    revocation stands against it, then whatever else is stored, wherever the arguments come from and whatever the clock says
    (it does not go back), the nine computations are refused, refused, refused; refused, run, run; refused, refused, run. *)
Theorem C110_example_output : forall C net src t nodeB nodeC cur kp kA kB kC c st, crypto_laws C -> wasm32 C = true -> network_state C st -> no_faults net ->
  signer C net (initiator net) kp -> peer_key C (relay net) kA -> peer_key C nodeB kB -> peer_key C nodeC kC -> NoDup [kA; kB; kC] ->
  can_grant (st (relay net)) (kp_public C kp) c [kA; kB; kC] -> alive_until c (t 20%nat) -> example_clock t cur ->
  (forall k, In k [kA; kB; kC] -> said_before (st (relay net)) (kp_public C kp) k (t 0%nat)) ->
  fst (example_main C net src t nodeB nodeC cur st) = Ok [refused; refused; refused; refused; ran; ran; refused; refused; ran].
Proof. exact p_C110_example_output. Qed.
Print Assumptions C110_example_output.

(** All the hypotheses of the example. *)
Example C110_example_hypotheses : network_state (toy true) relay_stores /\ signer (toy true) client_net (initiator client_net) (toy_kp 2) /\
  peer_key (toy true) (relay client_net) (toy_key 6) /\ peer_key (toy true) (pid 4) (toy_key 4) /\ peer_key (toy true) (pid 5) (toy_key 5) /\
  NoDup [toy_key 6; toy_key 4; toy_key 5] /\ can_grant (relay_stores (relay client_net)) (kp_public (toy true) (toy_kp 2)) client_chain [toy_key 6; toy_key 4; toy_key 5] /\
  alive_until client_chain (ticking 20) /\ example_clock ticking 5 /\
  (forall k, In k [toy_key 6; toy_key 4; toy_key 5] -> said_before (relay_stores (relay client_net)) (kp_public (toy true) (toy_kp 2)) k (ticking 0)).
Proof. exact e_C110_hypotheses. Qed.

(** The model runs the example. *)
Example C110_example_run : told (example_main (toy true) client_net (fun _ _ => [from_script]) ticking (pid 4) (pid 5) 5 relay_stores) =
  Some [refused; refused; refused; refused; ran; ran; refused; refused; ran].
Proof. exact e_C110_run. Qed.

(** ** C111 *)
(** The tool always ends, changes no store and writes records of the right certificates: every trust signed by the key
    above it, with the time of the clock and an expiry two years (730 days) later. *)
Theorem C111_admin_writes : forall C net src node root issuer example peers ks cur st, crypto_laws C -> wasm32 C = true ->
  admin_input C root issuer example peers ks ->
  exists cs certs st', admin_main C net src node root issuer example peers cur st = (Ok cs, st') /\ unchanged st st' /\
    Forall2 (certificate_record C) cs certs /\ admin_output C root issuer example ks (cur + 63072000) cur certs.
Proof. exact p_C111_admin_writes. Qed.
Print Assumptions C111_admin_writes.

(** A new node that is started with the tool's output comes up without an error, and until the expiry exactly the nodes
    the tool was given are labelled. *)
Theorem C111_admin_labels : forall C net net' src me anode node data root issuer example peers ks cur st0 cs st1 boots x st r st' k now, crypto_laws C -> wasm32 C = true ->
  admin_input C root issuer example peers ks -> kp_public C root = root_key -> kp_public C issuer = label_key ->
  admin_main C net src anode root issuer example peers cur st0 = (Ok cs, st1) -> cur + 63072000 < i64_bound -> started_with cs (cur + 63072000) boots ->
  boot C me me node data None boots empty_db = (x, st node) -> network_state C st -> (forall c, fault net' node c = None) -> peer_key C node k ->
  now < cur + 63072000 -> is_fluence_peer C net' node now st = (r, st') ->
  x = Ok [R_true] /\ exists b, r = Ok ([b], []) /\ (b = true <-> In k ks).
Proof. exact p_C111_admin_labels. Qed.
Print Assumptions C111_admin_labels.

(** And the client of the example can grant and revoke on it: the example prints what it should print. *)
Theorem C111_admin_example : forall C net net' src src' me anode data root issuer example peers ks cur st0 cs st1 boots x st t nodeB nodeC kA kB kC,
  crypto_laws C -> wasm32 C = true ->
  admin_input C root issuer example peers ks -> kp_public C root = root_key -> kp_public C issuer = label_key ->
  admin_main C net src anode root issuer example peers cur st0 = (Ok cs, st1) -> cur + 63072000 < i64_bound -> started_with cs (cur + 63072000) boots ->
  boot C me me (relay net') data None boots empty_db = (x, st (relay net')) -> network_state C st -> no_faults net' -> signer C net' (initiator net') example ->
  peer_key C (relay net') kA -> peer_key C nodeB kB -> peer_key C nodeC kC -> NoDup [root_key; kp_public C example; kA; kB; kC] ->
  example_clock t (t 0%nat) -> t 20%nat < cur + 63072000 ->
  fst (example_main C net' src' t nodeB nodeC (t 0%nat) st) = Ok [refused; refused; refused; refused; ran; ran; refused; refused; ran].
Proof. exact p_C111_admin_example. Qed.
Print Assumptions C111_admin_example.

Example C111_example_hypotheses : exists cs certs st1 d, let e := 1000 + 63072000 in let boots := map (fun r => (r, 2000, None)) cs in
  admin_input (toy true) root_pair label_pair (toy_kp 2) [pid 4; pid 5] [toy_key 4; toy_key 5] /\
  kp_public (toy true) root_pair = root_key /\ kp_public (toy true) label_pair = label_key /\
  admin_main (toy true) admin_net (fun _ _ => [from_script]) (pid 9) root_pair label_pair (toy_kp 2) [pid 4; pid 5] 1000 empty_network = (Ok cs, st1) /\
  Forall2 (certificate_record (toy true)) cs certs /\ length certs = 3%nat /\ e < i64_bound /\ started_with cs e boots /\
  boot (toy true) owner_peer owner_peer (pid 6) [] None boots empty_db = (Ok [R_true], d) /\ network_state (toy true) (put empty_network (pid 6) d) /\
  signer (toy true) client_net (initiator client_net) (toy_kp 2) /\
  NoDup [root_key; kp_public (toy true) (toy_kp 2); toy_key 6; toy_key 4; toy_key 5] /\
  fst (example_main (toy true) client_net (fun _ _ => [from_script]) (fun n => 2000 + ticking n) (pid 4) (pid 5) 2005 (put empty_network (pid 6) d)) =
    Ok [refused; refused; refused; refused; ran; ran; refused; refused; ran].
Proof. exact e_C111_hypotheses. Qed.

(** ** C112 *)
(** The part that holds: if the one who revokes a client is the only one who trusts it and the client is not a root, then
    the client's computations are refused on every node from then on. *)
Theorem C112_only_issuer_partial : forall C net net' src kp client b i now now' o node k st r st1, crypto_laws C -> wasm32 C = true -> network_state C st ->
  no_faults net -> no_faults net' -> relay net' = relay net -> signer C net (initiator net) kp ->
  peer_key C client b -> initiator net' = client -> peer_key C node k -> ~ is_root (st (relay net)) b ->
  (forall a t, stored_trust (st (relay net)) a t -> issued_for t = b -> a = kp_public C kp) -> said_before (st (relay net)) (kp_public C kp) b i ->
  i <= now -> now < u64_bound -> now' < u64_bound -> aq_revoke C net src (relay net) (initiator net) client i now st = (r, st1) ->
  r = Ok [] /\ fst (trusted_computation C net' o node now' st1) = Ok refused.
Proof. exact p_C112_only_issuer_partial. Qed.
Print Assumptions C112_only_issuer_partial.

(** A root revokes a client. The client's computations go on nodes the client trusts, although not on the client's own:
    the one who trusts the node directly is exempt from revocations by keys higher up. *)
Theorem C112_revoked_client_refuted : exists C net net' src kp client b i now now' o node st st1, crypto_laws C /\ wasm32 C = true /\ network_state C st /\
  no_faults net /\ no_faults net' /\ relay net' = relay net /\ signer C net (initiator net) kp /\ is_root (st (relay net)) (kp_public C kp) /\
  peer_key C client b /\ initiator net' = client /\ aq_revoke C net src (relay net) (initiator net) client i now st = (Ok [], st1) /\
  fst (trusted_computation C net' o client now' st1) = Ok refused /\ fst (trusted_computation C net' o node now' st1) = Ok ran.
Proof. exact p_C112_revoked_client_refuted. Qed.
Print Assumptions C112_revoked_client_refuted.

(** The hypotheses of the part that holds: key 1 is the only one that trusts the client 2. *)
Example C112_example_hypotheses : network_state (toy true) relay_stores /\ no_faults (toy_net (pid 1)) /\ no_faults client_net /\ relay client_net = relay (toy_net (pid 1)) /\
  signer (toy true) (toy_net (pid 1)) (pid 1) (toy_kp 1) /\ peer_key (toy true) (pid 2) (toy_key 2) /\ ~ is_root (relay_stores (pid 6)) (toy_key 2) /\
  (forall a t, stored_trust (relay_stores (pid 6)) a t -> issued_for t = toy_key 2 -> a = kp_public (toy true) (toy_kp 1)) /\
  said_before (relay_stores (pid 6)) (kp_public (toy true) (toy_kp 1)) (toy_key 2) 7.
Proof. exact e_C112_hypotheses. Qed.
