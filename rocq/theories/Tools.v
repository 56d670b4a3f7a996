(** Model of the two programs of the repository that use the Aqua interface: the example (example/index.ts and
    example/aqua/computation.aqua) and the tool that makes the certificates of the start script (admin/index.ts and
    admin/aqua/export.aqua).
    Simplified as in Aqua.v: the steps run in order and all arrive. What the programs print is not modelled. *)
From Coq Require Import List NArith ZArith Bool.
From Verif Require Import Base Text Keys Trust Certificate Relation Storage Graph Service Aqua.
Import ListNotations.
Open Scope N_scope.

(** computation.aqua 29, 31: the two errors. *)
Inductive computation_error := CE_no_certs | CE_failed (e : aqua_error).

Section WithCrypto.
Variable C : crypto.
Variable net : network.

(** computation.aqua 15-33. [node] has origin [o], INIT_PEER_ID is a literal; [now] is the answer of the clock of the
    relay. [TrustedComputation.identity(5)] on [node] answers 5. [array_length] is a u32, here a nat. *)
Definition trusted_computation (o : origin) (node : text) (now : N) : script (list N * list computation_error) :=
  let> certs_result := aq_get_all_certs_from C net (fun n => match n with O => o | S _ => literal net end)
                         (relay net) node (initiator net) now in
  sret (if success certs_result
        then if negb (Nat.eqb (length (certs_in certs_result)) 0) then ([5], []) else ([], [CE_no_certs])
        else ([], [CE_failed (error_in certs_result)])).

(** example/index.ts 42-49 [revoke_all]: errors are only printed. [src i] are the origins of the arguments of call [i],
    [t i] the answer number [i] of the clock of the relay. *)
Variable src : nat -> nat -> origin.
Variable t : nat -> N.

(** example/index.ts 79-134 [main]: [nodeA] is the relay; [current_time] is what [timestamp_sec] answered. What the nine
    computations give. *)
Definition example_main (nodeB nodeC : text) (current_time : N) : script (list (list N * list computation_error)) :=
  let nodeA := relay net in
  let local_peer_id := initiator net in
  let far_future := current_time + 9999999 in
  let> e1 := aq_revoke C net (src 0) nodeA local_peer_id nodeA (t 0) (t 1) in
  let> e2 := aq_revoke C net (src 1) nodeA local_peer_id nodeB (t 2) (t 3) in
  let> e3 := aq_revoke C net (src 2) nodeA local_peer_id nodeC (t 4) (t 5) in
  let> r1 := trusted_computation (src 3 0) nodeA (t 6) in
  let> r2 := trusted_computation (src 4 0) nodeB (t 7) in
  let> r3 := trusted_computation (src 5 0) nodeC (t 8) in
  let> e4 := aq_add_trust C net (src 6) nodeA local_peer_id nodeB far_future (t 9) (t 10) in
  let> e5 := aq_add_trust C net (src 7) nodeA local_peer_id nodeC far_future (t 11) (t 12) in
  let> r4 := trusted_computation (src 8 0) nodeA (t 13) in
  let> r5 := trusted_computation (src 9 0) nodeB (t 14) in
  let> r6 := trusted_computation (src 10 0) nodeC (t 15) in
  let> e6 := aq_revoke C net (src 11) nodeA local_peer_id nodeB (t 16) (t 17) in
  let> r7 := trusted_computation (src 12 0) nodeA (t 18) in
  let> r8 := trusted_computation (src 13 0) nodeB (t 19) in
  let> r9 := trusted_computation (src 14 0) nodeC (t 20) in
  sret [r1; r2; r3; r4; r5; r6; r7; r8; r9].

(** admin/index.ts: [Libp2pPeerId.toB58String()] of a key pair. *)
Definition pair_peer_id (kp : keypair) : text := peer_id_to_base58 (pk_to_peer_id C (kp_public C kp)).
(** admin/index.ts 38: [privKey.sign]; an ed25519 key always signs. *)
Definition pair_signs (kp : keypair) (m : bytes) : bytes :=
  match kp_sign C kp m with Ok s => sig_raw s | _ => [] end.

(** admin/index.ts 36-42 [issue_trust_helper], admin/aqua/export.aqua. The [success] of the two answers is not
    looked at. The issuer's peer id is not used. *)
Definition issue_trust_helper (s : nat -> origin) (node : text) (issuer_kp : keypair) (issued_for_peer_id : text)
  (expires_at_sec issued_at_sec : N) : script dto_trust :=
  let> trust_metadata := call_on C net node [s 1%nat; s 2%nat; s 3%nat] (S_get_trust_bytes issued_for_peer_id expires_at_sec issued_at_sec) in
  let> trust := call_on C net node [s 1%nat; s 2%nat; s 3%nat; s 4%nat]
                  (S_issue_trust issued_for_peer_id expires_at_sec issued_at_sec (pair_signs issuer_kp (bytes_in trust_metadata))) in
  sret (trust_in trust).

(** admin/index.ts 75-81: one certificate per node. *)
Fixpoint admin_nodes (k : nat) (node : text) (issuer_kp : keypair) (root_trust issuer_trust : dto_trust) (expires_at cur_time : N)
  (peers : list text) : script (list dto_certificate) :=
  match peers with
  | [] => sret []
  | p :: rest =>
      let> node_trust := issue_trust_helper (src k) node issuer_kp p expires_at cur_time in
      let> certs := admin_nodes (S k) node issuer_kp root_trust issuer_trust expires_at cur_time rest in
      sret ([root_trust; issuer_trust; node_trust] :: certs)
  end.

(** admin/index.ts 44-86 [main]: the certificates it writes. [cur_time] is the answer of the clock of [node].
    Simplified: JavaScript numbers are exact only below 2^53. *)
Definition admin_main (node : text) (root_kp issuer_kp example_kp : keypair) (peers : list text) (cur_time : N) : script (list dto_certificate) :=
  let expires_at := cur_time + 60 * 60 * 24 * 365 * 2 in
  let> root_trust := issue_trust_helper (src 0) node root_kp (pair_peer_id root_kp) expires_at cur_time in
  let> issuer_trust := issue_trust_helper (src 1) node root_kp (pair_peer_id issuer_kp) expires_at cur_time in
  let> example_trust := issue_trust_helper (src 2) node root_kp (pair_peer_id example_kp) expires_at cur_time in
  let> certs := admin_nodes 3 node issuer_kp root_trust issuer_trust expires_at cur_time peers in
  sret ([root_trust; example_trust] :: certs).

End WithCrypto.
