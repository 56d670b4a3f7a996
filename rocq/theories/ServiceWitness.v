(** Concrete service histories with the toy keys. *)
From Coq Require Import List NArith ZArith Bool.
From Coq Require String.
Import String.StringSyntax.
From Verif Require Import Base Text Keys Trust Certificate Relation Storage Graph Service Spec ServiceSpec Toy.
Import ListNotations.
Open Scope N_scope.

(** The peer id of toy key [n]. *)
Definition pid (n : N) : text := peer_id_to_base58 (pk_to_peer_id (toy true) (toy_key n)).
Definition host_peer : text := pid 9.
Definition owner_peer : text := pid 8.
Definition stranger_peer : text := pid 7.
(** Provenance: the host's clock, a literal of the stranger. *)
Definition from_clock : tetraplet := mk_tetraplet host_peer (str "peer") (str "timestamp_sec").
Definition from_script : tetraplet := mk_tetraplet stranger_peer [] [].
(** A call of the owner; a call of the stranger with only literals; one whose argument [i] comes
    from the host's clock. *)
Definition owner_call : call_params := mk_params owner_peer owner_peer host_peer [].
Definition script_call : call_params := mk_params stranger_peer owner_peer host_peer [[from_script]; [from_script]; [from_script]].
Definition timed_call (i : nat) : call_params := mk_params stranger_peer owner_peer host_peer (repeat [from_script] i ++ [[from_clock]]).
(** Records of the toy trusts and revocations. *)
Definition trust_rec (b f e i : N) : dto_trust := dto_of_trust (toy true) (toy_trust b f e i).
Definition rev_rec (b f a : N) : dto_revocation := dto_of_revocation (toy true) (toy_rev b f a).

(** Key 1 is a root, key 2 has its trust until second 900. *)
Definition service_base : list service_event :=
  [(owner_call, S_set_root (pid 1) 5, None);
   (timed_call 2, S_add_trust (trust_rec 1 1 1000 1) (pid 1) 5, None);
   (timed_call 2, S_add_trust (trust_rec 1 2 900 1) (pid 1) 5, None)].
Definition base_store : db := service_history (toy true) empty_db service_base.
(** The stranger's own certificate, good for a long time. *)
Definition stranger_cert : dto_certificate := [trust_rec 7 7 9000 1].
(** A certificate of a root made at second 500. *)
Definition future_cert : dto_certificate := [trust_rec 1 1 1000 1; trust_rec 1 3 900 500].
(** The weight a response tells. *)
Definition told_weight (r : result Empty_set response * db) : option N :=
  match fst r with Ok resp => match reply resp with P_weight w _ => if success resp then Some w else None | _ => None end | _ => None end.
Definition succeeds (r : result Empty_set response * db) : bool :=
  match fst r with Ok resp => success resp | _ => false end.
(** A key of the other kind. *)
Definition secp_key : public_key := mk_pk Secp256k1 (x02 :: toy_secret 3).
Definition secp_pid : text := peer_id_to_base58 (pk_to_peer_id (toy true) secp_key).
