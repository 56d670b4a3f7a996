(** A concrete network with the toy keys. *)
From Coq Require Import List NArith ZArith Bool.
From Coq Require String.
Import String.StringSyntax.
From Verif Require Import Base Text Keys Trust Certificate Relation Storage Graph Service Spec ServiceSpec Aqua AquaSpec Toy ServiceWitness.
Import ListNotations.
Open Scope N_scope.

(** Every Sig service signs with the key of its name. Peer 6 is the relay; [who] runs the script. *)
Definition toy_sign (p : text) (m : bytes) : option bytes :=
  match extract_public_key (toy true) p with Ok k => Some (pk_raw k ++ m) | _ => None end.
Definition toy_net (who : text) : network :=
  mk_network who (pid 6) (fun _ => owner_peer) toy_sign (fun _ _ => None).
(** Every argument is a literal of the script. *)
Definition typed_in : nat -> origin := fun _ => [from_script].
(** The host has the store of ServiceWitness, the other nodes have nothing. *)
Definition toy_stores : stores := put empty_network host_peer base_store.

(** The key pairs of the two keys of labelling.aqua, in the toy. *)
Definition root_pair : keypair := mk_kp Ed25519 root_raw.
Definition label_pair : keypair := mk_kp Ed25519 label_raw.
Definition toy_given (kp : keypair) (k : public_key) (ex iss : N) : trust :=
  mk_trust k (from_secs ex) (mk_sig Ed25519 (kp_secret kp ++ toy_sha (trust_metadata k (from_secs ex) (from_secs iss)))) (from_secs iss).
(** The certificate that labels the host. *)
Definition host_label : dto_certificate :=
  map (dto_of_trust (toy true))
    [toy_given root_pair root_key 1000 1; toy_given root_pair label_key 900 1; toy_given label_pair (toy_key 9) 800 1].
(** The owner sets the root and inserts the certificate at second 5. *)
Definition labelling : uses :=
  [(toy_net owner_peer, typed_in, A_set_root host_peer fluence_root_peer_id 5);
   (toy_net owner_peer, typed_in, A_insert_cert host_peer host_label 5)].
Definition label_stores : stores := run_all (toy true) labelling empty_network.
(** What a script told. *)
Definition told {A} (x : result Empty_set A * stores) : option A := match fst x with Ok a => Some a | _ => None end.
