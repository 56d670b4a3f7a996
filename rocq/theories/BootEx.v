(** Concrete cases that meet the hypotheses of the properties of the start script. *)
From Coq Require Import List NArith ZArith Bool Lia.
From Verif Require Import Base BaseFacts Text Keys KeysFacts Trust Certificate Relation Storage Graph Service Spec Toy ToyFacts ServiceSpec ServiceWitness
  ServiceFacts ServiceThms Aqua AquaSpec AquaThms Boot BootSpec BootThms.
Import ListNotations.
Open Scope N_scope.

(** The toy instance with a scheme that also accepts every signature of 64 bytes. *)
Definition lenient : crypto := {|
  wasm32 := true; sha256 := toy_sha; ed_point := fun _ => true; ed_public := fun sk => sk; ed_sign := fun sk m => sk ++ m;
  ed_verify := fun pk m s => bytes_eqb s (pk ++ m) || (len s =? 64);
  rsa_public := fun sk => sk; rsa_sign := fun sk m => Some (sk ++ m); rsa_verify := fun pk m s => bytes_eqb s (pk ++ m);
  secp_point := fun _ => true; secp_scalar := fun _ => true; secp_public := fun sk => x02 :: sk; secp_sign := fun sk h => x30 :: sk ++ h;
  secp_der := fun s => match s with x30 :: _ => true | _ => false end; secp_verify := fun pk h s => bytes_eqb s (x30 :: tl pk ++ h);
  multihash_ok := fun p => match p with x00 :: _ | x12 :: _ => true | _ => false end; inlined_key := toy_inlined; rsa_peer_id := fun raw => x12 :: x20 :: toy_sha raw
|}.
Lemma lenient_laws : crypto_laws lenient.
Proof.
  destruct (toy_laws true) as [A B D E F G H I]. split; [exact A|exact B| |exact E|exact F|exact G|exact H|exact I].
  intros sk m Hs. cbn [lenient ed_verify ed_public ed_sign]. rewrite bytes_eqb_refl. reflexivity.
Qed.
Lemma lenient_genuine : shipped_genuine lenient.
Proof.
  split; [intros; cbn [lenient ed_point]; reflexivity|]. intros c i Hc Hi. apply in_map_iff in Hc. destruct Hc as (r & <- & Hr).
  destruct (nth_error (map read_trust r) i) as [t|] eqn:T; [|apply nth_error_None in T; lia].
  destruct (nth_error (map read_trust r) (i - 1)) as [g|] eqn:P; [|apply nth_error_None in P; lia].
  exists t, (issued_for g). split; [exact T|]. split; [exists g; auto|].
  apply nth_error_In in T, P. destruct (from_shipped r t Hr T) as (x & Hx & ->). destruct (from_shipped r g Hr P) as (y & Hy & ->).
  assert (Sx : (len (decoded (dt_signature x)) =? 64) = true).
  { unfold shipped_trusts in Hx. cbn [In] in Hx. repeat (destruct Hx as [<-|Hx]; [vm_compute; reflexivity|]). destruct Hx. }
 
  unfold signed_trust, pk_verify, read_trust, read_key. cbn [trust_sig issued_for pk_fmt sig_fmt pk_raw sig_raw ed_verify lenient]. rewrite Sx, orb_true_r. reflexivity.
Qed.
(** The start data with the answers of a clock. *)
Definition shipped_at (t : N) : list (dto_certificate * N * option nat) := map (fun i => (i, t, None)) shipped.
Lemma shipped_at_data : forall t, map (fun x => fst (fst x)) (shipped_at t) = shipped.
Proof. intros t. unfold shipped_at. rewrite map_map. apply map_id. Qed.
Lemma shipped_at_time : forall t i t' fu, In (i, t', fu) (shipped_at t) -> t' = t /\ fu = None.
Proof. intros t i t' fu H. apply in_map_iff in H. destruct H as (x & H & _). injection H as _ <- <-. auto. Qed.
Lemma shipped_at_good : forall t, t < 1737828468 -> good_boot lenient empty_db (shipped_at t) (shipped_input (shipped_at t)).
Proof.
  intros t Ht. apply shipped_good; [exact lenient_laws|reflexivity|exact lenient_genuine|apply shipped_at_data|].
  intros i t' fu H. apply shipped_at_time in H. destruct H as [-> ->]. auto.
Qed.

Example e_C105_family : exists d l, reachable lenient d /\ root_max_len d root_key 5 /\ good_family lenient d root_key 5 l /\
  (forall c now, In (c, now) l -> call_typed lenient (G_add c now)) /\ length l = 12%nat.
Proof.
  destruct (boot_run lenient [] [] [] (shipped_at 1700000000) empty_db _ lenient_laws eq_refl (shipped_literal _ lenient_genuine) (shipped_at_good 1700000000 eq_refl))
    as (d1 & _ & _ & R1 & Rm & F1).
  exists d1, (shipped_input (shipped_at 1700000000)). split; [exact (service_reachable_graph _ _ lenient_laws R1)|]. split; [exact Rm|]. split; [exact F1|].
  split; [|reflexivity]. destruct (shipped_at_good 1700000000 eq_refl) as (_ & T & I & _). apply (input_typed lenient (shipped_at 1700000000)); [exact lenient_laws|exact T|exact I].
Qed.
Example e_C106_hypotheses : crypto_laws lenient /\ wasm32 lenient = true /\ literal_keys lenient /\
  good_boot lenient empty_db (shipped_at 1700000000) (shipped_input (shipped_at 1700000000)).
Proof.
  split; [exact lenient_laws|]. split; [reflexivity|]. split; [exact (shipped_literal _ lenient_genuine)|]. apply shipped_at_good. reflexivity.
Qed.
Example e_C106_start : let '(x, d) := boot lenient [x61] [x61] [x62] [] None (firstn 1 (skipn 1 (shipped_at 1700000000))) empty_db in
  let '(x', d') := boot lenient [x61] [x61] [x62] [] None (firstn 1 (skipn 1 (shipped_at 1700000100))) d in
  x = Ok [R_true] /\ length (tbl_relations d) = 3%nat /\ x' = Ok [R_true] /\ tbl_relations d' = tbl_relations d.
Proof. vm_compute. split; [reflexivity|split; [reflexivity|split; reflexivity]]. Qed.
(** With a failing database the errors are reported and the rest goes on. *)
Example e_C106_failures : exists e1 e2,
  fst (boot lenient [x61] [x61] [x62] [] (Some 0%nat) [([shipped_trust_0; shipped_trust_2], 1700000000, Some 0%nat)] empty_db) = Ok [R_error (Some e1); R_error (Some e2); R_true].
Proof. eexists. eexists. vm_compute. reflexivity. Qed.
Example e_C108_genuine : crypto_laws lenient /\ wasm32 lenient = true /\ shipped_genuine lenient /\ map (fun x => fst (fst x)) (shipped_at 1700000000) = shipped.
Proof. split; [exact lenient_laws|]. split; [reflexivity|]. split; [exact lenient_genuine|apply shipped_at_data]. Qed.
(** The node of the certificate and another. *)
Definition quiet : network := mk_network [x61] [x62] (fun _ => [x61]) (fun _ _ => None) (fun _ _ => None).
Example e_C107_asked : let '(x, d) := boot lenient [x61] [x61] [x62] [] None (firstn 1 (skipn 1 (shipped_at 1700000000))) empty_db in
  fst (is_fluence_peer lenient quiet (dt_issued_for shipped_trust_3) 1700000100 (fun _ => d)) = Ok ([true], []) /\
  fst (is_fluence_peer lenient quiet (dt_issued_for shipped_trust_4) 1700000100 (fun _ => d)) = Ok ([false], []).
Proof. vm_compute. split; reflexivity. Qed.
