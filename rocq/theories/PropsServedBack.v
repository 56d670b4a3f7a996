(** Taking a revocation back and replacing a key through the service, and what the service's answers depend on. Every proof is a lemma of ServedBackThms.v. *)
From Coq Require Import List NArith ZArith Bool.
From Verif Require Import Base Text Keys Trust Certificate Relation Storage Graph Service Spec ServiceSpec MachineSpec ServiceMachine ScanSpec InfluenceSpec ServedSpec BackSpec RotateSpec ServedBackSpec.
From Verif Require Import Toy ServiceWitness ServiceFacts ScanServiceThms ServedThms ServedBackThms ScanSpec ServedSpec BackSpec RotateSpec ServedBackSpec.
Import ListNotations.
Open Scope N_scope.

(** ** C202 *)
(** Through the service: the response to the new trust is the one without all that was said before; if it is a weight that is not zero, the store holds what
    it would hold, and all later responses are alike. *)
Theorem C202_service : forall C d es r t i b cp ts, crypto_laws C -> service_reachable C d -> service_events_typed es ->
  s_only_offers C (between b (issued_for t)) (from_secs ts) es -> s_last_word C d es t b -> s_few d es ->
  trust_record C r t -> peer_key C i b -> host_time cp 2 -> dto_trust_typed r -> dt_issued_at r <= ts < u64_bound ->
  let anew := (cp, S_add_trust r i ts, None) in
  fst (service_step C (service_history C d es) anew) = fst (service_step C d anew) /\
  forall w, fst (service_step C d anew) = Ok (mk_response true None (P_added w)) -> w <> 0 ->
    forall later cp' c, service_events_typed later -> unfailing later -> service_typed c ->
      same_told (fst (service_step C (service_history C d (es ++ anew :: later)) (cp', c, None))) (fst (service_step C (service_history C d (anew :: later)) (cp', c, None))) /\
      same_contents (service_history C d (es ++ anew :: later)) (service_history C d (anew :: later)).
Proof. exact p_C202_service. Qed.
Print Assumptions C202_service.

(** Key 2 is told no weight after the revocations, and 16 again when the record of the new trust has come in. *)
Example C202_example_service : service_reachable (toy true) base_store /\ service_events_typed wavering /\
  s_only_offers (toy true) (between (toy_key 1) (toy_key 2)) (from_secs 95) wavering /\ s_last_word (toy true) base_store wavering (toy_trust 1 2 2000 90) (toy_key 1) /\
  s_few base_store wavering /\ trust_record (toy true) (trust_rec 1 2 2000 90) (toy_trust 1 2 2000 90) /\ peer_key (toy true) (pid 1) (toy_key 1) /\ host_time (timed_call 2) 2 /\
  dto_trust_typed (trust_rec 1 2 2000 90) /\ dt_issued_at (trust_rec 1 2 2000 90) <= 95 /\
  fst (service_step (toy true) base_store (timed_call 2, S_add_trust (trust_rec 1 2 2000 90) (pid 1) 95, None)) = Ok (mk_response true None (P_added 16)) /\
  told_weight (service_step (toy true) (service_history (toy true) base_store wavering) (timed_call 1, S_get_weight (pid 2) 94, None)) = Some 0 /\
  told_weight (service_step (toy true) (service_history (toy true) base_store (wavering ++ [(timed_call 2, S_add_trust (trust_rec 1 2 2000 90) (pid 1) 95, None)])) (timed_call 1, S_get_weight (pid 2) 96, None)) = Some 16.
Proof. exact e_C202_service. Qed.

(** ** C203 *)
(** Through the service: when those who trust the old key hand the new one the records of their trusts, and it those of its own, and then the old one is revoked, whoever had
    a weight is told at least that weight, and of each certificate there is one in which the new key stands for the old. *)
Theorem C203_service : forall C d gs ts rs vs old new cp now p p' pk pk', crypto_laws C -> wasm32 C = true -> service_reachable C d ->
  Forall2 (good_gift C) gs ts -> Forall2 (good_revocation C) rs vs -> old <> new -> ~ is_root d old -> unknown d new ->
  for_the_new old new (from_secs now) ts -> hands_over d (from_secs now) old new ts -> gifts_taken C d gs -> (forall v, In v vs -> rev_pk v = old) ->
  s_few d (give_calls gs ++ revoke_calls rs) -> peer_key C p pk -> peer_key C p' pk' -> host_time cp 1 -> now < i64_bound -> stands_for old new pk pk' ->
  let d' := service_history C d (give_calls gs ++ revoke_calls rs) in
  (exists w w', fst (service_step C d (cp, S_get_weight p now, None)) = Ok (mk_response true None (P_weight w p)) /\
     fst (service_step C d' (cp, S_get_weight p' now, None)) = Ok (mk_response true None (P_weight w' p')) /\ w <= w') /\
  (exists cs cs', fst (service_step C d (cp, S_get_all_certs p now, None)) = Ok (mk_response true None (P_certs cs)) /\
     fst (service_step C d' (cp, S_get_all_certs p' now, None)) = Ok (mk_response true None (P_certs cs')) /\
     forall c, In c cs -> exists c', In c' cs' /\
       Forall2 (fun x x' => exists k k', peer_key C (dt_issued_for x) k /\ peer_key C (dt_issued_for x') k' /\ stands_for old new k k') c c').
Proof. exact p_C203_service. Qed.
Print Assumptions C203_service.

(** Key 4 is told 8 before and after; without the succession it would be told nothing. *)
Example C203_example_service : service_reachable (toy true) grown_store /\ Forall2 (good_gift (toy true)) succession succession_trusts /\
  Forall2 (good_revocation (toy true)) [(timed_call 1, rev_rec 1 2 70, 75)] [toy_rev 1 2 70] /\ toy_key 2 <> toy_key 3 /\ ~ is_root grown_store (toy_key 2) /\
  unknown grown_store (toy_key 3) /\ for_the_new (toy_key 2) (toy_key 3) (from_secs 80) succession_trusts /\
  hands_over grown_store (from_secs 80) (toy_key 2) (toy_key 3) succession_trusts /\ gifts_taken (toy true) grown_store succession /\
  s_few grown_store (give_calls succession ++ revoke_calls [(timed_call 1, rev_rec 1 2 70, 75)]) /\
  told_weight (service_step (toy true) grown_store (timed_call 1, S_get_weight (pid 4) 80, None)) = Some 8 /\
  told_weight (service_step (toy true) (service_history (toy true) grown_store (give_calls succession ++ revoke_calls [(timed_call 1, rev_rec 1 2 70, 75)])) (timed_call 1, S_get_weight (pid 4) 80, None)) = Some 8 /\
  told_weight (service_step (toy true) (service_history (toy true) grown_store (give_calls succession ++ revoke_calls [(timed_call 1, rev_rec 1 2 70, 75)])) (timed_call 1, S_get_weight (pid 3) 80, None)) = Some 16 /\
  told_weight (service_step (toy true) (service_history (toy true) grown_store (revoke_calls [(timed_call 1, rev_rec 1 2 70, 75)])) (timed_call 1, S_get_weight (pid 4) 80, None)) = Some 0.
Proof. exact e_C203_service. Qed.

(** ** C206 *)
(** What the service responds, now and after any further calls by anyone, depends only on the relations and roots it holds. *)
Theorem C206_contents : forall C d d' es cp c, crypto_laws C -> service_reachable C d -> service_reachable C d' -> same_contents d d' ->
  service_events_typed es -> unfailing es -> service_typed c ->
  same_told (fst (service_step C (service_history C d es) (cp, c, None))) (fst (service_step C (service_history C d' es) (cp, c, None))) /\
  same_contents (service_history C d es) (service_history C d' es).
Proof. exact p_C206_contents. Qed.
Print Assumptions C206_contents.

(** Two stores with the same contents in another order: one is told of key 3 and then of key 4, the other the other way round. *)
Example C206_example_order : let three := (timed_call 2, S_add_trust (trust_rec 1 3 900 5) (pid 1) 6, None) in let four := (timed_call 2, S_add_trust (trust_rec 1 4 900 5) (pid 1) 6, None) in
  service_reachable (toy true) (service_history (toy true) base_store [three; four]) /\ service_reachable (toy true) (service_history (toy true) base_store [four; three]) /\
  same_contents (service_history (toy true) base_store [three; four]) (service_history (toy true) base_store [four; three]) /\
  service_history (toy true) base_store [three; four] <> service_history (toy true) base_store [four; three] /\ service_events_typed wavering /\ unfailing wavering.
Proof. exact e_C206_order. Qed.
