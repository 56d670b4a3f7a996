(** The vocabulary of what is signed when scripts run at once. *)
From Coq Require Import List NArith ZArith Bool.
From Verif Require Import Base Text Keys Trust Certificate Relation Storage Graph Service Spec ServiceSpec Aqua AquaSpec Sched SchedSpec.
Import ListNotations.
Open Scope N_scope.

(** The request asks for a trust by [issuer] for [p] that expires at [e]. *)
Definition asked_trust (q : request) (issuer p : text) (e : N) : Prop :=
  q = Q_issue_trust issuer p e \/ (exists node, q = Q_add_trust node issuer p e) \/ (exists node n, q = Q_add_root_trust node p n e /\ issuer = p).
(** The request asks for a revocation of [p] by [by_]. *)
Definition asked_revocation (q : request) (by_ p : text) : Prop :=
  q = Q_issue_revocation by_ p \/ exists node, q = Q_revoke node by_ p.

(** The script [tk] has asked the Sig service [p] for a signature of [m] and waits for it. *)
Definition waits_for_signature (tk : task) (p : text) (m : bytes) : Prop := exists k, tk_rest tk = Sign p m k.
(** The next request of the script [tk] is the call [c] on [node]. *)
Definition about_to_call (tk : task) (node : text) (c : service_call) : Prop := exists args k, tk_rest tk = Ask node args c k.

(** Script [j] after the first [n] events. *)
Definition script_at (C : crypto) (st : stores) (clocks : text -> N) (evs : schedule) (n j : nat) : option task :=
  nth_error (sy_tasks (happens C (idle st clocks) (firstn n evs))) j.
(** Whenever script [j] gets a signature, it is the one that the Sig services of its network make for the message it asked for. *)
Definition honest (C : crypto) (st : stores) (clocks : text -> N) (evs : schedule) (j : nat) : Prop :=
  forall n sg fu tk p m, nth_error evs n = Some (E_step j sg fu) -> script_at C st clocks evs n j = Some tk -> waits_for_signature tk p m -> sg = sign_with (tk_net tk) p m.
