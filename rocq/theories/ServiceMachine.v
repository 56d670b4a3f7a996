(** Histories of service calls in terms of the abstract machine of MachineSpec.v. *)
From Coq Require Import List NArith ZArith Bool.
From Verif Require Import Base Text Keys Trust Certificate Relation Storage Graph Service Spec ServiceSpec MachineSpec.
Import ListNotations.
Open Scope N_scope.

(** The response of a call that asks the machine for something and is let through: the machine's answer told in records, or
    a failure with an empty payload where the machine refuses. *)
Definition says (C : crypto) (c : service_call) (a : answer) (r : result Empty_set response) : Prop :=
  (exists x p, shows (Ok x) a /\ tells C c x p /\ r = Ok (mk_response true None p)) \/
  (exists e, shows (Err e) a /\ r = Ok (mk_response false (Some (SVE_TGError e)) (empty_payload c))).
(** The call does not get to the machine: it is not let through, or its texts and records describe nothing. *)
Definition kept_out (C : crypto) (cp : call_params) (c : service_call) : Prop :=
  forall g, ~ (requests C cp c g /\ admitted cp c).

(** A history of service calls by any callers. *)
Inductive s_run (C : crypto) : machine -> list service_event -> list (result Empty_set response) -> machine -> Prop :=
| s_none : forall m, s_run C m [] [] m
| s_call : forall m cp c fu g a ms r es rs m', requests C cp c g -> admitted cp c -> m_call C m g a ms -> says C c a r ->
    s_run C (last ms m) es rs m' -> s_run C m ((cp, c, fu) :: es) (r :: rs) m'
| s_fail : forall m cp c n g a ms m1 e es rs m', requests C cp c g -> admitted cp c -> m_call C m g a ms -> In m1 (m :: ms) ->
    s_run C m1 es rs m' ->
    s_run C m ((cp, c, Some n) :: es) (Ok (mk_response false (Some (SVE_TGError e)) (empty_payload c)) :: rs) m'
| s_local : forall m cp c fu r es rs m', local_call c = true -> s_run C m es rs m' -> s_run C m ((cp, c, fu) :: es) (r :: rs) m'
| s_kept_out : forall m cp c fu e es rs m', kept_out C cp c -> s_run C m es rs m' ->
    s_run C m ((cp, c, fu) :: es) (Ok (mk_response false (Some e) (empty_payload c)) :: rs) m'
| s_panic : forall m cp s ts fu es rs m', cert_from_str C s = Panic -> s_run C m es rs m' ->
    s_run C m ((cp, S_insert_cert_raw s ts, fu) :: es) (Panic :: rs) m'.

(** The responses to a history of service calls. *)
Fixpoint responses (C : crypto) (d : db) (es : list service_event) : list (result Empty_set response) :=
  match es with
  | [] => []
  | e :: es' => fst (service_step C d e) :: responses C (snd (service_step C d e)) es'
  end.
(** As [few], of service calls: a certificate in text form offers at most one relation for each character. *)
Definition s_offered (c : service_call) : nat :=
  match c with S_add_trust _ _ _ | S_revoke _ _ => 1 | S_insert_cert r _ => length r | S_insert_cert_raw s _ => length s | _ => 0 end%nat.
Definition s_few (d : db) (es : list service_event) : Prop :=
  N.of_nat (length (tbl_relations d) + list_sum (map (fun e => s_offered (snd (fst e))) es)) + 17 < u32_bound.
