(** Proofs about what the texts of errors tell. *)
From Coq Require Import List NArith ZArith Bool Lia ZifyBool ZifyNat ZifyN.
From Coq Require Import Strings.Byte.
From Coq Require String.
Import String.StringSyntax.
From Verif Require Import Base BaseFacts Text TextFacts Keys Trust TrustFacts Certificate CertFacts Relation Storage Graph Service Spec SpecFacts ServiceSpec ServiceFacts
  Toy ToyFacts Witness ServiceWitness ErrorText ErrorTextSpec ErrorTextFacts.
Import ListNotations.
Open Scope N_scope.

Section Step.
Variable C : crypto.

Lemma answer_cases : forall d cp c f r d', service_step C d (cp, c, f) = (Ok r, d') ->
  success r = true /\ error r = None \/
  success r = false /\ exists e, error r = Some e /\
    (plan C cp c = Err e \/ exists g ge, plan C cp c = Ok (inl g) /\ graph_step C d (g, f) = (Err ge, d') /\ e = SVE_TGError ge).
Proof.
  intros d cp c f r d' H. rewrite service_plan in H. unfold carry_out in H. destruct (plan C cp c) as [[g|a]|e| |] eqn:P; try discriminate H.
  - destruct (graph_step C d (g, f)) as [[x|ge| |] d1] eqn:G; try discriminate H; injection H as <- <-; [left; split; reflexivity|].
    right. split; [reflexivity|]. exists (SVE_TGError ge). split; [reflexivity|]. right. exists g, ge. auto.
  - injection H as <- <-. left. split; reflexivity.
  - injection H as <- <-. right. split; [reflexivity|]. exists e. auto.
Qed.
Lemma extract_err : forall s e, extract_public_key C s = Err e -> e = SVE_PublicKeyExtractionError \/ exists x, e = SVE_PublicKeyDecodeError x.
Proof.
  intros s e H. unfold extract_public_key in H. destruct (peer_id_from_str C s) as [p|]; [|injection H as <-; auto].
  destruct (pk_of_peer_id C p); cbn [map_err] in H; try discriminate H. injection H as <-. right. eexists. reflexivity.
Qed.

(** What a plan that ends in an error says. *)
Definition cause (cp : call_params) (c : service_call) (e : service_error) : Prop :=
  match e with
  | SVE_PublicKeyExtractionError | SVE_PublicKeyDecodeError _ | SVE_CertError _ => True
  | SVE_TGError _ => False
  | SVE_DtoError x =>
      match c with
      | S_insert_cert rs _ => cert_of_dto C rs = Err x
      | S_verify_trust r _ _ | S_add_trust r _ _ => trust_of_dto C r = Err x
      | S_revoke r _ => revocation_of_dto C r = Err x
      | _ => False
      end
  | SVE_TrustError x => exists r i ts t k, c = S_verify_trust r i ts /\ trust_of_dto C r = Ok t /\ peer_key C i k /\ trust_verify C t k (from_secs ts) = Err x
  | SVE_InvalidTimestampTetraplet =>
      exists arg, ~ host_time cp arg /\
      match c with
      | S_get_all_certs _ _ | S_get_host_certs_from _ _ | S_get_weight _ _ | S_get_weight_from _ _ _ | S_revoke _ _ => arg = 1%nat
      | S_get_all_certs_from _ _ _ | S_verify_trust _ _ _ | S_add_trust _ _ _ => arg = 2%nat
      | S_get_host_certs _ => arg = 0%nat
      | _ => False
      end
  | SVE_InvalidTimestamp =>
      (exists r i ts k, c = S_add_trust r i ts /\ peer_key C i k /\ host_time cp 2 /\ ts < dt_issued_at r) \/
      (exists r ts, c = S_revoke r ts /\ host_time cp 1 /\ ts < dr_revoked_at r)
  | SVE_NotOwner => (exists p n, c = S_set_root p n) /\ service_creator_peer_id cp <> init_peer_id cp
  end.
Lemma plan_cause : forall cp c e, plan C cp c = Err e -> cause cp c e.
Proof.
  intros cp c e H.
  destruct c as [p n|s ts|rs ts|p ts|p i ts|ts|i ts|p ts|p i ts|p ex is|p ex is b|r i ts|r i ts|p a|bp p a s|r ts|p]; cbn [plan] in H.
  all: repeat match type of H with
    | context [bytes_eqb ?a ?b] => destruct (bytes_eqb a b) eqn:?; cbn [bind map_err] in H; try discriminate H
    | context [extract_public_key C ?s] =>
        destruct (extract_public_key C s) as [?|?| |] eqn:?; cbn [bind map_err] in H; try discriminate H;
        try (injection H as <-; match goal with X : extract_public_key C _ = Err _ |- _ => destruct (extract_err _ _ X) as [-> |[? ->]]; exact I end)
    | context [check_timestamp_tetraplets ?q ?n] =>
        destruct (check_cases q n) as [[?T ?HT]|[?T ?HT]]; rewrite T in H; cbn [bind map_err] in H; try discriminate H;
        try (injection H as <-; exists n; split; [exact HT|reflexivity])
    | context [cert_from_str C ?s] => destruct (cert_from_str C s) as [?|?| |] eqn:?; cbn [bind map_err] in H; try discriminate H
    | context [cert_of_dto C ?s] => destruct (cert_of_dto C s) as [?|?| |] eqn:?; cbn [bind map_err] in H; try discriminate H
    | context [?a <? ?b] => destruct (N.ltb_spec a b); cbn [bind map_err] in H; try discriminate H
    | context [trust_of_dto C ?s] => destruct (trust_of_dto C s) as [?|?| |] eqn:?; cbn [bind map_err] in H; try discriminate H
    | context [revocation_of_dto C ?s] => destruct (revocation_of_dto C s) as [?|?| |] eqn:?; cbn [bind map_err] in H; try discriminate H
    | context [trust_verify C ?a ?b ?x] => destruct (trust_verify C a b x) as [?|?| |] eqn:?; cbn [bind map_err] in H; try discriminate H
    end.
  all: try (injection H as <-).
  all: try match goal with X : extract_public_key C _ = Err _ |- _ => destruct (extract_err _ _ X) as [-> |[? ->]]; exact I end.
  all: cbn [cause]; try exact I; try assumption.
  - split; [eexists; eexists; reflexivity|]. intros E. rewrite E, bytes_eqb_refl in Heqb. discriminate.
  - exists r, i, ts, a0, a. repeat (split; [first [reflexivity|assumption|apply extract_ok; assumption]|]). assumption.
  - left. exists r, i, ts, a. split; [reflexivity|]. split; [apply extract_ok; assumption|]. split; assumption.
  - right. exists r, ts. auto.
Qed.

(** * C160 *)
Lemma q_C160_error_text_iff : forall F d cp c f r d', service_step C d (cp, c, f) = (Ok r, d') ->
  (answer_text F c r = [] <-> success r = true).
Proof.
  intros F d cp c f r d' H. destruct (answer_cases _ _ _ _ _ _ H) as [[S1 E]|(S1 & e & E & _)]; unfold answer_text; rewrite S1, E; [split; reflexivity|].
  split; [|discriminate]. intros T. exfalso.
  destruct e as [|x|x|x|x|x| | |]; cbn [service_error_text] in T; try discriminate T.
  - destruct x; discriminate T.
  - destruct x; discriminate T.
  - destruct x; discriminate T.
  - destruct x as [x| |[s]]; try discriminate T. cbn [dto_error_text key_format_text] in T. apply app_eq_nil in T. destruct T as [_ T]. discriminate T.
  - destruct x as [? ?|x|x|? ?|? ?|x|?]; try discriminate T. destruct x; discriminate T.
  - apply app_eq_nil in T. destruct T as [_ T]. discriminate T.
Qed.

(** * C161 *)
Ltac by_end T := exfalso; match type of T with
  | ?a = ?b => assert (Hd : ends x64 a) by (apply service_text_ends with (F := fun _ => []) (w := []));
      rewrite T in Hd; destruct Hd as (?pre & Hd); apply (f_equal (@rev byte)) in Hd; rewrite rev_unit in Hd; vm_compute in Hd; discriminate Hd
  end.
Lemma text_owner : forall F w e, service_error_text F w e = str "Root could add only by trust graph service owner" -> (forall s, w <> str "Root" ++ s) -> e = SVE_NotOwner.
Proof.
  intros F w e T W. destruct e as [|x|x|x|x|x| | |]; cbn [service_error_text] in T; try discriminate T; try reflexivity.
  - destruct x; discriminate T.
  - destruct x; discriminate T.
  - destruct x; discriminate T.
  - destruct x as [x| |[s]]; try discriminate T. by_end T.
  - destruct x as [? ?|x|x|? ?|? ?|x|?]; try discriminate T. destruct x; discriminate T.
  - exfalso. assert (E : ends x70 (w ++ str " can't be issued later than the current timestamp")) by (apply ends_app; exists (str " can't be issued later than the current timestam"); reflexivity).
    rewrite T in E. destruct E as (q & E). apply (f_equal (@rev byte)) in E. rewrite rev_app_distr in E. vm_compute in E. discriminate E.
Qed.
Lemma call_word_not_root : forall c s, call_word c <> str "Root" ++ s.
Proof. intros c s. destruct c; discriminate. Qed.
Lemma q_C161_owner_text : forall F d cp c f r d', service_step C d (cp, c, f) = (Ok r, d') ->
  (answer_text F c r = str "Root could add only by trust graph service owner" <->
   (exists p n, c = S_set_root p n) /\ service_creator_peer_id cp <> init_peer_id cp).
Proof.
  intros F d cp c f r d' H. split.
  - destruct (answer_cases _ _ _ _ _ _ H) as [[S1 E]|(S1 & e & E & P)]; unfold answer_text; rewrite E; intros T; [discriminate T|].
    apply text_owner in T; [|apply call_word_not_root]. subst e. destruct P as [P|(g & ge & _ & _ & P)]; [|discriminate P]. exact (plan_cause _ _ _ P).
  - intros ((p & n & ->) & N). rewrite service_plan in H. cbn [plan] in H. destruct (bytes_eqb _ _) eqn:B; [apply bytes_eqb_eq in B; contradiction|].
    cbn [carry_out] in H. injection H as <- <-. reflexivity.
Qed.
Lemma text_time : forall F w v e, (w = [] \/ w = str "trust" \/ w = str "revoke") -> (v = str "trust" \/ v = str "revoke") ->
  service_error_text F w e = v ++ str " can't be issued later than the current timestamp" -> w = v /\ e = SVE_InvalidTimestamp.
Proof.
  intros F w v e W V T. destruct e as [|x|x|x|x|x| | |]; cbn [service_error_text] in T.
  - destruct V as [-> | ->]; discriminate T.
  - destruct V as [-> | ->]; destruct x; discriminate T.
  - destruct V as [-> | ->]; destruct x; discriminate T.
  - destruct V as [-> | ->]; destruct x; discriminate T.
  - destruct x as [x| |[s]]; [destruct V as [-> | ->]; discriminate T|destruct V as [-> | ->]; discriminate T|]. destruct V as [-> | ->]; by_end T.
  - destruct V as [-> | ->]; destruct x as [? ?|x|x|? ?|? ?|x|?]; try discriminate T; destruct x; discriminate T.
  - destruct V as [-> | ->]; discriminate T.
  - split; [|reflexivity]. apply app_inv_tail in T. exact T.
  - destruct V as [-> | ->]; discriminate T.
Qed.
Lemma call_words : forall c, call_word c = [] \/ call_word c = str "trust" \/ call_word c = str "revoke".
Proof. intros []; auto. Qed.
Lemma q_C161_trust_time_text : forall F d cp c f r d', service_step C d (cp, c, f) = (Ok r, d') ->
  (answer_text F c r = str "trust can't be issued later than the current timestamp" <->
   exists t i ts k, c = S_add_trust t i ts /\ peer_key C i k /\ host_time cp 2 /\ ts < dt_issued_at t).
Proof.
  intros F d cp c f r d' H. split.
  - destruct (answer_cases _ _ _ _ _ _ H) as [[S1 E]|(S1 & e & E & P)]; unfold answer_text; rewrite E; intros T; [discriminate T|].
    apply (text_time F (call_word c) (str "trust")) in T; [|apply call_words|auto]. destruct T as [Wd ->].
    destruct P as [P|(g & ge & _ & _ & P)]; [|discriminate P]. apply plan_cause in P. destruct P as [P|(v & ts & -> & _)]; [exact P|discriminate Wd].
  - intros (t & i & ts & k & -> & K & T & L). rewrite service_plan in H. cbn [plan] in H. apply extract_ok in K. rewrite K in H. cbn [bind] in H.
    apply check_ok in T. rewrite T in H. cbn [bind] in H. rewrite (proj2 (N.ltb_lt _ _) L) in H. cbn [carry_out] in H. injection H as <- <-. reflexivity.
Qed.
Lemma q_C161_revoke_time_text : forall F d cp c f r d', service_step C d (cp, c, f) = (Ok r, d') ->
  (answer_text F c r = str "revoke can't be issued later than the current timestamp" <->
   exists v ts, c = S_revoke v ts /\ host_time cp 1 /\ ts < dr_revoked_at v).
Proof.
  intros F d cp c f r d' H. split.
  - destruct (answer_cases _ _ _ _ _ _ H) as [[S1 E]|(S1 & e & E & P)]; unfold answer_text; rewrite E; intros T; [discriminate T|].
    apply (text_time F (call_word c) (str "revoke")) in T; [|apply call_words|auto]. destruct T as [Wd ->].
    destruct P as [P|(g & ge & _ & _ & P)]; [|discriminate P]. apply plan_cause in P. destruct P as [(t & i & ts & k & -> & _)|P]; [discriminate Wd|exact P].
  - intros (v & ts & -> & T & L). rewrite service_plan in H. cbn [plan] in H.
    apply check_ok in T. rewrite T in H. cbn [bind] in H. rewrite (proj2 (N.ltb_lt _ _) L) in H. cbn [carry_out] in H. injection H as <- <-. reflexivity.
Qed.

(** * C162 *)
Lemma dto_sig_kind : forall a b x, dto_sig C a b = Err x -> forall s, x = DTO_InvalidKeyFormat (InvalidKeyFormat s) -> s = b.
Proof.
  intros a b x H s ->. unfold dto_sig in H. destruct (b58_decode a) as [p|?| |]; cbn [map_err bind] in H; try discriminate H.
  unfold fmt_of_text in H. destruct (bytes_eqb b (str "ed25519")); cbn [map_err bind] in H; [discriminate H|].
  destruct (bytes_eqb b (str "secp256k1")); cbn [map_err bind] in H; [discriminate H|].
  destruct (negb (wasm32 C) && bytes_eqb b (str "rsa")); cbn [map_err bind] in H; [discriminate H|]. injection H as <-. reflexivity.
Qed.
Lemma dto_key_kind : forall a x, dto_key C a = Err x -> x = DTO_PeerIdDecodeError.
Proof.
  intros a x H. unfold dto_key in H. destruct (peer_id_from_str C a) as [p|]; [|injection H as <-; reflexivity].
  destruct (pk_of_peer_id C p); cbn [map_err] in H; try discriminate H. injection H as <-. reflexivity.
Qed.
Lemma trust_of_dto_kind : forall r s, trust_of_dto C r = Err (DTO_InvalidKeyFormat (InvalidKeyFormat s)) -> s = dt_sig_type r.
Proof.
  intros r s H. unfold trust_of_dto in H. destruct (dto_key C (dt_issued_for r)) as [k|x| |] eqn:K; cbn [bind] in H; try discriminate H.
  - destruct (dto_sig C (dt_signature r) (dt_sig_type r)) as [g|x| |] eqn:G; cbn [bind] in H; try discriminate H. injection H as ->.
    exact (dto_sig_kind _ _ _ G s eq_refl).
  - injection H as ->. apply dto_key_kind in K. discriminate K.
Qed.
Lemma revocation_of_dto_kind : forall r s, revocation_of_dto C r = Err (DTO_InvalidKeyFormat (InvalidKeyFormat s)) -> s = dr_sig_type r.
Proof.
  intros r s H. unfold revocation_of_dto in H. destruct (dto_key C (dr_revoked_peer_id r)) as [k|x| |] eqn:K; cbn [bind] in H; try discriminate H.
  - destruct (dto_key C (dr_revoked_by r)) as [b|x| |] eqn:B; cbn [bind] in H; try discriminate H.
    + destruct (dto_sig C (dr_signature r) (dr_sig_type r)) as [g|x| |] eqn:G; cbn [bind] in H; try discriminate H. injection H as ->.
      exact (dto_sig_kind _ _ _ G s eq_refl).
    + injection H as ->. apply dto_key_kind in B. discriminate B.
  - injection H as ->. apply dto_key_kind in K. discriminate K.
Qed.
Lemma cert_of_dto_kind : forall rs s, cert_of_dto C rs = Err (DTO_InvalidKeyFormat (InvalidKeyFormat s)) -> In s (map dt_sig_type rs).
Proof.
  unfold cert_of_dto. induction rs as [|r rs IH]; intros s H; cbn [collect] in H; [discriminate H|].
  destruct (trust_of_dto C r) as [t|x| |] eqn:T; cbn [bind] in H; try discriminate H.
  - destruct (collect (trust_of_dto C) rs) as [ts|x| |] eqn:R; cbn [bind] in H; try discriminate H. injection H as ->. right. apply IH. reflexivity.
  - injection H as ->. left. symmetry. apply trust_of_dto_kind. exact T.
Qed.
Lemma begins_kind : forall s, begins clock_words (s ++ str " Key format is not supported") -> begins clock_words s.
Proof.
  intros s (rest & H). apply app_eq_app in H. destruct H as (l & [[H _]|[H1 H2]]); [exists l; exact H|].
  destruct l as [|c l]; [exists []; rewrite app_nil_r in *; symmetry; exact H1|]. exfalso. injection H2 as <- H2.
  destruct l as [|c l].
  - apply (f_equal (@rev byte)) in H1. rewrite rev_unit in H1. vm_compute in H1. discriminate H1.
  - injection H2 as <- H2.
    assert (I : In x4b clock_words) by (rewrite H1; apply in_or_app; right; right; left; reflexivity).
    revert I. vm_compute. intuition discriminate.
Qed.
Lemma text_clock : forall F w e, (w = [] \/ w = str "trust" \/ w = str "revoke") -> begins clock_words (service_error_text F w e) ->
  e = SVE_InvalidTimestampTetraplet \/ exists s, e = SVE_DtoError (DTO_InvalidKeyFormat (InvalidKeyFormat s)) /\ begins clock_words s.
Proof.
  intros F w e W (rest & T). destruct e as [|x|x|x|x|x| | |]; cbn [service_error_text] in T; try discriminate T; [..|left; reflexivity|].
  - destruct x; discriminate T.
  - destruct x; discriminate T.
  - destruct x; discriminate T.
  - destruct x as [x| |[s]]; try discriminate T. right. exists s. split; [reflexivity|]. apply begins_kind. exists rest. exact T.
  - destruct x as [? ?|x|x|? ?|? ?|x|?]; try destruct x; discriminate T.
  - destruct W as [-> |[-> | ->]]; discriminate T.
Qed.
Lemma q_C162_clock_text_partial : forall F d cp c f r d', service_step C d (cp, c, f) = (Ok r, d') -> issuer_readable C c ->
  (forall s, In s (kinds_given c) -> ~ begins clock_words s) ->
  (begins clock_words (answer_text F c r) <-> not_from_clock cp c).
Proof.
  intros F d cp c f r d' H I K. split.
  - destruct (answer_cases _ _ _ _ _ _ H) as [[S1 E]|(S1 & e & E & P)]; unfold answer_text; rewrite E; intros T; [destruct T as (? & T); discriminate T|].
    apply text_clock in T; [|apply call_words]. destruct T as [-> |(s & -> & T)].
    + destruct P as [P|(g & ge & _ & _ & P)]; [|discriminate P]. apply plan_cause in P. destruct P as (arg & P & Q). exists arg. split; [|exact P].
      destruct c; try contradiction; rewrite Q; reflexivity.
    + exfalso. destruct P as [P|(g & ge & _ & _ & P)]; [|discriminate P]. apply plan_cause in P. cbn [cause] in P. apply (K s); [|exact T].
      destruct c; try contradiction; cbn [kinds_given].
      * apply cert_of_dto_kind. exact P.
      * left. symmetry. apply trust_of_dto_kind. exact P.
      * left. symmetry. apply trust_of_dto_kind. exact P.
      * left. symmetry. apply revocation_of_dto_kind. exact P.
  - intros (arg & L & N). assert (P : plan C cp c = Err SVE_InvalidTimestampTetraplet).
    { destruct (check_cases cp arg) as [[_ X]|[X _]]; [contradiction|].
      destruct c; try discriminate L; injection L as <-; cbn [plan]; try (rewrite X; reflexivity).
      destruct I as (k & I). apply extract_ok in I. rewrite I. cbn [bind]. rewrite X. reflexivity. }
    rewrite service_plan, P in H. cbn [carry_out] in H. injection H as <- <-. unfold answer_text. cbn [error service_error_text].
    exists (str " " ++ F H_tetraplets). reflexivity.
Qed.

(** * C163 *)
Lemma not_trust_number : forall F i e s, (N_of_u8 (hd x00 s) <? 48) || (57 <? N_of_u8 (hd x00 s)) = true ->
  certificate_error_text F (CE_VerificationError i e) <> str "Trust " ++ s.
Proof.
  intros F i e s D T. cbn [certificate_error_text] in T. apply app_inv_head in T. destruct s as [|c s].
  - apply app_eq_nil in T. destruct T as [T _]. exact (u64_to_string_not_nil _ T).
  - apply u64_first in T. apply not_digit in D. exact (D T).
Qed.
Lemma expired_message_inj : forall a b a' b', a_duration a -> a_duration b -> a_duration a' -> a_duration b' ->
  expired_message a b = expired_message a' b' -> a = a' /\ b = b'.
Proof.
  intros a b a' b' A B A' B' H. unfold expired_message in H. apply app_inv_head in H. apply duration_debug_inj in H; [|exact A|exact A'].
  destruct H as [-> H]. apply app_inv_head in H. apply duration_debug_inj in H; [|exact B|exact B']. split; [reflexivity|apply H].
Qed.
Lemma trust_text_expired : forall F e a b, a_duration a -> a_duration b ->
  (forall x y, e = TE_Expired x y -> a_duration x /\ a_duration y) ->
  trust_error_text F e = expired_message a b -> e = TE_Expired a b.
Proof.
  intros F e a b A B W T. destruct e as [x y|x|x|? ?|? ?|x|?]; try discriminate T.
  - destruct (W x y eq_refl) as [X Y]. apply (expired_message_inj x y a b) in T; try assumption. destruct T as [-> ->]. reflexivity.
  - destruct x; discriminate T.
Qed.
Lemma q_C163_library : forall F t k now e a b, a_duration (expires_at t) -> a_duration now -> a_duration a -> a_duration b ->
  trust_verify C t k now = Err e -> (trust_error_text F e = expired_message a b <-> a = expires_at t /\ b = now /\ before (expires_at t) now).
Proof.
  intros F t k now e a b T N A B H. unfold trust_verify in H. destruct (duration_ltb (expires_at t) now) eqn:L.
  - injection H as <-. apply before_ltb in L. split.
    + intros M. apply trust_text_expired in M; try assumption; [|intros x y M'; injection M' as <- <-; auto]. injection M as <- <-. auto.
    + intros (-> & -> & _). reflexivity.
  - split.
    + intros M. exfalso. apply trust_text_expired in M; try assumption.
      * subst e. destruct (pk_verify C k _ (trust_sig t)); cbn [map_err] in H; discriminate H.
      * intros x y ->. destruct (pk_verify C k _ (trust_sig t)); cbn [map_err] in H; discriminate H.
    + intros (_ & _ & X). apply before_ltb in X. congruence.
Qed.
Lemma from_secs_duration : forall n, a_duration (from_secs n).
Proof. intros n. unfold a_duration. cbn. lia. Qed.
Lemma verify_expired : forall t k now a b, trust_verify C t k now = Err (TE_Expired a b) -> a = expires_at t /\ b = now /\ before (expires_at t) now.
Proof.
  intros t k now a b H. unfold trust_verify in H. destruct (duration_ltb (expires_at t) now) eqn:L.
  - injection H as <- <-. apply before_ltb in L. auto.
  - destruct (pk_verify C k _ (trust_sig t)); cbn [map_err] in H; discriminate H.
Qed.
Lemma q_C163_verify_trust : forall F d cp c f r d' a b, service_step C d (cp, c, f) = (Ok r, d') -> a_duration a -> a_duration b ->
  (answer_text F c r = expired_message a b <->
   exists v i ts t k, c = S_verify_trust v i ts /\ host_time cp 2 /\ peer_key C i k /\ trust_record C v t /\
     a = from_secs (dt_expires_at v) /\ b = from_secs ts /\ dt_expires_at v < ts).
Proof.
  intros F d cp c f r d' a b H A B. split.
  - destruct (answer_cases _ _ _ _ _ _ H) as [[S1 E]|(S1 & e & E & P)]; unfold answer_text; rewrite E; intros T; [discriminate T|].
    destruct e as [|x|x|x|x|x| | |]; cbn [service_error_text] in T; try discriminate T.
    + destruct x; discriminate T.
    + destruct x as [x| | |x|x|x]; discriminate T.
    + destruct x; try discriminate T. destruct (not_trust_number F _ _ (str "is expired at: '" ++ duration_debug a ++ str "', current time: '" ++ duration_debug b ++ str "'") eq_refl T).
    + exfalso. destruct x as [x| |[s]]; try discriminate T.
      assert (D : ends x64 (dto_error_text F (DTO_InvalidKeyFormat (InvalidKeyFormat s)))) by (apply (service_text_ends F [] s)).
      rewrite T in D. assert (Q : ends x27 (expired_message a b)) by (unfold expired_message; repeat apply ends_app; exists []; reflexivity).
      pose proof (ends_one _ _ _ D Q). discriminate.
    + destruct P as [P|(g & ge & _ & _ & P)]; [|discriminate P]. pose proof (plan_cause _ _ _ P) as (v & i & ts & t & k & -> & Ht & K & V).
      assert (R : trust_record C v t) by (apply trust_of_dto_ok; exact Ht). pose proof R as (_ & X & _).
      assert (Z : host_time cp 2).
      { cbn [plan] in P. destruct (check_cases cp 2) as [[_ Z]|[Z _]]; [exact Z|]. rewrite Z in P. discriminate P. }
      assert (x = TE_Expired a b).
      { apply (trust_text_expired F x a b A B); [|exact T]. intros y z ->. apply verify_expired in V. destruct V as (-> & -> & _).
        rewrite X. split; apply from_secs_duration. }
      subst x. apply verify_expired in V. destruct V as (-> & -> & L). exists v, i, ts, t, k. rewrite X in *.
      do 6 (split; [first [reflexivity|assumption]|]). unfold before in L. cbn [secs nanos from_secs] in L. lia.
    + destruct c; discriminate T.
  - intros (v & i & ts & t & k & -> & Z & K & R & -> & -> & L). rewrite service_plan in H. cbn [plan] in H.
    apply check_ok in Z. rewrite Z in H. cbn [bind] in H. apply extract_ok in K. rewrite K in H. cbn [bind] in H.
    pose proof R as (_ & X & _). apply trust_of_dto_ok in R. rewrite R in H. cbn [bind map_err] in H. unfold trust_verify in H. rewrite X in H.
    replace (duration_ltb (from_secs (dt_expires_at v)) (from_secs ts)) with true in H by (symmetry; apply before_ltb; left; exact L).
    cbn [bind map_err carry_out] in H. injection H as <- <-. reflexivity.
Qed.

(** Offering trusts to the graph. *)
Definition Errs {A} (m : M graph_error A) (P : graph_error -> Prop) : Prop := forall w e w', m w = (Err e, w') -> P e.
Definition not_verification (e : graph_error) : Prop := match e with GE_TrustVerification _ => False | _ => True end.
Lemma Errs_bind : forall A B (m : M graph_error A) (k : A -> M graph_error B) P, Errs m P -> (forall a, Errs (k a) P) -> Errs (mbind m k) P.
Proof.
  intros A B m k P M K w e w' H. unfold mbind in H. destruct (m w) as [[a|x| |] w1] eqn:E; try discriminate H; [exact (K a _ _ _ H)|].
  injection H as <- <-. exact (M _ _ _ E).
Qed.
Lemma Errs_ret : forall A (a : A) P, Errs (ret a) P.
Proof. intros A a P w e w' H. discriminate H. Qed.
Lemma Errs_st : forall A (m : M storage_error A), Errs (st m) not_verification.
Proof. intros A m w e w' H. unfold st, mmap_err in H. destruct (m w) as [[a|x| |] w1]; cbn in H; try discriminate H. injection H as <- <-. exact I. Qed.
Lemma extend_errs : forall auths c, Errs (extend_chain C c auths) not_verification.
Proof.
  induction auths as [|a auths IH]; intros c; cbn [extend_chain]; [apply Errs_ret|]. destruct (can_be_extended_by c (issued_by a)); [|apply IH].
  apply Errs_bind; [apply Errs_st|]. intros rs. apply Errs_bind; [apply IH|]. intros rest. apply Errs_ret.
Qed.
Lemma search_step_errs : forall roots s, Errs (search_step C roots s) not_verification.
Proof.
  intros roots s. unfold search_step. destruct (fst s) as [|c q]; [apply Errs_ret|]. apply Errs_bind; [apply Errs_st|]. intros auths.
  apply Errs_bind; [apply extend_errs|]. intros new. apply Errs_ret.
Qed.
Lemma search_run_errs : forall n roots s, Errs (search_run C n roots s) not_verification.
Proof.
  induction n as [|n IH]; intros roots s; cbn [search_run]; [apply search_step_errs|]. apply Errs_bind; [apply IH|]. intros s'.
  destruct (fst s'); [apply Errs_ret|apply IH].
Qed.
Lemma certs_errs : forall pk now, Errs (get_all_certs C pk now) not_verification.
Proof.
  intros pk now. unfold get_all_certs, bf_search_paths. apply Errs_bind; [apply Errs_st|]. intros _. apply Errs_bind; [apply Errs_st|]. intros roots.
  apply Errs_bind; [|intros paths; apply Errs_ret]. apply Errs_bind; [apply Errs_st|]. intros auths. apply Errs_bind; [apply Errs_st|]. intros revs.
  apply Errs_bind; [intros w; apply search_run_errs|]. intros s. destruct (fst s); [apply Errs_ret|]. intros w e w' H. discriminate H.
Qed.
Lemma factor_errs : forall cs acc, Errs (certs_min_factor cs acc) not_verification.
Proof.
  induction cs as [|c cs IH]; intros acc; cbn [certs_min_factor]; [apply Errs_ret|]. destruct c as [|t c]; [intros w e w' H; injection H as <- <-; exact I|].
  apply Errs_bind; [apply Errs_st|]. intros [rwf|]; [apply IH|intros w e w' H; injection H as <- <-; exact I].
Qed.
Lemma next_weight_errs : forall b k now, Errs (get_next_weight C b k now) not_verification.
Proof.
  intros b k now. unfold get_next_weight, weight. apply Errs_bind; [|intros w; apply Errs_ret]. apply Errs_bind; [apply Errs_st|]. intros rf.
  apply Errs_bind; [apply certs_errs|]. intros cs. apply Errs_bind; [|intros cf; apply Errs_ret]. unfold certificates_weight_factor.
  destruct cs as [|c cs]; [apply Errs_ret|]. apply Errs_bind; [apply factor_errs|]. intros x. apply Errs_ret.
Qed.
Lemma add_trust_errs : forall t b now, Errs (add_trust C t b now) (fun e => forall x, e = GE_TrustVerification x -> trust_verify C t b now = Err x).
Proof.
  intros t b now w e w' H x ->. unfold add_trust, mbind, lift in H. destruct (trust_verify C t b now) as [u|y| |]; cbn [map_err] in H; try discriminate H.
  - exfalso. change (mbind (get_next_weight C b (issued_for t) now)
      (fun v => if v =? 0 then ret 0 else mbind (st (update_auth C (mk_auth t b) now)) (fun _ => ret v)) w = (Err (GE_TrustVerification x), w')) in H.
    revert H. apply (Errs_bind _ _ _ _ not_verification).
    + apply next_weight_errs.
    + intros v. destruct (v =? 0); [apply Errs_ret|]. apply Errs_bind; [apply Errs_st|intros _; apply Errs_ret].
  - injection H as <- _. reflexivity.
Qed.
Lemma add_chain_errs : forall c b now, Errs (add_chain C c b now)
  (fun e => forall x, e = GE_TrustVerification x -> exists t k, In t c /\ trust_verify C t k now = Err x).
Proof.
  induction c as [|t c IH]; intros b now; cbn [add_chain]; [apply Errs_ret|]. apply Errs_bind.
  - intros w e w' H x E. exists t, b. split; [left; reflexivity|]. exact (add_trust_errs t b now w e w' H x E).
  - intros _ w e w' H x E. destruct (IH _ _ _ _ _ H x E) as (t' & k & I & V). exists t', k. split; [right; exact I|exact V].
Qed.
Lemma add_errs : forall c now, Errs (add C c now)
  (fun e => forall x, e = GE_TrustVerification x -> exists t k, In t c /\ trust_verify C t k now = Err x).
Proof. intros [|t c] now; cbn [add]; [intros w e w' H; injection H as <- <-; discriminate|apply add_chain_errs]. Qed.
Lemma graph_step_errs : forall d g f x d', graph_step C d (g, f) = (Err (GE_TrustVerification x), d') ->
  match g with
  | G_add_trust t b now => trust_verify C t b now = Err x
  | G_add c now => exists t k, In t c /\ trust_verify C t k now = Err x
  | _ => False
  end.
Proof.
  intros d g f x d' H. unfold graph_step in H. cbn [fst snd] in H. destruct (graph_do C g (mk_world d f)) as [r w] eqn:E. injection H as -> <-.
  destruct g; cbn [graph_do] in E; unfold mmap in E.
  - apply (Errs_bind _ _ _ _ not_verification) in E; [exact E|apply Errs_st|intros ?; apply Errs_ret].
  - unfold mbind in E. destruct (add_trust C t by_pk now (mk_world d f)) as [[v|y| |] w1] eqn:A; try discriminate E. injection E as -> _.
    exact (add_trust_errs _ _ _ _ _ _ A x eq_refl).
  - unfold mbind in E. destruct (add C c now (mk_world d f)) as [[v|y| |] w1] eqn:A; try discriminate E. injection E as -> _.
    exact (add_errs _ _ _ _ _ A x eq_refl).
  - apply (Errs_bind _ _ _ _ not_verification) in E; [exact E| |intros ?; apply Errs_ret]. unfold weight. apply Errs_bind; [apply Errs_st|]. intros rf.
    apply Errs_bind; [apply certs_errs|]. intros cs. apply Errs_bind; [|intros cf; apply Errs_ret]. unfold certificates_weight_factor.
    destruct cs as [|c cs]; [apply Errs_ret|]. apply Errs_bind; [apply factor_errs|]. intros ?. apply Errs_ret.
  - apply (Errs_bind _ _ _ _ not_verification) in E; [exact E| |intros ?; apply Errs_ret]. unfold weight_from, get_all_certs_from.
    apply Errs_bind; [apply Errs_bind; [apply certs_errs|intros ?; apply Errs_ret]|]. intros cs. apply Errs_bind; [|intros cf; apply Errs_ret]. unfold certificates_weight_factor.
    destruct cs as [|c cs]; [apply Errs_ret|]. apply Errs_bind; [apply factor_errs|]. intros ?. apply Errs_ret.
  - apply (Errs_bind _ _ _ _ not_verification) in E; [exact E|apply certs_errs|intros ?; apply Errs_ret].
  - apply (Errs_bind _ _ _ _ not_verification) in E; [exact E| |intros ?; apply Errs_ret]. unfold get_all_certs_from.
    apply Errs_bind; [apply certs_errs|intros ?; apply Errs_ret].
  - apply (Errs_bind _ _ _ _ not_verification) in E; [exact E| |intros ?; apply Errs_ret]. unfold revoke. apply Errs_bind; [|intros _; apply Errs_st].
    intros w0 e w' H. unfold lift in H. destruct (revocation_verify C v); cbn [map_err] in H; try discriminate H. injection H as <- _. exact I.
  - apply (Errs_bind _ _ _ _ not_verification) in E; [exact E|apply Errs_st|intros ?; apply Errs_ret].
Qed.
Lemma certificate_record_in : forall rs c t, cert_of_dto C rs = Ok c -> In t c -> exists r, In r rs /\ trust_record C r t.
Proof.
  intros rs c t H I. apply cert_of_dto_ok in H. unfold certificate_record in H. induction H as [|r t' rs c R _ IH]; [destruct I|].
  destruct I as [->|I]; [exists r; split; [left; reflexivity|exact R]|]. destruct (IH I) as (v & Iv & Rv). exists v. split; [right; exact Iv|exact Rv].
Qed.
Lemma parsed_durations : forall n ls i ts t, (length ls <= n)%nat -> cert_parse_trusts C ls i = Ok ts -> In t ts -> a_duration (expires_at t).
Proof.
  induction n as [|n IH]; intros ls i ts t L H I; (destruct ls as [|a [|b [|c [|d ls]]]]; cbn [cert_parse_trusts length] in *; try discriminate H; try lia;
    [injection H as <-; destruct I|..]).
  destruct (trust_from_strings C a b c d) as [u|?| |] eqn:U; cbn [map_err bind] in H; try discriminate H.
  destruct (cert_parse_trusts C ls (i + 4)) as [us|?| |] eqn:R; cbn [bind] in H; try discriminate H. injection H as <-.
  destruct I as [<-|I]; [|apply (IH ls (i + 4)%nat us t); [lia|exact R|exact I]].
  unfold trust_from_strings in U. destruct (bs58_str_to_vec a F_issued_for) as [?|?| |]; cbn [bind] in U; try discriminate U.
  match type of U with context [map_err TE_DecodePublicKeyError ?x] => destruct x as [?|?| |]; cbn [map_err bind] in U; try discriminate U end.
  destruct (bs58_str_to_vec b F_signature) as [?|?| |]; cbn [bind] in U; try discriminate U.
  match type of U with context [map_err TE_PublicKeyError ?x] => destruct x as [?|?| |]; cbn [map_err bind] in U; try discriminate U end.
  unfold str_to_duration in U. destruct (parse_u64 c) as [?|?| |]; cbn [map_err bind] in U; try discriminate U.
  destruct (parse_u64 d) as [?|?| |]; cbn [map_err bind] in U; try discriminate U. injection U as <-. apply from_secs_duration.
Qed.
Lemma raw_durations : forall s c t, cert_from_str C s = Ok c -> In t c -> a_duration (expires_at t).
Proof.
  intros s c t H I. unfold cert_from_str in H. destruct (lines s) as [|a [|b ls]]; try discriminate H.
  destruct (Nat.eqb _ 0); [|discriminate H]. eapply parsed_durations; [apply le_n|exact H|exact I].
Qed.
Lemma q_C163_offered : forall F d cp c f r d' a b, service_step C d (cp, c, f) = (Ok r, d') -> a_duration a -> a_duration b ->
  answer_text F c r = str "Trust verification error: " ++ expired_message a b ->
  exists t, offered C c t /\ a = expires_at t /\ b = offered_at c /\ before (expires_at t) (offered_at c).
Proof.
  intros F d cp c f r d' a b H A B.
  destruct (answer_cases _ _ _ _ _ _ H) as [[S1 E]|(S1 & e & E & P)]; unfold answer_text; rewrite E; intros T; [discriminate T|].
  destruct e as [|x|x|x|x|x| | |]; cbn [service_error_text] in T; try discriminate T.
  - destruct x; discriminate T.
  - destruct x as [x| | |x|x|x]; try discriminate T. cbn [graph_error_text] in T. apply app_inv_head in T.
    destruct P as [P|(g & ge & P & G & Q)]; [destruct (plan_cause _ _ _ P)|]. injection Q as <-. apply graph_step_errs in G.
    assert (W : forall t k now, trust_verify C t k now = Err x -> a_duration (expires_at t) -> a_duration now -> a = expires_at t /\ b = now /\ before (expires_at t) now).
    { intros t k now V D1 D2. apply (q_C163_library F t k now x a b D1 D2 A B V). exact T. }
    destruct c as [p n|s ts|rs ts|p ts|p i ts|ts|i ts|p ts|p i ts|p ex is|p ex is bb|v i ts|v i ts|p at_|bp p at_ s|v ts|p]; cbn [plan] in P.
    all: repeat match type of P with
      | context [bytes_eqb ?y ?z] => destruct (bytes_eqb y z); cbn [bind map_err] in P; try discriminate P
      | context [extract_public_key C ?s] => destruct (extract_public_key C s) as [?|?| |] eqn:?; cbn [bind map_err] in P; try discriminate P
      | context [check_timestamp_tetraplets ?q ?n] => destruct (check_timestamp_tetraplets q n) as [?|?| |] eqn:?; cbn [bind map_err] in P; try discriminate P
      | context [cert_from_str C ?s] => destruct (cert_from_str C s) as [?|?| |] eqn:?; cbn [bind map_err] in P; try discriminate P
      | context [cert_of_dto C ?s] => destruct (cert_of_dto C s) as [?|?| |] eqn:?; cbn [bind map_err] in P; try discriminate P
      | context [?y <? ?z] => destruct (N.ltb_spec y z); cbn [bind map_err] in P; try discriminate P
      | context [trust_of_dto C ?s] => destruct (trust_of_dto C s) as [?|?| |] eqn:?; cbn [bind map_err] in P; try discriminate P
      | context [revocation_of_dto C ?s] => destruct (revocation_of_dto C s) as [?|?| |] eqn:?; cbn [bind map_err] in P; try discriminate P
      | context [trust_verify C ?y ?z ?u] => destruct (trust_verify C y z u) as [?|?| |] eqn:?; cbn [bind map_err] in P; try discriminate P
      end.
    all: unfold gcall in P; injection P as <-; try contradiction.
    all: cbn [offered offered_at].
    + destruct G as (t & k & I & V). exists t. split; [eexists; split; [eassumption|exact I]|]. apply (W t k); [exact V| |apply from_secs_duration].
      eapply raw_durations; eassumption.
    + destruct G as (t & k & I & V). match goal with Hc : cert_of_dto C rs = Ok _ |- _ => pose proof (certificate_record_in _ _ _ Hc I) as (v & Iv & R) end. exists t. split; [exists v; split; [exact Iv|exact R]|].
      apply (W t k); [exact V| |apply from_secs_duration]. destruct R as (_ & R & _). rewrite R. apply from_secs_duration.
    + match goal with Hc : trust_of_dto C v = Ok ?t |- _ => apply trust_of_dto_ok in Hc; exists t; split; [exact Hc|];
        eapply W; [exact G| |apply from_secs_duration]; destruct Hc as (_ & R & _); rewrite R; apply from_secs_duration end.
  - destruct x; try discriminate T. destruct (not_trust_number _ _ _ (str "verification error: " ++ expired_message a b) eq_refl T).
  - exfalso. destruct x as [x| |[s]]; try discriminate T.
    assert (D : ends x64 (dto_error_text F (DTO_InvalidKeyFormat (InvalidKeyFormat s)))) by (apply (service_text_ends F [] s)).
    rewrite T in D. assert (Q : ends x27 (str "Trust verification error: " ++ expired_message a b)) by (unfold expired_message; repeat apply ends_app; exists []; reflexivity).
    pose proof (ends_one _ _ _ D Q). discriminate.
  - destruct x as [? ?|x|x|? ?|? ?|x|?]; try destruct x; discriminate T.
  - destruct c; discriminate T.
Qed.

(** * C164 *)
Lemma number_inj : forall i j z z', u64_to_string i ++ x20 :: z = u64_to_string j ++ x20 :: z' -> i = j /\ z = z'.
Proof.
  intros i j z z' H. assert (D : not_digit_first (x20 :: z) /\ not_digit_first (x20 :: z')) by (split; apply not_digit; reflexivity).
  apply digits_split in H; [|apply u64_digits|apply u64_digits|apply D|apply D]. destruct H as [H1 H2]. apply u64_to_string_inj in H1. injection H2 as H2. auto.
Qed.
Lemma q_C164_certificate_text : forall F c roots now e i z, cert_verify C c roots now = Err e ->
  certificate_error_text F e = str "Trust " ++ u64_to_string (N.of_nat i) ++ str " in chain did not pass verification: " ++ z ->
  exists j g t te, i = S j /\ at_pos c j g /\ at_pos c i t /\ trust_defect C (issued_for g) t now te /\ z = trust_error_text F te /\
    (forall l, (i <= l)%nat -> (S l < length c)%nat -> good_link C c now l).
Proof.
  intros F c roots now e i z H T. apply cert_verify_culprit in H. destruct e as [s|te|a b| |te| | |n te|n te]; try contradiction; try discriminate T.
  cbn [certificate_error_text] in T. apply app_inv_head in T. apply number_inj in T. destruct T as [T Z]. apply Nat2N.inj in T. subst n.
  destruct H as (j & g & t & t0 & Hi & Hg & Ht & D & G & _). exists j, g, t, te. repeat (split; [assumption|]). split; [|exact G].
  symmetry. exact (f_equal (skipn 36) Z).
Qed.

(** * C165 *)
Lemma parse_err : forall n ls i e, (length ls <= n)%nat -> cert_parse_trusts C ls i = Err e ->
  exists k pre a b c d post ts te, ls = pre ++ a :: b :: c :: d :: post /\ length pre = (4 * k)%nat /\ cert_parse_trusts C pre i = Ok ts /\ length ts = k /\
    trust_from_strings C a b c d = Err te /\ e = CE_DecodeTrustError (i + 4 * k) te.
Proof.
  induction n as [|n IH]; intros ls i e L H; (destruct ls as [|a [|b [|c [|d ls]]]]; cbn [cert_parse_trusts length] in *; try discriminate H; try lia).
  destruct (trust_from_strings C a b c d) as [u|te| |] eqn:U; cbn [map_err bind] in H; try discriminate H.
  - destruct (cert_parse_trusts C ls (i + 4)) as [us|x| |] eqn:R; cbn [bind] in H; try discriminate H. injection H as <-.
    destruct (IH ls (i + 4)%nat x ltac:(lia) R) as (k & pre & a' & b' & c' & d' & post & ts & te & -> & Lp & P & Lt & T & ->).
    exists (S k), (a :: b :: c :: d :: pre), a', b', c', d', post, (u :: ts), te. split; [reflexivity|]. split; [cbn [length]; lia|].
    split; [cbn [cert_parse_trusts]; rewrite U; cbn [map_err bind]; rewrite P; reflexivity|]. split; [cbn [length]; lia|]. split; [exact T|]. f_equal. lia.
  - injection H as <-. exists 0%nat, [], a, b, c, d, ls, [], te. repeat (split; [reflexivity|]). split; [exact U|]. f_equal. lia.
Qed.
Lemma parse_before : forall j i k pre ts h v post, length pre = (4 * k)%nat -> cert_parse_trusts C pre i = Ok ts -> (j < k)%nat ->
  exists a b c d t, firstn 4 (skipn (4 * j + 2) (h :: v :: pre ++ post)) = [a; b; c; d] /\ trust_from_strings C a b c d = Ok t.
Proof.
  induction j as [|j IH]; intros i k pre ts h v post Lp P Hj.
  - destruct k as [|k]; [lia|]. destruct pre as [|a1 [|b1 [|c1 [|d1 pre]]]]; cbn [length] in Lp; try lia. cbn [cert_parse_trusts] in P.
    destruct (trust_from_strings C a1 b1 c1 d1) as [u|?| |] eqn:U1; cbn [map_err bind] in P; try discriminate P. exists a1, b1, c1, d1, u. split; [reflexivity|exact U1].
  - destruct k as [|k]; [lia|]. destruct pre as [|a1 [|b1 [|c1 [|d1 pre]]]]; cbn [length] in Lp; try lia. cbn [cert_parse_trusts] in P.
    destruct (trust_from_strings C a1 b1 c1 d1) as [u|?| |] eqn:U1; cbn [map_err bind] in P; try discriminate P.
    destruct (cert_parse_trusts C pre (i + 4)) as [us|?| |] eqn:R; cbn [bind] in P; try discriminate P.
    destruct (IH (i + 4)%nat k pre us h v post ltac:(lia) R ltac:(lia)) as (a' & b' & c' & d' & t & F4 & V). exists a', b', c', d', t. split; [|exact V].
    replace (4 * S j + 2)%nat with (S (S (S (S (4 * j + 2))))) by lia. replace (4 * j + 2)%nat with (S (S (4 * j))) in * by lia. cbn [skipn app] in *. exact F4.
Qed.
Lemma q_C165_line_number : forall F s e n z, cert_from_str C s = Err e ->
  certificate_error_text F e = str "Cannot convert trust number " ++ u64_to_string (N.of_nat n) ++ str " from string: " ++ z ->
  exists k a b c d te, n = (4 * k + 2)%nat /\ firstn 4 (skipn n (lines s)) = [a; b; c; d] /\ trust_from_strings C a b c d = Err te /\ z = trust_error_text F te /\
    (forall j, (j < k)%nat -> exists a' b' c' d' t, firstn 4 (skipn (4 * j + 2) (lines s)) = [a'; b'; c'; d'] /\ trust_from_strings C a' b' c' d' = Ok t).
Proof.
  intros F s e n z H T. unfold cert_from_str in H. destruct (lines s) as [|h [|v ls]]; try discriminate H.
  destruct (Nat.eqb (length ls mod 4) 0); [|injection H as <-; discriminate T].
  apply (parse_err (length ls)) in H; [|apply le_n]. destruct H as (k & pre & a & b & c & d & post & ts & te & -> & Lp & P & Lt & U & ->).
  cbn [certificate_error_text] in T. apply app_inv_head in T. apply number_inj in T. destruct T as [T Z]. apply Nat2N.inj in T. subst n.
  exists k, a, b, c, d, te. split; [lia|]. replace (2 + 4 * k)%nat with (S (S (length pre))) by lia.
  split; [cbn [skipn]; rewrite skipn_app, skipn_all, Nat.sub_diag; reflexivity|]. split; [exact U|]. split; [symmetry; exact (f_equal (skipn 13) Z)|].
  intros j Hj. exact (parse_before j 2%nat k pre ts h v (a :: b :: c :: d :: post) Lp P Hj).
Qed.

End Step.

(** A text is given exactly for a failure, whatever the parts that come from elsewhere. *)
Lemma p_C160_error_text_iff : forall C F d cp c f r d', service_step C d (cp, c, f) = (Ok r, d') ->
  (answer_text F c r = [] <-> success r = true).
Proof. intros C. exact (q_C160_error_text_iff C). Qed.
(** The owner's text: exactly [set_root] called for somebody else than the creator of the service. *)
Lemma p_C161_owner_text : forall C F d cp c f r d', service_step C d (cp, c, f) = (Ok r, d') ->
  (answer_text F c r = str "Root could add only by trust graph service owner" <->
   (exists p n, c = S_set_root p n) /\ service_creator_peer_id cp <> init_peer_id cp).
Proof. intros C. exact (q_C161_owner_text C). Qed.
(** The text about the time of a trust: exactly [add_trust] with a readable issuer, the host's clock, and a trust of the future. *)
Lemma p_C161_trust_time_text : forall C F d cp c f r d', service_step C d (cp, c, f) = (Ok r, d') ->
  (answer_text F c r = str "trust can't be issued later than the current timestamp" <->
   exists t i ts k, c = S_add_trust t i ts /\ peer_key C i k /\ host_time cp 2 /\ ts < dt_issued_at t).
Proof. intros C. exact (q_C161_trust_time_text C). Qed.
(** The text about the time of a revocation. *)
Lemma p_C161_revoke_time_text : forall C F d cp c f r d', service_step C d (cp, c, f) = (Ok r, d') ->
  (answer_text F c r = str "revoke can't be issued later than the current timestamp" <->
   exists v ts, c = S_revoke v ts /\ host_time cp 1 /\ ts < dr_revoked_at v).
Proof. intros C. exact (q_C161_revoke_time_text C). Qed.
(** A text that begins like the refusal of a time is one, unless a kind of signature in the call begins so too. *)
Lemma p_C162_clock_text_partial : forall C F d cp c f r d', service_step C d (cp, c, f) = (Ok r, d') -> issuer_readable C c ->
  (forall s, In s (kinds_given c) -> ~ begins clock_words s) ->
  (begins clock_words (answer_text F c r) <-> not_from_clock cp c).
Proof. intros C. exact (q_C162_clock_text_partial C). Qed.
(** Verifying a trust, in the library. *)
Lemma p_C163_library : forall C F t k now e a b, a_duration (expires_at t) -> a_duration now -> a_duration a -> a_duration b ->
  trust_verify C t k now = Err e -> (trust_error_text F e = expired_message a b <-> a = expires_at t /\ b = now /\ before (expires_at t) now).
Proof. intros C. exact (q_C163_library C). Qed.
(** Verifying a trust at the service: this text is given exactly then, with the times of the record and of the call. *)
Lemma p_C163_verify_trust : forall C F d cp c f r d' a b, service_step C d (cp, c, f) = (Ok r, d') -> a_duration a -> a_duration b ->
  (answer_text F c r = expired_message a b <->
   exists v i ts t k, c = S_verify_trust v i ts /\ host_time cp 2 /\ peer_key C i k /\ trust_record C v t /\
     a = from_secs (dt_expires_at v) /\ b = from_secs ts /\ dt_expires_at v < ts).
Proof. intros C. exact (q_C163_verify_trust C). Qed.
(** What a refused offer says about expiry is true of a trust that was offered, whatever the store and its failures. *)
Lemma p_C163_offered : forall C F d cp c f r d' a b, service_step C d (cp, c, f) = (Ok r, d') -> a_duration a -> a_duration b ->
  answer_text F c r = str "Trust verification error: " ++ expired_message a b ->
  exists t, offered C c t /\ a = expires_at t /\ b = offered_at c /\ before (expires_at t) (offered_at c).
Proof. intros C. exact (q_C163_offered C). Qed.
(** The number in the text is the position of the last trust of the chain that does not verify against the one before it, and what
    follows is what is wrong with it. *)
Lemma p_C164_certificate_text : forall C F c roots now e i z, cert_verify C c roots now = Err e ->
  certificate_error_text F e = str "Trust " ++ u64_to_string (N.of_nat i) ++ str " in chain did not pass verification: " ++ z ->
  exists j g t te, i = S j /\ at_pos c j g /\ at_pos c i t /\ trust_defect C (issued_for g) t now te /\ z = trust_error_text F te /\
    (forall l, (i <= l)%nat -> (S l < length c)%nat -> good_link C c now l).
Proof. intros C. exact (q_C164_certificate_text C). Qed.
(** The number in the text is that of the line the trust begins at: two more than four times its position. *)
Lemma p_C165_line_number : forall C F s e n z, cert_from_str C s = Err e ->
  certificate_error_text F e = str "Cannot convert trust number " ++ u64_to_string (N.of_nat n) ++ str " from string: " ++ z ->
  exists k a b c d te, n = (4 * k + 2)%nat /\ firstn 4 (skipn n (lines s)) = [a; b; c; d] /\ trust_from_strings C a b c d = Err te /\ z = trust_error_text F te /\
    (forall j, (j < k)%nat -> exists a' b' c' d' t, firstn 4 (skipn (4 * j + 2) (lines s)) = [a'; b'; c'; d'] /\ trust_from_strings C a' b' c' d' = Ok t).
Proof. intros C. exact (q_C165_line_number C). Qed.

(** The answer's text in a store with nothing in it. *)
Definition silent : foreign := fun _ => [].
Definition told_text (cp : call_params) (c : service_call) : option text :=
  match fst (service_step (toy true) empty_db (cp, c, None)) with Ok r => Some (answer_text silent c r) | _ => None end.
(** A read of an unreadable peer id fails with a text; a root is set without one. *)
Example e_C160_texts : told_text script_call (S_get_trust_bytes [] 9 1) = Some (str "public key extraction from peer id failed: peer id parse error: ") /\
  told_text owner_call (S_set_root (pid 1) 5) = Some [].
Proof. split; vm_compute; reflexivity. Qed.
(** The three refusals. *)
Example e_C161_texts : told_text script_call (S_set_root (pid 1) 5) = Some (str "Root could add only by trust graph service owner") /\
  told_text (timed_call 2) (S_add_trust (trust_rec 1 2 900 7) (pid 1) 6) = Some (str "trust can't be issued later than the current timestamp") /\
  told_text (timed_call 1) (S_revoke (rev_rec 1 2 7) 6) = Some (str "revoke can't be issued later than the current timestamp").
Proof. split; [|split]; vm_compute; reflexivity. Qed.
(** A weight asked with the stranger's own time. *)
Example e_C162_refused : issuer_readable (toy true) (S_get_weight (pid 2) 6) /\ (forall s, In s (kinds_given (S_get_weight (pid 2) 6)) -> ~ begins clock_words s) /\
  told_text script_call (S_get_weight (pid 2) 6) = Some (str "you should use host peer.timestamp_sec to pass timestamp: ").
Proof. split; [exact I|]. split; [intros s []|vm_compute; reflexivity]. Qed.
(** The full claim fails: with the host's time, a kind of signature of the caller's making gives a text that begins like the refusal. *)
Definition odd_record : dto_trust :=
  mk_dto_trust (pid 2) 900 [] (str "you should use host peer.timestamp_sec to pass timestamp: [], now an ed25519") 1.
Lemma p_C162_clock_text_refuted : exists C F d cp c f r d', crypto_laws C /\ service_reachable C d /\ service_step C d (cp, c, f) = (Ok r, d') /\
  begins clock_words (answer_text F c r) /\ ~ not_from_clock cp c.
Proof.
  exists (toy true), silent, empty_db, (timed_call 2), (S_verify_trust odd_record (pid 1) 6), None, (mk_response false (Some (SVE_DtoError (DTO_InvalidKeyFormat (InvalidKeyFormat (dt_sig_type odd_record))))) P_none), empty_db.
  split; [exact (toy_laws true)|]. split; [exists []; split; [constructor|reflexivity]|]. split; [vm_compute; reflexivity|].
  split; [exists (str " [], now an ed25519 Key format is not supported"); vm_compute; reflexivity|].
  intros (arg & L & N). injection L as <-. apply N. exists from_clock, []. repeat split.
Qed.
(** A duration's text is that of no other. *)
Lemma p_C163_duration_text : forall a b, a_duration a -> a_duration b -> duration_debug a = duration_debug b -> a = b.
Proof. intros a b A B H. apply (duration_debug_inj a b [] []); [exact A|exact B|]. rewrite H. reflexivity. Qed.
Example e_C163_durations : duration_debug (from_secs 900) = str "900s" /\ duration_debug (mk_duration 2 50000000) = str "2.05s" /\
  duration_debug (mk_duration 0 1500000) = str "1.5ms" /\ duration_debug (mk_duration 0 999) = str "999ns" /\ duration_debug (from_secs 0) = str "0ns".
Proof. vm_compute. auto. Qed.
(** A trust until second 900, a second later. *)
Example e_C163_expired : told_text (timed_call 2) (S_verify_trust (trust_rec 1 2 900 1) (pid 1) 901) = Some (str "Trust is expired at: '900s', current time: '901s'") /\
  told_text (timed_call 2) (S_add_trust (trust_rec 1 2 900 1) (pid 1) 901) = Some (str "Trust verification error: Trust is expired at: '900s', current time: '901s'").
Proof. split; vm_compute; reflexivity. Qed.
Definition three_trusts : certificate := [toy_trust 1 1 100 1; toy_trust 1 2 90 2; toy_trust 2 3 80 3].
(** The last trust of three has expired. *)
Example e_C164_last : exists e, cert_verify (toy true) three_trusts [toy_key 1] (from_secs 95) = Err e /\
  certificate_error_text silent e = str "Trust 2 in chain did not pass verification: Trust is expired at: '80s', current time: '95s'".
Proof. eexists. split; vm_compute; reflexivity. Qed.
(** The full claim fails: the first trust is called number 2. *)
Definition one_bad_trust : text := str "11" ++ [x0a] ++ str "1111" ++ [x0a] ++ str "0" ++ [x0a] ++ str "1" ++ [x0a] ++ str "1" ++ [x0a] ++ str "1" ++ [x0a].
Lemma p_C165_position_refuted : exists C F s e z, crypto_laws C /\ cert_from_str C s = Err e /\ length (lines s) = 6%nat /\
  certificate_error_text F e = str "Cannot convert trust number 2 from string: " ++ z.
Proof.
  exists (toy true), silent, one_bad_trust. eexists. eexists. split; [exact (toy_laws true)|]. split; [vm_compute; reflexivity|]. split; [vm_compute; reflexivity|].
  vm_compute. reflexivity.
Qed.
