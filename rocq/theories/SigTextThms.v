(** Proofs about the messages of wrong signatures. *)
From Coq Require Import List NArith ZArith Bool Lia.
From Coq Require Import Strings.Byte.
From Coq Require String.
Import String.StringSyntax.
From Verif Require Import Base BaseFacts Text TextFacts Keys Trust TrustFacts Certificate CertFacts Relation Storage Graph SearchFacts Service Spec SpecFacts GraphFacts StateFacts
  ServiceSpec ServiceFacts ServiceThms Toy ToyFacts Witness ServiceWitness ErrorText ErrorTextSpec ErrorTextFacts ErrorTextThms FailTextThms SigTextSpec.
Import ListNotations.
Open Scope N_scope.

Fixpoint starts (p s : text) : bool :=
  match p, s with
  | [], _ => true
  | a :: p', b :: s' => Byte.eqb a b && starts p' s'
  | _, [] => false
  end.
Lemma starts_app : forall p s, starts p (p ++ s) = true.
Proof. induction p as [|a p IH]; intros s; [reflexivity|]. cbn [starts app]. rewrite IH, andb_true_r. apply Byte.byte_dec_lb. reflexivity. Qed.
Definition kind_end : text := str " Key format is not supported".
Lemma begins_kind : forall w s, forallb (fun n => negb (starts (skipn n w) kind_end)) (seq 0 (length w)) = true -> begins w (s ++ kind_end) -> begins w s.
Proof.
  intros w s H (rest & E). apply app_eq_app in E. destruct E as (l & [[E _]|[E1 E2]]); [exists l; exact E|].
  destruct l as [|c l]; [exists []; rewrite app_nil_r in *; symmetry; exact E1|]. exfalso.
  assert (L : In (length s) (seq 0 (length w))) by (apply in_seq; rewrite E1, app_length; cbn [length]; lia).
  pose proof (proj1 (forallb_forall _ _) H _ L) as X. cbn beta in X. rewrite E1, skipn_app, skipn_all, Nat.sub_diag in X. cbn [skipn app] in X.
  rewrite E2 in X. change ((c :: l) ++ rest) with ((c :: l) ++ rest) in X. rewrite starts_app in X. discriminate X.
Qed.
(** A message that is one of the words [w] because of a kind of signature. *)
Definition by_kind (w : text) (e : service_error) : Prop := exists s, e = SVE_DtoError (DTO_InvalidKeyFormat (InvalidKeyFormat s)) /\ begins w s.
Lemma text_revoke : forall F w e, (w = [] \/ w = str "trust" \/ w = str "revoke") -> begins revoke_words (service_error_text F w e) ->
  (exists x, e = SVE_TGError (GE_RevokeCheck x)) \/ by_kind revoke_words e.
Proof.
  intros F w e W (rest & T). destruct e as [|x|x|x|x|x| | |]; cbn [service_error_text] in T; try discriminate T.
  - destruct x; discriminate T.
  - destruct x; try discriminate T. left. eexists. reflexivity.
  - destruct x; discriminate T.
  - destruct x as [x| |[s]]; try discriminate T. right. exists s. split; [reflexivity|]. apply begins_kind; [vm_compute; reflexivity|]. exists rest. exact T.
  - destruct x as [? ?|x|x|? ?|? ?|x|?]; try destruct x; discriminate T.
  - destruct W as [-> |[-> | ->]]; discriminate T.
Qed.
Lemma text_signature : forall F w e, (w = [] \/ w = str "trust" \/ w = str "revoke") -> begins signature_words (service_error_text F w e) ->
  (exists x, e = SVE_TrustError (TE_SignatureError x)) \/ by_kind signature_words e.
Proof.
  intros F w e W (rest & T). destruct e as [|x|x|x|x|x| | |]; cbn [service_error_text] in T; try discriminate T.
  - destruct x; discriminate T.
  - destruct x; discriminate T.
  - destruct x; discriminate T.
  - destruct x as [x| |[s]]; try discriminate T. right. exists s. split; [reflexivity|]. apply begins_kind; [vm_compute; reflexivity|]. exists rest. exact T.
  - destruct x as [? ?|x|x|? ?|? ?|x|?]; [|left; eexists; reflexivity|..]; exfalso; try destruct x; discriminate T.
  - destruct W as [-> |[-> | ->]]; discriminate T.
Qed.
Lemma text_offer : forall F w e, (w = [] \/ w = str "trust" \/ w = str "revoke") -> begins (offer_words ++ signature_words) (service_error_text F w e) ->
  (exists x, e = SVE_TGError (GE_TrustVerification (TE_SignatureError x))) \/ by_kind (offer_words ++ signature_words) e.
Proof.
  intros F w e W (rest & T). destruct e as [|x|x|x|x|x| | |]; cbn [service_error_text] in T; try discriminate T.
  - destruct x; discriminate T.
  - destruct x as [x| | |x|x|x]; try discriminate T. left. cbn [graph_error_text] in T. change (str "Trust verification error: ") with offer_words in T.
    rewrite <- app_assoc in T. apply app_inv_head in T. destruct x as [? ?|x|x|? ?|? ?|x|?]; [|eexists; reflexivity|..]; exfalso; try destruct x; discriminate T.
  - exfalso. destruct x; try discriminate T. exact (not_trust_number F _ _ (skipn 6 ((offer_words ++ signature_words) ++ rest)) eq_refl T).
  - destruct x as [x| |[s]]; try discriminate T. right. exists s. split; [reflexivity|]. apply begins_kind; [vm_compute; reflexivity|]. exists rest. exact T.
  - destruct x as [? ?|x|x|? ?|? ?|x|?]; try destruct x; discriminate T.
  - destruct W as [-> |[-> | ->]]; discriminate T.
Qed.

(** What a failed check of a signature says. *)
Lemma verify_message : forall C F k m s e, pk_verify C k m s = Err e -> verification_text F e = signature_message F k.
Proof.
  intros C F k m s e H. unfold pk_verify in H. unfold verification_text, signature_message, kind_name, kind_says, signature_words. destruct (pk_fmt k).
  - destruct (ed_verify C (pk_raw k) m (sig_raw s)); [discriminate H|injection H as <-; reflexivity].
  - destruct (rsa_verify C (pk_raw k) m (sig_raw s)); [discriminate H|injection H as <-; reflexivity].
  - unfold secp_verify_hashed in H. destruct (len (sha256 C m) =? 32); [destruct (secp_der C (sig_raw s)); [discriminate H|]|]; injection H as <-; reflexivity.
Qed.
Lemma unsigned_error : forall C k m s, pk_verify C k m s <> Ok tt -> exists e, pk_verify C k m s = Err e.
Proof. intros C k m s H. destruct (pk_verify_total C k m s) as [X|X]; [contradiction H|exact X]. Qed.
Lemma revocation_error : forall C v, ~ signed_revocation C v -> exists e, pk_verify C (revoked_by v) (revocation_message C v) (rev_sig v) = Err e /\ revocation_verify C v = Err (IncorrectSignature e).
Proof.
  intros C v H. destruct (unsigned_error C _ _ _ H) as (e & E). exists e. split; [exact E|]. unfold revocation_verify. 
  change (revocation_signature_bytes C (rev_pk v) (revoked_at v)) with (revocation_message C v). rewrite E. reflexivity.
Qed.

(** ** C196 *)
(** A revocation that its revoker did not sign: refused with the message, whatever the store, which stays as it is. *)
Lemma p_C196_revoke_text : forall C F d cp c f v, unsigned_revocation C cp c v ->
  exists r, service_step C d (cp, c, f) = (Ok r, d) /\ success r = false /\ answer_text F c r = revoke_words ++ str " Signature is incorrect: " ++ signature_message F (revoked_by v).
Proof.
  intros C F d cp c f v (r & ts & -> & Ht & Le & Rr & Ns). apply revocation_of_dto_ok in Rr. destruct (revocation_error C v Ns) as (e & Ve & Re).
  eexists. rewrite service_plan. cbn [plan]. destruct (check_cases cp 1) as [[T _]|[_ T]]; [|contradiction]. rewrite T. cbn [bind].
  destruct (N.ltb_spec ts (dr_revoked_at r)) as [X|_]; [lia|]. rewrite Rr. cbn [bind map_err]. unfold gcall. cbn [carry_out].
  unfold graph_step. cbn [fst snd graph_do]. unfold revoke, mmap, mbind, lift. rewrite Re. cbn [map_err]. split; [reflexivity|]. split; [reflexivity|].
  unfold answer_text. cbn [error service_error_text graph_error_text revoke_error_text]. rewrite (verify_message C F _ _ _ _ Ve). reflexivity.
Qed.
Lemma plan_revoke : forall C cp r ts v, plan C cp (S_revoke r ts) = Ok (inl (G_revoke v)) -> host_time cp 1 /\ dr_revoked_at r <= ts /\ revocation_record C r v.
Proof.
  intros C cp r ts v P. cbn [plan] in P. destruct (check_cases cp 1) as [[T Ht]|[T _]]; rewrite T in P; cbn [bind] in P; [|discriminate P].
  destruct (N.ltb_spec ts (dr_revoked_at r)) as [X|X]; [discriminate P|]. destruct (revocation_of_dto C r) as [u|?| |] eqn:E; cbn [bind map_err] in P; try discriminate P.
  unfold gcall in P. injection P as <-. apply revocation_of_dto_ok in E. auto.
Qed.
Lemma plan_add_trust : forall C cp r i ts g, plan C cp (S_add_trust r i ts) = Ok (inl g) ->
  exists t k, g = G_add_trust t k (from_secs ts) /\ host_time cp 2 /\ peer_key C i k /\ dt_issued_at r <= ts /\ trust_record C r t.
Proof.
  intros C cp r i ts g P. cbn [plan] in P. destruct (extract_public_key C i) as [k|?| |] eqn:K; cbn [bind] in P; try discriminate P.
  destruct (check_cases cp 2) as [[T Ht]|[T _]]; rewrite T in P; cbn [bind] in P; [|discriminate P].
  destruct (N.ltb_spec ts (dt_issued_at r)) as [X|X]; [discriminate P|]. destruct (trust_of_dto C r) as [u|?| |] eqn:E; cbn [bind map_err] in P; try discriminate P.
  unfold gcall in P. injection P as <-. apply trust_of_dto_ok in E. apply extract_ok in K. exists u, k. auto.
Qed.
Lemma record_fresh : forall C r t ts, trust_record C r t -> (~ before (expires_at t) (from_secs ts) <-> ts <= dt_expires_at r).
Proof. intros C r t ts (_ & E & _). rewrite E. unfold before, from_secs. cbn [secs nanos]. lia. Qed.
(** Of a store that only the service wrote, and a call with no kind of signature that begins so: the words are told exactly for such a revocation. *)
Lemma p_C196_revoke_means : forall C F d cp c f r d', crypto_laws C -> service_reachable C d -> service_typed c ->
  (forall s, In s (kinds_given c) -> ~ begins revoke_words s) -> service_step C d (cp, c, f) = (Ok r, d') ->
  (begins revoke_words (answer_text F c r) <-> exists v, unsigned_revocation C cp c v).
Proof.
  intros C F d cp c f r d' L R T K E. split.
  - intros B. destruct (answer_cases C _ _ _ _ _ _ E) as [[S1 Q]|(S1 & e & Q & P)]; unfold answer_text in B; rewrite Q in B; [destruct B as (? & B); discriminate B|].
    apply text_revoke in B; [|apply call_words]. destruct B as [(x & ->)|(s & -> & B)].
    + destruct P as [P|(g & ge & P & G & H)]; [destruct (plan_cause C _ _ _ P)|]. injection H as <-.
      pose proof (plan_requests C cp c g P) as Rq. pose proof (requests_typed C cp c g L T Rq) as Tg.
      destruct (reachable_inv C d (service_reachable_graph C d L R)) as (s & -> & I).
      destruct (graph_step_sem C s g f (inv_wf C s I) Tg) as [Es|(_ & k & Es)]; rewrite Es in G; [|discriminate G].
      pose proof (f_equal fst G) as G1. cbn [fst] in G1. destruct g; cbn [sem] in G1; try discriminate G1.
      * exfalso. destruct (add_trust_sem C s t by_pk now) as [y ws] eqn:A. cbn [fst] in G1. destruct y; cbn [map_ok] in G1; try discriminate G1. injection G1 as ->.
        unfold add_trust_sem in A. destruct (trust_verify C t by_pk now); try discriminate A. cbv zeta in A. destruct (_ =? 0) in A; discriminate A.
      * exfalso. destruct (add_sem C s c0 now) as [y ws] eqn:A. cbn [fst] in G1. destruct y; cbn [map_ok] in G1; try discriminate G1. injection G1 as ->.
        assert (Z : forall ch s b ws, add_chain_sem C s ch b now <> (Err (GE_RevokeCheck x), ws)).
        { clear. induction ch as [|t ch IH]; intros s b ws A; cbn [add_chain_sem] in A; [discriminate A|].
          destruct (add_trust_sem C s t b now) as [y w1] eqn:A1. destruct y as [y|y| |]; try discriminate A.
          - destruct (add_chain_sem C (run_ws w1 s) ch (issued_for t) now) as [y2 w2] eqn:A2. injection A as -> _. exact (IH _ _ _ A2).
          - injection A as -> _. unfold add_trust_sem in A1. destruct (trust_verify C t b now); try discriminate A1. cbv zeta in A1. destruct (_ =? 0) in A1; discriminate A1. }
        destruct c0 as [|t c0]; [discriminate A|]. exact (Z _ _ _ _ A).
      * destruct c as [p n|s1 ts|rs ts|p ts|p i ts|ts|i ts|p ts|p i ts|p ex is|p ex is bb|u i ts|u i ts|p at_|bp p at_ s1|u ts|p]; cbn [requests] in Rq; try contradiction.
        destruct (plan_revoke C cp u ts v P) as (Ht & Le & Rr). exists v, u, ts. split; [reflexivity|]. split; [exact Ht|]. split; [exact Le|]. split; [exact Rr|].
        intros Sg. unfold revoke_sem, revocation_verify in G1. change (revocation_signature_bytes C (rev_pk v) (revoked_at v)) with (revocation_message C v) in G1.
        rewrite Sg in G1. discriminate G1.
    + destruct P as [P|(g & ge & _ & _ & P)]; [|discriminate P]. contradiction (K s (kind_given C cp c s P) B).
  - intros (v & H). destruct (p_C196_revoke_text C F d cp c f v H) as (r' & E' & _ & Tx). rewrite E in E'. injection E' as <- _. rewrite Tx. eexists. reflexivity.
Qed.

(** The same for a trust that is only verified. *)
Lemma p_C196_verify_text : forall C F d cp c f k, unsigned_checked C cp c k ->
  exists r, service_step C d (cp, c, f) = (Ok r, d) /\ success r = false /\ answer_text F c r = signature_message F k.
Proof.
  intros C F d cp c f k (r & i & ts & t & -> & Ht & Ki & Rt & Le & Ns). destruct (unsigned_error C _ _ _ Ns) as (e & Ve).
  assert (V : trust_verify C t k (from_secs ts) = Err (TE_SignatureError e)).
  { apply trust_verify_defect. apply (record_fresh C r t ts Rt) in Le. split; [|intros ve H; injection H as <-; exact Ve]. right. split; [exact Le|]. split; [exact Ns|eexists; reflexivity]. }
  apply trust_of_dto_ok in Rt. apply extract_ok in Ki. eexists. rewrite service_plan. cbn [plan].
  destruct (check_cases cp 2) as [[T _]|[_ T]]; [|contradiction]. rewrite T. cbn [bind]. rewrite Ki. cbn [bind]. rewrite Rt. cbn [bind map_err]. rewrite V. cbn [bind map_err carry_out].
  split; [reflexivity|]. split; [reflexivity|]. unfold answer_text. cbn [error service_error_text trust_error_text]. exact (verify_message C F _ _ _ _ Ve).
Qed.
(** And no other answer begins so, unless a kind of signature does. *)
Lemma p_C196_verify_means : forall C F d cp c f r d', (forall s, In s (kinds_given c) -> ~ begins signature_words s) -> service_step C d (cp, c, f) = (Ok r, d') ->
  (begins signature_words (answer_text F c r) <-> exists k, unsigned_checked C cp c k).
Proof.
  intros C F d cp c f r d' K E. split.
  - intros B. destruct (answer_cases C _ _ _ _ _ _ E) as [[S1 Q]|(S1 & e & Q & P)]; unfold answer_text in B; rewrite Q in B; [destruct B as (? & B); discriminate B|].
    apply text_signature in B; [|apply call_words]. destruct B as [(x & ->)|(s & -> & B)].
    + destruct P as [P|(g & ge & _ & _ & H)]; [|discriminate H]. pose proof (plan_cause C _ _ _ P) as (u & i & ts & t & k & -> & Ht & Ki & V).
      assert (Z : host_time cp 2) by (cbn [plan] in P; destruct (check_cases cp 2) as [[_ Z]|[Z _]]; [exact Z|rewrite Z in P; discriminate P]).
      apply trust_of_dto_ok in Ht. apply trust_verify_defect in V. destruct V as [[[_ V]|(Nb & Ns & _)] _]; [discriminate V|].
      exists k, u, i, ts, t. split; [reflexivity|]. split; [exact Z|]. split; [exact Ki|]. split; [exact Ht|]. split; [apply (record_fresh C u t ts Ht); exact Nb|exact Ns].
    + destruct P as [P|(g & ge & _ & _ & P)]; [|discriminate P]. contradiction (K s (kind_given C cp c s P) B).
  - intros (k & H). destruct (p_C196_verify_text C F d cp c f k H) as (r' & E' & _ & Tx). rewrite E in E'. injection E' as <- _. rewrite Tx. eexists. reflexivity.
Qed.

(** Of an addition: refused with the message, whatever the store, which stays as it is. *)
Lemma p_C196_add_text : forall C F d cp c f k, unsigned_added C cp c k ->
  exists r, service_step C d (cp, c, f) = (Ok r, d) /\ success r = false /\ answer_text F c r = offer_words ++ signature_message F k.
Proof.
  intros C F d cp c f k (r & i & ts & t & -> & Ht & Ki & Rt & Le & Ns). destruct (unsigned_error C _ _ _ Ns) as (e & Ve).
  assert (V : trust_verify C t k (from_secs ts) = Err (TE_SignatureError e)).
  { apply trust_verify_defect. pose proof (proj2 (record_fresh C r t ts Rt) (proj2 Le)) as Nb. split; [|intros ve H; injection H as <-; exact Ve]. right. split; [exact Nb|]. split; [exact Ns|eexists; reflexivity]. }
  apply trust_of_dto_ok in Rt. apply extract_ok in Ki. eexists. rewrite service_plan. cbn [plan].
  rewrite Ki. cbn [bind]. destruct (check_cases cp 2) as [[T _]|[_ T]]; [|contradiction]. rewrite T. cbn [bind].
  destruct (N.ltb_spec ts (dt_issued_at r)) as [X|_]; [lia|]. rewrite Rt. cbn [bind map_err]. unfold gcall. cbn [carry_out].
  unfold graph_step. cbn [fst snd graph_do]. unfold add_trust, mmap, mbind, lift. rewrite V. cbn [map_err].
  split; [reflexivity|]. split; [reflexivity|]. unfold answer_text. cbn [error service_error_text graph_error_text trust_error_text]. rewrite (verify_message C F _ _ _ _ Ve). reflexivity.
Qed.
Lemma add_chain_blame : forall C x now ch s b ws, add_chain_sem C s ch b now = (Err (GE_TrustVerification x), ws) ->
  exists i t k, at_pos ch i t /\ (i = 0%nat /\ k = b \/ exists j, i = S j /\ key_at ch j k) /\ trust_verify C t k now = Err x.
Proof.
  intros C x now. induction ch as [|t ch IH]; intros s b ws A; cbn [add_chain_sem] in A; [discriminate A|].
  destruct (add_trust_sem C s t b now) as [y w1] eqn:A1. destruct y as [y|y| |]; try discriminate A.
  - destruct (add_chain_sem C (run_ws w1 s) ch (issued_for t) now) as [y2 w2] eqn:A2. injection A as -> _. destruct (IH _ _ _ A2) as (i & u & k & Hu & Hk & V).
    exists (S i), u, k. split; [exact Hu|]. split; [|exact V]. right. exists i. split; [reflexivity|]. destruct Hk as [[-> ->]|(j & -> & Hk)]; [exists t; split; reflexivity|exact Hk].
  - injection A as -> _. exists 0%nat, t, b. split; [reflexivity|]. split; [left; auto|]. unfold add_trust_sem in A1. destruct (trust_verify C t b now) as [?|?| |] eqn:V; try discriminate A1.
    + cbv zeta in A1. destruct (_ =? 0) in A1; discriminate A1.
    + injection A1 as -> _. reflexivity.
Qed.
(** What the words mean in an offer: the added trust is not signed by the issuer that was given, or the certificate has a trust that has not
    expired and is not signed by the key that has to have signed it; the message tells the kind of this key. *)
Lemma p_C196_offer_means : forall C F d cp c f r d', crypto_laws C -> service_reachable C d -> service_typed c ->
  (forall s, In s (kinds_given c) -> ~ begins (offer_words ++ signature_words) s) -> service_step C d (cp, c, f) = (Ok r, d') ->
  begins (offer_words ++ signature_words) (answer_text F c r) ->
  exists k, answer_text F c r = offer_words ++ signature_message F k /\
    (unsigned_added C cp c k \/ exists ch i t, inserted C c ch /\ at_pos ch i t /\ signer_at ch i k /\ ~ before (expires_at t) (inserted_at c) /\ ~ signed_trust C k t).
Proof.
  intros C F d cp c f r d' L R T K E B. destruct (answer_cases C _ _ _ _ _ _ E) as [[S1 Q]|(S1 & e & Q & P)]; unfold answer_text in *; rewrite Q in *; [destruct B as (? & B); discriminate B|].
  apply text_offer in B; [|apply call_words]. destruct B as [(x & ->)|(s & -> & B)].
  2: { destruct P as [P|(g & ge & _ & _ & P)]; [|discriminate P]. contradiction (K s (kind_given C cp c s P) B). }
  destruct P as [P|(g & ge & P & G & H)]; [destruct (plan_cause C _ _ _ P)|]. injection H as <-.
  assert (Vm : forall t k now, trust_verify C t k now = Err (TE_SignatureError x) -> ~ before (expires_at t) now /\ ~ signed_trust C k t /\
    service_error_text F (call_word c) (SVE_TGError (GE_TrustVerification (TE_SignatureError x))) = offer_words ++ signature_message F k).
  { intros t k now V. apply trust_verify_defect in V. destruct V as [[[_ V]|(Nb & Ns & _)] Ve]; [discriminate V|]. split; [exact Nb|]. split; [exact Ns|].
    cbn [service_error_text graph_error_text trust_error_text]. rewrite (verify_message C F _ _ _ _ (Ve x eq_refl)). reflexivity. }
  pose proof (plan_requests C cp c g P) as Rq. pose proof (requests_typed C cp c g L T Rq) as Tg.
  assert (In_ : forall ch now, g = G_add ch now -> exists i t k, at_pos ch i t /\ signer_at ch i k /\ trust_verify C t k now = Err (TE_SignatureError x)).
  { intros ch now ->. destruct (reachable_inv C d (service_reachable_graph C d L R)) as (s & -> & I).
    destruct (graph_step_sem C s _ f (inv_wf C s I) Tg) as [Es|(_ & k & Es)]; rewrite Es in G; [|discriminate G].
    pose proof (f_equal fst G) as G1. cbn [fst sem] in G1. destruct (add_sem C s ch now) as [y ws] eqn:A. cbn [fst] in G1. destruct y; cbn [map_ok] in G1; try discriminate G1. injection G1 as ->.
    destruct ch as [|t ch]; [discriminate A|]. cbn [add_sem] in A. destruct (add_chain_blame C _ _ _ _ _ _ A) as (i & u & k & Hu & Hk & V). exists i, u, k. split; [exact Hu|]. split; [|exact V].
    destruct Hk as [[-> ->]|(j & -> & Hk)]; [exists t; split; reflexivity|exact Hk]. }
  destruct c as [p n|s1 ts|rs ts|p ts|p i ts|ts|i ts|p ts|p i ts|p ex is|p ex is bb|u i ts|u i ts|p at_|bp p at_ s1|u ts|p]; destruct g; cbn [requests] in Rq; try contradiction;
    try (apply graph_step_errs in G; contradiction G).
  - destruct Rq as [Rq ->]. destruct (In_ _ _ eq_refl) as (i & t & k & Ht & Hk & V). destruct (Vm _ _ _ V) as (Nb & Ns & Tx). exists k. split; [exact Tx|]. right. exists c, i, t. auto.
  - destruct Rq as [Rq ->]. destruct (In_ _ _ eq_refl) as (i & t & k & Ht & Hk & V). destruct (Vm _ _ _ V) as (Nb & Ns & Tx). exists k. split; [exact Tx|]. right. exists c, i, t. auto.
  - destruct (plan_add_trust C cp u i ts _ P) as (t' & k & Eg & Ht & Ki & Le & Rt). injection Eg as -> -> ->. apply graph_step_errs in G. destruct (Vm _ _ _ G) as (Nb & Ns & Tx).
    exists k. split; [exact Tx|]. left. exists u, i, ts, t'. split; [reflexivity|]. split; [exact Ht|]. split; [exact Ki|]. split; [exact Rt|]. split; [split; [exact Le|apply (record_fresh C u t' ts Rt); exact Nb]|exact Ns].
Qed.

Definition unsigned_rev : dto_revocation := mk_dto_revocation (pid 2) 5 (dr_signature (rev_rec 3 2 5)) (str "ed25519") (pid 1).
Definition unsigned_trust : dto_trust := trust_rec 3 2 900 1.
(** A revocation by 1 that 3 signed, and a trust of 1 that 3 signed. *)
Example e_C196_texts : service_reachable (toy true) base_store /\ (exists v, unsigned_revocation (toy true) (timed_call 1) (S_revoke unsigned_rev 6) v) /\
  (exists k, unsigned_checked (toy true) (timed_call 2) (S_verify_trust unsigned_trust (pid 1) 6) k) /\ (exists k, unsigned_added (toy true) (timed_call 2) (S_add_trust unsigned_trust (pid 1) 6) k) /\
  told_text (timed_call 1) (S_revoke unsigned_rev 6) = Some (str "Error on revoking a trust: Signature is incorrect: Failed to verify signature  with  ed25519 public key: ") /\
  told_text (timed_call 2) (S_verify_trust unsigned_trust (pid 1) 6) = Some (str "Failed to verify signature  with  ed25519 public key: ") /\
  told_text (timed_call 2) (S_add_trust unsigned_trust (pid 1) 6) = Some (str "Trust verification error: Failed to verify signature  with  ed25519 public key: ").
Proof.
  assert (T : exists t, trust_record (toy true) unsigned_trust t /\ ~ signed_trust (toy true) (toy_key 1) t).
  { destruct (trust_of_dto (toy true) unsigned_trust) as [t|?| |] eqn:E; [|vm_compute in E; discriminate E..]. exists t. split; [apply trust_of_dto_ok; exact E|].
    vm_compute in E. injection E as <-. vm_compute. discriminate. }
  split; [exact base_reachable|]. split; [|split; [|split; [|split; [|split]; vm_compute; reflexivity]]].
  - destruct (revocation_of_dto (toy true) unsigned_rev) as [v|?| |] eqn:E; [|vm_compute in E; discriminate E..]. exists v, unsigned_rev, 6. split; [reflexivity|].
    split; [apply timed_host|]. split; [vm_compute; discriminate|]. split; [apply revocation_of_dto_ok; exact E|]. vm_compute in E. injection E as <-. vm_compute. discriminate.
  - destruct T as (t & Rt & Ns). exists (toy_key 1), unsigned_trust, (pid 1), 6, t. split; [reflexivity|]. split; [apply timed_host|]. split; [apply pid_key|]. split; [exact Rt|]. split; [vm_compute; discriminate|exact Ns].
  - destruct T as (t & Rt & Ns). exists (toy_key 1), unsigned_trust, (pid 1), 6, t. split; [reflexivity|]. split; [apply timed_host|]. split; [apply pid_key|]. split; [exact Rt|]. split; [split; vm_compute; discriminate|exact Ns].
Qed.
