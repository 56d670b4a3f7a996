(** Facts about the service. *)
From Coq Require Import List NArith ZArith Bool Lia ZifyBool ZifyNat ZifyN.
From Coq Require String.
Import String.StringSyntax.
From Verif Require Import Base BaseFacts Text TextFacts Keys KeysFacts Trust TrustFacts Certificate CertFacts Relation
  Storage StorageFacts Graph PathFacts Service Spec SpecFacts GraphFacts StateFacts ChainFacts ImportFacts HistFacts ServiceSpec.
Import ListNotations.
Open Scope N_scope.

Section WithCrypto.
Variable C : crypto.

(** * Texts and records *)
Lemma peer_key_iff : forall s k, peer_key C s k <-> exists p, peer_id_from_str C s = Some p /\ pk_of_peer_id C p = Ok k.
Proof.
  intros s k. unfold peer_key, peer_id_from_str, pk_of_peer_id. split.
  - intros (p & E & M & I). exists p. rewrite E, M, I. auto.
  - intros (p & E & I). destruct (b58_decode s) as [b| | |] eqn:B; try discriminate. destruct (multihash_ok C b) eqn:M; [|discriminate].
    injection E as ->. exists p. split; [reflexivity|]. split; [exact M|]. destruct (inlined_key C p); [|discriminate]. congruence.
Qed.
Lemma extract_ok : forall s k, extract_public_key C s = Ok k <-> peer_key C s k.
Proof.
  intros s k. rewrite peer_key_iff. unfold extract_public_key. destruct (peer_id_from_str C s) as [p|].
  - split.
    + intros H. exists p. split; [reflexivity|]. destruct (pk_of_peer_id C p); try discriminate. cbn in H. congruence.
    + intros (p' & E & H). injection E as ->. rewrite H. reflexivity.
  - split; [discriminate|]. intros (p & E & _). discriminate.
Qed.
Lemma extract_cases : forall s, (exists k, extract_public_key C s = Ok k /\ peer_key C s k) \/ (exists e, extract_public_key C s = Err e).
Proof.
  intros s. destruct (extract_public_key C s) as [k|e| |] eqn:E; [left; exists k; split; [reflexivity|apply extract_ok; exact E]|right; eauto| |];
    exfalso; unfold extract_public_key, pk_of_peer_id in E; destruct (peer_id_from_str C s) as [p|]; try discriminate; destruct (inlined_key C p); discriminate.
Qed.
Lemma dto_key_ok : forall s k, dto_key C s = Ok k <-> peer_key C s k.
Proof.
  intros s k. rewrite peer_key_iff. unfold dto_key. destruct (peer_id_from_str C s) as [p|].
  - split.
    + intros H. exists p. split; [reflexivity|]. destruct (pk_of_peer_id C p); try discriminate. cbn in H. congruence.
    + intros (p' & E & H). injection E as ->. rewrite H. reflexivity.
  - split; [discriminate|]. intros (p & E & _). discriminate.
Qed.
Lemma dto_key_cases : forall s, (exists k, dto_key C s = Ok k) \/ (exists e, dto_key C s = Err e).
Proof.
  intros s. destruct (dto_key C s) as [k|e| |] eqn:E; eauto;
    exfalso; unfold dto_key, pk_of_peer_id in E; destruct (peer_id_from_str C s) as [p|]; try discriminate; destruct (inlined_key C p); discriminate.
Qed.
Lemma peer_key_fun : forall s a b, peer_key C s a -> peer_key C s b -> a = b.
Proof. intros s a b Ha Hb. apply dto_key_ok in Ha, Hb. congruence. Qed.
Lemma peer_key_valid : forall s k, crypto_laws C -> peer_key C s k -> pk_valid C k.
Proof. intros s k L (p & _ & _ & I). exact (law_inlined C L p k I). Qed.
Lemma peer_key_text : forall k, crypto_laws C -> pk_valid C k -> pk_fmt k <> Rsa -> peer_key C (peer_id_to_base58 (pk_to_peer_id C k)) k.
Proof. intros k L V R. apply peer_key_iff. exists (pk_to_peer_id C k). apply peer_id_roundtrip; assumption. Qed.

Lemma fmt_of_text_cases : forall s, (exists f, fmt_of_text C s = Ok f) \/ (exists e, fmt_of_text C s = Err e).
Proof.
  intros s. unfold fmt_of_text. repeat match goal with |- context [if ?b then _ else _] => destruct b end; eauto.
Qed.
Lemma b58_decode_cases : forall s, (exists b, b58_decode s = Ok b) \/ (exists e, b58_decode s = Err e).
Proof. intros s. pose proof (b58_decode_no_panic s) as [H1 H2]. destruct (b58_decode s); eauto; contradiction. Qed.
Lemma fmt_text_inj : forall a b, fmt_text a = fmt_text b -> a = b.
Proof. intros [] [] H; try reflexivity; vm_compute in H; discriminate. Qed.

Lemma dto_sig_ok : forall a b s, dto_sig C a b = Ok s <-> signature_text C a b s.
Proof.
  intros a b s. unfold dto_sig, signature_text. destruct (b58_decode_cases a) as [(r & E)|(e & E)]; rewrite E; cbn [map_err bind].
  - destruct (fmt_of_text_cases b) as [(f & F)|(e & F)]; rewrite F; cbn [map_err bind].
    + apply fmt_of_text_ok in F. destruct F as [F1 F2]. split.
      * intros H. injection H as <-. cbn. auto.
      * intros (H1 & H2 & H3). destruct s as [fs rs]. cbn in *. injection H1 as ->.
        assert (f = fs) as -> by (apply fmt_text_inj; congruence). reflexivity.
    + split; [discriminate|]. intros (_ & H2 & H3). subst b. rewrite fmt_text_roundtrip in F by exact H2. discriminate.
  - split; [discriminate|]. intros (H & _). discriminate.
Qed.
Lemma dto_sig_cases : forall a b, (exists s, dto_sig C a b = Ok s) \/ (exists e, dto_sig C a b = Err e).
Proof.
  intros a b. unfold dto_sig. destruct (b58_decode_cases a) as [(r & E)|(e & E)]; rewrite E; cbn [map_err bind]; eauto.
  destruct (fmt_of_text_cases b) as [(f & F)|(e & F)]; rewrite F; cbn [map_err bind]; eauto.
Qed.

Lemma trust_of_dto_ok : forall r t, trust_of_dto C r = Ok t <-> trust_record C r t.
Proof.
  intros r t. unfold trust_of_dto, trust_record. destruct (dto_key_cases (dt_issued_for r)) as [(k & E)|(e & E)]; rewrite E; cbn [bind].
  - apply dto_key_ok in E. destruct (dto_sig_cases (dt_signature r) (dt_sig_type r)) as [(s & F)|(e & F)]; rewrite F; cbn [bind].
    + apply dto_sig_ok in F. split.
      * intros H. injection H as <-. cbn. auto.
      * intros (H1 & H2 & H3 & H4). destruct t as [k' ex s' iss]. cbn in *. subst.
        rewrite (peer_key_fun _ _ _ E H1). apply dto_sig_ok in F, H4. rewrite F in H4. injection H4 as ->. reflexivity.
    + split; [discriminate|]. intros (_ & _ & _ & H). apply dto_sig_ok in H. congruence.
  - split; [discriminate|]. intros (H & _). apply dto_key_ok in H. congruence.
Qed.
Lemma trust_of_dto_cases : forall r, (exists t, trust_of_dto C r = Ok t) \/ (exists e, trust_of_dto C r = Err e).
Proof.
  intros r. unfold trust_of_dto. destruct (dto_key_cases (dt_issued_for r)) as [(k & E)|(e & E)]; rewrite E; cbn [bind]; eauto.
  destruct (dto_sig_cases (dt_signature r) (dt_sig_type r)) as [(s & F)|(e & F)]; rewrite F; cbn [bind]; eauto.
Qed.
Lemma revocation_of_dto_ok : forall r v, revocation_of_dto C r = Ok v <-> revocation_record C r v.
Proof.
  intros r v. unfold revocation_of_dto, revocation_record.
  destruct (dto_key_cases (dr_revoked_peer_id r)) as [(k & E)|(e & E)]; rewrite E; cbn [bind].
  - apply dto_key_ok in E. destruct (dto_key_cases (dr_revoked_by r)) as [(b & B)|(e & B)]; rewrite B; cbn [bind].
    + apply dto_key_ok in B. destruct (dto_sig_cases (dr_signature r) (dr_sig_type r)) as [(s & F)|(e & F)]; rewrite F; cbn [bind].
      * apply dto_sig_ok in F. split.
        -- intros H. injection H as <-. cbn. auto.
        -- intros (H1 & H2 & H3 & H4). destruct v as [k' at' b' s']. cbn in *. subst.
           rewrite (peer_key_fun _ _ _ E H1), (peer_key_fun _ _ _ B H2). apply dto_sig_ok in F, H4. rewrite F in H4. injection H4 as ->. reflexivity.
      * split; [discriminate|]. intros (_ & _ & _ & H). apply dto_sig_ok in H. congruence.
    + split; [discriminate|]. intros (_ & H & _). apply dto_key_ok in H. congruence.
  - split; [discriminate|]. intros (H & _). apply dto_key_ok in H. congruence.
Qed.
Lemma revocation_of_dto_cases : forall r, (exists v, revocation_of_dto C r = Ok v) \/ (exists e, revocation_of_dto C r = Err e).
Proof.
  intros r. unfold revocation_of_dto. destruct (dto_key_cases (dr_revoked_peer_id r)) as [(k & E)|(e & E)]; rewrite E; cbn [bind]; eauto.
  destruct (dto_key_cases (dr_revoked_by r)) as [(b & B)|(e & B)]; rewrite B; cbn [bind]; eauto.
  destruct (dto_sig_cases (dr_signature r) (dr_sig_type r)) as [(s & F)|(e & F)]; rewrite F; cbn [bind]; eauto.
Qed.
Lemma cert_of_dto_ok : forall r c, cert_of_dto C r = Ok c <-> certificate_record C r c.
Proof.
  unfold cert_of_dto, certificate_record. induction r as [|x r IH]; intros c; cbn [collect].
  - split; [intros H; injection H as <-; constructor|]. intros H. inversion H. reflexivity.
  - destruct (trust_of_dto_cases x) as [(t & E)|(e & E)]; rewrite E; cbn [bind].
    + destruct (collect (trust_of_dto C) r) as [ts|e| |] eqn:F; cbn [bind]; split; intros H; try discriminate.
      * injection H as <-. constructor; [apply trust_of_dto_ok; exact E|apply IH; reflexivity].
      * inversion H as [|? t' ? c' H1 H2]; subst. apply trust_of_dto_ok in H1. rewrite E in H1. apply Ok_inj in H1. subst t'.
        apply IH in H2. apply Ok_inj in H2. subst c'. reflexivity.
      * inversion H as [|? t' ? c' H1 H2]; subst. apply IH in H2. congruence.
      * inversion H as [|? t' ? c' H1 H2]; subst. apply IH in H2. congruence.
      * inversion H as [|? t' ? c' H1 H2]; subst. apply IH in H2. congruence.
    + split; [discriminate|]. intros H. inversion H as [|? t' ? c' H1 H2]; subst. apply trust_of_dto_ok in H1. congruence.
Qed.
Lemma cert_of_dto_cases : forall r, (exists c, cert_of_dto C r = Ok c) \/ (exists e, cert_of_dto C r = Err e).
Proof.
  unfold cert_of_dto. induction r as [|x r IH]; cbn [collect]; eauto.
  destruct (trust_of_dto_cases x) as [(t & E)|(e & E)]; rewrite E; cbn [bind]; eauto.
  destruct IH as [(c & F)|(e & F)]; rewrite F; cbn [bind]; eauto.
Qed.

(** Exported records. *)
Lemma dto_of_trust_record : forall t, crypto_laws C -> pk_valid C (issued_for t) -> pk_fmt (issued_for t) <> Rsa -> sig_valid C (trust_sig t) ->
  nanos (expires_at t) = 0 -> nanos (issued_at t) = 0 -> trust_record C (dto_of_trust C t) t.
Proof.
  intros [k [es en] s [is inn]] L V R Sv N1 N2. cbn in N1, N2. subst. unfold dto_of_trust, trust_record. cbn.
  split; [apply peer_key_text; assumption|]. split; [reflexivity|]. split; [reflexivity|].
  split; [apply b58_roundtrip|]. split; [exact Sv|reflexivity].
Qed.
Lemma dto_of_revocation_record : forall v, crypto_laws C -> pk_valid C (rev_pk v) -> pk_fmt (rev_pk v) <> Rsa ->
  pk_valid C (revoked_by v) -> pk_fmt (revoked_by v) <> Rsa -> sig_valid C (rev_sig v) -> nanos (revoked_at v) = 0 ->
  revocation_record C (dto_of_revocation C v) v.
Proof.
  intros [k [rs rn] b s] L V R Vb Rb Sv N. cbn in N. subst. unfold dto_of_revocation, revocation_record. cbn.
  split; [apply peer_key_text; assumption|]. split; [apply peer_key_text; assumption|]. split; [reflexivity|].
  split; [apply b58_roundtrip|]. split; [exact Sv|reflexivity].
Qed.
Lemma wasm_no_rsa : forall k, wasm32 C = true -> pk_valid C k -> pk_fmt k <> Rsa.
Proof. intros k Hw [V _] E. rewrite E in V. cbn in V. rewrite Hw in V. discriminate. Qed.

(** * Timestamps *)
Lemma check_ok : forall cp i, check_timestamp_tetraplets cp i = Ok tt <-> host_time cp i.
Proof.
  intros cp i. unfold check_timestamp_tetraplets, host_time. destruct (nth_error (tetraplets cp) i) as [[|t ts]|].
  - split; [discriminate|]. intros (t & ts & H & _). discriminate H.
  - destruct (bytes_eqb (fst TRUSTED_TIMESTAMP) (tp_service_id t) && bytes_eqb (snd TRUSTED_TIMESTAMP) (tp_function_name t) && bytes_eqb (tp_peer_pk t) (host_id cp)) eqn:B.
    + split; [|reflexivity]. intros _. apply andb_true_iff in B. destruct B as [B B3]. apply andb_true_iff in B. destruct B as [B1 B2].
      apply bytes_eqb_eq in B1, B2, B3. exists t, ts. cbn in B1, B2. split; [reflexivity|]. split; [symmetry; exact B1|]. split; [symmetry; exact B2|exact B3].
    + split; [discriminate|]. intros (t' & ts' & H & H1 & H2 & H3). injection H as <- <-. rewrite H1, H2, H3 in B.
      unfold TRUSTED_TIMESTAMP in B. cbn [fst snd] in B. rewrite !bytes_eqb_refl in B. discriminate B.
  - split; [discriminate|]. intros (t & ts & H & _). discriminate H.
Qed.
Lemma check_cases : forall cp i, (check_timestamp_tetraplets cp i = Ok tt /\ host_time cp i) \/
  (check_timestamp_tetraplets cp i = Err SVE_InvalidTimestampTetraplet /\ ~ host_time cp i).
Proof.
  intros cp i. destruct (check_timestamp_tetraplets cp i) as [[]|e| |] eqn:E.
  - left. split; [reflexivity|apply check_ok; exact E].
  - right. split; [|intros H; apply check_ok in H; congruence].
    unfold check_timestamp_tetraplets in E. destruct (nth_error (tetraplets cp) i) as [[|t ts]|]; try congruence.
    destruct (_ && _); congruence.
  - unfold check_timestamp_tetraplets in E. destruct (nth_error (tetraplets cp) i) as [[|t ts]|]; try congruence. destruct (_ && _); congruence.
  - unfold check_timestamp_tetraplets in E. destruct (nth_error (tetraplets cp) i) as [[|t ts]|]; try congruence. destruct (_ && _); congruence.
Qed.

(** * Plans *)
(** What a service call comes to before the graph is touched: an error, an answer, or a graph call. *)
Definition gcall (g : graph_call) : result service_error (graph_call + payload) := Ok (inl g).
Definition plan (cp : call_params) (c : service_call) : result service_error (graph_call + payload) :=
  match c with
  | S_set_root p n =>
      if bytes_eqb (service_creator_peer_id cp) (init_peer_id cp)
      then let? k := extract_public_key C p in gcall (G_set_root k n) else Err SVE_NotOwner
  | S_insert_cert_raw s ts => let? ch := map_err SVE_CertError (cert_from_str C s) in gcall (G_add ch (from_secs ts))
  | S_insert_cert r ts => let? ch := map_err SVE_DtoError (cert_of_dto C r) in gcall (G_add ch (from_secs ts))
  | S_get_all_certs p ts => let? _ := check_timestamp_tetraplets cp 1 in let? k := extract_public_key C p in gcall (G_get_all_certs k (from_secs ts))
  | S_get_all_certs_from p i ts =>
      let? _ := check_timestamp_tetraplets cp 2 in let? k := extract_public_key C p in let? b := extract_public_key C i in
      gcall (G_get_all_certs_from k b (from_secs ts))
  | S_get_host_certs ts => let? _ := check_timestamp_tetraplets cp 0 in let? k := extract_public_key C (host_id cp) in gcall (G_get_all_certs k (from_secs ts))
  | S_get_host_certs_from i ts =>
      let? _ := check_timestamp_tetraplets cp 1 in let? k := extract_public_key C (host_id cp) in let? b := extract_public_key C i in
      gcall (G_get_all_certs_from k b (from_secs ts))
  | S_get_weight p ts => let? _ := check_timestamp_tetraplets cp 1 in let? k := extract_public_key C p in gcall (G_weight k (from_secs ts))
  | S_get_weight_from p i ts =>
      let? _ := check_timestamp_tetraplets cp 1 in let? k := extract_public_key C p in let? b := extract_public_key C i in
      gcall (G_weight_from k b (from_secs ts))
  | S_get_trust_bytes p e i => let? k := extract_public_key C p in Ok (inr (P_bytes (trust_signature_bytes C k (from_secs e) (from_secs i))))
  | S_issue_trust p e i b => let? k := extract_public_key C p in
      Ok (inr (P_trust (dto_of_trust C (mk_trust k (from_secs e) (sig_from_bytes (pk_fmt k) b) (from_secs i)))))
  | S_verify_trust r i ts =>
      let? _ := check_timestamp_tetraplets cp 2 in let? k := extract_public_key C i in let? t := map_err SVE_DtoError (trust_of_dto C r) in
      let? _ := map_err SVE_TrustError (trust_verify C t k (from_secs ts)) in Ok (inr P_none)
  | S_add_trust r i ts =>
      let? k := extract_public_key C i in let? _ := check_timestamp_tetraplets cp 2 in
      if ts <? dt_issued_at r then Err SVE_InvalidTimestamp
      else let? t := map_err SVE_DtoError (trust_of_dto C r) in gcall (G_add_trust t k (from_secs ts))
  | S_get_revocation_bytes p a => let? k := extract_public_key C p in Ok (inr (P_bytes (revocation_signature_bytes C k (from_secs a))))
  | S_issue_revocation b p a s => let? k := extract_public_key C p in let? kb := extract_public_key C b in
      Ok (inr (P_revocation (dto_of_revocation C (mk_rev k (from_secs a) kb (sig_from_bytes (pk_fmt kb) s)))))
  | S_revoke r ts => let? _ := check_timestamp_tetraplets cp 1 in
      if ts <? dr_revoked_at r then Err SVE_InvalidTimestamp
      else let? v := map_err SVE_DtoError (revocation_of_dto C r) in gcall (G_revoke v)
  | S_export_revocations p => let? k := extract_public_key C p in gcall (G_get_revocations k)
  end.
Definition payload_of (c : service_call) (x : graph_reply) : payload :=
  match c, x with
  | (S_get_all_certs _ _ | S_get_all_certs_from _ _ _ | S_get_host_certs _ | S_get_host_certs_from _ _), GR_certs cs => P_certs (map (dto_of_cert C) cs)
  | (S_get_weight q _ | S_get_weight_from q _ _), GR_weight w => P_weight w q
  | S_add_trust _ _ _, GR_weight w => P_added w
  | S_export_revocations _, GR_revs vs => P_revocations (map (dto_of_revocation C) vs)
  | _, _ => P_none
  end.
Definition carry_out (d : db) (fu : option nat) (c : service_call) (p : result service_error (graph_call + payload)) : result Empty_set response * db :=
  match p with
  | Err e => (Ok (mk_response false (Some e) (empty_payload c)), d)
  | Panic => (Panic, d)
  | OutOfFuel => (OutOfFuel, d)
  | Ok (inr a) => (Ok (mk_response true None a), d)
  | Ok (inl g) =>
      match graph_step C d (g, fu) with
      | (Ok x, d') => (Ok (mk_response true None (payload_of c x)), d')
      | (Err e, d') => (Ok (mk_response false (Some (SVE_TGError e)) (empty_payload c)), d')
      | (Panic, d') => (Panic, d')
      | (OutOfFuel, d') => (OutOfFuel, d')
      end
  end.

Lemma service_plan : forall d cp c fu, service_step C d (cp, c, fu) = carry_out d fu c (plan cp c).
Proof.
  intros d cp c fu. unfold service_step, carry_out, plan, gcall, graph_step. cbn [fst snd].
  destruct c; cbn [service_do];
    unfold api_set_root, api_insert_cert_raw, api_insert_cert, api_get_all_certs, api_get_all_certs_from, api_get_host_certs, api_get_host_certs_from,
      api_get_weight, api_get_weight_from, api_get_trust_bytes, api_issue_trust, api_verify_trust, api_add_trust, api_get_revocation_bytes,
      api_issue_revocation, api_revoke, api_export_revocations, get_certs, get_certs_from, into, into_result, mbind, lift, tg, mmap_err, ret, throw.
  all: repeat match goal with
    | |- context [match extract_public_key C ?s with _ => _ end] => destruct (extract_public_key C s) as [?|?| |]; cbn [bind w_db map_err]; try reflexivity
    | |- context [bind (extract_public_key C ?s)] => destruct (extract_public_key C s) as [?|?| |]; cbn [bind w_db map_err]; try reflexivity
    | |- context [check_timestamp_tetraplets ?q ?n] => destruct (check_timestamp_tetraplets q n) as [?|?| |]; cbn [bind w_db map_err]; try reflexivity
    | |- context [bytes_eqb ?a ?b] => destruct (bytes_eqb a b); cbn [bind w_db map_err]; try reflexivity
    | |- context [cert_from_str C ?s] => destruct (cert_from_str C s) as [?|?| |]; cbn [bind w_db map_err]; try reflexivity
    | |- context [cert_of_dto C ?s] => destruct (cert_of_dto C s) as [?|?| |]; cbn [bind w_db map_err]; try reflexivity
    | |- context [trust_of_dto C ?s] => destruct (trust_of_dto C s) as [?|?| |]; cbn [bind w_db map_err]; try reflexivity
    | |- context [revocation_of_dto C ?s] => destruct (revocation_of_dto C s) as [?|?| |]; cbn [bind w_db map_err]; try reflexivity
    | |- context [trust_verify C ?a ?b ?x] => destruct (trust_verify C a b x) as [?|?| |]; cbn [bind w_db map_err]; try reflexivity
    | |- context [?a <? ?b] => destruct (a <? b); cbn [bind w_db map_err]; try reflexivity
    end.
  all: cbn [graph_do]; unfold mmap, mbind, ret.
  all: match goal with
    | |- context [set_root ?a ?b ?w] => destruct (set_root a b w) as [[?|?| |] ?]
    | |- context [add C ?a ?b ?w] => destruct (add C a b w) as [[?|?| |] ?]
    | |- context [get_all_certs C ?a ?b ?w] => destruct (get_all_certs C a b w) as [[?|?| |] ?]
    | |- context [get_all_certs_from C ?a ?b ?x ?w] => destruct (get_all_certs_from C a b x w) as [[?|?| |] ?]
    | |- context [weight C ?a ?b ?w] => destruct (weight C a b w) as [[?|?| |] ?]
    | |- context [weight_from C ?a ?b ?x ?w] => destruct (weight_from C a b x w) as [[?|?| |] ?]
    | |- context [add_trust C ?a ?b ?x ?w] => destruct (add_trust C a b x w) as [[?|?| |] ?]
    | |- context [revoke C ?a ?w] => destruct (revoke C a w) as [[?|?| |] ?]
    | |- context [graph_get_revocations C ?a ?w] => destruct (graph_get_revocations C a w) as [[?|?| |] ?]
    end; reflexivity.
Qed.

Ltac plan_cases H :=
  repeat match type of H with
    | context [extract_public_key C ?s] =>
        destruct (extract_cases s) as [(? & ? & ?)|(? & ?)];
        match goal with E : extract_public_key C s = _ |- _ => rewrite E in H; cbn [bind map_err] in H; clear E end; try discriminate H
    | context [check_timestamp_tetraplets ?q ?n] =>
        destruct (check_cases q n) as [(? & ?)|(? & ?)];
        match goal with E : check_timestamp_tetraplets q n = _ |- _ => rewrite E in H; cbn [bind map_err] in H; clear E end; try discriminate H
    | context [bytes_eqb ?a ?b] => destruct (bytes_eqb a b) eqn:?; cbn [bind map_err] in H; try discriminate H
    | context [cert_from_str C ?s] => destruct (cert_from_str C s) as [?|?| |] eqn:?; cbn [bind map_err] in H; try discriminate H
    | context [cert_of_dto C ?s] =>
        destruct (cert_of_dto_cases s) as [(? & ?)|(? & ?)];
        match goal with E : cert_of_dto C s = _ |- _ => rewrite E in H; cbn [bind map_err] in H; try apply cert_of_dto_ok in E end; try discriminate H
    | context [trust_of_dto C ?s] =>
        destruct (trust_of_dto_cases s) as [(? & ?)|(? & ?)];
        match goal with E : trust_of_dto C s = _ |- _ => rewrite E in H; cbn [bind map_err] in H; try apply trust_of_dto_ok in E end; try discriminate H
    | context [revocation_of_dto C ?s] =>
        destruct (revocation_of_dto_cases s) as [(? & ?)|(? & ?)];
        match goal with E : revocation_of_dto C s = _ |- _ => rewrite E in H; cbn [bind map_err] in H; try apply revocation_of_dto_ok in E end; try discriminate H
    | context [trust_verify C ?a ?b ?x] => destruct (trust_verify_total C a b x) as [?|(? & ?)];
        match goal with E : trust_verify C a b x = _ |- _ => rewrite E in H; cbn [bind map_err] in H end; try discriminate H
    | context [?a <? ?b] => destruct (a <? b) eqn:?; cbn [bind map_err] in H; try discriminate H
    end.

Lemma plan_requests : forall cp c g, plan cp c = Ok (inl g) -> requests C cp c g.
Proof.
  intros cp c g H. destruct c; cbn [plan] in H; unfold gcall in H; plan_cases H; try discriminate H; injection H as <-; cbn [requests]; auto.
Qed.

Lemma plan_admitted : forall cp c g, plan cp c = Ok (inl g) -> admitted cp c.
Proof.
  intros cp c g H. destruct c; cbn [plan] in H; unfold gcall in H; plan_cases H; try discriminate H; cbn [admitted]; auto.
  - match goal with E : bytes_eqb _ _ = true |- _ => apply bytes_eqb_eq in E; congruence end.
  - split; [assumption|]. lia.
  - split; [assumption|]. lia.
Qed.
Lemma plan_graph : forall cp c a, plan cp c = Ok (inr a) -> local_call c = true.
Proof.
  intros cp c a H. destruct c; cbn [plan] in H; unfold gcall in H; plan_cases H; try discriminate H; reflexivity.
Qed.
Lemma plan_total : forall cp c, plan cp c = Panic \/ plan cp c = OutOfFuel -> exists s ts, c = S_insert_cert_raw s ts /\ cert_from_str C s = Panic.
Proof.
  intros cp c H. destruct c; cbn [plan] in H; unfold gcall in H.
  2:{ exists c, timestamp_sec. split; [reflexivity|]. destruct (cert_from_str C c) as [?|?| |] eqn:E; cbn [bind map_err] in H; destruct H; try discriminate; auto.
      exfalso. revert E. apply (cert_from_str_fuel C). }
  all: exfalso; destruct H as [H|H]; plan_cases H; discriminate H.
Qed.

Lemma sig_text_valid : forall a b s, signature_text C a b s -> sig_valid C s.
Proof. intros a b s (_ & H & _). exact H. Qed.
Lemma trust_record_typed : forall r t, crypto_laws C -> trust_record C r t -> dto_trust_typed r -> trust_typed C t.
Proof.
  intros r t L (H1 & H2 & H3 & H4) [B1 B2]. split; [eapply peer_key_valid; eassumption|]. split; [eapply sig_text_valid; exact H4|].
  rewrite H2, H3. split; split; cbn; try assumption; reflexivity.
Qed.
Lemma revocation_record_typed : forall r v, crypto_laws C -> revocation_record C r v -> dr_revoked_at r < u64_bound -> revocation_typed C v.
Proof.
  intros r v L (H1 & H2 & H3 & H4) B. split; [eapply peer_key_valid; eassumption|]. split; [eapply peer_key_valid; eassumption|].
  split; [eapply sig_text_valid; exact H4|]. rewrite H3. split; cbn; [exact B|reflexivity].
Qed.
Lemma from_secs_wf : forall n, n < u64_bound -> duration_wf (from_secs n).
Proof. intros n H. split; [exact H|reflexivity]. Qed.

Lemma requests_typed : forall cp c g, crypto_laws C -> service_typed c -> requests C cp c g -> call_typed C g.
Proof.
  intros cp c g L T H. destruct c, g; cbn [requests] in H; try contradiction; cbn [service_typed] in T; cbn [call_typed].
  - destruct H as [H ->]. split; [eapply peer_key_valid; eassumption|exact T].
  - destruct H as [H ->]. split; [|apply from_secs_wf; exact T]. apply Forall_forall. intros t Ht.
    destruct (cert_from_str_fits C _ _ H t Ht) as (F1 & F2 & F3 & F4). split; [exact F1|]. split; [exact F2|].
    destruct F3 as [F3 F3']. destruct F4 as [F4 F4']. split; (split; [assumption|]); rewrite ?F3', ?F4'; reflexivity.
  - destruct H as [H ->]. destruct T as [T1 T2]. split; [|apply from_secs_wf; exact T2].
    clear T2. induction H as [|r t rs ts H1 H2 IH]; [constructor|]. inversion T1; subst. constructor; [eapply trust_record_typed; eassumption|auto].
  - destruct H as [H ->]. split; [eapply peer_key_valid; eassumption|apply from_secs_wf; exact T].
  - destruct H as (H & H' & ->). split; [eapply peer_key_valid; eassumption|]. split; [eapply peer_key_valid; eassumption|apply from_secs_wf; exact T].
  - destruct H as [H ->]. split; [eapply peer_key_valid; eassumption|apply from_secs_wf; exact T].
  - destruct H as (H & H' & ->). split; [eapply peer_key_valid; eassumption|]. split; [eapply peer_key_valid; eassumption|apply from_secs_wf; exact T].
  - destruct H as [H ->]. split; [eapply peer_key_valid; eassumption|apply from_secs_wf; exact T].
  - destruct H as (H & H' & ->). split; [eapply peer_key_valid; eassumption|]. split; [eapply peer_key_valid; eassumption|apply from_secs_wf; exact T].
  - destruct H as (H & H' & ->). destruct T as [T1 T2]. split; [eapply trust_record_typed; eassumption|].
    split; [eapply peer_key_valid; eassumption|apply from_secs_wf; exact T2].
  - eapply revocation_record_typed; [exact L|exact H|apply T].
  - eapply peer_key_valid; eassumption.
Qed.

(** * Service histories are graph histories *)
Definition asked (cp : call_params) (c : service_call) (fu : option nat) : list (graph_call * option nat) :=
  match plan cp c with Ok (inl g) => [(g, fu)] | _ => [] end.
Definition asked_all (es : list service_event) : list (graph_call * option nat) :=
  flat_map (fun e => asked (fst (fst e)) (snd (fst e)) (snd e)) es.

Lemma service_step_db : forall d cp c fu, snd (service_step C d (cp, c, fu)) = graph_history C d (asked cp c fu).
Proof.
  intros d cp c fu. rewrite service_plan. unfold asked, graph_history. destruct (plan cp c) as [[g|a]|e| |]; try reflexivity.
  cbn [carry_out fold_left]. destruct (graph_step C d (g, fu)) as [[x|e| |] d']; reflexivity.
Qed.
Lemma service_history_db : forall es d, service_history C d es = graph_history C d (asked_all es).
Proof.
  induction es as [|[[cp c] fu] es IH]; intros d; [reflexivity|]. unfold service_history in *. cbn [fold_left].
  rewrite service_step_db, IH. unfold asked_all. cbn [flat_map]. unfold graph_history. rewrite fold_left_app. reflexivity.
Qed.
Lemma asked_in : forall cp c fu g fu', In (g, fu') (asked cp c fu) -> plan cp c = Ok (inl g) /\ fu' = fu.
Proof.
  intros cp c fu g fu' H. unfold asked in H. destruct (plan cp c) as [[g'|a]|e| |]; try destruct H as [H|[]]; try contradiction.
  injection H as <- <-. auto.
Qed.
Lemma asked_typed : forall cp c fu, crypto_laws C -> service_typed c -> typed_history C (asked cp c fu).
Proof.
  intros cp c fu L T. apply Forall_forall. intros [g fu'] H. apply asked_in in H. destruct H as [H _].
  cbn [fst]. eapply requests_typed; [exact L|exact T|]. apply plan_requests. exact H.
Qed.
Lemma asked_all_typed : forall es, crypto_laws C -> service_events_typed es -> typed_history C (asked_all es).
Proof.
  intros es L T. induction T as [|[[cp c] fu] es T1 T2 IH]; [constructor|].
  unfold asked_all. cbn [flat_map fst snd]. apply Forall_app. split; [apply asked_typed; assumption|exact IH].
Qed.
Lemma asked_all_in : forall es g fu, In (g, fu) (asked_all es) -> exists cp c, In (cp, c, fu) es /\ plan cp c = Ok (inl g).
Proof.
  intros es g fu H. unfold asked_all in H. apply in_flat_map in H. destruct H as ([[cp c] fu'] & Hin & H).
  cbn [fst snd] in H. apply asked_in in H. destruct H as [H ->]. exists cp, c. auto.
Qed.

Lemma service_reachable_graph : forall d, crypto_laws C -> service_reachable C d -> reachable C d.
Proof.
  intros d L (es & T & <-). rewrite service_history_db. exists (asked_all es). split; [apply asked_all_typed; assumption|reflexivity].
Qed.
Lemma service_reachable_step : forall d cp c fu, service_typed c -> service_reachable C d -> service_reachable C (snd (service_step C d (cp, c, fu))).
Proof.
  intros d cp c fu T (es & Te & <-). exists (es ++ [(cp, c, fu)]). split.
  - apply Forall_app. split; [exact Te|]. constructor; [exact T|constructor].
  - unfold service_history. rewrite fold_left_app. reflexivity.
Qed.

(** * Responses *)
Lemma step_reply : forall s c fu x d', inv C s -> call_typed C c -> graph_step C (db_of s) (c, fu) = (Ok x, d') ->
  match x with
  | GR_certs cs => forall ch t, In ch cs -> In t ch -> exists b, In (RAuth (mk_auth t b)) (rels s)
  | GR_revs vs => forall v, In v vs -> In (RRev v) (rels s)
  | _ => True
  end.
Proof.
  intros s c fu x d' I T E. apply step_ok in E; [|exact I|exact T]. destruct E as [E _].
  assert (X : forall now pk ch t, In ch (certs_of (apply_w s (W_gc now)) pk) -> In t ch -> exists b, In (RAuth (mk_auth t b)) (rels s)).
  { intros now pk ch t Hc Ht. pose proof (inv_gc C s now I) as I1. apply (certs_of_exact C) in Hc; [|apply I1].
    destruct Hc as [(L2 & _ & H0 & Hl & _) _]. apply In_nth_error in Ht. destruct Ht as ([|i] & Ht).
    - destruct (H0 t Ht) as [_ St]. apply (stored_trust_in C) in St; [|apply I1]. cbn [apply_w rels] in St. apply in_gc in St. eexists. apply St.
    - destruct (nth_error ch i) as [g|] eqn:Hg.
      + specialize (Hl i g t Hg Ht). apply (stored_trust_in C) in Hl; [|apply I1]. cbn [apply_w rels] in Hl. apply in_gc in Hl. eexists. apply Hl.
      + apply nth_error_None in Hg. assert (S i < length ch)%nat by (apply nth_error_Some; congruence). lia. }
  destruct c; cbn [sem fst] in E; try (injection E as <-; exact Logic.I).
  - destruct (add_trust_sem C s t by_pk now) as [[?|?| |] ?]; try discriminate E. injection E as <-. exact Logic.I.
  - destruct (add_sem C s c now) as [[?|?| |] ?]; try discriminate E. injection E as <-. exact Logic.I.
  - injection E as <-. intros ch t. apply X.
  - injection E as <-. intros ch t Hc. apply in_certs_from in Hc. apply (X now pk). apply Hc.
  - destruct (revoke_sem C v) as [[?|?| |] ?]; try discriminate E. injection E as <-. exact Logic.I.
  - injection E as <-. intros v Hv. apply in_revs_of in Hv. apply Hv.
Qed.

End WithCrypto.
