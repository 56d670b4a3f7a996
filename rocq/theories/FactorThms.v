(** Rating certificates: C204, C205. *)
From Coq Require Import List NArith ZArith Bool Lia ZifyBool ZifyNat ZifyN.
From Verif Require Import Base BaseFacts Text Keys KeysFacts Trust TrustFacts Certificate Relation Storage StorageFacts Graph SearchFacts PathFacts
  Spec SpecFacts StateFacts GraphFacts ChainFacts GraphThms MoreThms ReadmeThms FactorSpec Witness Toy ToyFacts.
Import ListNotations.
Open Scope N_scope.

Lemma starts_root : forall C s c m, inv C s -> starts_at (db_of s) c m -> exists t c', c = t :: c' /\ In (issued_for t) (map fst (roots s)).
Proof.
  intros C s c m I (t & A & R). destruct c as [|t' c]; [discriminate A|]. unfold at_pos in A. cbn in A. injection A as ->. exists t, c. split; [reflexivity|].
  apply is_root_in. apply (is_root_max_len C s _ I). eauto.
Qed.

Lemma factor_value : forall C s c m, inv C s -> starts_at (db_of s) c m -> in_memory c -> cert_factor (roots s) c + m = 16 + N.of_nat (length c - 1).
Proof.
  intros C s c m I (t & A & R) B. destruct c as [|t' c]; [discriminate A|]. unfold at_pos in A. cbn in A. injection A as ->.
  apply root_max_len_factor in R. destruct R as (f & R & E). unfold cert_factor. rewrite R. unfold in_memory, u32_sub, u32_add, u32_of_nat, u32_bound in *.
  pose proof (factor_le C s _ f I R).
  rewrite (N.mod_small (N.of_nat (length (t :: c)))) by lia. rewrite (N.mod_small (f + N.of_nat (length (t :: c)))) by lia.
  replace (f + N.of_nat (length (t :: c)) + 4294967296 - 1) with ((f + N.of_nat (length (t :: c)) - 1) + 1 * 4294967296) by (cbn [length]; lia).
  rewrite N.mod_add by lia. rewrite N.mod_small by lia. cbn [length]. lia.
Qed.

Lemma starts_fun : forall d c m m', starts_at d c m -> starts_at d c m' -> m = m'.
Proof. intros d c m m' (t & A & R) (t' & A' & R'). unfold at_pos in *. assert (t' = t) by congruence. subst t'. exact (root_max_len_fun d _ m m' R R'). Qed.

Lemma rating_reads : forall d cs r fu, Reads SQL d (certificates_weight_factor cs) r -> rating d cs fu = (r, d) \/ (fu <> None /\ rating d cs fu = (Err SQL, d)).
Proof.
  intros d cs r fu H. unfold rating. destruct (H fu) as [(fu' & E & _)|(N & d'' & -> & E)]; rewrite E; [left|right]; auto.
Qed.

(** ** C204 *)
(** The factor of some certificates whose first trusts are for roots is the least of their factors; nothing is written. *)
Lemma p_C204_least : forall C d cs, reachable C d -> cs <> [] -> Forall in_memory cs -> (forall c, In c cs -> exists m, starts_at d c m) ->
  exists n, rating d cs None = (Ok (Some n), d) /\ least_factor d cs n.
Proof.
  intros C d cs R Ne Im Hs. apply reachable_inv in R. destruct R as (s & -> & I). rewrite Forall_forall in Im.
  assert (Hr : forall c, In c cs -> exists t c', c = t :: c' /\ In (issued_for t) (map fst (roots s))).
  { intros c Hc. destruct (Hs c Hc) as (m & X). exact (starts_root C s c m I X). }
  destruct (rating_reads _ cs _ None (certs_factor_reads C s cs (inv_wf C s I) Hr)) as [E|[N _]]; [|congruence].
  destruct cs as [|c0 cs]; [congruence|]. exists (min_factor (roots s) (c0 :: cs) u32_max). split; [exact E|].
  destruct (min_factor_le (roots s) (c0 :: cs) u32_max) as [L1 L2]. split.
  - destruct (min_factor_in (roots s) (c0 :: cs) u32_max) as [X|(c & Hc & X)].
    + exfalso. destruct (Hs c0 (or_introl eq_refl)) as (m & S0). pose proof (factor_value C s c0 m I S0 (Im c0 (or_introl eq_refl))) as F0.
      pose proof (L2 c0 (or_introl eq_refl)). pose proof (Im c0 (or_introl eq_refl)) as M0. unfold in_memory, u32_max, u32_bound in *. lia.
    + exists c. split; [exact Hc|]. destruct (Hs c Hc) as (m & Sc). exists m. split; [exact Sc|]. rewrite X. exact (factor_value C s c m I Sc (Im c Hc)).
  - intros c n' Hc (m & Sc & E'). pose proof (factor_value C s c m I Sc (Im c Hc)). pose proof (L2 c Hc). lia.
Qed.
(** Of no certificates there is none. *)
Lemma p_C204_none : forall d fu, rating d [] fu = (Ok None, d).
Proof. intros d fu. reflexivity. Qed.

Lemma factors_err : forall C s before c rest acc, inv C s -> (forall c, In c before -> exists m, starts_at (db_of s) c m) -> (forall m, ~ starts_at (db_of s) c m) ->
  Reads SQL (db_of s) (certs_min_factor (before ++ c :: rest) acc) (Err (match c with [] => GE_CertificateCheck CE_CertificateLengthError | _ => GE_NoRoot end)).
Proof.
  intros C s before c rest acc I. revert acc. induction before as [|b before IH]; intros acc Hb Hc; cbn [app certs_min_factor].
  - destruct c as [|t c]; [intros fu; left; exists fu; split; [reflexivity|auto]|].
    eapply Runs_bind; [apply st_reads; eapply get_root_weight_factor_reads; apply wf_repr; exact (inv_wf C s I)|]. cbv beta.
    destruct (root_factor (roots s) (issued_for t)) as [f|] eqn:F; [|intros fu; left; exists fu; split; [reflexivity|auto]].
    exfalso. apply (Hc (16 - f)). exists t. split; [reflexivity|]. apply root_max_len_factor. exists f. split; [exact F|]. pose proof (factor_le C s _ f I F). lia.
  - destruct (Hb b (or_introl eq_refl)) as (m & Sb). destruct (starts_root C s b m I Sb) as (t & b' & -> & Hr). destruct (root_factor_some _ _ Hr) as (f & Hf).
    eapply Runs_bind; [apply st_reads; eapply get_root_weight_factor_reads; apply wf_repr; exact (inv_wf C s I)|]. cbv beta. rewrite Hf.
    apply IH; [|exact Hc]. intros x Hx. apply Hb. right. exact Hx.
Qed.
(** The first certificate that is empty or does not start at a root is refused, whatever comes after it. *)
Lemma p_C204_refused : forall C d before c rest, reachable C d -> (forall c, In c before -> exists m, starts_at d c m) -> (forall m, ~ starts_at d c m) ->
  (c = [] -> rating d (before ++ c :: rest) None = (Err (GE_CertificateCheck CE_CertificateLengthError), d)) /\
  (c <> [] -> rating d (before ++ c :: rest) None = (Err GE_NoRoot, d)).
Proof.
  intros C d before c rest R Hb Hc. apply reachable_inv in R. destruct R as (s & -> & I).
  assert (X : Reads SQL (db_of s) (certificates_weight_factor (before ++ c :: rest)) (Err (match c with [] => GE_CertificateCheck CE_CertificateLengthError | _ => GE_NoRoot end))).
  { pose proof (factors_err C s before c rest u32_max I Hb Hc) as F. unfold certificates_weight_factor. destruct (before ++ c :: rest) as [|x l] eqn:E; [destruct before; discriminate E|].
    intros fu. destruct (F fu) as [(fu' & Y & Z)|(N & d'' & -> & Y)].
    - left. exists fu'. unfold mbind. rewrite Y. split; [reflexivity|exact Z].
    - right. split; [exact N|]. exists (db_of s). split; [reflexivity|]. unfold mbind. rewrite Y. reflexivity. }
  destruct (rating_reads _ _ _ None X) as [E|[N _]]; [|congruence]. rewrite E. split; intros Y; [subst c; reflexivity|destruct c; [congruence|reflexivity]].
Qed.
(** A failing statement makes the answer an error of the storage, or no difference; nothing is ever written. *)
Lemma p_C204_failures : forall C d cs fu, reachable C d -> rating d cs fu = rating d cs None \/ rating d cs fu = (Err (GE_InternalStorage SE_SQLite), d).
Proof.
  intros C d cs fu R. apply reachable_inv in R. destruct R as (s & -> & I).
  assert (X : exists r, Reads SQL (db_of s) (certificates_weight_factor cs) r).
  { unfold certificates_weight_factor. destruct cs as [|c0 cs]; [eexists; apply Runs_ret|]. 
    assert (Y : forall acc, exists r, Reads SQL (db_of s) (certs_min_factor (c0 :: cs) acc) r).
    { generalize (c0 :: cs). induction l as [|c l IH]; intros acc; cbn [certs_min_factor]; [eexists; apply Runs_ret|].
      destruct c as [|t c]; [eexists; intros fu0; left; exists fu0; split; [reflexivity|auto]|].
      destruct (root_factor (roots s) (issued_for t)) as [f|] eqn:F.
      - destruct (IH (N.min acc (u32_sub (u32_add f (u32_of_nat (length (t :: c)))) 1))) as (r & Hr). exists r.
        eapply Runs_bind; [apply st_reads; eapply get_root_weight_factor_reads; apply wf_repr; exact (inv_wf C s I)|]. cbv beta. rewrite F. exact Hr.
      - eexists. eapply Runs_bind; [apply st_reads; eapply get_root_weight_factor_reads; apply wf_repr; exact (inv_wf C s I)|]. cbv beta. rewrite F.
        intros fu0. left. exists fu0. split; [reflexivity|auto]. }
    destruct (Y u32_max) as (r & Hr). exists (match r with Ok f => Ok (Some f) | Err e => Err e | Panic => Panic | OutOfFuel => OutOfFuel end).
    intros fu0. destruct (Hr fu0) as [(fu' & Z & Z')|(N & d'' & -> & Z)].
    - left. exists fu'. unfold mbind. rewrite Z. split; [destruct r; reflexivity|exact Z'].
    - right. split; [exact N|]. exists (db_of s). split; [reflexivity|]. unfold mbind. rewrite Z. reflexivity. }
  destruct X as (r & X). destruct (rating_reads _ cs r None X) as [E|[N _]]; [|congruence]. destruct (rating_reads _ cs r fu X) as [E'|[_ E']]; [left; congruence|right; exact E'].
Qed.
(** The weight of a key is the one of the factor of the certificates that are told of it, or of the root it is. *)
Lemma p_C204_weight : forall C d pk now fu fu' cs w d1 d2, reachable C d -> call_typed C (G_weight pk now) ->
  graph_step C d (G_get_all_certs pk now, fu) = (Ok (GR_certs cs), d1) -> graph_step C d (G_weight pk now, fu') = (Ok (GR_weight w), d2) ->
  (cs = [] /\ rating d1 cs None = (Ok None, d1) /\ ((exists m, root_max_len d pk m /\ w = 2 ^ m) \/ (~ is_root d pk /\ w = 0))) \/
  (exists n, rating d1 cs None = (Ok (Some n), d1) /\
     ((exists m, root_max_len d pk m /\ w = N.max (2 ^ m) (2 ^ (16 - n))) \/ (~ is_root d pk /\ w = 2 ^ (16 - n)))).
Proof.
  intros C d pk now fu fu' cs w d1 d2 R T E1 E2. apply reachable_inv in R. destruct R as (s & -> & I).
  apply step_ok in E1; [|exact I|exact T]. apply step_ok in E2; [|exact I|exact T]. cbn [sem fst snd run_ws fold_left] in *.
  destruct E1 as [E1 ->]. destruct E2 as [E2 ->]. injection E1 as <-. injection E2 as <-.
  change (mk_state (gc now (rels s)) (roots s)) with (apply_w s (W_gc now)) in *. pose proof (inv_gc C s now I) as I1. set (g := apply_w s (W_gc now)) in *.
  assert (Hr : forall c, In c (certs_of g pk) -> exists t c', c = t :: c' /\ In (issued_for t) (map fst (roots g))) by (intros c Hc; eapply certs_root; [exact (inv_wf C g I1)|exact Hc]).
  destruct (rating_reads _ _ _ None (certs_factor_reads C g _ (inv_wf C g I1) Hr)) as [E|[N _]]; [|congruence].
  unfold weight_of. pose proof (root_weight_spec C s pk I) as Rw. change (roots s) with (roots g) in Rw. unfold certs_weight.
  destruct (certs_of g pk) as [|c0 cs].
  - left. split; [reflexivity|]. split; [exact E|]. rewrite N.max_0_r. exact Rw.
  - right. exists (min_factor (roots g) (c0 :: cs) u32_max). split; [exact E|]. fold (get_weight_from_factor (min_factor (roots g) (c0 :: cs) u32_max)).
    destruct Rw as [(m & Hm & ->)|[Nr ->]]; [left; exists m; split; [exact Hm|reflexivity]|right; split; [exact Nr|apply N.max_0_l]].
Qed.
(** The certificate of key 4 under the root of length 4 has the factor 15, its beginnings that end with keys 3 and 2 the factors 14 and 13. *)
Definition path (n : nat) : certificate := firstn n [toy_trust R R 1000 1; toy_trust R A 900 1; toy_trust A B 800 1; toy_trust B D 700 1].
Example e_C204_three : reachable W (db_of (after faq)) /\ Forall in_memory [path 4; path 2; path 3] /\
  (forall c, In c [path 4; path 2; path 3] -> exists m, starts_at (db_of (after faq)) c m) /\
  (forall m, ~ starts_at (db_of (after faq)) (skipn 1 (path 4)) m) /\
  rating (db_of (after faq)) [path 4] None = (Ok (Some 15), db_of (after faq)) /\
  rating (db_of (after faq)) [path 4; path 2; path 3] None = (Ok (Some 13), db_of (after faq)) /\
  rating (db_of (after faq)) [path 4; skipn 1 (path 4); []] None = (Err GE_NoRoot, db_of (after faq)) /\
  rating (db_of (after faq)) [path 4; []; skipn 1 (path 4)] None = (Err (GE_CertificateCheck CE_CertificateLengthError), db_of (after faq)) /\
  fst (graph_step W (db_of (after faq)) (G_get_all_certs (toy_key D) (at_ 30), None)) = Ok (GR_certs [path 4]) /\
  fst (graph_step W (db_of (after faq)) (G_weight (toy_key D) (at_ 30), None)) = Ok (GR_weight 2).
Proof.
  split; [apply after_reachable; exact faq_typed|]. split; [repeat constructor; vm_compute; reflexivity|]. split.
  { intros c Hc. exists 4. exists (toy_trust R R 1000 1). split; [destruct Hc as [<-|[<-|[<-|[]]]]; reflexivity|]. exists 12%Z. split; [vm_compute; reflexivity|reflexivity]. }
  split; [intros m (t & A & w & X & _); injection A as <-; vm_compute in X; discriminate X|].
  split; [vm_compute; reflexivity|]. split; [vm_compute; reflexivity|]. split; [vm_compute; reflexivity|]. split; [vm_compute; reflexivity|].
  split; [apply after_answer; [exact faq_typed|typed1|vm_compute; reflexivity]|vm_compute; reflexivity].
Qed.

(** ** C205 *)
(** The answer rests on the lengths of the certificates, their first keys and the lengths of the roots alone: no signature, no expiry and no revocation matters. *)
Lemma p_C205_outline : forall C d d' cs cs', reachable C d -> reachable C d' -> (forall k m, root_max_len d k m <-> root_max_len d' k m) -> Forall2 same_outline cs cs' ->
  fst (rating d cs None) = fst (rating d' cs' None).
Proof.
  intros C d d' cs cs' R R' Ro F. apply reachable_inv in R. destruct R as (s & -> & I). apply reachable_inv in R'. destruct R' as (s' & -> & I').
  assert (Rf : forall k, root_factor (roots s) k = root_factor (roots s') k).
  { intros k. destruct (root_factor (roots s) k) as [f|] eqn:E.
    - pose proof (factor_le C s k f I E). assert (X : root_max_len (db_of s) k (16 - f)) by (apply root_max_len_factor; exists f; split; [exact E|lia]).
      apply Ro in X. apply root_max_len_factor in X. destruct X as (f' & X & Y). rewrite X. f_equal. lia.
    - destruct (root_factor (roots s') k) as [f|] eqn:E'; [|reflexivity]. exfalso. pose proof (factor_le C s' k f I' E').
      assert (X : root_max_len (db_of s') k (16 - f)) by (apply root_max_len_factor; exists f; split; [exact E'|lia]).
      apply Ro in X. apply root_max_len_factor in X. destruct X as (f' & X & Y). congruence. }
  assert (G : forall k, fst (st (get_root_weight_factor k) (mk_world (db_of s) None)) = fst (st (get_root_weight_factor k) (mk_world (db_of s') None)) /\
    snd (st (get_root_weight_factor k) (mk_world (db_of s) None)) = mk_world (db_of s) None /\ snd (st (get_root_weight_factor k) (mk_world (db_of s') None)) = mk_world (db_of s') None).
  { intros k. destruct (st_reads _ _ _ _ (get_root_weight_factor_reads C _ _ _ k (wf_repr C s (inv_wf C s I))) None) as [(f1 & E1 & N1)|[X _]]; [|congruence].
    destruct (st_reads _ _ _ _ (get_root_weight_factor_reads C _ _ _ k (wf_repr C s' (inv_wf C s' I'))) None) as [(f2 & E2 & N2)|[X _]]; [|congruence].
    rewrite E1, E2. rewrite (N1 eq_refl), (N2 eq_refl). cbn [fst snd]. rewrite Rf. auto. }
  assert (M : forall cs cs', Forall2 same_outline cs cs' -> forall acc, fst (certs_min_factor cs acc (mk_world (db_of s) None)) = fst (certs_min_factor cs' acc (mk_world (db_of s') None))).
  { clear F cs cs'. intros cs cs' F. induction F as [|c c' cs cs' [L K] F IH]; intros acc; [reflexivity|]. cbn [certs_min_factor].
    destruct c as [|t c], c' as [|t' c']; try discriminate L; [reflexivity|]. specialize (K t t' eq_refl eq_refl). rewrite K. rewrite L.
    destruct (G (issued_for t')) as (G1 & G2 & G3). unfold mbind.
    destruct (st (get_root_weight_factor (issued_for t')) (mk_world (db_of s) None)) as [r1 w1]. destruct (st (get_root_weight_factor (issued_for t')) (mk_world (db_of s') None)) as [r2 w2].
    cbn [fst snd] in G1, G2, G3. subst r2 w1 w2. destruct r1 as [[f|]|e| |]; try reflexivity. apply IH. }
  unfold rating, certificates_weight_factor. destruct F as [|c c' cs cs' O F]; [reflexivity|].
  pose proof (M (c :: cs) (c' :: cs') (Forall2_cons _ _ O F) u32_max) as X. unfold mbind.
  destruct (certs_min_factor (c :: cs) u32_max (mk_world (db_of s) None)) as [r1 w1]. destruct (certs_min_factor (c' :: cs') u32_max (mk_world (db_of s') None)) as [r2 w2].
  cbn [fst] in X. subst r2. destruct r1; reflexivity.
Qed.
(** So the certificates told of a key have their factor, not none, also when the key has been revoked since and no certificate is told of it any more;
    and so has a list of trusts that nobody signed. *)
Lemma p_C205_revoked_none_refuted : exists C d v k now cs n c, crypto_laws C /\ reachable C d /\ call_typed C (G_revoke v) /\ signed_revocation C v /\ rev_pk v = k /\
  fst (graph_step C d (G_get_all_certs k now, None)) = Ok (GR_certs cs) /\ fst (graph_step C d (G_revoke v, None)) = Ok GR_unit /\
  let d' := snd (graph_step C d (G_revoke v, None)) in
  fst (graph_step C d' (G_get_all_certs k now, None)) = Ok (GR_certs []) /\ fst (graph_step C d' (G_weight k now, None)) = Ok (GR_weight 0) /\
  fst (rating d' cs None) = Ok (Some n) /\
  (forall t b, In t c -> trust_verify C t b now <> Ok tt) /\ fst (rating d' [c] None) = Ok (Some 13).
Proof.
  exists W, (db_of (after faq)), (toy_rev A B 9), (toy_key B), (at_ 10), [path 3], 14, [mk_trust (toy_key R) (at_ 5) (mk_sig Ed25519 []) (at_ 1); mk_trust (toy_key 9) (at_ 5) (mk_sig Ed25519 []) (at_ 1)].
  split; [apply toy_laws|]. split; [apply after_reachable; exact faq_typed|]. split; [typed1|]. split; [apply revocation_verify_exact; vm_compute; reflexivity|]. split; [reflexivity|].
  split; [apply after_answer; [exact faq_typed|typed1|vm_compute; reflexivity]|]. split; [vm_compute; reflexivity|]. cbv zeta.
  split; [vm_compute; reflexivity|]. split; [vm_compute; reflexivity|]. split; [vm_compute; reflexivity|]. split; [|vm_compute; reflexivity].
  intros t b [<-|[<-|[]]]; vm_compute; discriminate.
Qed.
Example e_C205_outline : Forall2 same_outline [path 3] [[toy_trust R R 2 1; toy_trust A A 2 1; toy_trust 9 9 2 1]] /\ path 3 <> [toy_trust R R 2 1; toy_trust A A 2 1; toy_trust 9 9 2 1].
Proof.
  split; [constructor; [|constructor]; split; [reflexivity|]; intros t t' H H'; injection H as <-; injection H' as <-; reflexivity|].
  intros X. apply (f_equal (map (fun t => secs (expires_at t)))) in X. vm_compute in X. discriminate X.
Qed.
