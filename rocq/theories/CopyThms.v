(** Copying the standing of keys from one store to another: C174. *)
From Coq Require Import List NArith ZArith Bool Lia Permutation ZifyBool ZifyNat ZifyN.
From Verif Require Import Base BaseFacts Text Keys KeysFacts Trust TrustFacts Certificate Relation Storage StorageFacts Graph SearchFacts PathFacts
  Spec SpecFacts StateFacts GraphFacts GraphThms MachineSpec MachineThms ReadmeThms VisitorThms BlowupThms CopySpec Witness Toy ToyFacts.
Import ListNotations.
Open Scope N_scope.

Section Machines.
Variable C : crypto.
Variable A : machine.
Variable now : duration.
Let A1 := m_collect A now.
Hypothesis One : forall x y, holds A x -> holds A y -> same_keys x y -> x = y.
Hypothesis Whole : forall x, holds A x -> whole x = x.
Hypothesis Signed_t : forall t b, holds A1 (RAuth (mk_auth t b)) -> acceptable C b t now.
Hypothesis Signed_v : forall v, holds A (RRev v) -> signed_revocation C v.

Definition state (L : list relation) (m : machine) : Prop :=
  (forall k l, root_of m k l <-> root_of A k l) /\ (forall x, holds m x <-> In x L).
Definition part (L : list relation) : Prop := forall x, In x L -> holds A x /\ ~ db_expired now x.

Lemma state_collect : forall L m, part L -> state L m -> state L (m_collect m now).
Proof.
  intros L m P [S1 S2]. split; [exact S1|]. intros x. cbn [m_collect holds]. rewrite S2. split; [intros [H _]; exact H|]. intros H. split; [exact H|]. apply P. exact H.
Qed.
Lemma not_before_self : forall x, ~ before x x.
Proof. intros x [H|[_ H]]; lia. Qed.
Lemma some_pair : forall x L, (exists z, In z L /\ same_keys x z) \/ (forall z, In z L -> ~ same_keys x z).
Proof.
  intros x L. induction L as [|y L IH]; [right; intros z []|]. destruct (same_keys_dec x y) as [H|H]; [left; exists y; split; [left; reflexivity|exact H]|].
  destruct IH as [(z & I & K)|N0]; [left; exists z; split; [right; exact I|exact K]|]. right. intros z [<-|I]; [exact H|apply N0; exact I].
Qed.
Lemma state_import : forall L m x, (forall y, In y L -> holds A y) -> holds A x -> state L m -> state (L ++ [x]) (m_import m x).
Proof.
  intros L m x P Hx [S1 S2]. split; [exact S1|]. intros y. cbn [m_import holds]. rewrite in_app_iff, !S2. cbn [In].
  assert (U : forall z, In z L -> same_keys x z -> z = x) by (intros z I K; symmetry; apply One; [exact Hx|apply P; exact I|exact K]).
  assert (Kx : same_keys x x) by (split; reflexivity). split.
  - intros [(_ & I)|[(_ & I & _)|(-> & _)]]; [left; exact I|left; exact I|]. right. left. symmetry. apply Whole. exact Hx.
  - intros [I|[<-|[]]].
    + destruct (same_keys_dec x y) as [K|K]; [|left; auto]. right. left. split; [exact K|]. split; [exact I|]. rewrite (U y I K). apply not_before_self.
    + destruct (some_pair x L) as [(z & I & K)|N0].
      * right. left. rewrite (U z I K) in I. split; [exact Kx|]. split; [exact I|apply not_before_self].
      * right. right. split; [symmetry; apply Whole; exact Hx|]. intros z I K. apply S2 in I. destruct (N0 z I K).
Qed.

(** A trust of [A] is taken over if its giver has the weight. *)
Lemma copy_trust : forall L m t b a ms, part L -> state L m -> holds A1 (RAuth (mk_auth t b)) ->
  (exists v, (2 <= v \/ (b = issued_for t /\ 1 <= v)) /\ ((exists l, root_of m b l /\ v = 2 ^ l) \/ (exists c, m_chain (m_collect m now) b c /\ m_worth m c v))) ->
  m_add_trust C m t b now a ms -> (exists p, a = A_weight p) /\ state (L ++ [RAuth (mk_auth t b)]) (last ms m).
Proof.
  intros L m t b a ms P S0 H (v & Hv & W) Ca. pose proof (state_collect L m P S0) as Sc.
  assert (Pos : forall p, m_passes (m_collect m now) b (issued_for t) p -> 0 < p).
  { intros p (w & (G & _) & K). assert (Le : v <= w).
    { apply G. destruct W as [(l & R & E)|(c & K1 & (t0 & l & K2 & K3 & K4))]; [left; exists l; auto|]. right. exists c. split; [exact K1|]. exists t0, l. auto. }
    destruct K as [(E & ->)|(E & ->)]; [lia|]. destruct Hv as [Hv|[E' _]]; [|contradiction]. pose proof (N.div_str_pos w 2 ltac:(lia)). lia. }
  inversion Ca as [Na|Ac Ps|p Ac Ps Pp]; subst.
  - destruct (Na (Signed_t t b H)).
  - specialize (Pos 0 Ps). lia.
  - split; [eauto|]. cbn [last]. apply state_import; [intros y I; apply P; exact I|apply H|exact Sc].
Qed.
Lemma part_app : forall L x, part L -> holds A1 x -> part (L ++ [x]).
Proof. intros L x P H y I. apply in_app_iff in I. destruct I as [I|[<-|[]]]; [apply P; exact I|exact H]. Qed.

(** The trusts of a chain in order. *)
Lemma prefix_chain : forall L m pk c pre t post b, state L m -> part L -> (forall v, ~ In (RRev v) L) -> m_chain A1 pk c -> c = pre ++ t :: post ->
  (forall a, In a (cert_auths pre) -> In (RAuth a) L) -> (2 <= length pre)%nat -> key_at pre (length pre - 1) b -> m_chain (m_collect m now) b pre.
Proof.
  intros L m pk c pre t post b S0 P Nv (H1 & H2 & H3 & H4 & H5 & H6) E I Le K. pose proof (state_collect L m P S0) as [S1 S2].
  assert (Up : forall i x, at_pos pre i x -> at_pos c i x).
  { intros i x H. unfold at_pos in *. rewrite E, nth_error_app1; [exact H|]. apply nth_error_Some. congruence. }
  assert (Uk : forall i k, key_at pre i k -> key_at c i k) by (intros i k (x & H & Ex); exists x; split; [apply Up; exact H|exact Ex]).
  split; [exact Le|]. split; [exact K|]. split; [|split; [|split]].
  - intros u Hu. destruct (H3 u (Up _ _ Hu)) as ((l & R) & _). split; [exists l; apply S1; exact R|]. apply S2. apply I.
    destruct pre as [|x pre]; [discriminate Hu|]. injection Hu as ->. left. reflexivity.
  - intros i g u Hg Hu. apply S2. apply I. destruct pre as [|x pre]; [destruct i; discriminate Hg|].
    apply (nth_error_In _ (S i)). apply with_issuers_nth. exists u, g. auto.
  - intros i j k Lt Ki Kj. exact (H5 i j k Lt (Uk _ _ Ki) (Uk _ _ Kj)).
  - intros i j v _ Hv. apply S2 in Hv. destruct (Nv v Hv).
Qed.
Definition long_enough (c : certificate) : Prop :=
  forall t l, at_pos c 0 t -> root_of A (issued_for t) l -> N.of_nat (length c - 1) <= l.
Lemma last_key : forall pre (t : trust) x, key_at (pre ++ [x]) (length (pre ++ [x]) - 1) (issued_for x).
Proof.
  intros pre t x. exists x. split; [|reflexivity]. unfold at_pos. rewrite app_length. cbn [length]. rewrite nth_error_app2 by lia.
  replace (length pre + 1 - 1 - length pre)%nat with 0%nat by lia. reflexivity.
Qed.
Lemma cert_auths_snoc : forall pre g t, cert_auths ((pre ++ [g]) ++ [t]) = cert_auths (pre ++ [g]) ++ [mk_auth t (issued_for g)].
Proof.
  intros pre g t. assert (H : forall l b, with_issuers b (l ++ [g] ++ [t]) = with_issuers b (l ++ [g]) ++ [mk_auth t (issued_for g)]).
  { induction l as [|x l IH]; intros b; [reflexivity|]. cbn [app with_issuers]. f_equal. apply IH. }
  rewrite <- app_assoc. destruct pre as [|x pre]; [reflexivity|]. cbn [app cert_auths]. exact (H (x :: pre) (issued_for x)).
Qed.
Lemma last_cons : forall X (l : list X) x d, last (x :: l) d = last l x.
Proof. intros X l. induction l as [|y l IH]; intros x d; [reflexivity|]. change (last (x :: y :: l) d) with (last (y :: l) d). rewrite !IH. reflexivity. Qed.
Lemma last_two : forall X (l l' : list X) d, last (l ++ l') d = last l' (last l d).
Proof. intros X l. induction l as [|x l IH]; intros l' d; [reflexivity|]. cbn [app]. rewrite !last_cons. apply IH. Qed.
Lemma chain_auth_in : forall pre g t post, In (mk_auth t (issued_for g)) (cert_auths ((pre ++ [g]) ++ t :: post)).
Proof.
  intros pre g t post. apply (nth_error_In _ (S (length pre))).
  assert (E : exists x l, (pre ++ [g]) ++ t :: post = x :: l) by (destruct pre as [|x pre]; cbn; eauto). destruct E as (x & l & E). rewrite E. unfold cert_auths.
  apply with_issuers_nth. rewrite <- E. exists t, g. split; [|split; [|reflexivity]].
  - rewrite nth_error_app2 by (rewrite app_length; cbn [length]; lia). rewrite app_length. cbn [length]. replace (S (length pre) - (length pre + 1))%nat with 0%nat by lia. reflexivity.
  - rewrite <- app_assoc, nth_error_app2, Nat.sub_diag by lia. reflexivity.
Qed.
Lemma copy_rest : forall pk c post pre g L m a ms, m_chain A1 pk c -> long_enough c -> c = (pre ++ [g]) ++ post ->
  part L -> state L m -> (forall v, ~ In (RRev v) L) -> (forall x, In x (cert_auths (pre ++ [g])) -> In (RAuth x) L) ->
  m_add_all C now m post (issued_for g) a ms ->
  a = A_done /\ exists L', state L' (last ms m) /\ part L' /\ (forall x, In x L' <-> In x L \/ exists y, In y (cert_auths c) /\ x = RAuth y).
Proof.
  intros pk c post. induction post as [|t post IH]; intros pre g L m a ms Hc Le E P S0 Nv I H.
  - rewrite app_nil_r in E. subst c. inversion H; subst. split; [reflexivity|]. exists L. split; [exact S0|]. split; [exact P|].
    intros x. split; [auto|]. intros [X|(y & Iy & ->)]; [exact X|apply I; exact Iy].
  - pose proof Hc as (H1 & H2 & H3 & H4 & H5 & H6).
    assert (Lp : (length c = length (pre ++ [g]) + 1 + length post)%nat) by (rewrite E, app_length; cbn [length]; lia).
    assert (Hh : holds A1 (RAuth (mk_auth t (issued_for g)))).
    { apply (H4 (length pre)); unfold at_pos; rewrite E.
      - rewrite <- app_assoc, nth_error_app2, Nat.sub_diag by lia. reflexivity.
      - rewrite nth_error_app2 by (rewrite app_length; cbn [length]; lia). rewrite app_length. cbn [length]. replace (S (length pre) - (length pre + 1))%nat with 0%nat by lia. reflexivity. }
    assert (Hr : exists t0 l, at_pos c 0 t0 /\ at_pos (pre ++ [g]) 0 t0 /\ root_of A (issued_for t0) l).
    { destruct (nth_error_Some_ex _ (pre ++ [g]) 0) as (t0 & H0); [rewrite app_length; cbn [length]; lia|]. exists t0.
      assert (H0' : at_pos c 0 t0) by (unfold at_pos in *; rewrite E, nth_error_app1; [exact H0|rewrite app_length; cbn [length]; lia]).
      destruct (H3 t0 H0') as ((l & R) & _). exists l. auto. }
    destruct Hr as (t0 & l & At & Ap & R). pose proof (Le t0 l At R) as Ln. destruct S0 as [S1 S2].
    assert (Wt : exists v, (2 <= v \/ (issued_for g = issued_for t /\ 1 <= v)) /\
                  ((exists l, root_of m (issued_for g) l /\ v = 2 ^ l) \/ (exists c, m_chain (m_collect m now) (issued_for g) c /\ m_worth m c v))).
    { destruct pre as [|x pre].
      - cbn in Ap. injection Ap as <-. exists (2 ^ l). split; [left|left; exists l; split; [apply S1; exact R|reflexivity]].
        cbn [app length] in Lp. apply (N.pow_le_mono_r 2 1 l); lia.
      - exists (2 ^ (l - N.of_nat (length ((x :: pre) ++ [g]) - 1))). rewrite app_length in *. cbn [length] in *. split; [left; apply (N.pow_le_mono_r 2 1); lia|]. right.
        exists ((x :: pre) ++ [g]). split.
        + apply (prefix_chain L m pk c ((x :: pre) ++ [g]) t post); try assumption; [split; assumption|rewrite app_length; cbn [length]; lia|apply last_key; exact t].
        + exists t0, l. split; [exact Ap|]. split; [apply S1; exact R|]. rewrite app_length. reflexivity. }
    inversion H as [|? ? ? ? ? Ht|? ? ? ? p ms1 ? ms2 Ht Hr2]; subst.
    + destruct (copy_trust L m t (issued_for g) A_refused ms P (conj S1 S2) Hh Wt Ht) as ((p & Ep) & _). discriminate Ep.
    + destruct (copy_trust L m t (issued_for g) (A_weight p) ms1 P (conj S1 S2) Hh Wt Ht) as (_ & Sn).
      specialize (IH (pre ++ [g]) t (L ++ [RAuth (mk_auth t (issued_for g))]) (last ms1 m) a ms2 Hc Le).
      destruct IH as (Ea & L' & Sl & Pl & Il); try assumption.
      * symmetry. exact (app_assoc_reverse (pre ++ [g]) [t] post).
      * apply part_app; assumption.
      * intros v J. apply in_app_iff in J. destruct J as [J|[J|[]]]; [exact (Nv v J)|discriminate J].
      * intros x J. rewrite cert_auths_snoc in J. apply in_app_iff in J. apply in_app_iff. destruct J as [J|[<-|[]]]; [left; apply I; exact J|right; left; reflexivity].
      * split; [exact Ea|]. exists L'.
        rewrite last_two. split; [exact Sl|]. split; [exact Pl|]. intros x. rewrite Il, in_app_iff. split.
        -- intros [[J|[<-|[]]]|J]; [left; exact J| |right; exact J]. right. exists (mk_auth t (issued_for g)). split; [|reflexivity].
           exact (chain_auth_in pre g t post).
        -- intros [J|J]; [left; left; exact J|right; exact J].
Qed.
Lemma copy_cert : forall pk c L m a ms, m_chain A1 pk c -> long_enough c -> part L -> state L m -> (forall v, ~ In (RRev v) L) ->
  m_call C m (G_add c now) a ms ->
  a = A_done /\ exists L', state L' (last ms m) /\ part L' /\ (forall x, In x L' <-> In x L \/ exists y, In y (cert_auths c) /\ x = RAuth y).
Proof.
  intros pk c L m a ms Hc Le P S0 Nv H. pose proof Hc as (H1 & H2 & H3 & _). destruct c as [|t c]; [cbn in H1; lia|].
  destruct (H3 t eq_refl) as ((l & R) & Hh).
  assert (Wt : exists v, (2 <= v \/ (issued_for t = issued_for t /\ 1 <= v)) /\
                ((exists l, root_of m (issued_for t) l /\ v = 2 ^ l) \/ (exists c, m_chain (m_collect m now) (issued_for t) c /\ m_worth m c v))).
  { exists (2 ^ l). split; [right; split; [reflexivity|]|left; exists l; split; [apply (proj1 S0); exact R|reflexivity]]. pose proof (N.pow_nonzero 2 l ltac:(lia)). lia. }
  inversion H as [| | |? ? ? ? ? Ha| | | | | | |]; subst. inversion Ha as [|? ? ? ? ? Ht|? ? ? ? p ms1 ? ms2 Ht Hr2]; subst.
  - destruct (copy_trust L m t (issued_for t) A_refused ms P S0 Hh Wt Ht) as ((p & Ep) & _). discriminate Ep.
  - destruct (copy_trust L m t (issued_for t) (A_weight p) ms1 P S0 Hh Wt Ht) as (_ & Sn).
    destruct (copy_rest pk (t :: c) c [] t (L ++ [RAuth (mk_auth t (issued_for t))]) (last ms1 m) a ms2 Hc Le eq_refl) as (Ea & L' & Sl & Pl & Il); try assumption.
    + apply part_app; assumption.
    + intros v J. apply in_app_iff in J. destruct J as [J|[J|[]]]; [exact (Nv v J)|discriminate J].
    + intros x [<-|[]]. apply in_app_iff. right. left. reflexivity.
    + split; [exact Ea|]. exists L'. rewrite last_two. split; [exact Sl|]. split; [exact Pl|]. intros x. rewrite Il, in_app_iff. split.
      * intros [[J|[<-|[]]]|J]; [left; exact J| |right; exact J]. right. exists (mk_auth t (issued_for t)). split; [left; reflexivity|reflexivity].
      * intros [J|J]; [left; left; exact J|right; exact J].
Qed.
Lemma copy_certs : forall cs L m rest as_ m', (forall c, In c cs -> (exists pk, m_chain A1 pk c) /\ long_enough c) ->
  part L -> state L m -> (forall v, ~ In (RRev v) L) -> m_run C m (no_failures (map (fun c => G_add c now) cs ++ rest)) as_ m' ->
  exists as1 as2 m2 L', as_ = as1 ++ as2 /\ as1 = map (fun _ => A_done) cs /\ state L' m2 /\ part L' /\ (forall v, ~ In (RRev v) L') /\
    (forall x, In x L' <-> In x L \/ exists c y, In c cs /\ In y (cert_auths c) /\ x = RAuth y) /\ m_run C m2 (no_failures rest) as2 m'.
Proof.
  intros cs. induction cs as [|c cs IH]; intros L m rest as_ m' Hc P S0 Nv H.
  - exists [], as_, m, L. split; [reflexivity|]. split; [reflexivity|]. split; [exact S0|]. split; [exact P|]. split; [exact Nv|]. split; [|exact H].
    intros x. split; [auto|]. intros [J|(c & y & [] & _)]. exact J.
  - cbn [map app no_failures] in H. inversion H as [|? ? ? ? a ms as' ? K1 K2|]; subst.
    destruct (Hc c (or_introl eq_refl)) as ((pk & Hk) & Le). destruct (copy_cert pk c L m a ms Hk Le P S0 Nv K1) as (-> & L1 & S1 & P1 & I1).
    destruct (IH L1 (last ms m) rest as' m' (fun c' J => Hc c' (or_intror J)) P1 S1) as (as1 & as2 & m2 & L' & -> & -> & S2 & P2 & N2 & I2 & R2); [|exact K2|].
    { intros v J. apply I1 in J. destruct J as [J|(y & _ & J)]; [exact (Nv v J)|discriminate J]. }
    exists (A_done :: map (fun _ => A_done) cs), as2, m2, L'. split; [reflexivity|]. split; [reflexivity|]. split; [exact S2|]. split; [exact P2|]. split; [exact N2|]. split; [|exact R2].
    intros x. rewrite I2, I1. split.
    + intros [[J|(y & J & E)]|(c' & y & J & J2)]; [left; exact J|right; exists c, y; split; [left; reflexivity|auto]|right; exists c', y; split; [right; exact J|exact J2]].
    + intros [J|(c' & y & [<-|J] & J2)]; [auto|left; right; exists y; exact J2|right; exists c', y; auto].
Qed.
Lemma copy_revs : forall vs L m rest as_ m', (forall v, In v vs -> holds A (RRev v)) -> (forall y, In y L -> holds A y) -> state L m ->
  m_run C m (no_failures (map G_revoke vs ++ rest)) as_ m' ->
  exists as1 as2 m2, as_ = as1 ++ as2 /\ as1 = map (fun _ => A_done) vs /\ state (L ++ map RRev vs) m2 /\ m_run C m2 (no_failures rest) as2 m'.
Proof.
  intros vs. induction vs as [|v vs IH]; intros L m rest as_ m' Hv P S0 H.
  - exists [], as_, m. cbn [map]. rewrite app_nil_r. auto.
  - cbn [map app no_failures] in H. inversion H as [|? ? ? ? a ms as' ? K1 K2|]; subst.
    assert (Hh : holds A (RRev v)) by (apply Hv; left; reflexivity).
    inversion K1 as [| | | | | | | |? Sg|? Sg|]; subst; [|destruct (Sg (Signed_v v Hh))]. cbn [last] in K2.
    destruct (IH (L ++ [RRev v]) (m_import m (RRev v)) rest as' m' (fun w J => Hv w (or_intror J))) as (as1 & as2 & m2 & -> & -> & S2 & R2); [| |exact K2|].
    + intros y J. apply in_app_iff in J. destruct J as [J|[<-|[]]]; [apply P; exact J|exact Hh].
    + apply state_import; assumption.
    + exists (A_done :: map (fun _ => A_done) vs), as2, m2. split; [reflexivity|]. split; [reflexivity|]. split; [|exact R2].
      cbn [map]. rewrite <- app_assoc in S2. exact S2.
Qed.

(** Afterwards the chains are the same. *)
Lemma same_chains : forall cs vs m k now' c, state (flat_map (fun c => map RAuth (cert_auths c)) cs ++ map RRev vs) m ->
  (forall c, In c cs -> exists q, m_chain A1 q c) -> (m_chain (m_collect A now') k c -> In c cs) ->
  (forall v, In v vs -> holds A (RRev v)) -> (forall v c t, holds A (RRev v) -> In c cs -> In t c -> rev_pk v = issued_for t -> In v vs) ->
  (m_chain (m_collect m now') k c <-> m_chain (m_collect A now') k c).
Proof.
  intros cs vs m k now' c [S1 S2] Hcs Hk Hv Hvs. split.
  - intros (H1 & H2 & H3 & H4 & H5 & H6).
    assert (Sub : forall x, holds m x -> holds A x).
    { intros x Hx. apply S2 in Hx. apply in_app_iff in Hx. destruct Hx as [Hx|Hx].
      - apply in_flat_map in Hx. destruct Hx as (c' & Ic & Hx). apply in_map_iff in Hx. destruct Hx as (y & <- & Iy). destruct (Hcs c' Ic) as (q & _ & _ & G3 & G4 & _).
        destruct c' as [|t c']; [destruct Iy|]. apply In_nth_error in Iy. destruct Iy as ([|i] & Iy).
        + cbn in Iy. injection Iy as <-. apply (G3 t eq_refl).
        + apply with_issuers_nth in Iy. destruct Iy as (u & g & Hu & Hg & ->). apply (G4 i g u Hg Hu).
      - apply in_map_iff in Hx. destruct Hx as (v & <- & Iv). apply Hv. exact Iv. }
    split; [exact H1|]. split; [exact H2|]. split; [|split; [|split; [exact H5|]]].
    + intros t Ht. destruct (H3 t Ht) as ((l & R) & Hh & Ne). split; [exists l; apply S1; exact R|]. split; [apply Sub; exact Hh|exact Ne].
    + intros i g t Hg Ht. destruct (H4 i g t Hg Ht) as (Hh & Ne). split; [apply Sub; exact Hh|exact Ne].
    + intros i j v Lt (Hh & Ne) Ki Kj. apply (H6 i j v Lt); [|exact Ki|exact Kj]. split; [|exact Ne]. apply S2. apply in_app_iff. right. apply in_map.
      destruct Kj as (t & Hj & Ej).
      assert (It : exists c' , In c' cs /\ In t c').
      { assert (Ht : exists b, holds m (RAuth (mk_auth t b))).
        { destruct j as [|j]; [lia|]. destruct (nth_error_Some_ex _ c j) as (g & Hg); [pose proof (at_len _ _ _ _ Hj); lia|]. exists (issued_for g). apply (H4 j g t Hg Hj). }
        destruct Ht as (b & Ht). apply S2 in Ht. apply in_app_iff in Ht. destruct Ht as [Ht|Ht]; [|apply in_map_iff in Ht; destruct Ht as (w & E & _); discriminate E].
        apply in_flat_map in Ht. destruct Ht as (c' & Ic & Ht). apply in_map_iff in Ht. destruct Ht as (y & E & Iy). injection E as ->.
        exists c'. split; [exact Ic|]. rewrite <- (cert_auths_trusts c'). apply in_map_iff. exists (mk_auth t b). auto. }
      destruct It as (c' & Ic & It). apply (Hvs v c' t Hh Ic It). symmetry. exact Ej.
  - intros Hc. pose proof (Hk Hc) as Ic. destruct Hc as (H1 & H2 & H3 & H4 & H5 & H6).
    assert (Has : forall y, In y (cert_auths c) -> holds m (RAuth y)).
    { intros y Iy. apply S2. apply in_app_iff. left. apply in_flat_map. exists c. split; [exact Ic|apply in_map; exact Iy]. }
    assert (SubR : forall v, holds m (RRev v) -> holds A (RRev v)).
    { intros v Hx. apply S2 in Hx. apply in_app_iff in Hx. destruct Hx as [Hx|Hx].
      - apply in_flat_map in Hx. destruct Hx as (c' & _ & Hx). apply in_map_iff in Hx. destruct Hx as (y & E & _). discriminate E.
      - apply in_map_iff in Hx. destruct Hx as (w & E & Iw). injection E as <-. apply Hv. exact Iw. }
    split; [exact H1|]. split; [exact H2|]. split; [|split; [|split; [exact H5|]]].
    + intros t Ht. destruct (H3 t Ht) as ((l & R) & Hh & Ne). split; [exists l; apply S1; exact R|]. split; [|exact Ne]. apply Has.
      destruct c as [|t' c']; [discriminate Ht|]. injection Ht as ->. left. reflexivity.
    + intros i g t Hg Ht. destruct (H4 i g t Hg Ht) as (Hh & Ne). split; [|exact Ne]. apply Has. destruct c as [|t' c']; [destruct i; discriminate Hg|].
      apply (nth_error_In _ (S i)). apply with_issuers_nth. exists t, g. auto.
    + intros i j v Lt (Hh & Ne) Ki Kj. apply (H6 i j v Lt); [|exact Ki|exact Kj]. split; [apply SubR; exact Hh|exact Ne].
Qed.
End Machines.

(** ** Facts about one store *)
Lemma held_rel : forall C d x, reachable C d -> stored d x -> whole x = x /\ rel_wf C x.
Proof.
  intros C d x R H. apply reachable_inv in R. destruct R as (s & -> & I). apply (stored_in C) in H; [|apply I].
  pose proof (wf_rels C s (inv_wf C s I)) as W. rewrite Forall_forall in W. specialize (W x H). split; [|exact W].
  destruct W as (_ & _ & _ & (_ & W1) & (_ & W2)). destruct x as [[[f [e ne] sg [i ni]] b]|[k [r nr] b sg]]; cbn in *; subst; reflexivity.
Qed.
Lemma one_answer : forall C d q, reachable C d -> few d [] -> call_typed C q -> offered q = 0%nat ->
  exists a ms, m_call C (contents d) q a ms /\ shows (fst (graph_step C d (q, None))) a.
Proof.
  intros C d q R F T O. destruct (p_C155_library_is_machine C d [(q, None)] R) as (as_ & m & H & S0 & _).
  - constructor; [exact T|constructor].
  - unfold few in *. cbn [map list_sum fold_right fst] in *. rewrite O. exact F.
  - inversion H as [|? ? ? ? a ms as' ? K1 K2|]; subst. inversion S0; subst. eauto.
Qed.
Lemma few_after : forall C es d, reachable C d -> typed_history C es -> few d es -> few (graph_history C d es) [].
Proof.
  intros C es d R T F. apply reachable_inv in R. destruct R as (s & -> & I).
  assert (Rm : room s (list_sum (map (fun e => offered (fst e)) es))) by (unfold few in F; cbn [db_of tbl_relations] in F; rewrite map_length in F; exact F).
  clear F. revert s I T Rm. induction es as [|[c fu] es IH]; intros s I T Rm.
  - unfold few. cbn [graph_history fold_left db_of tbl_relations]. rewrite map_length. exact Rm.
  - inversion T as [|? ? Tc Te]; subst. cbn [map list_sum fold_right fst] in Rm.
    destruct (step_sim C s (contents (db_of s)) c fu _ I Tc Rm (same_refl _)) as (a & ms & s' & m' & H1 & H2 & H3 & H4 & _).
    change (few (graph_history C (snd (graph_step C (db_of s) (c, fu))) es) []). rewrite H2. apply IH; assumption.
Qed.
Lemma told_are : forall C d now k, reachable C d -> few d [] -> pk_valid C k -> duration_wf now ->
  NoDup (certs_told C d now k) /\ forall c, In c (certs_told C d now k) <-> m_chain (m_collect (contents d) now) k c.
Proof.
  intros C d now k R F V T. destruct (one_answer C d (G_get_all_certs k now) R F (conj V T) eq_refl) as (a & ms & H & S0). inversion H; subst.
  cbn [shows] in S0. destruct S0 as (cs & E & Nd & I & _). unfold certs_told. rewrite E. auto.
Qed.
Lemma revs_told_are : forall C d k, reachable C d -> few d [] -> pk_valid C k ->
  forall v, In v (revocations_told C d k) <-> stored d (RRev v) /\ rev_pk v = k.
Proof.
  intros C d k R F V. destruct (one_answer C d (G_get_revocations k) R F V eq_refl) as (a & ms & H & S0). inversion H; subst.
  cbn [shows] in S0. destruct S0 as (vs & E & _ & I). unfold revocations_told. rewrite E. exact I.
Qed.
Lemma unexpired_secs : forall now x, secs now < i64_bound -> secs (rel_expires_at x) < u64_bound -> (exists a, x = RAuth a) ->
  (~ db_expired now x <-> secs now < secs (rel_expires_at x) < i64_bound).
Proof.
  intros now x Hn Hx (a & ->). cbn [db_expired rel_expires_at]. cbn [rel_expires_at] in Hx. unfold i64_of_u64, i64_bound, u64_bound in *.
  destruct (secs now <? 9223372036854775808) eqn:E1; [|lia]. destruct (secs (expires_at (auth_trust a)) <? 9223372036854775808) eqn:E2; lia.
Qed.
Lemma chain_holds : forall m pk c t, m_chain m pk c -> In t c -> exists b, holds m (RAuth (mk_auth t b)).
Proof.
  intros m pk c t (_ & _ & H3 & H4 & _) I. apply In_nth_error in I. destruct I as ([|i] & I).
  - exists (issued_for t). apply (H3 t I).
  - destruct (nth_error_Some_ex _ c i) as (g & Hg); [pose proof (at_len _ _ _ _ I); lia|]. exists (issued_for g). exact (H4 i g t Hg I).
Qed.
Lemma chain_ext : forall m n, same_machine m n -> forall pk c, m_chain m pk c -> m_chain n pk c.
Proof.
  intros m n [S1 S2] pk c (H1 & H2 & H3 & H4 & H5 & H6). split; [exact H1|]. split; [exact H2|]. split; [|split; [|split; [exact H5|]]].
  - intros t Ht. destruct (H3 t Ht) as ((l & R) & H). split; [exists l; apply S2; exact R|apply S1; exact H].
  - intros i g t Hg Ht. apply S1. exact (H4 i g t Hg Ht).
  - intros i j v Lt Hv. apply S1 in Hv. exact (H6 i j v Lt Hv).
Qed.

(** ** C174 *)
(** The roots of a store are set up in another; there the certificates of the keys [ks] are added as the first store gives them out at [now], then the
    revocations of all keys in them. If no certificate is longer than its root allows, every call succeeds, and from then on both stores
    answer every question about these keys alike. *)
Lemma p_C174_copied : forall C dA dB asked now ks, reachable C dA -> reachable C dB -> blank_copy dA dB ->
  duration_wf asked -> secs asked < i64_bound -> duration_wf now -> secs now < i64_bound -> Forall (pk_valid C) ks ->
  within dA (told C dA asked ks) -> fresh now (told C dA asked ks) ->
  few dA [] -> few dB (no_failures (copying C dA asked now ks)) ->
  let dB' := graph_history C dB (no_failures (copying C dA asked now ks)) in
  (forall r, In r (answers C dB (no_failures (copying C dA asked now ks))) -> r = Ok GR_unit) /\
  forall k now' q, In k ks -> secs asked <= secs now' < i64_bound -> call_typed C q -> question k now' q ->
    same_answer (fst (graph_step C dB' (q, None))) (fst (graph_step C dA (q, None))).
Proof.
  intros C dA dB asked now ks RA RB [Bl1 Bl2] Tk Sk Tn Sn Vk Wi Fr FA FB dB'. set (A0 := contents dA). set (A := m_collect A0 asked). rewrite Forall_forall in Vk.
  set (cs := told C dA asked ks). set (vs := flat_map (revocations_told C dA) (flat_map (map issued_for) cs)).
  assert (One : forall x y, holds A x -> holds A y -> same_keys x y -> x = y) by (intros x y [Hx _] [Hy _]; exact (p_C30_one_relation_per_pair C dA x y RA Hx Hy)).
  assert (Who : forall x, holds A x -> whole x = x) by (intros x [H _]; exact (proj1 (held_rel C dA x RA H))).
  assert (Wf0 : forall x, holds A0 x -> rel_wf C x) by (intros x H; exact (proj2 (held_rel C dA x RA H))).
  assert (Wf : forall x, holds A x -> rel_wf C x) by (intros x [H _]; exact (Wf0 x H)).
  destruct (p_C29_stored_is_authentic C dA RA) as [Au1 Au2].
  assert (Ux : forall n x, secs n < i64_bound -> holds A0 x -> (exists a, x = RAuth a) -> ~ db_expired n x <-> secs n < secs (rel_expires_at x) < i64_bound).
  { intros n x Hn Hx Ha. apply unexpired_secs; [exact Hn| |exact Ha]. destruct (Wf0 x Hx) as (_ & _ & _ & _ & (W & _)). exact W. }
  assert (Sgt : forall t b, holds (m_collect A now) (RAuth (mk_auth t b)) -> acceptable C b t now).
  { intros t b [[H _] Ne]. split; [exact (Au1 b t H)|]. apply (Ux now _ Sn H ltac:(eauto)) in Ne. cbn [rel_expires_at auth_trust] in Ne. intros [X|[X _]]; lia. }
  assert (Sgv : forall v, holds A (RRev v) -> signed_revocation C v) by (intros v [H _]; exact (Au2 v H)).
  assert (Cin0 : forall c, In c cs <-> exists k, In k ks /\ m_chain A k c).
  { intros c. unfold cs, told. rewrite in_flat_map. split; intros (k & I & H); exists k; (split; [exact I|]); apply (told_are C dA asked k RA FA (Vk k I) Tk); exact H. }
  assert (Cin : forall c, In c cs -> exists k, In k ks /\ m_chain (m_collect A now) k c).
  { intros c Ic. pose proof Ic as Jc. apply Cin0 in Ic. destruct Ic as (k & Ik & H1 & H2 & H3 & H4 & H5 & H6). exists k. split; [exact Ik|].
    assert (Ne : forall t b, In t c -> holds A (RAuth (mk_auth t b)) -> holds (m_collect A now) (RAuth (mk_auth t b))).
    { intros t b It Ht. split; [exact Ht|]. destruct Ht as [Ht Na]. apply (Ux asked _ Sk Ht ltac:(eauto)) in Na. apply (Ux now _ Sn Ht ltac:(eauto)).
      destruct (Wf0 _ Ht) as (_ & _ & _ & _ & (_ & W)). pose proof (Fr c t Jc It) as Bf. cbn [rel_expires_at auth_trust] in *. destruct Bf as [Bf|[_ Bf]]; lia. }
    split; [exact H1|]. split; [exact H2|]. split; [|split; [|split; [exact H5|]]].
    - intros t Ht. destruct (H3 t Ht) as (R & Hh). split; [exact R|]. apply Ne; [exact (nth_error_In _ _ Ht)|exact Hh].
    - intros i g t Hg Ht. apply Ne; [exact (nth_error_In _ _ Ht)|exact (H4 i g t Hg Ht)].
    - intros i j v Lt (Hh & _) Ki Kj. exact (H6 i j v Lt Hh Ki Kj). }
  assert (Tt : forall c t, In c cs -> In t c -> trust_typed C t).
  { intros c t Ic It. apply Cin in Ic. destruct Ic as (k & _ & Hc). destruct (chain_holds _ _ _ _ Hc It) as (b & [Hb _]).
    destruct (Wf _ Hb) as (W1 & W2 & W3 & (W4 & W5) & (W6 & W7)). cbn in *. unfold trust_typed, duration_wf. split; [exact W1|]. split; [exact W3|]. split; split; try assumption; lia. }
  assert (Vin : forall v, In v vs <-> holds A (RRev v) /\ exists c t, In c cs /\ In t c /\ rev_pk v = issued_for t).
  { intros v. unfold vs. rewrite in_flat_map. split.
    - intros (k & I & H). apply in_flat_map in I. destruct I as (c & Ic & I). apply in_map_iff in I. destruct I as (t & <- & It).
      apply (revs_told_are C dA _ RA FA (proj1 (Tt c t Ic It))) in H. destruct H as [H E]. split; [split; [exact H|intros []]|]. exists c, t. auto.
    - intros ((H & _) & c & t & Ic & It & E). exists (issued_for t). split; [apply in_flat_map; exists c; split; [exact Ic|apply in_map; exact It]|].
      apply (revs_told_are C dA _ RA FA (proj1 (Tt c t Ic It))). auto. }
  assert (Tc : typed_history C (no_failures (copying C dA asked now ks))).
  { unfold no_failures, copying. fold cs. fold vs. apply Forall_forall. intros x Hx. apply in_map_iff in Hx. destruct Hx as (y & <- & Hy). cbn [fst].
    apply in_app_iff in Hy. destruct Hy as [Hy|Hy]; apply in_map_iff in Hy.
    - destruct Hy as (c & <- & Ic). split; [|exact Tn]. apply Forall_forall. intros t It. exact (Tt c t Ic It).
    - destruct Hy as (v & <- & Iv). apply Vin in Iv. destruct Iv as (Hv & _). destruct (Wf _ Hv) as (W1 & W2 & W3 & (W4 & W5) & _). cbn in *.
      split; [exact W1|]. split; [exact W2|]. split; [exact W3|]. split; [assumption|]. lia. }
  destruct (p_C155_library_is_machine C dB _ RB Tc FB) as (as_ & m' & Hr & Hs & Hm).
  unfold copying in Hr. fold cs in Hr. fold vs in Hr.
  assert (S0 : state A [] (contents dB)).
  { split; [exact Bl1|]. intros x. split; [intros H; destruct (Bl2 x H)|intros []]. }
  destruct (copy_certs C A now One Who Sgt cs [] (contents dB) (map G_revoke vs) as_ m') as (as1 & as2 & m2 & L & -> & -> & S2 & P2 & N2 & I2 & R2).
  { intros c Ic. split; [apply Cin in Ic; destruct Ic as (k & _ & Hc); eauto|]. intros t l Ht Rl. exact (Wi c t l Ic Ht Rl). }
  { intros x []. }
  { exact S0. }
  { intros v []. }
  { exact Hr. }
  rewrite <- (app_nil_r (map G_revoke vs)) in R2.
  destruct (copy_revs C A One Who Sgv vs L m2 [] as2 m') as (as3 & as4 & m3 & -> & -> & S3 & R3).
  { intros v Iv. apply Vin in Iv. apply Iv. }
  { intros y Iy. apply P2. exact Iy. }
  { exact S2. }
  { exact R2. }
  inversion R3; subst. split.
  { intros r Ir. assert (X : forall rs l, Forall2 shows rs l -> (forall a, In a l -> a = A_done) -> forall r, In r rs -> r = Ok GR_unit).
    { intros rs l F. induction F as [|x y rs l F1 F2 IH]; intros G r0 I0; [destruct I0|]. destruct I0 as [<-|I0].
      - rewrite (G y (or_introl eq_refl)) in F1. exact F1.
      - apply IH; [intros a Ia; apply G; right; exact Ia|exact I0]. }
    refine (X _ _ Hs _ r Ir). intros a Ia. rewrite app_nil_r in Ia. apply in_app_iff in Ia. destruct Ia as [Ia|Ia]; apply in_map_iff in Ia; destruct Ia as (? & <- & _); reflexivity. }
  intros k now' q Ik [Ln Ln'] Tq Q.
  assert (S4 : state A (flat_map (fun c => map RAuth (cert_auths c)) cs ++ map RRev vs) (contents dB')).
  { destruct Hm as [M1 M2]. destruct S3 as [T1 T2]. fold dB' in M1, M2. split; [intros x l; rewrite (M2 x l); apply T1|]. intros x. rewrite (M1 x), (T2 x), !in_app_iff, I2.
    split; (intros [H|H]; [|right; exact H]); left.
    - destruct H as [[]|(c & y & Ic & Iy & ->)]. apply in_flat_map. exists c. split; [exact Ic|apply in_map; exact Iy].
    - right. apply in_flat_map in H. destruct H as (c & Ic & H). apply in_map_iff in H. destruct H as (y & <- & Iy). exists c, y. auto. }
  assert (Later : forall x, holds A0 x -> ~ db_expired now' x -> ~ db_expired asked x).
  { intros [a|v] Hx Ne; [|intros []]. apply (Ux now' _ Ln' Hx ltac:(eauto)) in Ne. apply (Ux asked _ Sk Hx ltac:(eauto)). lia. }
  assert (Sa0 : same_machine (m_collect A now') (m_collect A0 now')).
  { split; [|intros; reflexivity]. intros x. cbn [A m_collect holds]. split; [intros ((H & _) & Ne); auto|]. intros (H & Ne). split; [split; [exact H|exact (Later x H Ne)]|exact Ne]. }
  assert (Sa1 : same_machine (m_collect A0 now') (m_collect A now')) by (destruct Sa0 as [X Y]; split; intros; symmetry; auto).
  assert (Sch : forall c, m_chain (m_collect (contents dB') now') k c <-> m_chain (m_collect A0 now') k c).
  { intros c. assert (E : m_chain (m_collect A now') k c <-> m_chain (m_collect A0 now') k c) by (split; apply chain_ext; assumption).
    rewrite <- E. apply (same_chains C A now Sgt Sgv cs vs (contents dB') k now' c S4).
    - intros c0 Ic. apply Cin in Ic. destruct Ic as (k0 & _ & Hc). eauto.
    - intros (H1 & H2 & H3 & H4 & H5 & H6). apply Cin0. exists k. split; [exact Ik|]. split; [exact H1|]. split; [exact H2|]. split; [|split; [|split; [exact H5|]]].
      + intros t Ht. destruct (H3 t Ht) as (R & Hh & _). auto.
      + intros i g t Hg Ht. apply (H4 i g t Hg Ht).
      + intros i j v Lt Hh Ki Kj. apply (H6 i j v Lt); [|exact Ki|exact Kj]. split; [exact Hh|intros []].
    - intros v Iv. apply Vin in Iv. apply Iv.
    - intros v c0 t Hv Ic It Ee. apply Vin. split; [exact Hv|]. exists c0, t. auto. }
  assert (RB' : reachable C dB') by (apply history_reachable; [exact RB|exact Tc]).
  assert (FB' : few dB' []).
  { exact (few_after C _ dB RB Tc FB). }
  assert (Off : offered q = 0%nat) by (destruct Q; reflexivity).
  destruct (one_answer C dA q RA FA Tq Off) as (a & ms & Ka & Sa). destruct (one_answer C dB' q RB' FB' Tq Off) as (b & ns & Kb & Sb).
  fold A0 in Ka. destruct S4 as [Rts _].
  assert (Wth : forall c v, m_worth (m_collect (contents dB') now') c v <-> m_worth (m_collect A0 now') c v).
  { intros c v. split; intros (t & l & H1 & H2 & H3); exists t, l; (split; [exact H1|]; split; [apply Rts; exact H2|exact H3]). }
  destruct Q as [|i| |i]; inversion Ka as [| | | |? ? w Ha|? ? ? w Ha| | | | |]; subst; inversion Kb as [| | | |? ? w' Hb|? ? ? w' Hb| | | | |]; subst; cbn [shows] in Sa, Sb.
  - rewrite Sa, Sb. cbn [same_answer]. do 2 f_equal. apply (greatest_one _ _ _ Hb). revert Ha. apply greatest_ext. intros v. split; (intros [(l & H1 & H2)|(c & H1 & H2)]; [left; exists l; split; [apply Rts; exact H1|exact H2]|right; exists c; split; [apply Sch; exact H1|apply Wth; exact H2]]).
  - rewrite Sa, Sb. cbn [same_answer]. do 2 f_equal. apply (greatest_one _ _ _ Hb). revert Ha. apply greatest_ext. intros v. split; (intros (c & H1 & H2 & H3); exists c; split; [apply Sch; exact H1|split; [exact H2|apply Wth; exact H3]]).
  - destruct Sa as (ca & Ea & Na & Ia & _). destruct Sb as (cb & Eb & Nb & Ib & _). rewrite Ea, Eb. cbn [same_answer]. apply NoDup_Permutation; [exact Nb|exact Na|].
    intros c. rewrite Ia, Ib. apply Sch.
  - destruct Sa as (ca & Ea & Na & Ia & _). destruct Sb as (cb & Eb & Nb & Ib & _). rewrite Ea, Eb. cbn [same_answer]. apply NoDup_Permutation; [exact Nb|exact Na|].
    intros c. rewrite Ia, Ib, Sch. reflexivity.
Qed.

(** ** Concrete stores *)
Definition two_roots : list graph_call := [G_set_root (toy_key 1) 3; G_set_root (toy_key 2) 5].
Definition copy_blank : db := graph_history (toy true) empty_db (no_failures two_roots).
Definition copy_long : list graph_call := two_roots ++
  [G_add [toy_trust 1 1 2000 1] (from_secs 2); G_add [toy_trust 2 2 2000 1] (from_secs 2); G_add_trust (toy_trust 1 3 1000 3) (toy_key 1) (from_secs 4);
   G_add_trust (toy_trust 2 3 100 3) (toy_key 2) (from_secs 4); G_add_trust (toy_trust 3 4 1000 5) (toy_key 3) (from_secs 6);
   G_add_trust (toy_trust 4 5 1000 5) (toy_key 4) (from_secs 6); G_add_trust (toy_trust 5 6 1000 5) (toy_key 5) (from_secs 6)].
Definition copy_store : db := graph_history (toy true) empty_db (no_failures copy_long).
Definition copy_revoked : db := graph_history (toy true) empty_db (no_failures (copy_long ++ [G_revoke (toy_rev 1 4 7); G_revoke (toy_rev 2 4 7)])).
Lemma copy_reachable : reachable (toy true) copy_blank /\ reachable (toy true) copy_store /\ reachable (toy true) copy_revoked.
Proof.
  split; [|split]; eexists; (split; [|reflexivity]); apply Forall_forall; intros x I; cbn in I; repeat (destruct I as [<-|I]; [|]); try destruct I; cbn [fst call_typed];
    repeat split; try reflexivity; repeat constructor.
Qed.
Lemma copy_is_blank : blank_copy copy_store copy_blank /\ blank_copy copy_revoked copy_blank.
Proof.
  assert (N0 : forall x, ~ stored copy_blank x).
  { intros x H. assert (E : tbl_relations copy_blank = []) by (vm_compute; reflexivity).
    destruct x as [a|v]; [destruct H as (_ & _ & H)|destruct H as (_ & H)]; rewrite E in H; destruct H. }
  split; (split; [|exact N0]); intros k l; unfold root_max_len.
  - replace (tbl_roots copy_store) with (tbl_roots copy_blank) by (vm_compute; reflexivity). reflexivity.
  - replace (tbl_roots copy_revoked) with (tbl_roots copy_blank) by (vm_compute; reflexivity). reflexivity.
Qed.
Lemma within_dec : forall d cs, (forall c, In c cs -> match c with [] => True | t :: _ =>
    match first_row (tbl_roots d) (key_text (issued_for t)) with Some w => (Z.of_nat (length c - 1) <= 16 - w)%Z | None => True end end) -> within d cs.
Proof.
  intros d cs H c t l I Ht (w & Hw & E). specialize (H c I). destruct c as [|t' c]; [discriminate Ht|]. injection Ht as ->. rewrite Hw in H. lia.
Qed.

Lemma fresh_dec : forall now cs, forallb (forallb (fun t => secs now <? secs (expires_at t))) cs = true -> fresh now cs.
Proof.
  intros now cs H c t Ic It. rewrite forallb_forall in H. specialize (H c Ic). rewrite forallb_forall in H. specialize (H t It). left. apply N.ltb_lt. exact H.
Qed.
(** The condition on the lengths is needed: a certificate longer than its root allows was taken on when another root vouched for a key on it, and cannot be taken on
    by the copy, although no call fails. *)
Lemma p_C174_longer_lost : exists C dA dB now k c, crypto_laws C /\ reachable C dA /\ reachable C dB /\ blank_copy dA dB /\
  fresh now (told C dA now [k]) /\ few dA [] /\ few dB (no_failures (copying C dA now now [k])) /\ certs_told C dA now k = [c] /\ cert_verify C c (map issued_for (firstn 1 c)) now = Ok tt /\
  (forall r, In r (answers C dB (no_failures (copying C dA now now [k]))) -> r = Ok GR_unit) /\
  certs_told C (graph_history C dB (no_failures (copying C dA now now [k]))) now k = [].
Proof.
  exists (toy true), copy_store, copy_blank, (from_secs 200), (toy_key 6). eexists. split; [apply toy_laws|]. split; [apply copy_reachable|]. split; [apply copy_reachable|].
  split; [apply copy_is_blank|]. split; [apply fresh_dec; vm_compute; reflexivity|]. split; [vm_compute; reflexivity|]. split; [vm_compute; reflexivity|]. split; [vm_compute; reflexivity|]. split; [vm_compute; reflexivity|].
  split; [|vm_compute; reflexivity]. intros r I. vm_compute in I. repeat (destruct I as [<-|I]; [reflexivity|]). destruct I.
Qed.
(** So is the order: with the revocations first, the trust given by a revoked key is not taken on, while the first store still counts it for its direct receiver. *)
Lemma p_C174_order_matters : exists C dA dB now k, crypto_laws C /\ reachable C dA /\ reachable C dB /\ blank_copy dA dB /\
  within dA (told C dA now [k]) /\ fresh now (told C dA now [k]) /\ few dA [] /\ few dB (no_failures (copying C dA now now [k])) /\
  let others := flat_map (revocations_told C dA) (flat_map (map issued_for) (told C dA now [k])) in
  let revoked_first := map G_revoke others ++ map (fun c => G_add c now) (told C dA now [k]) in
  Permutation revoked_first (copying C dA now now [k]) /\
  (forall r, In r (answers C dB (no_failures revoked_first)) -> r = Ok GR_unit) /\
  length (certs_told C dA now k) = 2%nat /\ certs_told C (graph_history C dB (no_failures revoked_first)) now k = [].
Proof.
  exists (toy true), copy_revoked, copy_blank, (from_secs 8), (toy_key 5). split; [apply toy_laws|]. split; [apply copy_reachable|]. split; [apply copy_reachable|].
  split; [apply copy_is_blank|]. split; [apply within_dec; intros c I; vm_compute in I; repeat (destruct I as [<-|I]; [vm_compute; discriminate|]); destruct I|].
  split; [apply fresh_dec; vm_compute; reflexivity|]. split; [vm_compute; reflexivity|]. split; [vm_compute; reflexivity|]. split; [apply Permutation_app_comm|].
  split; [intros r I; vm_compute in I; repeat (destruct I as [<-|I]; [reflexivity|]); destruct I|]. split; vm_compute; reflexivity.
Qed.
(** Keys 3 and 5 of the store with revocations can be copied: four certificates, and two revocations twice, in eight calls. *)
Example e_C174_hypotheses : reachable (toy true) copy_revoked /\ reachable (toy true) copy_blank /\ blank_copy copy_revoked copy_blank /\
  Forall (pk_valid (toy true)) [toy_key 3; toy_key 5] /\ within copy_revoked (told (toy true) copy_revoked (from_secs 8) [toy_key 3; toy_key 5]) /\
  fresh (from_secs 9) (told (toy true) copy_revoked (from_secs 8) [toy_key 3; toy_key 5]) /\
  few copy_revoked [] /\ few copy_blank (no_failures (copying (toy true) copy_revoked (from_secs 8) (from_secs 9) [toy_key 3; toy_key 5])) /\
  length (copying (toy true) copy_revoked (from_secs 8) (from_secs 9) [toy_key 3; toy_key 5]) = 8%nat /\
  length (certs_told (toy true) (graph_history (toy true) copy_blank (no_failures (copying (toy true) copy_revoked (from_secs 8) (from_secs 9) [toy_key 3; toy_key 5]))) (from_secs 8) (toy_key 5)) = 2%nat.
Proof.
  split; [apply copy_reachable|]. split; [apply copy_reachable|]. split; [apply copy_is_blank|]. split; [repeat constructor|].
  split; [apply within_dec; intros c I; vm_compute in I; repeat (destruct I as [<-|I]; [vm_compute; discriminate|]); destruct I|].
  split; [apply fresh_dec; vm_compute; reflexivity|]. split; [vm_compute; reflexivity|]. split; [vm_compute; reflexivity|]. split; vm_compute; reflexivity.
Qed.
