(** Proofs that a key can be given exponentially many certificates. *)
From Coq Require Import List NArith ZArith Bool Lia ZifyBool ZifyNat ZifyN.
From Verif Require Import Base BaseFacts Text TextFacts Keys KeysFacts Trust TrustFacts Certificate CertFacts Relation
  Storage StorageFacts Graph SearchFacts PathFacts Spec SpecFacts GraphFacts StateFacts ChainFacts AddFacts ImportFacts HistFacts
  Toy ToyFacts Witness GraphThms ReadmeSpec ReadmeThms InfluenceSpec InfluenceThms MachineSpec MachineThms BlowupSpec.
Import ListNotations.
Open Scope N_scope.

(** ** Counting *)
Fixpoint sublists {A} (l : list A) : list (list A) :=
  match l with [] => [[]] | a :: r => map (cons a) (sublists r) ++ sublists r end.
Lemma sublists_length : forall A (l : list A), length (sublists l) = (2 ^ length l)%nat.
Proof. induction l as [|a r IH]; [reflexivity|]. cbn [sublists]. rewrite app_length, map_length, IH. cbn [length Nat.pow]. lia. Qed.
Lemma sublists_in : forall A (l s : list A) x, In s (sublists l) -> In x s -> In x l.
Proof.
  induction l as [|a r IH]; intros s x Hs Hx; cbn [sublists] in Hs; [destruct Hs as [<-|[]]; exact Hx|].
  apply in_app_or in Hs. destruct Hs as [Hs|Hs]; [|right; exact (IH s x Hs Hx)].
  apply in_map_iff in Hs. destruct Hs as (s' & <- & Hs). destruct Hx as [->|Hx]; [left; reflexivity|right; exact (IH s' x Hs Hx)].
Qed.
Lemma sublists_nodup : forall A (l : list A), NoDup l -> NoDup (sublists l).
Proof.
  induction l as [|a r IH]; intros H; cbn [sublists]; [repeat constructor; intros []|]. inversion H as [|? ? Ha Hr]; subst.
  apply NoDup_app_intro; [apply FinFun.Injective_map_NoDup; [intros x y E; injection E as ->; reflexivity|apply IH; exact Hr]|apply IH; exact Hr|].
  intros s Hs Hs'. apply in_map_iff in Hs. destruct Hs as (s' & <- & _). apply Ha. apply (sublists_in _ r (a :: s') a Hs'). left. reflexivity.
Qed.
Lemma sublists_snoc : forall A (l s : list A) z, In s (sublists l) -> In (s ++ [z]) (sublists (l ++ [z])).
Proof.
  induction l as [|a r IH]; intros s z Hs; cbn [sublists app] in *; [destruct Hs as [<-|[]]; left; reflexivity|].
  apply in_app_or in Hs. apply in_or_app. destruct Hs as [Hs|Hs]; [left|right; apply IH; exact Hs].
  apply in_map_iff in Hs. destruct Hs as (s' & <- & Hs). cbn [app]. apply in_map. apply IH. exact Hs.
Qed.
Lemma each_later_length : forall A (l : list A), (2 * length (each_later l) = length l * (length l - 1))%nat.
Proof.
  induction l as [|a r IH]; [reflexivity|]. cbn [each_later]. rewrite app_length, map_length. cbn [length]. destruct r as [|b r]; [reflexivity|].
  cbn [length] in *. nia.
Qed.
Lemma each_later_first : forall A (a b : A) l, In (a, b) (each_later l) -> In a l /\ In b l.
Proof.
  induction l as [|x r IH]; intros H; [destruct H|]. cbn [each_later] in H. apply in_app_or in H. destruct H as [H|H].
  - apply in_map_iff in H. destruct H as (y & E & Hy). injection E as <- <-. split; [left; reflexivity|right; exact Hy].
  - destruct (IH H). split; right; assumption.
Qed.

(** ** Paths in the machine *)
Definition mpath (m : machine) (pk : public_key) (c : certificate) : Prop :=
  NoDup (map issued_for c) /\
  key_at c (length c - 1) pk /\
  (forall t, at_pos c 0 t -> (exists l, root_of m (issued_for t) l) /\ holds m (RAuth (mk_auth t (issued_for t)))) /\
  (forall i g t, at_pos c i g -> at_pos c (S i) t -> holds m (RAuth (mk_auth t (issued_for g)))) /\
  (forall i j v, (i < j)%nat -> holds m (RRev v) -> key_at c i (revoked_by v) -> key_at c j (rev_pk v) -> False).

Lemma mpath_chain : forall m pk c, mpath m pk c -> (2 <= length c)%nat -> m_chain m pk c.
Proof.
  intros m pk c (H1 & H2 & H3 & H4 & H5) L. split; [exact L|]. split; [exact H2|]. split; [exact H3|]. split; [exact H4|]. split.
  - intros i j k Lt (t & Hi & Ei) (u & Hj & Ej). exfalso. unfold at_pos in Hi, Hj. assert (Ne : i <> j) by lia. apply Ne.
    apply (NoDup_nth_error (map issued_for c)); [exact H1|rewrite map_length; apply nth_error_Some; congruence|].
    rewrite (map_nth_error issued_for _ _ Hi), (map_nth_error issued_for _ _ Hj). congruence.
  - intros i j v Lt Hv Hi Hj. destruct (H5 i j v Lt Hv Hi Hj).
Qed.
Lemma mpath_snoc : forall m b c t, mpath m b c -> holds m (RAuth (mk_auth t b)) -> ~ In (issued_for t) (map issued_for c) ->
  (forall v, holds m (RRev v) -> rev_pk v <> issued_for t) -> mpath m (issued_for t) (c ++ [t]).
Proof.
  intros m b c t (H1 & H2 & H3 & H4 & H5) Ht Hn Hv. pose proof (key_len _ _ _ H2) as L. split; [|split; [|split; [|split]]].
  - rewrite map_app. apply NoDup_app_intro; [exact H1|repeat constructor; intros []|]. intros x Hx [<-|[]]. exact (Hn Hx).
  - exists t. split; [|reflexivity]. rewrite app_length. cbn [length]. replace (length c + 1 - 1)%nat with (length c + 0)%nat by lia. apply at_app2. reflexivity.
  - intros u Hu. apply at_app1 in Hu; [|lia]. apply H3. exact Hu.
  - intros i g u Hg Hu. destruct (Nat.lt_ge_cases (S i) (length c)) as [Lt|Ge].
    + apply at_app1 in Hg; [|lia]. apply at_app1 in Hu; [|exact Lt]. exact (H4 i g u Hg Hu).
    + pose proof (at_len _ _ _ _ Hu) as Lu. rewrite app_length in Lu. cbn [length] in Lu. assert (E : S i = (length c + 0)%nat) by lia.
      rewrite E in Hu. apply at_app2 in Hu. injection Hu as <-. apply at_app1 in Hg; [|lia].
      destruct H2 as (g' & Hg' & <-). assert (i = (length c - 1)%nat) by lia. subst i. unfold at_pos in Hg, Hg'. replace g with g' by congruence. exact Ht.
  - intros i j v Lt Hh Hi (u & Hj & Ej). destruct (Nat.lt_ge_cases j (length c)) as [Lj|Ge].
    + destruct Hi as (w & Hw & Ew). apply at_app1 in Hw; [|lia]. apply at_app1 in Hj; [|exact Lj].
      exact (H5 i j v Lt Hh (ex_intro _ w (conj Hw Ew)) (ex_intro _ u (conj Hj Ej))).
    + pose proof (at_len _ _ _ _ Hj) as Lj. rewrite app_length in Lj. cbn [length] in Lj. replace j with (length c + 0)%nat in Hj by lia.
      apply at_app2 in Hj. injection Hj as <-. exact (Hv v Hh (eq_sym Ej)).
Qed.
Section Paths.
Variables (T : public_key -> public_key -> trust).
Definition given (a k : public_key) : trust := whole_trust (T a k).
Fixpoint steps (b : public_key) (s : list public_key) : certificate :=
  match s with [] => [] | k :: r => given b k :: steps k r end.
Hypothesis Tfor : forall a k, issued_for (T a k) = k.
Lemma paths : forall r s m b c, In s (sublists r) -> mpath m b c -> NoDup r -> (forall k, In k r -> ~ In k (map issued_for c)) ->
  (forall a k, In (a, k) (each_later (b :: r)) -> holds m (RAuth (mk_auth (given a k) a))) ->
  (forall k v, In k r -> holds m (RRev v) -> rev_pk v <> k) -> mpath m (last s b) (c ++ steps b s).
Proof.
  induction r as [|k r IH]; intros s m b c Hs P Nd Nc Hh Hv; cbn [sublists] in Hs.
  - destruct Hs as [<-|[]]. cbn [steps last]. rewrite app_nil_r. exact P.
  - inversion Nd as [|? ? Nk Nr]; subst. apply in_app_or in Hs. destruct Hs as [Hs|Hs].
    + apply in_map_iff in Hs. destruct Hs as (s' & <- & Hs). cbn [steps].
      assert (E : last (k :: s') b = last s' k).
      { clear. revert k b. induction s' as [|x s IH]; intros k b; [reflexivity|]. change (last (k :: x :: s) b) with (last (x :: s) b). rewrite (IH x b). symmetry. apply IH. }
      rewrite E. assert (F : issued_for (given b k) = k) by (unfold given; cbn; apply Tfor).
      replace (c ++ given b k :: steps k s') with ((c ++ [given b k]) ++ steps k s') by (rewrite <- app_assoc; reflexivity).
      apply IH; [exact Hs| |exact Nr| | |].
      * rewrite <- F at 1. apply (mpath_snoc m b); [exact P| | |].
        -- apply Hh. cbn [each_later]. apply in_or_app. left. left. reflexivity.
        -- rewrite F. apply Nc. left. reflexivity.
        -- intros v Hr. rewrite F. apply Hv; [left; reflexivity|exact Hr].
      * intros k' Hk'. rewrite map_app. cbn [map]. rewrite F. intros X. apply in_app_or in X. destruct X as [X|[<-|[]]]; [|exact (Nk Hk')].
        apply (Nc k'); [right; exact Hk'|exact X].
      * intros a k' Ha. apply Hh. change (each_later (b :: k :: r)) with (map (fun x => (b, x)) (k :: r) ++ each_later (k :: r)). apply in_or_app. right. exact Ha.
      * intros k' v Hk'. apply Hv. right. exact Hk'.
    + apply IH; [exact Hs|exact P|exact Nr| | |].
      * intros k' Hk'. apply Nc. right. exact Hk'.
      * intros a k' Ha. apply Hh. cbn [each_later map app] in *. apply in_app_or in Ha. right. apply in_or_app. destruct Ha as [Ha|Ha]; [left; exact Ha|right].
        apply in_or_app. right. exact Ha.
      * intros k' v Hk'. apply Hv. right. exact Hk'.
Qed.
Lemma steps_keys : forall s b, map issued_for (steps b s) = s.
Proof. induction s as [|k s IH]; intros b; [reflexivity|]. cbn [steps map]. rewrite IH. unfold given. cbn. rewrite Tfor. reflexivity. Qed.
Lemma steps_inj : forall s s' b, steps b s = steps b s' -> s = s'.
Proof. intros s s' b E. rewrite <- (steps_keys s b), E. apply steps_keys. Qed.
End Paths.

(** ** The calls *)
Section Calls.
Variables (C : crypto) (T : public_key -> public_key -> trust) (now : duration) (m0 : machine).
Hypothesis Tfor : forall a k, issued_for (T a k) = k.
Definition grown (L : list (public_key * public_key)) (m : machine) : Prop :=
  (forall k l, root_of m k l <-> root_of m0 k l) /\
  forall x, ~ db_expired now x -> (holds m x <-> holds m0 x \/ exists a k, In (a, k) L /\ x = RAuth (mk_auth (given T a k) a)).
Definition fresh (k : public_key) : Prop := forall x, holds m0 x -> rel_issued_by x <> k /\ rel_issued_for x <> k.
Definition alive (a k : public_key) : Prop := ~ db_expired now (RAuth (mk_auth (given T a k) a)) /\ acceptable C a (T a k) now.
Lemma expired_dec : forall x, db_expired now x \/ ~ db_expired now x.
Proof. intros [a|v]; cbn [db_expired]; [lia|auto]. Qed.

Lemma offer_one : forall L m a k ans ms, grown L m -> m_call C m (G_add_trust (T a k) a now) ans ms -> alive a k -> a <> k -> fresh k -> ~ In (a, k) L ->
  (exists v, 2 <= v /\ ((exists l, root_of m a l /\ v = 2 ^ l) \/ (exists c, m_chain (m_collect m now) a c /\ m_worth m c v))) ->
  grown (L ++ [(a, k)]) (last ms m).
Proof.
  intros L m a k ans ms [G1 G2] Hc [Al Ac] Ne Fr Nl (v & Hv & Vv). inversion Hc as [|? ? ? ? ? Ha| | | | | | | | |]; subst.
  assert (Big : forall w, m_weight (m_collect m now) a w -> 2 <= w).
  { intros w [W1 _]. assert (v <= w); [|lia]. apply W1. destruct Vv as [X|(c & X1 & X2)]; [left; exact X|right; exists c; split; [exact X1|exact X2]]. }
  inversion Ha as [N|A P|p A P Hp]; subst.
  - destruct (N Ac).
  - exfalso. destruct P as (w & Hw & [[E _]|[_ E]]); [rewrite Tfor in E; exact (Ne E)|]. specialize (Big w Hw).
    symmetry in E. apply N.div_small_iff in E; [lia|discriminate].
  - cbn [last]. split; [exact G1|]. intros x Nx.
    assert (No : forall z, holds m z -> ~ db_expired now z -> ~ same_keys (RAuth (mk_auth (T a k) a)) z).
    { intros z Hz Nz [K1 K2]. cbn in K1, K2. rewrite Tfor in K1. apply (G2 z Nz) in Hz. destruct Hz as [Hz|(a' & k' & Hl & ->)].
      - destruct (Fr z Hz) as [_ F]. exact (F (eq_sym K1)).
      - cbn in K1, K2. rewrite Tfor in K1. subst. exact (Nl Hl). }
    assert (Ew : whole (RAuth (mk_auth (T a k) a)) = RAuth (mk_auth (given T a k) a)) by reflexivity.
    cbn [m_import m_collect holds]. rewrite Ew. split.
    + intros [[_ [H _]]|[[K [[H _] _]]|[-> _]]].
      * apply (G2 x Nx) in H. destruct H as [H|(a' & k' & Hl & E)]; [left; exact H|right; exists a', k'; split; [apply in_or_app; left; exact Hl|exact E]].
      * destruct (No x H Nx K).
      * right. exists a, k. split; [apply in_or_app; right; left; reflexivity|reflexivity].
    + intros H. assert (D : holds m x \/ x = RAuth (mk_auth (given T a k) a)).
      { destruct H as [H|(a' & k' & Hl & E)]; [left; apply (G2 x Nx); left; exact H|]. apply in_app_or in Hl. destruct Hl as [Hl|[X|[]]].
        - left. apply (G2 x Nx). right. exists a', k'. auto.
        - injection X as <- <-. right. exact E. }
      destruct D as [D| ->]; [left; split; [exact (No x D Nx)|split; [exact D|exact Nx]]|].
      right. right. split; [reflexivity|]. intros z [Hz Nz] K. destruct (No z Hz Nz K).
Qed.

Variables (b : public_key) (c : certificate) (l : N).
Hypothesis Root : forall t, at_pos c 0 t -> root_of m0 (issued_for t) l.
Hypothesis Len : N.of_nat (length c) < l.
Hypothesis Path : mpath m0 b c.
Hypothesis Live : forall i t a, at_pos c i t -> ~ db_expired now (RAuth (mk_auth t a)).
Lemma path_grows : forall L m, grown L m -> mpath (m_collect m now) b c.
Proof.
  intros L m [G1 G2]. destruct Path as (P1 & P2 & P3 & P4 & P5). split; [exact P1|]. split; [exact P2|]. split; [|split].
  - intros t Ht. destruct (P3 t Ht) as [(q & Hq) Hh]. split; [exists q; apply G1; exact Hq|]. split; [|exact (Live 0%nat t _ Ht)].
    apply G2; [exact (Live 0%nat t _ Ht)|left; exact Hh].
  - intros i g t Hg Ht. split; [|exact (Live _ t _ Ht)]. apply G2; [exact (Live _ t _ Ht)|left; exact (P4 i g t Hg Ht)].
  - intros i j v Lt [Hv Nv]. apply (G2 _ Nv) in Hv. destruct Hv as [Hv|(a & k & _ & E)]; [|discriminate E]. exact (P5 i j v Lt Hv).
Qed.
Lemma anchor_weighs : forall L m, grown L m ->
  exists v, 2 <= v /\ ((exists q, root_of m b q /\ v = 2 ^ q) \/ (exists c', m_chain (m_collect m now) b c' /\ m_worth m c' v)).
Proof.
  intros L m G. pose proof (path_grows L m G) as P. destruct G as [G1 G2]. pose proof P as (_ & K & _). pose proof (key_len _ _ _ K) as Lk.
  destruct (nth_error_Some_ex _ c 0) as (t & Ht); [lia|]. exists (2 ^ (l - N.of_nat (length c - 1))). split.
  - change 2 with (2 ^ 1) at 1. apply N.pow_le_mono_r; lia.
  - destruct (Nat.le_gt_cases 2 (length c)) as [Ge|Lt].
    + right. exists c. split; [apply mpath_chain; assumption|]. exists t, l. split; [exact Ht|]. split; [apply G1; apply Root; exact Ht|reflexivity].
    + left. assert (E : length c = 1%nat) by lia. rewrite E in K |- *. destruct K as (u & Hu & <-). exists l. split; [apply G1; apply Root; exact Hu|].
      f_equal. lia.
Qed.
Lemma rev_fresh : forall L m k v, grown L m -> fresh k -> holds (m_collect m now) (RRev v) -> rev_pk v <> k.
Proof.
  intros L m k v [_ G2] F [Hv Nv]. apply (G2 _ Nv) in Hv. destruct Hv as [Hv|(a & k' & _ & E)]; [|discriminate E]. exact (proj2 (F _ Hv)).
Qed.
Lemma not_on : forall k, fresh k -> ~ In k (map issued_for c).
Proof.
  intros k F H. apply in_map_iff in H. destruct H as (t & E & Ht). apply In_nth_error in Ht. destruct Ht as (i & Hi). destruct Path as (_ & _ & P3 & P4 & _).
  destruct i as [|i].
  - destruct (P3 t Hi) as [_ Hh]. apply (proj2 (F _ Hh)). exact E.
  - assert (Lt : (i < length c)%nat) by (pose proof (at_len _ _ _ _ Hi); lia). destruct (nth_error_Some_ex _ c i Lt) as (g & Hg).
    apply (proj2 (F _ (P4 i g t Hg Hi))). exact E.
Qed.
Lemma held : forall L m a k, grown L m -> In (a, k) L -> alive a k -> holds (m_collect m now) (RAuth (mk_auth (given T a k) a)).
Proof. intros L m a k [_ G2] Hl [Al _]. split; [|exact Al]. apply G2; [exact Al|]. right. exists a, k. auto. Qed.
Lemma member_weighs : forall L m a, grown L m -> In (b, a) L -> alive b a -> fresh a ->
  exists v, 2 <= v /\ ((exists q, root_of m a q /\ v = 2 ^ q) \/ (exists c', m_chain (m_collect m now) a c' /\ m_worth m c' v)).
Proof.
  intros L m a G Hl Al F. pose proof (path_grows L m G) as P. pose proof P as (_ & K & _). pose proof (key_len _ _ _ K) as Lk.
  destruct (nth_error_Some_ex _ c 0) as (t & Ht); [lia|].
  assert (Fa : issued_for (given T b a) = a) by (unfold given; cbn; apply Tfor).
  exists (2 ^ (l - N.of_nat (length c))). split; [change 2 with (2 ^ 1) at 1; apply N.pow_le_mono_r; lia|]. right. exists (c ++ [given T b a]). split.
  - assert (L2 : (2 <= length (c ++ [given T b a]))%nat) by (rewrite app_length; cbn; lia). refine (mpath_chain _ _ _ _ L2). rewrite <- Fa at 1. apply (mpath_snoc _ b); [exact P|apply (held L); assumption| |].
    + rewrite Fa. apply not_on. exact F.
    + intros v Hv. rewrite Fa. exact (rev_fresh L m a v G F Hv).
  - exists t, l. split; [apply at_app1; [lia|exact Ht]|]. split; [apply (proj1 G); apply Root; exact Ht|]. f_equal. rewrite app_length. cbn. lia.
Qed.

(** Running the calls: they are all stored. *)
Lemma run_offers : forall todo done m rest as_ m', grown done m -> m_run C m (no_failures (map (fun x => G_add_trust (T (fst x) (snd x)) (fst x) now) todo ++ rest)) as_ m' ->
  NoDup (done ++ todo) -> (forall a k, In (a, k) (done ++ todo) -> alive a k /\ a <> k /\ fresh k) ->
  (forall pre a k post, todo = pre ++ (a, k) :: post -> a = b \/ (In (b, a) (done ++ pre))) ->
  exists as1 as2 m2, as_ = as1 ++ as2 /\ length as1 = length todo /\ grown (done ++ todo) m2 /\ m_run C m2 (no_failures rest) as2 m'.
Proof.
  induction todo as [|[a k] todo IH]; intros done m rest as_ m' G H Nd Al Or.
  - cbn [map app] in H. exists [], as_, m. rewrite app_nil_r. auto.
  - cbn [map app fst snd no_failures] in H. inversion H as [|? ? ? ? an ms as' ? K1 K2|]; subst.
    assert (Hin : In (a, k) (done ++ (a, k) :: todo)) by (apply in_or_app; right; left; reflexivity). destruct (Al a k Hin) as (A1 & A2 & A3).
    assert (Nl : ~ In (a, k) done) by (apply NoDup_remove_2 in Nd; intros X; apply Nd; apply in_or_app; left; exact X).
    assert (Wt : exists v, 2 <= v /\ ((exists q, root_of m a q /\ v = 2 ^ q) \/ (exists c', m_chain (m_collect m now) a c' /\ m_worth m c' v))).
    { destruct (Or [] a k todo eq_refl) as [->|X]; [exact (anchor_weighs done m G)|]. rewrite app_nil_r in X.
      assert (X' : In (b, a) (done ++ (a, k) :: todo)) by (apply in_or_app; left; exact X). destruct (Al b a X') as (B1 & _ & B3).
      exact (member_weighs done m a G X B1 B3). }
    pose proof (offer_one done m a k an ms G K1 A1 A2 A3 Nl Wt) as G'.
    assert (Q : done ++ (a, k) :: todo = (done ++ [(a, k)]) ++ todo) by (rewrite <- app_assoc; reflexivity). rewrite Q in *.
    destruct (IH (done ++ [(a, k)]) (last ms m) rest as' m' G' K2 Nd Al) as (as1 & as2 & m2 & -> & L1 & G2 & R2).
    + intros pre a' k' post ->. destruct (Or ((a, k) :: pre) a' k' post eq_refl) as [X|X]; [left; exact X|right].
      rewrite <- app_assoc. exact X.
    + exists (an :: as1), as2, m2. split; [reflexivity|]. split; [cbn; lia|]. auto.
Qed.
End Calls.
Lemma each_later_nodup : forall A (l : list A), NoDup l -> NoDup (each_later l).
Proof.
  induction l as [|a r IH]; intros H; [constructor|]. inversion H as [|? ? Ha Hr]; subst. cbn [each_later].
  apply NoDup_app_intro; [apply FinFun.Injective_map_NoDup; [intros x y E; injection E as ->; reflexivity|exact Hr]|apply IH; exact Hr|].
  intros [x y] Hx Hy. apply in_map_iff in Hx. destruct Hx as (z & E & _). injection E as <- <-. apply Ha. apply (each_later_first _ a z r Hy).
Qed.
Lemma each_later_neq : forall A (a b : A) l, NoDup l -> In (a, b) (each_later l) -> a <> b.
Proof.
  induction l as [|x r IH]; intros H Hi; [destruct Hi|]. inversion H as [|? ? Hx Hr]; subst. cbn [each_later] in Hi. apply in_app_or in Hi. destruct Hi as [Hi|Hi].
  - apply in_map_iff in Hi. destruct Hi as (y & E & Hy). injection E as <- <-. intros ->. exact (Hx Hy).
  - exact (IH Hr Hi).
Qed.
Lemma each_later_order : forall (b : public_key) ks pre a k post, each_later (b :: ks) = pre ++ (a, k) :: post -> a = b \/ In (b, a) pre.
Proof.
  intros b ks pre a k post E. cbn [each_later] in E. set (X := map (fun x => (b, x)) ks) in E. destruct (Nat.lt_ge_cases (length pre) (length X)) as [Lt|Ge].
  - left. assert (H : nth_error X (length pre) = Some (a, k)).
    { rewrite <- (nth_error_app1 X (each_later ks) Lt), E, nth_error_app2, Nat.sub_diag by lia. reflexivity. }
    apply nth_error_In in H. apply in_map_iff in H. destruct H as (y & Ey & _). injection Ey as <- _. reflexivity.
  - right. assert (H : nth_error (each_later ks) (length pre - length X) = Some (a, k)).
    { rewrite <- (nth_error_app2 X (each_later ks) Ge), E, nth_error_app2, Nat.sub_diag by lia. reflexivity. }
    apply nth_error_In in H. apply each_later_first in H. destruct H as [Ha _].
    assert (P : firstn (length X) pre = X).
    { assert (E2 : firstn (length X) (X ++ each_later ks) = firstn (length X) (pre ++ (a, k) :: post)) by (rewrite E; reflexivity).
      rewrite !firstn_app in E2. replace (length X - length X)%nat with 0%nat in E2 by lia. replace (length X - length pre)%nat with 0%nat in E2 by lia.
      cbn [firstn] in E2. rewrite !app_nil_r, firstn_all in E2. symmetry. exact E2. }
    rewrite <- (firstn_skipn (length X) pre), P. apply in_or_app. left. apply (in_map (fun x => (b, x))). exact Ha.
Qed.
Lemma answers_app : forall C es es' d, answers C d (es ++ es') = answers C d es ++ answers C (graph_history C d es) es'.
Proof. induction es as [|e es IH]; intros es' d; [reflexivity|]. cbn [app answers graph_history fold_left]. rewrite IH. reflexivity. Qed.
Lemma answers_length : forall C es d, length (answers C d es) = length es.
Proof. induction es as [|e es IH]; intros d; [reflexivity|]. cbn [answers length]. rewrite IH. reflexivity. Qed.

(** ** C159 *)
(** Whoever holds a key [b] on a path from a root, with two hops to spare, and [n] more keys: after each of these has given each later one a trust, the last key
    has at least 2^n certificates. *)
Lemma p_C159_certificates_explode : forall C d b c l now T ks z, reachable C d -> duration_wf now -> pk_valid C b -> clear_path d now b c ->
  (forall t, at_pos c 0 t -> root_max_len d (issued_for t) l) -> N.of_nat (length c) < l ->
  Forall (pk_valid C) (ks ++ [z]) -> NoDup (ks ++ [z]) -> (forall k, In k (ks ++ [z]) -> unknown_to d k) ->
  (forall a k, issued_for (T a k) = k) -> (forall a k, In (a, k) (each_later (b :: ks ++ [z])) -> member_trust C a now (T a k) now) ->
  let calls := trust_each_later T now (b :: ks ++ [z]) in
  few d (no_failures calls) ->
  (2 * length calls = (length ks + 1) * (length ks + 2))%nat /\
  exists cs d', graph_step C (graph_history C d (no_failures calls)) (G_get_all_certs z now, None) = (Ok (GR_certs cs), d') /\ NoDup cs /\
    (2 ^ length ks <= length cs)%nat.
Proof.
  intros C d b c l now T ks z R Tn Vb (P1 & P2 & P3 & P4 & P5) Ro Ln Vk Nd Un Tf Mt calls Fw.
  set (L := each_later (b :: ks ++ [z])). set (m0 := contents d).
  assert (Pm : mpath m0 b c).
  { split; [exact P1|]. split; [exact P2|]. split; [|split].
    - intros t Ht. destruct (P3 t Ht) as [_ [Hs _]]. split; [exists l; apply Ro; exact Ht|exact Hs].
    - intros i g t Hg Ht. exact (proj1 (P4 i g t Hg Ht)).
    - intros i j v Lt Hv Hi Hj. apply (P5 i j). split; [exact Lt|]. exists v. auto. }
  assert (Lv : forall i t a, at_pos c i t -> ~ db_expired now (RAuth (mk_auth t a))).
  { intros i t a Ht. destruct i as [|i]; [exact (proj2 (proj2 (P3 t Ht)))|].
    assert (Lt : (i < length c)%nat) by (pose proof (at_len _ _ _ _ Ht); lia). destruct (nth_error_Some_ex _ c i Lt) as (g & Hg). exact (proj2 (P4 i g t Hg Ht)). }
  assert (Fk : forall k, In k (ks ++ [z]) -> fresh m0 k) by (intros k Hk x Hx; exact (Un k Hk x Hx)).
  assert (Nb : NoDup (b :: ks ++ [z])).
  { constructor; [|exact Nd]. intros Hb. apply (not_on T now m0 Tf b c l Ro Ln Pm Lv b (Fk b Hb)). destruct P2 as (t & Ht & <-). apply in_map. exact (at_in _ _ _ _ Ht). }
  assert (Al : forall a k, In (a, k) L -> alive C T now a k /\ a <> k /\ fresh m0 k).
  { intros a k H. pose proof (Mt a k H) as M. split; [|split].
    - split; [exact (member_unexpired C a now (T a k) now now a M (N.le_refl _))|]. destruct M as (_ & _ & M3 & _ & M5 & _). split; [exact M3|]. intros [X|[X _]]; lia.
    - exact (each_later_neq _ a k _ Nb H).
    - apply Fk. cbn [each_later L] in H. unfold L in H. cbn [each_later] in H. apply in_app_or in H. destruct H as [H|H].
      + apply in_map_iff in H. destruct H as (y & E & Hy). injection E as _ <-. exact Hy.
      + exact (proj2 (each_later_first _ a k _ H)). }
  assert (Vz : pk_valid C z) by (rewrite Forall_forall in Vk; apply Vk; apply in_or_app; right; left; reflexivity).
  assert (Tc : Forall (call_typed C) (calls ++ [G_get_all_certs z now])).
  { apply Forall_app. split; [|constructor; [split; assumption|constructor]]. apply Forall_forall. intros x Hx. unfold calls, trust_each_later in Hx. apply in_map_iff in Hx.
    destruct Hx as ([a k] & <- & Hx). cbn [fst snd]. destruct (Mt a k Hx) as (M1 & M2 & _). split; [exact M1|]. split; [|exact Tn].
    apply each_later_first in Hx. destruct Hx as [[<-|Hx] _]; [exact Vb|]. rewrite Forall_forall in Vk. apply Vk. exact Hx. }
  assert (Th : typed_history C (no_failures (calls ++ [G_get_all_certs z now]))).
  { unfold no_failures. apply Forall_forall. intros x Hx. apply in_map_iff in Hx. destruct Hx as (y & <- & Hy). rewrite Forall_forall in Tc. exact (Tc y Hy). }
  assert (Fw' : few d (no_failures (calls ++ [G_get_all_certs z now]))).
  { unfold few in *. unfold no_failures in *. rewrite !map_app, list_sum_app. cbn [map fst offered list_sum fold_right]. rewrite !Nat.add_0_r. exact Fw. }
  split.
  { unfold calls, trust_each_later. rewrite map_length, each_later_length. cbn [length]. rewrite app_length. cbn [length]. lia. }
  destruct (p_C155_library_is_machine C d _ R Th Fw') as (as_ & m' & Hr & Hs & _).
  unfold no_failures in Hs. rewrite map_app, answers_app in Hs. fold (no_failures calls) in Hs.
  unfold calls, trust_each_later in Hr.
  assert (G0 : grown T now m0 [] m0).
  { split; [intros; reflexivity|]. intros x _. split; [auto|]. intros [H|(a & k & [] & _)]. exact H. }
  destruct (run_offers C T now m0 Tf b c l Ro Ln Pm Lv L [] m0 [G_get_all_certs z now] as_ m' G0 Hr) as (as1 & as2 & m2 & -> & La & G2 & R2).
  { cbn [app]. exact (each_later_nodup _ _ Nb). }
  { cbn [app]. exact Al. }
  { intros pre a k post E. cbn [app]. exact (each_later_order b (ks ++ [z]) pre a k post E). }
  cbn [app] in G2.
  assert (H2 : Forall2 shows (answers C (graph_history C d (no_failures calls)) (map (fun x => (x, None)) [G_get_all_certs z now])) as2).
  { apply Forall2_app_inv_l in Hs. destruct Hs as (x1 & x2 & F1 & F2 & E). assert (length x1 = length as1).
    { assert (Lx : forall A B (P : A -> B -> Prop) u v, Forall2 P u v -> length u = length v) by (induction 1; cbn; congruence).
      rewrite <- (Lx _ _ _ _ _ F1), answers_length, La. unfold no_failures, calls, trust_each_later. rewrite !map_length. reflexivity. }
    assert (E2 : as2 = x2).
    { apply (f_equal (skipn (length as1))) in E. rewrite !skipn_app, skipn_all, Nat.sub_diag in E. rewrite <- H in E. rewrite skipn_all, Nat.sub_diag in E. exact E. }
    rewrite E2. exact F2. }
  inversion R2 as [|? ? ? ? an ms as' ? K1 K2|]; subst. inversion K2; subst. inversion K1; subst. cbn [map answers] in H2.
  inversion H2 as [|? ? ? ? Sh _]; subst. destruct (graph_step C (graph_history C d (no_failures calls)) (G_get_all_certs z now, None)) as [r d'] eqn:Es.
  cbn [fst shows] in Sh. destruct Sh as (cs & -> & Nc & Ex & _). exists cs, d'. split; [reflexivity|]. split; [exact Nc|].
  rewrite <- sublists_length. rewrite <- (map_length (fun s => c ++ steps T b (s ++ [z]))). apply NoDup_incl_length.
  - apply FinFun.Injective_map_NoDup; [|apply sublists_nodup; rewrite <- (app_nil_r ks); apply (NoDup_remove_1 ks [] z); exact Nd].
    intros s s' E. apply app_inv_head in E. apply (steps_inj T Tf) in E. apply app_inj_tail in E. apply E.
  - intros x Hx. apply in_map_iff in Hx. destruct Hx as (s & <- & Hs'). apply Ex.
    assert (Q : mpath (m_collect m2 now) (last (s ++ [z]) b) (c ++ steps T b (s ++ [z]))).
    { apply (paths T Tf (ks ++ [z])).
      - apply sublists_snoc. exact Hs'.
      - exact (path_grows T now m0 b c Pm Lv L m2 G2).
      - exact Nd.
      - intros k Hk. exact (not_on T now m0 Tf b c l Ro Ln Pm Lv k (Fk k Hk)).
      - intros a k H. exact (held C T now m0 L m2 a k G2 H (proj1 (Al a k H))).
      - intros k v Hk Hv. exact (rev_fresh T now m0 L m2 k v G2 (Fk k Hk) Hv). }
    rewrite last_last in Q. apply mpath_chain; [exact Q|]. destruct P2 as (t & Ht & _). pose proof (at_len _ _ _ _ Ht). rewrite app_length.
    assert (Y : length (steps T b (s ++ [z])) = length (s ++ [z])) by (rewrite <- (map_length issued_for), (steps_keys T Tf); reflexivity).
    rewrite Y, app_length. cbn [length]. lia.
Qed.
Definition toy_gives (a k : public_key) : trust :=
  mk_trust k (from_secs 900) (mk_sig Ed25519 (pk_raw a ++ toy_sha (trust_metadata k (from_secs 900) (from_secs 1)))) (from_secs 1).
(** A root with two more keys and a third: six calls, four certificates. *)
Example e_C159_four : reachable (toy false) (db_of (after base)) /\ clear_path (db_of (after base)) (at_ 10) (toy_key R) [toy_trust R R 1000 1] /\
  root_max_len (db_of (after base)) (toy_key R) 5 /\ NoDup [toy_key A; toy_key B; toy_key D] /\
  (forall k, In k [toy_key A; toy_key B; toy_key D] -> unknown_to (db_of (after base)) k) /\ (forall a k, issued_for (toy_gives a k) = k) /\
  (forall a k, In (a, k) (each_later [toy_key R; toy_key A; toy_key B; toy_key D]) -> member_trust (toy false) a (at_ 10) (toy_gives a k) (at_ 10)) /\
  length (trust_each_later toy_gives (at_ 10) [toy_key R; toy_key A; toy_key B; toy_key D]) = 6%nat /\
  few (db_of (after base)) (no_failures (trust_each_later toy_gives (at_ 10) [toy_key R; toy_key A; toy_key B; toy_key D])) /\
  exists cs, answer_after (toy false) (db_of (after base)) (trust_each_later toy_gives (at_ 10) [toy_key R; toy_key A; toy_key B; toy_key D]) (G_get_all_certs (toy_key D) (at_ 10)) = Ok (GR_certs cs) /\ length cs = 4%nat.
Proof.
  assert (Tb : Forall (call_typed W) base) by (unfold base; typed1).
  assert (Rb : reachable W (db_of (after base))) by (apply after_reachable; exact Tb).
  assert (Er : rels (after base) = [RAuth (mk_auth (toy_trust R R 1000 1) (toy_key R))]) by (vm_compute; reflexivity).
  assert (Ro : roots (after base) = [(toy_key R, 11)]) by (vm_compute; reflexivity).
  assert (Hr : root_max_len (db_of (after base)) (toy_key R) 5) by (apply (one_root (after base) (toy_key R) 11 5 Ro); [lia|reflexivity|auto]).
  pose proof (after_inv base Tb) as Ib.
  assert (St : forall x, stored (db_of (after base)) x <-> x = RAuth (mk_auth (toy_trust R R 1000 1) (toy_key R))).
  { intros x. rewrite (stored_in W (after base) x (inv_wf W _ Ib)), Er. cbn [In]. split; [intros [H|[]]; auto|auto]. }
  split; [exact Rb|]. split.
  { split; [repeat constructor; intros []|]. split; [eexists; split; reflexivity|]. split; [|split].
    - intros t Ht. injection Ht as <-. split; [apply (is_root_max_len W (after base) _ Ib); exists 5; exact Hr|]. split; [apply (St (RAuth (mk_auth (toy_trust R R 1000 1) (toy_key R)))); reflexivity|].
      vm_compute. intros H. apply H. reflexivity.
    - intros i g t _ Ht. apply at_len in Ht. cbn in Ht. lia.
    - intros i j [_ (v & Hv & _)]. apply (St (RRev v)) in Hv. discriminate Hv. }
  split; [exact Hr|]. split; [repeat (constructor; [cbn; intros H; repeat (destruct H as [H|H]; [discriminate H|]); exact H|]); constructor|]. split.
  { intros k Hk x Hx. apply St in Hx. subst x. cbn in Hk. repeat (destruct Hk as [<-|Hk]; [split; intros E; discriminate E|]). destruct Hk. }
  split; [reflexivity|]. split.
  { assert (M : forall a k, member_trust W (toy_key a) (at_ 10) (toy_gives (toy_key a) (toy_key k)) (at_ 10)).
    { intros a k. change (toy_gives (toy_key a) (toy_key k)) with (toy_trust a k 900 1). split; [apply toy_trust_typed; reflexivity|]. split; [apply secs_wf; reflexivity|].
      split; [apply toy_trust_signed|]. split; [cbn; lia|]. split; [cbn; lia|reflexivity]. }
    intros a k H. cbn [each_later map app In] in H. repeat (destruct H as [H|H]; [injection H as <- <-; apply M|]). destruct H. }
  split; [reflexivity|]. split; [vm_compute; reflexivity|].
  set (cs := [G_add_trust (toy_trust R A 900 1) (toy_key R) (at_ 10); G_add_trust (toy_trust R B 900 1) (toy_key R) (at_ 10); G_add_trust (toy_trust R D 900 1) (toy_key R) (at_ 10);
    G_add_trust (toy_trust A B 900 1) (toy_key A) (at_ 10); G_add_trust (toy_trust A D 900 1) (toy_key A) (at_ 10); G_add_trust (toy_trust B D 900 1) (toy_key B) (at_ 10)]).
  change (trust_each_later toy_gives (at_ 10) [toy_key R; toy_key A; toy_key B; toy_key D]) with cs.
  assert (Tc : Forall (call_typed W) cs) by (unfold cs; typed1).
  eexists. split.
  - unfold answer_after. change (no_failures cs) with (map (fun c => (c, @None nat)) cs). rewrite (run_calls_history W cs (after base) Ib Tc).
    rewrite step_none; [|apply run_calls_inv; [exact Ib|exact Tc]|typed1]. vm_compute. reflexivity.
  - reflexivity.
Qed.
