(** The text form of a certificate read in groups of four lines, said of the groups themselves. *)
From Coq Require Import List NArith Arith Lia.
From Verif Require Import Base Text Keys Trust Certificate CertFacts.
Import ListNotations.

Section S.
Variable C : crypto.

Lemma parse_groups : forall k ls i, length ls = (4 * k)%nat ->
  (exists ts, cert_parse_trusts C ls i = Ok ts) <->
  (forall j, (j < k)%nat -> exists a b c d t, firstn 4 (skipn (4 * j) ls) = [a; b; c; d] /\ trust_from_strings C a b c d = Ok t).
Proof.
  induction k as [|k IH]; intros ls i L.
  - destruct ls; [|simpl in L; lia]. split; [intros _ j H; lia|]. intros _. exists []. reflexivity.
  - destruct ls as [|a [|b [|c [|d ls]]]]; simpl in L; try lia. cbn [cert_parse_trusts].
    assert (L' : length ls = (4 * k)%nat) by lia. specialize (IH ls (i + 4)%nat L'). split.
    + intros [ts H]. destruct (trust_from_strings C a b c d) as [t|e| |] eqn:E; cbn [map_err bind] in H; try discriminate.
      destruct (cert_parse_trusts C ls (i + 4)) as [us|e| |] eqn:R; cbn [bind] in H; try discriminate.
      intros [|j] J.
      * exists a, b, c, d, t. split; [reflexivity|exact E].
      * replace (4 * S j)%nat with (S (S (S (S (4 * j))))) by lia. cbn [skipn].
        apply IH; [exists us; reflexivity|lia].
    + intros H. destruct (H 0%nat) as (a' & b' & c' & d' & t & G & T); [lia|].
      change (firstn 4 (skipn (4 * 0) (a :: b :: c :: d :: ls))) with [a; b; c; d] in G. injection G as <- <- <- <-.
      rewrite T. cbn [map_err bind]. destruct IH as [_ IH]. destruct IH as [us U].
      * intros j J. destruct (H (S j)) as (a' & b' & c' & d' & t' & G & T'); [lia|].
        replace (4 * S j)%nat with (S (S (S (S (4 * j))))) in G by lia. cbn [skipn] in G.
        exists a', b', c', d', t'. split; assumption.
      * rewrite U. exists (t :: us). reflexivity.
Qed.

Lemma parsed_panics : forall s, cert_from_str C s = Panic <->
  (length (lines s) < 2)%nat \/
  exists f v k pre a b c d post, lines s = f :: v :: pre ++ a :: b :: c :: d :: post /\
    Nat.modulo (length (lines s) - 2) 4 = 0%nat /\ length pre = (4 * k)%nat /\
    (forall j, (j < k)%nat -> exists a b c d t, firstn 4 (skipn (4 * j) pre) = [a; b; c; d] /\ trust_from_strings C a b c d = Ok t) /\
    (a = [] \/ ((exists p, pk_from_str C a = Ok p) /\ b = [])).
Proof.
  intros s. rewrite cert_from_str_panic. split; (intros [H|H]; [left; exact H|right]).
  - destruct H as (f & v & k & pre & a & b & c & d & post & ts & E & M & L & P & Q).
    exists f, v, k, pre, a, b, c, d, post. repeat (split; [assumption|]). split; [|exact Q].
    apply (parse_groups k pre 2 L). exists ts. exact P.
  - destruct H as (f & v & k & pre & a & b & c & d & post & E & M & L & P & Q).
    apply (parse_groups k pre 2 L) in P. destruct P as [ts P].
    exists f, v, k, pre, a, b, c, d, post, ts. repeat (split; [assumption|]). exact Q.
Qed.

End S.
