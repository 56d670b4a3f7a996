(** Stories: honest people, known by number, trust and revoke one another and ask the library, at readings of a clock. Who the people are,
    what kind of keys they have and when it all happens is left open. The tests of service/src/tests.rs are such stories. *)
From Coq Require Import List NArith ZArith Bool Permutation.
From Verif Require Import Base Text Keys Trust Certificate Relation Storage Graph Service Spec ServiceSpec MachineSpec ServiceMachine.
Import ListNotations.
Open Scope N_scope.

(** What happens. [Trusts b k expires issued now]: person [b] signs a trust for [k] and it is added at [now]. *)
Inductive act :=
| Set_root (k : nat) (max_chain_len : N)
| Trusts (b k : nat) (expires issued now : N)
| Revokes (b k : nat) (at_ : N)
| Ask_weight (k : nat) (now : N)
| Ask_certs (k : nat) (now : N)
| Ask_certs_from (k issuer : nat) (now : N).
(** A trust of a story: who signs it, for whom, until when, made when. *)
Inductive told_trust := by_for (b k : nat) (expires issued : N).
(** What is seen. Certificates may come in any order. *)
Inductive seen :=
| Done
| Weight (w : N)
| Certs (cs : list (list told_trust)).
Definition story := list (act * seen).

(** The people and what the clock shows at each moment of the story. *)
Record cast := mk_cast { people : nat -> keypair; shows_time : N -> N }.
Definition person (C : crypto) (p : cast) (k : nat) : public_key := kp_public C (people p k).
Definition moment (p : cast) (s : N) : duration := from_secs (shows_time p s).
(** The first [n] people have good key pairs with different public keys; up to moment [last] time goes on and stays below 2^63. *)
Definition good_cast (C : crypto) (n : nat) (last : N) (p : cast) : Prop :=
  (forall i, (i < n)%nat -> kp_valid C (people p i)) /\
  (forall i j, (i < n)%nat -> (j < n)%nat -> person C p i = person C p j -> i = j) /\
  (forall s r, s < r -> r <= last -> shows_time p s < shows_time p r) /\
  shows_time p last < i64_bound.

(** The trust of a story as this cast makes it. *)
Definition makes (C : crypto) (p : cast) (x : told_trust) (t : trust) : Prop :=
  match x with by_for b k e i => @trust_create C unit (people p b) (person C p k) (moment p e) (moment p i) = Ok t end.
(** The call of the library that does it. *)
Definition acts (C : crypto) (p : cast) (a : act) (c : graph_call) : Prop :=
  match a with
  | Set_root k n => c = G_set_root (person C p k) n
  | Trusts b k e i now => exists t, makes C p (by_for b k e i) t /\ c = G_add_trust t (person C p b) (moment p now)
  | Revokes b k at_ => exists v, @revocation_create C unit (people p b) (person C p k) (moment p at_) = Ok v /\ c = G_revoke v
  | Ask_weight k now => c = G_weight (person C p k) (moment p now)
  | Ask_certs k now => c = G_get_all_certs (person C p k) (moment p now)
  | Ask_certs_from k i now => c = G_get_all_certs_from (person C p k) (person C p i) (moment p now)
  end.
(** The answer shows it. *)
Definition lists (C : crypto) (p : cast) (cs : list certificate) (xs : list (list told_trust)) : Prop :=
  exists ys, Permutation ys xs /\ Forall2 (Forall2 (fun t x => makes C p x t)) cs ys.
Definition sees (C : crypto) (p : cast) (r : result graph_error graph_reply) (o : seen) : Prop :=
  match o with
  | Done => r = Ok GR_unit
  | Weight w => r = Ok (GR_weight w)
  | Certs xs => exists cs, r = Ok (GR_certs cs) /\ lists C p cs xs
  end.
(** In the library the story goes as told: from an empty store every call gets the answer of the story. *)
Definition goes_as_told (C : crypto) (p : cast) (s : story) : Prop :=
  forall cs, Forall2 (acts C p) (map fst s) cs -> Forall2 (sees C p) (answers C empty_db (no_failures cs)) (map snd s).
(** The story is about the first [n] people and ends at [last]; roots have a length below 2^32. *)
Definition about_trust (n : nat) (last : N) (x : told_trust) : Prop :=
  match x with by_for b k e i => (b < n)%nat /\ (k < n)%nat /\ e <= last /\ i <= last end.
Definition about_act (n : nat) (last : N) (a : act) : Prop :=
  match a with
  | Set_root k m => (k < n)%nat /\ m < u32_bound
  | Trusts b k e i now => about_trust n last (by_for b k e i) /\ now <= last
  | Revokes b k at_ => (b < n)%nat /\ (k < n)%nat /\ at_ <= last
  | Ask_weight k now | Ask_certs k now => (k < n)%nat /\ now <= last
  | Ask_certs_from k i now => (k < n)%nat /\ (i < n)%nat /\ now <= last
  end.
Definition about_seen (n : nat) (last : N) (o : seen) : Prop :=
  match o with Certs xs => Forall (Forall (about_trust n last)) xs | _ => True end.
Definition about_people (n : nat) (last : N) (s : story) : Prop :=
  Forall (about_act n last) (map fst s) /\ Forall (about_seen n last) (map snd s) /\ N.of_nat (length s) + 17 < u32_bound.
(** Everyone can sign what the story has them sign (only RSA keys may fail to). *)
Definition can_play (C : crypto) (p : cast) (s : story) : Prop := exists cs, Forall2 (acts C p) (map fst s) cs.
(** No two people make the same trust: a trust tells who signed it. *)
Definition tells_signer (C : crypto) (n : nat) (last : N) (p : cast) : Prop :=
  forall x y t, about_trust n last x -> about_trust n last y -> makes C p x t -> makes C p y t -> x = y.

(** ** The service *)
(** The event is an admitted call of the service that does it. *)
Definition plays (C : crypto) (p : cast) (a : act) (e : service_event) : Prop :=
  exists cp c g, e = (cp, c, None) /\ service_typed c /\ admitted cp c /\ requests C cp c g /\ acts C p a g.
(** The response shows it. *)
Definition hears (C : crypto) (p : cast) (r : result Empty_set response) (o : seen) : Prop :=
  exists x, r = Ok (mk_response true None x) /\
  match o with
  | Done => x = P_none
  | Weight w => x = P_added w \/ exists q, x = P_weight w q
  | Certs xs => exists rs cs, x = P_certs rs /\ Forall2 (certificate_record C) rs cs /\ lists C p cs xs
  end.
Definition served_as_told (C : crypto) (p : cast) (s : story) : Prop :=
  forall es, Forall2 (plays C p) (map fst s) es -> Forall2 (hears C p) (responses C empty_db es) (map snd s).

(** No trust is added before it is made. *)
Definition in_time (s : story) : Prop := Forall (fun a => match a with Trusts _ _ _ i now => i <= now | _ => True end) (map fst s).

(** ** The tests of service/src/tests.rs *)
(** Calls of [current_time] are told as moment 100, or 101 if the clock has gone on between two of them. *)
(** 90-106, [add_root_with_trust]. The root's trust of itself gives it [2 ^ max_chain_len]. *)
Definition root_with_trust (k : nat) (issued expires m : N) : story :=
  [(Set_root k m, Done); (Trusts k k expires issued issued, Weight (2 ^ m))].
(** 222-278, [generate_trust_chain_with] and 187-191, [add_trusts], for a root of length [m]: every person trusts the next. *)
Definition told_chain (len : nat) (expires issued : N) : list told_trust :=
  by_for 0 0 expires issued :: map (fun k => by_for k (S k) expires issued) (seq 0 (len - 1)).
Definition chain_added (len : nat) (m expires issued now : N) : story :=
  (Set_root 0 m, Done) :: (Trusts 0 0 expires issued now, Weight (2 ^ m)) ::
  map (fun k => (Trusts k (S k) expires issued now, Weight (2 ^ (m - N.of_nat (S k))))) (seq 0 (len - 1)).

(** 328-343. *)
Definition add_root_owner : story := [(Set_root 0 0, Done)].
(** 345-391. *)
Definition add_root_trust : story :=
  [(Set_root 0 4, Done); (Trusts 0 0 9999 0 100, Weight 16); (Ask_weight 0 100, Weight 16)].
(** 393-432. *)
Definition test_expired_root_trust : story :=
  root_with_trust 0 100 10099 10 ++
  [(Trusts 0 1 110099 100 100, Weight 512); (Ask_weight 0 100, Weight 1024); (Ask_weight 1 100, Weight 512);
   (Ask_certs 1 100, Certs [[by_for 0 0 10099 100; by_for 0 1 110099 100]]);
   (Ask_certs 1 10100, Certs []); (Ask_certs 1 100, Certs [])].
(** 434-470. *)
Definition trust_direct_revoke_test : story :=
  root_with_trust 0 100 10099 10 ++
  [(Trusts 0 1 100099 100 100, Weight 512); (Ask_weight 1 100, Weight 512); (Revokes 0 1 101, Done); (Ask_weight 1 101, Weight 0)].
(** 472-524. The comment of the test has no trust from 2 to 4, the code adds one. *)
Definition indirect_revoke_test (now : N) : story :=
  chain_added 5 10 160 100 now ++
  [(Ask_weight 4 now, Weight 64); (Revokes 1 4 (now + 1), Done); (Ask_weight 4 (now + 1), Weight 0);
   (Trusts 0 2 (now + 100000) (now + 1) (now + 1), Weight 512); (Trusts 2 4 (now + 100000) (now + 1) (now + 1), Weight 256);
   (Ask_weight 4 (now + 1), Weight 256)].
(** 526-565. *)
Definition test_add_one_trust_to_cert_last (now : N) : story :=
  chain_added 5 10 160 100 now ++
  [(Trusts 4 5 (now + 60) now now, Weight 32); (Ask_weight 4 now, Weight 64); (Ask_weight 5 now, Weight 32);
   (Ask_certs 5 now, Certs [told_chain 5 160 100 ++ [by_for 4 5 (now + 60) now]])].
(** 567-607. *)
Definition test_expired_trust (now : N) : story :=
  chain_added 5 10 160 100 now ++
  [(Trusts 4 5 (now + 60) now now, Weight 32);
   (Ask_certs 5 now, Certs [told_chain 5 160 100 ++ [by_for 4 5 (now + 60) now]]);
   (Ask_certs 5 (now + 60), Certs []); (Ask_certs 5 now, Certs [])].
(** 609-636. *)
Definition test_get_one_cert (now : N) : story :=
  chain_added 5 10 160 100 now ++ [(Ask_certs 4 now, Certs [told_chain 5 160 100])].
(** 638-656. *)
Definition test_chain_from_root_to_another_root (now : N) : story :=
  chain_added 6 10 160 100 now ++ root_with_trust 5 now (now + 9999) 10 ++
  [(Ask_certs 5 now, Certs [told_chain 6 160 100; told_chain 6 160 100 ++ [by_for 5 5 (now + 9999) now]])].
(** 658-701. The trust made before the revocation is accepted, and ignored. *)
Definition test_revoke_gc : story :=
  root_with_trust 0 100 1099 10 ++
  [(Trusts 0 1 100099 100 100, Weight 512); (Ask_weight 1 100, Weight 512); (Revokes 0 1 101, Done); (Ask_weight 1 101, Weight 0);
   (Trusts 0 1 100099 91 91, Weight 512); (Ask_weight 1 101, Weight 0)].
(** 703-739. *)
Definition test_update_trust : story :=
  root_with_trust 0 100 1099 10 ++
  [(Trusts 0 1 110 100 100, Weight 512); (Ask_weight 1 100, Weight 512); (Trusts 0 1 100119 109 109, Weight 512); (Ask_weight 1 120, Weight 512)].
(** 741-783. *)
Definition path_from_root_to_root_weight : story :=
  root_with_trust 0 100 100099 10 ++ root_with_trust 1 100 100099 5 ++
  [(Trusts 1 2 100099 100 100, Weight 16); (Ask_weight 1 100, Weight 32); (Ask_weight 2 100, Weight 16);
   (Trusts 0 1 100099 100 100, Weight 512); (Ask_weight 1 100, Weight 512); (Ask_weight 2 100, Weight 256)].
(** 785-819. *)
Definition add_self_signed_weight : story :=
  root_with_trust 0 100 100099 0 ++
  [(Trusts 0 1 100099 100 100, Weight 0); (Ask_weight 1 100, Weight 0); (Trusts 1 1 100099 100 100, Weight 0); (Ask_weight 1 100, Weight 0)].
(** 821-849; the host is person 4. *)
Definition test_get_one_host_cert (now : N) : story :=
  chain_added 5 10 160 100 now ++ [(Ask_certs 4 now, Certs [told_chain 5 160 100])].
(** 851-884 and 886-920. *)
Definition test_get_one_host_cert_from (now : N) : story :=
  chain_added 5 10 160 100 now ++ [(Ask_certs_from 4 3 now, Certs [told_chain 5 160 100])].
Definition test_get_all_cert_from (now : N) : story :=
  chain_added 5 10 160 100 now ++ [(Ask_certs_from 4 3 now, Certs [told_chain 5 160 100])].

Definition repo_tests : list story :=
  [add_root_owner; add_root_trust; test_expired_root_trust; trust_direct_revoke_test; test_revoke_gc; test_update_trust;
   path_from_root_to_root_weight; add_self_signed_weight] ++
  flat_map (fun now => [indirect_revoke_test now; test_add_one_trust_to_cert_last now; test_expired_trust now; test_get_one_cert now;
    test_chain_from_root_to_another_root now; test_get_one_host_cert now; test_get_one_host_cert_from now; test_get_all_cert_from now]) [100; 101].
