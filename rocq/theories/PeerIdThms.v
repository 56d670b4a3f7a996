(** Peer ids. *)
From Coq Require Import List NArith ZArith Bool Lia.
From Verif Require Import Base BaseFacts Text TextFacts Keys KeysFacts Trust Certificate Relation Storage Graph Convert ConvertSpec ConvertFacts
  Service Toy ToyFacts ConvertThms PeerId PeerIdSpec PeerIdFacts.
Import ListNotations.
Open Scope N_scope.

Lemma small_multihash : forall code digest, code = 0 \/ code = 18 -> len digest <= 64 ->
  read_multihash (multihash_bytes (code, digest)) = Some (code, digest).
Proof.
  intros code digest Hc Hd. unfold multihash_bytes, read_multihash. cbn [fst snd].
  rewrite (one_byte (len digest)) by lia.
  assert (Hs : forall n rest, n < 128 -> read_varint true 10 (u8_of_N n :: rest) = Some (n, rest)).
  { intros n rest B. cbn [read_varint]. rewrite N_of_u8_of_N_small by lia. apply N.ltb_lt in B. rewrite B. reflexivity. }
  rewrite one_byte by lia. change ([u8_of_N code] ++ [u8_of_N (len digest)] ++ digest) with (u8_of_N code :: u8_of_N (len digest) :: digest).
  rewrite Hs by lia. rewrite Hs by lia.
  assert (U : u64_bound = 18446744073709551616) by reflexivity.
  rewrite !N.mod_small by lia.
  assert (E : (len digest <=? 64) && (len digest =? len digest) = true) by (apply andb_true_iff; split; [apply N.leb_le; exact Hd|apply N.eqb_refl]).
  rewrite E. reflexivity.
Qed.

Lemma small_peer_id : forall code digest, (code = 0 /\ len digest <= 42) \/ (code = 18 /\ len digest <= 64) ->
  read_peer_id (multihash_bytes (code, digest)) = Some (code, digest).
Proof.
  intros code digest H. unfold read_peer_id. rewrite small_multihash by (destruct H as [[-> H]|[-> H]]; auto; lia).
  destruct H as [[-> H]|[-> H]]; [|reflexivity]. cbn [N.eqb orb andb]. apply N.leb_le in H. rewrite H. reflexivity.
Qed.

(** The message written for a key. *)
Lemma encoded_message : forall k, len (match lk_kind k with L_Rsa => spki_bytes (lk_raw k) | _ => lk_raw k end) < 2 ^ 32 ->
  message_of [Number 1 (N_of_u8 (number_of_kind (lk_kind k)));
              Chunk 2 (match lk_kind k with L_Rsa => spki_bytes (lk_raw k) | _ => lk_raw k end)] (encode_protobuf k).
Proof.
  intros k B. unfold encode_protobuf. set (data := match lk_kind k with L_Rsa => spki_bytes (lk_raw k) | _ => lk_raw k end) in *. cbv zeta.
  clearbody data. set (kd := lk_kind k). clearbody kd.
  assert (Z : 2 ^ 32 = 4294967296) by reflexivity.
  change (x08 :: number_of_kind kd :: x12 :: write_varint 10 (len data) ++ data)
    with (([x08] ++ [number_of_kind kd]) ++ (x12 :: write_varint 10 (len data) ++ data)).
  replace (x12 :: write_varint 10 (len data) ++ data) with (([x12] ++ write_varint 10 (len data) ++ data) ++ []) by apply app_nil_r.
  assert (G : forall x, N_of_u8 x < 128 -> varint (N_of_u8 x) [x]) by (intros x L; split; [constructor; exact L|cbn; lia]).
  constructor; [|constructor; [|constructor]].
  - apply a_number; [reflexivity|destruct kd; reflexivity|exact (G x08 eq_refl)|apply G; destruct kd; reflexivity].
  - apply a_chunk; [reflexivity|exact B|exact (G x12 eq_refl)|]. apply write_varint_ok.
    assert (P : 2 ^ 32 < 128 ^ 10) by reflexivity. lia.
Qed.

Lemma encoded_read : forall k, len (match lk_kind k with L_Rsa => spki_bytes (lk_raw k) | _ => lk_raw k end) < 2 ^ 32 ->
  read_message (length (encode_protobuf k)) 0 [] (encode_protobuf k) =
  Some (N_of_u8 (number_of_kind (lk_kind k)), match lk_kind k with L_Rsa => spki_bytes (lk_raw k) | _ => lk_raw k end).
Proof. intros k B. rewrite (message_read _ _ (encoded_message k B)) by lia. reflexivity. Qed.

Lemma kind_number : forall kd, kind_of_number (N_of_u8 (number_of_kind kd)) = kd.
Proof. intros []; reflexivity. Qed.

Lemma der_length_small : forall n, n < 2 ^ 40 -> der_length_size n <= 7.
Proof.
  intros n B. unfold der_length_size. destruct (n <? 128) eqn:E; [lia|].
  assert (L : N.log2 n < 40) by (apply N.log2_lt_pow2; [apply N.ltb_ge in E; lia|exact B]).
  assert (N.log2 n / 8 < 6) by (apply N.div_lt_upper_bound; lia). lia.
Qed.
Lemma spki_small : forall raw, len raw < 2 ^ 31 -> len (spki_bytes raw) < 2 ^ 32.
Proof.
  intros raw B. rewrite spki_size_ok. unfold spki_size.
  assert (Z31 : 2 ^ 31 = 2147483648) by reflexivity. assert (Z32 : 2 ^ 32 = 4294967296) by reflexivity. assert (Z40 : 2 ^ 40 = 1099511627776) by reflexivity.
  set (alg := der_size (der_size (len oid_rsa_encryption) + der_size 0)). assert (alg = 15) by reflexivity. clearbody alg. subst.
  pose proof (der_length_small (len raw + 1) ltac:(lia)) as L1.
  unfold der_size. set (z := der_length_size (len raw + 1)) in *. clearbody z.
  pose proof (der_length_small (15 + (1 + z + (len raw + 1))) ltac:(lia)) as L2. lia.
Qed.
Lemma spki_tiny : forall raw, len raw <= 18 <-> len (spki_bytes raw) <= 38.
Proof.
  intros raw. rewrite spki_size_ok. unfold spki_size.
  set (alg := der_size (der_size (len oid_rsa_encryption) + der_size 0)). assert (alg = 15) by reflexivity. clearbody alg. subst.
  split; intros H.
  - unfold der_size. assert (E : der_length_size (len raw + 1) = 1) by (unfold der_length_size; destruct (N.ltb_spec (len raw + 1) 128); [reflexivity|lia]).
    rewrite E. assert (E2 : der_length_size (15 + (1 + 1 + (len raw + 1))) = 1) by (unfold der_length_size; destruct (N.ltb_spec (15 + (1 + 1 + (len raw + 1))) 128); [reflexivity|lia]).
    rewrite E2. lia.
  - unfold der_size in H. assert (1 <= der_length_size (len raw + 1)) by (unfold der_length_size; destruct (len raw + 1 <? 128); lia).
    set (z := der_length_size (len raw + 1)) in *. clearbody z.
    assert (1 <= der_length_size (15 + (1 + z + (len raw + 1)))) by (unfold der_length_size; destruct (15 + (1 + z + (len raw + 1)) <? 128); lia). lia.
Qed.

(** A libp2p key whose message is at most 42 bytes comes back from its peer id. *)
Lemma inlined_back : forall C Lib l, libs_laws C Lib -> lib_key_valid C Lib l -> len (lk_raw l) < 2 ^ 31 ->
  try_decode_protobuf C Lib (encode_protobuf l) = Some l.
Proof.
  intros C Lib l L V S. unfold try_decode_protobuf. rewrite encoded_read, kind_number.
  - destruct l as [kd raw]. unfold lib_key_valid in V. cbn [lk_kind lk_raw] in *. destruct kd.
    + destruct V as [V1 V2]. rewrite V1, V2. reflexivity.
    + rewrite V. destruct (p_C124_x509 raw) as [out [E H]]; [assert (Q : 2 ^ 31 < u64_bound) by reflexivity; lia|].
      rewrite x509_ok in E. injection E as <-. rewrite (law_lib_x509 _ _ L _ _ H). reflexivity.
    + destruct V as [V1 V2]. rewrite V1, V2. reflexivity.
    + contradiction.
  - destruct (lk_kind l); [|apply spki_small; exact S| |]; assert (Q : 2 ^ 31 < 2 ^ 32) by reflexivity; lia.
Qed.

Lemma not_rsa_raw : forall C k, pk_valid C k -> pk_fmt k <> Rsa -> len (pk_raw k) <= 33.
Proof.
  intros C [f raw] [_ V] N. cbn in *. destruct f; [|contradiction|]; cbn in V; apply andb_true_iff in V; destruct V as [V _]; apply N.eqb_eq in V; lia.
Qed.

Lemma encoded_size : forall k, len (lk_raw k) < 128 -> lk_kind k <> L_Rsa -> len (encode_protobuf k) = 4 + len (lk_raw k).
Proof.
  intros k B N. unfold encode_protobuf. assert (E : match lk_kind k with L_Rsa => spki_bytes (lk_raw k) | _ => lk_raw k end = lk_raw k) by (destruct (lk_kind k); auto; contradiction).
  rewrite E. cbv zeta. rewrite one_byte by exact B. change ([u8_of_N (len (lk_raw k))] ++ lk_raw k) with (u8_of_N (len (lk_raw k)) :: lk_raw k).
  rewrite !len_cons. lia.
Qed.

Lemma small_key : forall C Lib k, libs_laws C Lib -> pk_valid C k -> pk_fmt k <> Rsa ->
  to_peer_id C Lib k = Ok (0, encode_protobuf (mk_lib_key (same_kind (pk_fmt k)) (pk_raw k))) /\
  len (encode_protobuf (mk_lib_key (same_kind (pk_fmt k)) (pk_raw k))) <= 42 /\
  key_of_peer_id C Lib (0, encode_protobuf (mk_lib_key (same_kind (pk_fmt k)) (pk_raw k))) = Ok k.
Proof.
  intros C Lib k L V N. pose proof (not_rsa_raw C k V N) as S.
  assert (Q : 33 < 2 ^ 31 /\ 33 < u64_bound) by (split; reflexivity).
  destruct (p_C124_key C Lib k L V ltac:(lia)) as [l [T [Lv [Kd [Rw Bk]]]]].
  assert (El : l = mk_lib_key (same_kind (pk_fmt k)) (pk_raw k)) by (destruct l as [a b]; cbn in *; subst; reflexivity).
  rewrite <- El. clear El.
  assert (Sz : len (encode_protobuf l) <= 42).
  { rewrite encoded_size; rewrite ?Rw; [lia|lia|]. rewrite Kd. destruct (pk_fmt k); discriminate || contradiction. }
  split; [|split; [exact Sz|]].
  - unfold to_peer_id. rewrite T. cbn [map_ok]. unfold peer_id_of_lib_key. apply N.leb_le in Sz. rewrite Sz. reflexivity.
  - unfold key_of_peer_id, as_public_key. cbn [fst snd N.eqb]. rewrite inlined_back; [|exact L|exact Lv|rewrite Rw; lia]. rewrite Bk. reflexivity.
Qed.

(** The oracles of [with_peer_ids] are this code. *)
Lemma extract_with : forall C Lib b p k, read_peer_id b = Some p -> key_of_peer_id C Lib p = Ok k ->
  extract_public_key (with_peer_ids C Lib) (b58_encode b) = Ok k.
Proof.
  intros C Lib b p k R K. unfold extract_public_key, peer_id_from_str. rewrite b58_roundtrip. cbn [multihash_ok with_peer_ids]. rewrite R.
  unfold pk_of_peer_id. cbn [inlined_key with_peer_ids]. rewrite R, K. reflexivity.
Qed.

Lemma extract_inv : forall C Lib s k, extract_public_key (with_peer_ids C Lib) s = Ok k ->
  exists b p, s = b58_encode b /\ read_peer_id b = Some p /\ key_of_peer_id C Lib p = Ok k.
Proof.
  intros C Lib s k H. unfold extract_public_key, peer_id_from_str in H. destruct (b58_decode s) as [b| | |] eqn:E; try discriminate.
  cbn [multihash_ok with_peer_ids] in H. destruct (read_peer_id b) as [p|] eqn:R; [|discriminate].
  unfold pk_of_peer_id in H. cbn [inlined_key with_peer_ids] in H. rewrite R in H.
  exists b, p. split; [symmetry; apply b58_canonical; exact E|]. split; [exact R|].
  destruct (key_of_peer_id C Lib p) as [k'| | |]; try discriminate. inversion H; subst. reflexivity.
Qed.

Lemma key_of_valid : forall C Lib p k, key_of_peer_id C Lib p = Ok k -> pk_valid C k.
Proof.
  intros C Lib p k H. unfold key_of_peer_id in H. destruct (as_public_key C Lib p) as [[kd raw]|]; [|discriminate].
  unfold of_lib_key in H. cbn [lk_kind lk_raw] in H.
  assert (G : forall f, fmt_supported C f = true -> match @unwrap decoding_error Empty_set public_key (decode_raw_key C f raw) with Ok k => Ok k | _ => @Panic decoding_error public_key end = Ok k -> pk_valid C k).
  { intros f Sf X. destruct (decode_raw_key C f raw) as [k'| | |] eqn:D; try discriminate. inversion X; subst.
    apply decode_raw_key_ok in D. destruct D as [-> D]. split; assumption. }
  destruct kd.
  - exact (G Ed25519 eq_refl H).
  - destruct (wasm32 C) eqn:W; [discriminate|]. apply (G Rsa); [cbn; rewrite W; reflexivity|exact H].
  - exact (G Secp256k1 eq_refl H).
  - discriminate.
Qed.

(** ** C181 *)
(** The peer id of every Ed25519 and secp256k1 key is accepted, as text too, and gives the key back. *)
Lemma p_C181_round_trip : forall C Lib k, libs_laws C Lib -> pk_valid C k -> pk_fmt k <> Rsa ->
  exists p, to_peer_id C Lib k = Ok p /\ read_peer_id (multihash_bytes p) = Some p /\ key_of_peer_id C Lib p = Ok k /\
    pk_to_peer_id (with_peer_ids C Lib) k = multihash_bytes p /\
    extract_public_key (with_peer_ids C Lib) (b58_encode (multihash_bytes p)) = Ok k.
Proof.
  intros C Lib k L V N. destruct (small_key C Lib k L V N) as [T [S K]]. eexists. split; [exact T|].
  assert (R : read_peer_id (multihash_bytes (0, encode_protobuf (mk_lib_key (same_kind (pk_fmt k)) (pk_raw k)))) =
    Some (0, encode_protobuf (mk_lib_key (same_kind (pk_fmt k)) (pk_raw k)))) by (apply small_peer_id; left; split; [reflexivity|exact S]).
  split; [exact R|]. split; [exact K|]. split; [|exact (extract_with C Lib _ _ _ R K)].
  destruct k as [f raw]. destruct V as [_ V]. cbn [pk_fmt pk_raw] in *.
  assert (W : forall kd n, len raw = n -> n < 100 ->
    x00 :: u8_of_N (n + 4) :: x08 :: kd :: x12 :: u8_of_N n :: raw =
    write_varint 10 0 ++ write_varint 10 (len (x08 :: kd :: x12 :: write_varint 10 (len raw) ++ raw)) ++ x08 :: kd :: x12 :: write_varint 10 (len raw) ++ raw).
  { intros kd n Hn B. rewrite Hn, (one_byte n) by lia. change ([u8_of_N n] ++ raw) with (u8_of_N n :: raw).
    rewrite !len_cons, Hn, (one_byte 0), (one_byte (1 + (1 + (1 + (1 + n))))) by lia. replace (1 + (1 + (1 + (1 + n)))) with (n + 4) by lia. reflexivity. }
  destruct f; [|contradiction|]; cbn in V; apply andb_true_iff in V; destruct V as [V _]; apply N.eqb_eq in V.
  - exact (W x01 32 V eq_refl).
  - exact (W x02 33 V eq_refl).
Qed.

(** So with this code in the place of the oracles for peer ids every law about peer ids is met: all that the other theorems ask of
    the libraries is that of the signature schemes and of DER. *)
Lemma p_C181_laws : forall C Lib, scheme_laws C -> libs_laws C Lib -> crypto_laws (with_peer_ids C Lib).
Proof.
  intros C Lib S L. split.
  - exact (scheme_sha_len C S).
  - exact (scheme_ed_public C S).
  - exact (scheme_ed_sign C S).
  - exact (scheme_secp_public C S).
  - exact (scheme_secp_sign C S).
  - exact (scheme_rsa_sign C S).
  - intros k V N. destruct (p_C181_round_trip C Lib k L V N) as [p [_ [R [K [E _]]]]]. rewrite E.
    cbn [multihash_ok inlined_key with_peer_ids]. rewrite R, K. split; reflexivity.
  - intros b k H. cbn [inlined_key with_peer_ids] in H. destruct (read_peer_id b) as [p|]; [|discriminate].
    destruct (key_of_peer_id C Lib p) as [k'| | |] eqn:E; try discriminate. inversion H; subst. exact (key_of_valid C Lib p k E).
Qed.

(** The peer id of an RSA key is accepted; it gives the key back exactly if the key has at most 18 bytes, so that of no real RSA key does. *)
Lemma p_C181_rsa : forall C Lib k, libs_laws C Lib -> (forall m, len (sha256 C m) = 32) -> pk_valid C k -> pk_fmt k = Rsa ->
  len (pk_raw k) < 2 ^ 31 ->
  exists p, to_peer_id C Lib k = Ok p /\ read_peer_id (multihash_bytes p) = Some p /\
    pk_to_peer_id (with_peer_ids C Lib) k = multihash_bytes p /\
    key_of_peer_id C Lib p = (if len (pk_raw k) <=? 18 then Ok k else Err DE_PublicKeyNotInlined).
Proof.
  intros C Lib k L Sh V F S. destruct (p_C124_key C Lib k L V) as [l [T [Lv [Kd [Rw Bk]]]]]; [assert (Q : 2 ^ 31 < u64_bound) by reflexivity; lia|].
  rewrite F in Kd. cbn in Kd.
  exists (peer_id_of_lib_key C l). unfold to_peer_id. rewrite T. split; [reflexivity|].
  assert (Sz : len (encode_protobuf l) <= 42 <-> len (pk_raw k) <= 18).
  { rewrite spki_tiny. unfold encode_protobuf. rewrite Kd, Rw. cbv zeta. cbn [number_of_kind]. rewrite !len_cons, len_app. split; intros H.
    - pose proof (varint_nonempty _ _ (write_varint_ok (len (spki_bytes (pk_raw k))) ltac:(pose proof (spki_small _ S) as X; assert (P : 2 ^ 32 < 128 ^ 10) by reflexivity; lia))) as NE.
      unfold len at 1 in H. lia.
    - rewrite one_byte by lia. unfold len at 1. cbn [length]. lia. }
  split; [|split].
  - unfold peer_id_of_lib_key. destruct (len (encode_protobuf l) <=? 42) eqn:E.
    + apply small_peer_id. left. split; [reflexivity|]. apply N.leb_le. exact E.
    + apply small_peer_id. right. split; [reflexivity|]. rewrite Sh. lia.
  - destruct k as [f raw]. cbn in F, Rw. subst f. cbn [pk_to_peer_id pk_fmt pk_raw rsa_peer_id with_peer_ids].
    destruct l as [kd raw']. cbn in Kd, Rw. subst. reflexivity.
  - unfold key_of_peer_id, as_public_key, peer_id_of_lib_key. destruct (N.leb_spec (len (encode_protobuf l)) 42) as [E|E].
    + assert (E2 : len (pk_raw k) <=? 18 = true) by (apply N.leb_le, Sz, E). rewrite E2. cbn [fst snd N.eqb].
      rewrite inlined_back; [|exact L|exact Lv|rewrite Rw; exact S]. rewrite Bk. reflexivity.
    + assert (E2 : len (pk_raw k) <=? 18 = false) by (apply N.leb_gt; destruct (N.lt_ge_cases 18 (len (pk_raw k))) as [X|X]; [exact X|exfalso; apply Sz in X; lia]).
      rewrite E2. reflexivity.
Qed.

(** A message of at most 42 bytes with the kind and the bytes of a key, in any order and with other fields around them, is read as the key. *)
Lemma p_C181_reads : forall C Lib k fs b, libs_laws C Lib -> pk_valid C k -> pk_fmt k <> Rsa ->
  message_of fs b -> len b <= 42 -> kind_in fs = match pk_fmt k with Ed25519 => 1 | Rsa => 0 | Secp256k1 => 2 end -> data_in fs = pk_raw k ->
  extract_public_key (with_peer_ids C Lib) (b58_encode (x00 :: u8_of_N (len b) :: b)) = Ok k.
Proof.
  intros C Lib k fs b L V N M S Kd Dt.
  assert (E : x00 :: u8_of_N (len b) :: b = multihash_bytes (0, b)).
  { unfold multihash_bytes. cbn [fst snd]. rewrite !one_byte by lia. reflexivity. }
  rewrite E. eapply extract_with; [apply small_peer_id; left; split; [reflexivity|exact S]|].
  unfold key_of_peer_id, as_public_key. cbn [fst snd N.eqb]. unfold try_decode_protobuf.
  rewrite (message_read _ _ M) by lia. fold (kind_in fs) (data_in fs). rewrite Kd, Dt.
  destruct k as [f raw]. pose proof V as [_ Vr]. cbn [pk_fmt pk_raw] in *.
  assert (D : decode_raw_key C f raw = Ok (mk_pk f raw)) by (apply decode_raw_key_ok; auto).
  destruct f; [|contradiction|]; cbn in Vr; cbn [kind_of_number].
  - rewrite (law_lib_ed _ _ L), Vr. unfold of_lib_key. cbn [lk_kind lk_raw]. rewrite D. reflexivity.
  - rewrite (law_lib_point _ _ L), Vr. unfold of_lib_key. cbn [lk_kind lk_raw]. rewrite D. reflexivity.
Qed.

Lemma peer_id_suffix : forall b p, read_peer_id b = Some p -> exists a, b = a ++ snd p.
Proof.
  intros b p H. unfold read_peer_id, read_multihash in H. destruct (read_varint true 10 b) as [[c r]|] eqn:E1; [|discriminate].
  destruct (read_varint true 10 r) as [[z d]|] eqn:E2; [|discriminate].
  destruct (varint_suffix _ _ _ _ _ E1) as [a ->]. destruct (varint_suffix _ _ _ _ _ E2) as [a' ->].
  destruct ((z mod u64_bound <=? 64) && (len d =? z mod u64_bound)); [|discriminate].
  destruct ((c mod u64_bound =? 18) || (c mod u64_bound =? 0) && (len d <=? 42)); [|discriminate]. inversion H; subst. cbn [snd].
  exists (a ++ a'). apply app_assoc.
Qed.

(** A peer id stands only for a key whose bytes are in it. *)
Lemma p_C181_contains : forall C Lib s k, extract_public_key (with_peer_ids C Lib) s = Ok k -> pk_fmt k <> Rsa ->
  pk_valid C k /\ exists before after, s = b58_encode (before ++ pk_raw k ++ after).
Proof.
  intros C Lib s k H N. destruct (extract_inv _ _ _ _ H) as [b [p [-> [R K]]]]. split; [exact (key_of_valid C Lib p k K)|].
  destruct (peer_id_suffix _ _ R) as [a ->].
  assert (G : exists x y, snd p = x ++ pk_raw k ++ y); [|destruct G as [x [y ->]]; exists (a ++ x), y; rewrite <- app_assoc; reflexivity].
  unfold key_of_peer_id in K. destruct (as_public_key C Lib p) as [l|] eqn:E; [|discriminate].
  unfold as_public_key in E. destruct (fst p =? 0); [|discriminate]. unfold try_decode_protobuf in E.
  destruct (read_message (length (snd p)) 0 [] (snd p)) as [[n data]|] eqn:M; [|discriminate].
  assert (I : exists x y, snd p = x ++ data ++ y).
  { destruct (message_contains _ _ _ _ _ _ M) as [->|I]; [exists [], (snd p); reflexivity|exact I]. }
  unfold of_lib_key in K. destruct (kind_of_number n).
  - destruct ((len data =? 32) && lib_ed_point Lib data); [|discriminate]. inversion E; subst. cbn [lk_kind lk_raw] in K.
    destruct (decode_raw_key C Ed25519 data) as [k'| | |] eqn:D; try discriminate. inversion K; subst.
    apply decode_raw_key_ok in D. destruct D as [-> _]. exact I.
  - exfalso. destruct (wasm32 C) eqn:W; [discriminate|]. destruct (lib_x509 Lib data); [|discriminate]. inversion E; subst. cbn [lk_kind lk_raw] in K. cbn in K.
    inversion K; subst. exact (N eq_refl).
  - destruct ((len data =? 33) && lib_secp_point Lib data); [|discriminate]. inversion E; subst. cbn [lk_kind lk_raw] in K.
    destruct (decode_raw_key C Secp256k1 data) as [k'| | |] eqn:D; try discriminate. inversion K; subst.
    apply decode_raw_key_ok in D. destruct D as [-> _]. exact I.
  - discriminate.
Qed.

(** No bytes and no text make reading a peer id, or the key in it, panic. *)
Lemma p_C181_no_panic : forall C Lib p, libs_laws C Lib ->
  (exists k, key_of_peer_id C Lib p = Ok k) \/ key_of_peer_id C Lib p = Err DE_PublicKeyNotInlined.
Proof.
  intros C Lib p L. unfold key_of_peer_id, as_public_key. destruct (fst p =? 0); [|right; reflexivity].
  unfold try_decode_protobuf. destruct (read_message (length (snd p)) 0 [] (snd p)) as [[n data]|]; [|right; reflexivity].
  destruct (kind_of_number n).
  - destruct ((len data =? 32) && lib_ed_point Lib data) eqn:E; [left|right; reflexivity]. rewrite (law_lib_ed _ _ L) in E.
    unfold of_lib_key. cbn [lk_kind lk_raw].
    rewrite (proj2 (decode_raw_key_ok C Ed25519 data (mk_pk Ed25519 data)) (conj eq_refl E)). cbn [unwrap]. eexists; reflexivity.
  - destruct (wasm32 C) eqn:W; [right; reflexivity|]. destruct (lib_x509 Lib data) as [raw|]; [left|right; reflexivity].
    unfold of_lib_key. cbn [lk_kind lk_raw]. rewrite W. cbn. eexists; reflexivity.
  - destruct ((len data =? 33) && lib_secp_point Lib data) eqn:E; [left|right; reflexivity]. rewrite (law_lib_point _ _ L) in E.
    unfold of_lib_key. cbn [lk_kind lk_raw].
    rewrite (proj2 (decode_raw_key_ok C Secp256k1 data (mk_pk Secp256k1 data)) (conj eq_refl E)). cbn [unwrap]. eexists; reflexivity.
  - right; reflexivity.
Qed.

(** The hypotheses can be met; the peer id of a key; the same key with the fields the other way round and with a third field; a kind
    that does not exist; a digest of the key instead of the key. *)
Example e_C181_forms : let C := toy true in let Lib := toy_libs C in let raw := toy_secret 7 in
  let read b := extract_public_key (with_peer_ids C Lib) (b58_encode b) in
  scheme_laws C /\ libs_laws C Lib /\
  read ([x00; x24; x08; x01; x12; x20] ++ raw) = Ok (toy_key 7) /\
  read ([x00; x24; x12; x20] ++ raw ++ [x08; x01]) = Ok (toy_key 7) /\
  read ([x00; x27; x08; x01; x12; x20] ++ raw ++ [x18; x80; x01]) = Ok (toy_key 7) /\
  read ([x00; x24; x08; x05; x12; x20] ++ raw) = Err (SVE_PublicKeyDecodeError DE_PublicKeyNotInlined) /\
  read ([x12; x20] ++ raw) = Err (SVE_PublicKeyDecodeError DE_PublicKeyNotInlined) /\
  read ([x00; x24; x08; x01; x12; x20] ++ raw ++ [x00]) = Err SVE_PublicKeyExtractionError.
Proof.
  cbv zeta. split; [|split; [apply toy_libs_laws|]].
  - pose proof (toy_laws true) as T. split; apply T.
  - repeat split; vm_compute; reflexivity.
Qed.

(** ** C182 *)
(** Every key has more than one peer id that is accepted for it. *)
Lemma p_C182_refuted : forall C Lib k, libs_laws C Lib -> pk_valid C k -> pk_fmt k <> Rsa ->
  exists p q, p <> q /\ extract_public_key (with_peer_ids C Lib) p = Ok k /\ extract_public_key (with_peer_ids C Lib) q = Ok k.
Proof.
  intros C Lib k L V N. destruct k as [f raw]. pose proof (not_rsa_raw C _ V N) as S. cbn [pk_fmt pk_raw] in *.
  assert (G : forall x, N_of_u8 x < 128 -> varint (N_of_u8 x) [x]) by (intros x B; split; [constructor; exact B|cbn; lia]).
  set (kd := match f with Ed25519 => x01 | Rsa => x00 | Secp256k1 => x02 end).
  assert (Hk : N_of_u8 kd < 128) by (destruct f; reflexivity).
  assert (Vl : varint (len raw) [u8_of_N (len raw)]).
  { pose proof (N_of_u8_of_N_small (len raw) ltac:(lia)) as E. rewrite <- E at 1. apply G. lia. }
  assert (Z : 2 ^ 32 = 4294967296) by reflexivity.
  assert (FN : field_of (Number 1 (N_of_u8 kd)) ([x08] ++ [kd])) by (apply a_number; [reflexivity|lia|exact (G x08 eq_refl)|apply G; exact Hk]).
  assert (FC : field_of (Chunk 2 raw) ([x12] ++ [u8_of_N (len raw)] ++ raw)) by (apply a_chunk; [reflexivity|lia|exact (G x12 eq_refl)|exact Vl]).
  set (b1 := ([x08] ++ [kd]) ++ ([x12] ++ [u8_of_N (len raw)] ++ raw) ++ []).
  set (b2 := ([x12] ++ [u8_of_N (len raw)] ++ raw) ++ ([x08] ++ [kd]) ++ []).
  assert (M1 : message_of [Number 1 (N_of_u8 kd); Chunk 2 raw] b1) by (apply a_field; [exact FN|apply a_field; [exact FC|constructor]]).
  assert (M2 : message_of [Chunk 2 raw; Number 1 (N_of_u8 kd)] b2) by (apply a_field; [exact FC|apply a_field; [exact FN|constructor]]).
  assert (S1 : len b1 <= 42) by (unfold b1; rewrite !len_app; cbn [len length]; unfold len in *; cbn [length]; lia).
  assert (S2 : len b2 <= 42) by (unfold b2; rewrite !len_app; cbn [len length]; unfold len in *; cbn [length]; lia).
  assert (Kd : N_of_u8 kd = match f with Ed25519 => 1 | Rsa => 0 | Secp256k1 => 2 end) by (destruct f; reflexivity).
  exists (b58_encode (x00 :: u8_of_N (len b1) :: b1)), (b58_encode (x00 :: u8_of_N (len b2) :: b2)). split; [|split].
  - intros E. apply b58_encode_inj in E. unfold b1, b2 in E. cbn [app] in E. inversion E.
  - apply (p_C181_reads C Lib (mk_pk f raw) [Number 1 (N_of_u8 kd); Chunk 2 raw]); assumption || reflexivity.
  - apply (p_C181_reads C Lib (mk_pk f raw) [Chunk 2 raw; Number 1 (N_of_u8 kd)]); assumption || reflexivity.
Qed.

(** ** C183 *)
(** Different keys have different peer ids, unless two different texts with one SHA-256 digest are known. *)
Lemma p_C183_injective : forall C Lib k k' p, libs_laws C Lib -> (forall m, len (sha256 C m) = 32) -> pk_valid C k -> pk_valid C k' ->
  len (pk_raw k) < 2 ^ 31 -> len (pk_raw k') < 2 ^ 31 ->
  to_peer_id C Lib k = Ok p -> to_peer_id C Lib k' = Ok p -> k = k' \/ exists a b, a <> b /\ sha256 C a = sha256 C b.
Proof.
  intros C Lib k k' p L Sh V V' S S' T T'.
  assert (Q : 2 ^ 31 < u64_bound) by reflexivity.
  destruct (p_C124_key C Lib k L V ltac:(lia)) as [l [Tl [Lv [Kd [Rw Bk]]]]].
  destruct (p_C124_key C Lib k' L V' ltac:(lia)) as [l' [Tl' [Lv' [Kd' [Rw' Bk']]]]].
  unfold to_peer_id in T, T'. rewrite Tl in T. rewrite Tl' in T'. cbn [map_ok] in T, T'. injection T as T. injection T' as T'.
  assert (Same : encode_protobuf l = encode_protobuf l' -> k = k').
  { intros E. assert (X : Some l = Some l').
    { rewrite <- (inlined_back C Lib l L Lv) by (rewrite Rw; exact S). rewrite E. apply inlined_back; [exact L|exact Lv'|rewrite Rw'; exact S']. }
    injection X as ->. rewrite Bk in Bk'. injection Bk' as ->. reflexivity. }
  unfold peer_id_of_lib_key in T, T'.
  destruct (len (encode_protobuf l) <=? 42), (len (encode_protobuf l') <=? 42); subst p; try (apply (f_equal fst) in T'; discriminate T').
  - apply (f_equal snd) in T'. cbn [snd] in T'. left. apply Same. symmetry. exact T'.
  - apply (f_equal snd) in T'. cbn [snd] in T'. destruct (bytes_eq_dec (encode_protobuf l) (encode_protobuf l')) as [E|E]; [left; exact (Same E)|right].
    exists (encode_protobuf l), (encode_protobuf l'). split; [exact E|symmetry; exact T'].
Qed.

(** As texts too. *)
Lemma p_C183_texts : forall C Lib k k' p p', libs_laws C Lib -> (forall m, len (sha256 C m) = 32) -> pk_valid C k -> pk_valid C k' ->
  len (pk_raw k) < 2 ^ 31 -> len (pk_raw k') < 2 ^ 31 ->
  to_peer_id C Lib k = Ok p -> to_peer_id C Lib k' = Ok p' -> b58_encode (multihash_bytes p) = b58_encode (multihash_bytes p') -> p = p'.
Proof.
  intros C Lib k k' p p' L Sh V V' S S' T T' E. apply b58_encode_inj in E.
  assert (R : forall k p, to_peer_id C Lib k = Ok p -> read_peer_id (multihash_bytes p) = Some p).
  { intros k0 p0 H. unfold to_peer_id in H. destruct (to_lib_key Lib k0) as [l| | |]; try discriminate. cbn [map_ok] in H. injection H as <-.
    unfold peer_id_of_lib_key. destruct (len (encode_protobuf l) <=? 42) eqn:Z.
    - apply small_peer_id. left. split; [reflexivity|]. apply N.leb_le. exact Z.
    - apply small_peer_id. right. split; [reflexivity|]. rewrite Sh. lia. }
  pose proof (R _ _ T) as X. pose proof (R _ _ T') as Y. rewrite E, Y in X. injection X as <-. reflexivity.
Qed.

(** Two keys, two peer ids. *)
Example e_C183_two : let C := toy false in let Lib := toy_libs C in
  libs_laws C Lib /\ (forall m, len (sha256 C m) = 32) /\
  to_peer_id C Lib (toy_key 1) <> to_peer_id C Lib (toy_key 2) /\
  to_peer_id C Lib (toy_key 1) = Ok (0, [x08; x01; x12; x20] ++ toy_secret 1) /\
  to_peer_id C Lib (mk_pk Rsa [x05]) = Ok (0, [x08; x00; x12; x15] ++ spki_bytes [x05]) /\
  to_peer_id C Lib (mk_pk Rsa (repeat x05 200)) = Ok (18, sha256 C ([x08; x00; x12; xde; x01] ++ spki_bytes (repeat x05 200))).
Proof.
  cbv zeta. split; [apply toy_libs_laws|]. split; [exact toy_sha_len|]. split; [|repeat split; vm_compute; reflexivity].
  vm_compute. discriminate.
Qed.
