(** Peer ids, and errors as strings. Every proof is a lemma of PeerIdThms.v, PeerIdServiceThms.v or ErrorStringThms.v. *)
From Coq Require Import List NArith ZArith Bool.
From Coq Require Import Strings.Byte.
From Coq Require String.
Import String.StringSyntax.
From Verif Require Import Base Text Keys Trust Certificate Relation Storage Graph Service Convert ConvertSpec Toy ConvertFacts
  ErrorText ErrorString PeerId PeerIdSpec PeerIdThms PeerIdServiceThms ErrorStringThms.
Import ListNotations.
Open Scope N_scope.

(** ** C181 *)
(** The peer id of every Ed25519 and secp256k1 key is accepted, as text too, and gives the key back. *)
Theorem C181_round_trip : forall C Lib k, libs_laws C Lib -> pk_valid C k -> pk_fmt k <> Rsa ->
  exists p, to_peer_id C Lib k = Ok p /\ read_peer_id (multihash_bytes p) = Some p /\ key_of_peer_id C Lib p = Ok k /\
    pk_to_peer_id (with_peer_ids C Lib) k = multihash_bytes p /\
    extract_public_key (with_peer_ids C Lib) (b58_encode (multihash_bytes p)) = Ok k.
Proof. exact p_C181_round_trip. Qed.
Print Assumptions C181_round_trip.

(** So with this code in the place of the oracles for peer ids every law about peer ids is met: all that the other theorems ask of
    the libraries is that of the signature schemes and of DER. *)
Theorem C181_laws : forall C Lib, scheme_laws C -> libs_laws C Lib -> crypto_laws (with_peer_ids C Lib).
Proof. exact p_C181_laws. Qed.
Print Assumptions C181_laws.

(** The peer id of an RSA key is accepted; it gives the key back exactly if the key has at most 18 bytes, so that of no real RSA key does. *)
Theorem C181_rsa : forall C Lib k, libs_laws C Lib -> (forall m, len (sha256 C m) = 32) -> pk_valid C k -> pk_fmt k = Rsa ->
  len (pk_raw k) < 2 ^ 31 ->
  exists p, to_peer_id C Lib k = Ok p /\ read_peer_id (multihash_bytes p) = Some p /\
    pk_to_peer_id (with_peer_ids C Lib) k = multihash_bytes p /\
    key_of_peer_id C Lib p = (if len (pk_raw k) <=? 18 then Ok k else Err DE_PublicKeyNotInlined).
Proof. exact p_C181_rsa. Qed.
Print Assumptions C181_rsa.

(** A message of at most 42 bytes with the kind and the bytes of a key, in any order and with other fields around them, is read as the key. *)
Theorem C181_reads : forall C Lib k fs b, libs_laws C Lib -> pk_valid C k -> pk_fmt k <> Rsa ->
  message_of fs b -> len b <= 42 -> kind_in fs = match pk_fmt k with Ed25519 => 1 | Rsa => 0 | Secp256k1 => 2 end -> data_in fs = pk_raw k ->
  extract_public_key (with_peer_ids C Lib) (b58_encode (x00 :: u8_of_N (len b) :: b)) = Ok k.
Proof. exact p_C181_reads. Qed.
Print Assumptions C181_reads.

(** A peer id stands only for a key whose bytes are in it. *)
Theorem C181_contains : forall C Lib s k, extract_public_key (with_peer_ids C Lib) s = Ok k -> pk_fmt k <> Rsa ->
  pk_valid C k /\ exists before after, s = b58_encode (before ++ pk_raw k ++ after).
Proof. exact p_C181_contains. Qed.
Print Assumptions C181_contains.

(** No bytes and no text make reading a peer id, or the key in it, panic. *)
Theorem C181_no_panic : forall C Lib p, libs_laws C Lib ->
  (exists k, key_of_peer_id C Lib p = Ok k) \/ key_of_peer_id C Lib p = Err DE_PublicKeyNotInlined.
Proof. exact p_C181_no_panic. Qed.
Print Assumptions C181_no_panic.

(** The hypotheses can be met; the peer id of a key; the same key with the fields the other way round and with a third field; a kind
    that does not exist; a digest of the key instead of the key. *)
Example C181_example_forms : let C := toy true in let Lib := toy_libs C in let raw := toy_secret 7 in
  let read b := extract_public_key (with_peer_ids C Lib) (b58_encode b) in
  scheme_laws C /\ libs_laws C Lib /\
  read ([x00; x24; x08; x01; x12; x20] ++ raw) = Ok (toy_key 7) /\
  read ([x00; x24; x12; x20] ++ raw ++ [x08; x01]) = Ok (toy_key 7) /\
  read ([x00; x27; x08; x01; x12; x20] ++ raw ++ [x18; x80; x01]) = Ok (toy_key 7) /\
  read ([x00; x24; x08; x05; x12; x20] ++ raw) = Err (SVE_PublicKeyDecodeError DE_PublicKeyNotInlined) /\
  read ([x12; x20] ++ raw) = Err (SVE_PublicKeyDecodeError DE_PublicKeyNotInlined) /\
  read ([x00; x24; x08; x01; x12; x20] ++ raw ++ [x00]) = Err SVE_PublicKeyExtractionError.
Proof. exact e_C181_forms. Qed.

(** ** C182 *)
(** Every key has more than one peer id that is accepted for it. *)
Theorem C182_refuted : forall C Lib k, libs_laws C Lib -> pk_valid C k -> pk_fmt k <> Rsa ->
  exists p q, p <> q /\ extract_public_key (with_peer_ids C Lib) p = Ok k /\ extract_public_key (with_peer_ids C Lib) q = Ok k.
Proof. exact p_C182_refuted. Qed.
Print Assumptions C182_refuted.

(** Which of its spellings a call uses makes no difference to the database, nor to the answer, but that a weight is told with the
    peer id as it was spelled. *)
Theorem C182_spelling : forall C cp c c' f d, respelled C c c' ->
  same_response (fst (service_step C d (cp, c, f))) (fst (service_step C d (cp, c', f))) /\
  snd (service_step C d (cp, c', f)) = snd (service_step C d (cp, c, f)).
Proof. exact p_C182_spelling. Qed.
Print Assumptions C182_spelling.

(** Whole histories too. *)
Theorem C182_history : forall C es es' d,
  Forall2 (fun e e' => fst (fst e) = fst (fst e') /\ respelled C (snd (fst e)) (snd (fst e')) /\ snd e = snd e') es es' ->
  service_history C d es' = service_history C d es.
Proof. exact p_C182_history. Qed.
Print Assumptions C182_history.

(** The same calls with two spellings of the peer id of one key, with the code of this model for the peer ids. *)
Example C182_example_two_spellings : let C := with_peer_ids (toy true) (toy_libs (toy true)) in
  let p := b58_encode ([x00; x24; x08; x01; x12; x20] ++ toy_secret 1) in
  let q := b58_encode ([x00; x24; x12; x20] ++ toy_secret 1 ++ [x08; x01]) in
  let cp := mk_params [x61] [x61] [x68] [[]; [mk_tetraplet [x68] (fst TRUSTED_TIMESTAMP) (snd TRUSTED_TIMESTAMP)]] in
  p <> q /\ one_key C p q /\
  map (fun a => let d := snd (service_step C empty_db (cp, S_set_root a 4, None)) in
    map (fun b => match fst (service_step C d (cp, S_get_weight b 10, None)) with Ok r => Some (success r, reply r) | _ => None end) [p; q]) [p; q] =
  [[Some (true, P_weight 16 p); Some (true, P_weight 16 q)]; [Some (true, P_weight 16 p); Some (true, P_weight 16 q)]].
Proof. exact e_C182_two_spellings. Qed.

(** ** C183 *)
(** Different keys have different peer ids, unless two different texts with one SHA-256 digest are known. *)
Theorem C183_injective : forall C Lib k k' p, libs_laws C Lib -> (forall m, len (sha256 C m) = 32) -> pk_valid C k -> pk_valid C k' ->
  len (pk_raw k) < 2 ^ 31 -> len (pk_raw k') < 2 ^ 31 ->
  to_peer_id C Lib k = Ok p -> to_peer_id C Lib k' = Ok p -> k = k' \/ exists a b, a <> b /\ sha256 C a = sha256 C b.
Proof. exact p_C183_injective. Qed.
Print Assumptions C183_injective.

(** As texts too. *)
Theorem C183_texts : forall C Lib k k' p p', libs_laws C Lib -> (forall m, len (sha256 C m) = 32) -> pk_valid C k -> pk_valid C k' ->
  len (pk_raw k) < 2 ^ 31 -> len (pk_raw k') < 2 ^ 31 ->
  to_peer_id C Lib k = Ok p -> to_peer_id C Lib k' = Ok p' -> b58_encode (multihash_bytes p) = b58_encode (multihash_bytes p') -> p = p'.
Proof. exact p_C183_texts. Qed.
Print Assumptions C183_texts.

(** Two keys, two peer ids. *)
Example C183_example_two : let C := toy false in let Lib := toy_libs C in
  libs_laws C Lib /\ (forall m, len (sha256 C m) = 32) /\
  to_peer_id C Lib (toy_key 1) <> to_peer_id C Lib (toy_key 2) /\
  to_peer_id C Lib (toy_key 1) = Ok (0, [x08; x01; x12; x20] ++ toy_secret 1) /\
  to_peer_id C Lib (mk_pk Rsa [x05]) = Ok (0, [x08; x00; x12; x15] ++ spki_bytes [x05]) /\
  to_peer_id C Lib (mk_pk Rsa (repeat x05 200)) = Ok (18, sha256 C ([x08; x00; x12; xde; x01] ++ spki_bytes (repeat x05 200))).
Proof. exact e_C183_two. Qed.

(** ** C184 *)
(** Converting an error of the database of the service into a string ends for no error and on no stack, however large. *)
Theorem C184_storage_refuted : forall e stack s, string_of_storage_error stack e <> Ok s.
Proof. exact p_C184_storage_refuted. Qed.
Print Assumptions C184_storage_refuted.

(** Converting an error of the graph into a string gives the text it is displayed as, which is never empty. *)
Theorem C184_graph : forall F e, string_of_graph_error F e = graph_error_text F e /\ string_of_graph_error F e <> [].
Proof. exact p_C184_graph. Qed.
Print Assumptions C184_graph.

(** The text of a database error inside an error of the graph. *)
Example C184_example_inner : forall F, string_of_graph_error F (GE_InternalStorage SE_WeightFactorConversionDB) =
  str "Internal storage error: Cannot convert weight factor as integer from DB".
Proof. exact e_C184_inner. Qed.
