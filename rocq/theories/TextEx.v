(** Examples for the properties of TextThms.v. *)
From Coq Require Import List NArith ZArith Bool.
From Coq Require String.
Import String.StringSyntax.
From Verif Require Import Base Text Keys Trust Certificate Spec Relation TextSpec TextThms Toy ToyFacts.
Import ListNotations.
Open Scope N_scope.

(** The largest number is read, the next one is not; signs and leading zeros. *)
Example e_C99_numbers : parse_u64 (str "18446744073709551615") = Ok (2 ^ 64 - 1) /\ parse_u64 (str "18446744073709551616") = Err PIE_PosOverflow /\
  parse_u64 (str "+007") = Ok 7 /\ parse_u64 (str "-7") = Err PIE_InvalidDigit /\ parse_u64 (str "7 ") = Err PIE_InvalidDigit /\ number_text (str "42") 42.
Proof. repeat split; try (vm_compute; reflexivity). apply p_C99_number_exact. vm_compute. reflexivity. Qed.
(** A carriage return before a newline is dropped, another one is kept; the last newline ends no further line. *)
Example e_C99_lines : line_texts (str "a" ++ [x0d; x0a; x0a] ++ str "b" ++ [x0d]) [str "a"; []; str "b" ++ [x0d]] /\ line_texts (str "a" ++ [x0a]) [str "a"].
Proof. split; apply p_C99_lines_exact; reflexivity. Qed.
(** Base58: leading zeros, and a character that is no digit. *)
Example e_C99_base58 : base58_text (str "112g") [x00; x00; x61] /\ b58_decode (str "0") = Err B58_InvalidCharacter.
Proof. split; [apply p_C99_base58_encode_exact; vm_compute; reflexivity|vm_compute; reflexivity]. Qed.
Example e_C99_certificate : exists ls, trusts_lines (toy true) [toy_trust 1 1 100 1; toy_trust 1 2 90 2] ls /\ length ls = 8%nat.
Proof.
  destruct (p_C99_certificate_written (toy true) [toy_trust 1 1 100 1; toy_trust 1 2 90 2]) as (f & v & ls & _ & H).
  { intros t [<-|[<-|[]]]; apply toy_trust_fits; reflexivity. }
  exists ls. split; [exact H|]. rewrite (trusts_lines_length _ _ _ H). reflexivity.
Qed.
(** A damaged expiry in the second trust is reported at line 6. *)
Example e_C99_error_position : forall a b c d a' b' d', trust_strings (toy_trust 1 1 100 1) = (a, b, c, d) -> (exists c', trust_strings (toy_trust 1 2 90 2) = (a', b', c', d')) ->
  cert_from_str (toy true) (flat_map (fun l => l ++ [x0a]) [[]; []; a; b; c; d; a'; b'; str "9o"; d']) =
  Err (CE_DecodeTrustError 6 (TE_ParseError F_expires_at PIE_InvalidDigit)).
Proof.
  intros a b c d a' b' d' H (c' & H'). vm_compute in H. injection H as <- <- <- <-. vm_compute in H'. injection H' as <- <- _ <-. vm_compute. reflexivity.
Qed.
Example e_C100_same_file : cert_from_str (toy true) ([x0a; x0a] ++ skipn 8 (cert_to_string [toy_trust 1 1 100 1])) = Ok [toy_trust 1 1 100 1] /\
  cert_from_str (toy true) (cert_to_string [toy_trust 1 1 100 1]) = Ok [toy_trust 1 1 100 1].
Proof. split; vm_compute; reflexivity. Qed.
(** The largest and an ordinary time in eight bytes. *)
Example e_C101_times : eight_bytes (2 ^ 64 - 1) (repeat xff 8) /\ eight_bytes 258 [x02; x01; x00; x00; x00; x00; x00; x00].
Proof. repeat split. Qed.
Example e_C101_layout : trust_bytes (toy_trust 1 2 90 2) (trust_encode (toy_trust 1 2 90 2)) /\
  certificate_bytes (repeat x00 6) [toy_trust 1 1 100 1; toy_trust 1 2 90 2] (cert_encode [toy_trust 1 1 100 1; toy_trust 1 2 90 2]).
Proof.
  split.
  - apply (p_C101_trust_layout (toy true)); [apply toy_trust_fits; reflexivity|vm_compute; reflexivity|vm_compute; reflexivity].
  - apply (p_C101_certificate_layout (toy true)); [|vm_compute; auto 300].
    intros t [<-|[<-|[]]]; (split; [apply toy_trust_fits; reflexivity|vm_compute; reflexivity]).
Qed.
Example e_C56_secrets : kp_from_secret_key (toy true) (toy_secret 3) Ed25519 = Ok (toy_kp 3) /\
  kp_from_secret_key (toy true) (x00 :: toy_secret 3) Ed25519 = Err DE_InvalidLength.
Proof. split; vm_compute; reflexivity. Qed.
