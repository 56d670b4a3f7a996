(** Text codecs the code base relies on: base58 (crate bs58, default Bitcoin
    alphabet), decimal printing/parsing of u64 (std), [str::lines] (std). *)
From Coq Require Import List NArith ZArith Bool.
From Coq Require String.
Import String.StringSyntax.
From Verif Require Import Base.
Import ListNotations.
Open Scope N_scope.

(** Positional numbers, most significant digit first. Arithmetic of [bs58::encode] and [bs58::decode], called in trust.rs 53, 57, 222, 261-262, public_key.rs 94, public_key_hashable.rs 79, 121, certificate.rs 298-299. *)
Definition of_digits (base : N) (l : list N) : N := fold_left (fun acc d => acc * base + d) l 0.
Fixpoint to_digits_aux (base : N) (fuel : nat) (n : N) (acc : list N) : list N :=
  match fuel with
  | O => acc
  | S f => if n =? 0 then acc else to_digits_aux base f (n / base) (n mod base :: acc)
  end.
(** No digit for 0; no leading zero digit. Fuel: number of bits, enough for every base >= 2. *)
Definition to_digits (base : N) (n : N) : list N := to_digits_aux base (N.size_nat n) n [].

(** Split off the longest prefix of elements satisfying [p]. For [lines] below, certificate.rs 311. *)
Fixpoint span {A} (p : A -> bool) (l : list A) : list A * list A :=
  match l with
  | [] => ([], [])
  | x :: l' => if p x then let (a, b) := span p l' in (x :: a, b) else ([], l)
  end.

(** Bitcoin base58 alphabet (crate bs58, [Alphabet::DEFAULT]). *)
Definition b58_alphabet : text := str "123456789ABCDEFGHJKLMNPQRSTUVWXYZabcdefghijkmnopqrstuvwxyz".
Definition b58_char (d : N) : byte := nth (N.to_nat d) b58_alphabet x31.
Fixpoint index_of (c : byte) (l : text) (i : N) : option N :=
  match l with
  | [] => None
  | x :: l' => if Byte.eqb c x then Some i else index_of c l' (i + 1)
  end.
Definition b58_digit (c : byte) : option N := index_of c b58_alphabet 0.

(** [bs58::encode(b).into_string()]: one '1' per leading zero byte, then the
    base-58 digits of the remaining big-endian number. *)
Definition b58_encode (b : bytes) : text :=
  let (zeros, rest) := span (Byte.eqb x00) b in
  map (fun _ => x31) zeros ++ map b58_char (to_digits 58 (of_digits 256 (map N_of_u8 rest))).

Inductive b58_error := B58_InvalidCharacter.   (* bs58::decode::Error; position and character dropped *)

(** [bs58::decode(s).into_vec()]. *)
Definition b58_decode (s : text) : result b58_error bytes :=
  let? ds := collect (fun c => match b58_digit c with Some d => Ok d | None => Err B58_InvalidCharacter end) s in
  let (zeros, rest) := span (N.eqb 0) ds in
  Ok (map (fun _ => x00) zeros ++ map u8_of_N (to_digits 256 (of_digits 58 rest))).

(** [u64::to_string]. *)
Definition dec_char (d : N) : byte := u8_of_N (48 + d).
Definition u64_to_string (n : N) : text :=
  if n =? 0 then [dec_char 0] else map dec_char (to_digits 10 n).

Inductive parse_int_error := PIE_Empty | PIE_InvalidDigit | PIE_PosOverflow.

Definition dec_digit (c : byte) : option N :=
  let n := N_of_u8 c in
  if (48 <=? n) && (n <=? 57) then Some (n - 48) else None.

Fixpoint parse_digits (acc : N) (s : text) : result parse_int_error N :=
  match s with
  | [] => Ok acc
  | c :: s' =>
      match dec_digit c with
      | None => Err PIE_InvalidDigit
      | Some d =>
          let acc' := acc * 10 + d in
          if acc' <? u64_bound then parse_digits acc' s' else Err PIE_PosOverflow
      end
  end.

(** [str::parse::<u64>]: optional leading '+', digits, overflow check. A lone
    sign is an invalid digit; '-' is not accepted for unsigned types. *)
Definition parse_u64 (s : text) : result parse_int_error N :=
  match s with
  | [] => Err PIE_Empty
  | c :: s' =>
      if Byte.eqb c x2b
      then match s' with [] => Err PIE_InvalidDigit | _ => parse_digits 0 s' end
      else parse_digits 0 s
  end.

(** [str::lines]: split after each '\n'; drop the terminator and one '\r'
    directly before it; no final empty line. Called in certificate.rs 311. *)
Definition strip_cr (rev_line : text) : text :=
  match rev_line with
  | c :: r => if Byte.eqb c x0d then rev r else rev rev_line
  | [] => []
  end.
Fixpoint lines_aux (cur : text) (s : text) : list text :=
  match s with
  | [] => match cur with [] => [] | _ => [rev cur] end
  | c :: s' => if Byte.eqb c x0a then strip_cr cur :: lines_aux [] s' else lines_aux (c :: cur) s'
  end.
Definition lines (s : text) : list text := lines_aux [] s.
