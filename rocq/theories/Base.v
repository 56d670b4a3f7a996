(** Base definitions shared by the model: results with explicit panics,
    machine integers, little-endian encoding, durations.
    Nothing here is proved; see BaseFacts.v. *)
From Coq Require Import List NArith ZArith Bool.
From Coq Require Export Init.Byte.
From Coq Require Strings.Byte String.
Import String.StringSyntax.
Import ListNotations.
Open Scope N_scope.

(** Bytes and text. A Rust [Vec<u8>]/[&[u8]] is a list of bytes; a Rust
    [String]/[&str] is the list of its UTF-8 bytes. *)
Definition bytes := list byte.
Definition text := list byte.

(** ASCII text from a Coq string literal. For the literals of /repo, e.g. service/src/main.rs 17. *)
Definition str (s : String.string) : text := String.list_byte_of_string s.
Arguments str s%string_scope.

(** Result of a Rust function: [Ok]/[Err] are Rust's, [Panic] is an unwinding
    panic (index out of bounds, [unwrap] on [Err], [todo!]). [OutOfFuel] is an artefact of the
    model: the [while] loop of [bf_search_paths] is proved never to produce it (see GraphFacts.v); the only
    other loop without a bound is the drawing of random blocks in Convert.v. *)
Inductive result (E A : Type) : Type :=
| Ok (a : A)
| Err (e : E)
| Panic
| OutOfFuel.
Arguments Ok {E A} a.
Arguments Err {E A} e.
Arguments Panic {E A}.
Arguments OutOfFuel {E A}.

(** [r?] followed by more code. E.g. trust.rs 190, 199; trust_graph.rs 126-135. *)
Definition bind {E A B} (r : result E A) (f : A -> result E B) : result E B :=
  match r with
  | Ok a => f a
  | Err e => Err e
  | Panic => Panic
  | OutOfFuel => OutOfFuel
  end.

(** [r.map_err(f)]. E.g. trust.rs 223; storage_impl.rs 288, 325. *)
Definition map_err {E F A} (f : E -> F) (r : result E A) : result F A :=
  match r with
  | Ok a => Ok a
  | Err e => Err (f e)
  | Panic => Panic
  | OutOfFuel => OutOfFuel
  end.

(** [r.map(f)]. E.g. storage_impl.rs 214. *)
Definition map_ok {E A B} (f : A -> B) (r : result E A) : result E B :=
  match r with
  | Ok a => Ok (f a)
  | Err e => Err e
  | Panic => Panic
  | OutOfFuel => OutOfFuel
  end.

Notation "'let?' x := r 'in' k" := (bind r (fun x => k))
  (at level 200, x name, r at level 100, k at level 200).

(** [iter.map(f).collect::<Result<Vec<_>,_>>()]: stops at the first failure. The loop of storage_impl.rs 323-328. *)
Fixpoint collect {E A B} (f : A -> result E B) (l : list A) : result E (list B) :=
  match l with
  | [] => Ok []
  | x :: l' =>
      let? y := f x in
      let? ys := collect f l' in
      Ok (y :: ys)
  end.

(** Decidable equality of byte lists. [==] on byte strings and texts, e.g. the SQL of storage_impl.rs 98, 204, 281. *)
Fixpoint bytes_eqb (a b : bytes) : bool :=
  match a, b with
  | [], [] => true
  | x :: a', y :: b' => Byte.eqb x y && bytes_eqb a' b'
  | _, _ => false
  end.

(** Machine integers. The types and casts of trust.rs 147-210, certificate.rs 235-288, storage_impl.rs 160-161, 270-288. *)
Definition u8_of_N (n : N) : byte :=          (* [n as u8] *)
  match Byte.of_N (n mod 256) with Some b => b | None => x00 end.
Definition N_of_u8 (b : byte) : N := Byte.to_N b.
Definition len (l : bytes) : N := N.of_nat (length l).

Definition u64_bound : N := 18446744073709551616.   (* 2^64 *)
Definition u32_bound : N := 4294967296.             (* 2^32 *)
Definition i64_bound : N := 9223372036854775808.    (* 2^63 *)
Definition u64_max : N := 18446744073709551615.     (* [u64::MAX] *)
Definition u32_max : N := 4294967295.               (* [u32::MAX] *)

(** [x as i64] for [x : u64]: two's complement reinterpretation. *)
Definition i64_of_u64 (n : N) : Z :=
  if n <? i64_bound then Z.of_N n else (Z.of_N n - Z.of_N u64_bound)%Z.
(** [x as u64] for [x : i64]. *)
Definition u64_of_i64 (z : Z) : N := Z.to_N (z mod Z.of_N u64_bound).
(** u32 addition/subtraction with wrapping (release build semantics; a build with
    overflow checks would panic instead). *)
Definition u32_add (a b : N) : N := (a + b) mod u32_bound.
Definition u32_sub (a b : N) : N := (a + u32_bound - b) mod u32_bound.
(** [x as u32] for [x : usize]. *)
Definition u32_of_nat (n : nat) : N := N.of_nat n mod u32_bound.

(** [u64::to_le_bytes], [u64::from_le_bytes]: [k] bytes, least significant first. *)
Fixpoint le_bytes (k : nat) (n : N) : bytes :=
  match k with
  | O => []
  | S k' => u8_of_N n :: le_bytes k' (n / 256)
  end.
Fixpoint le_value (l : bytes) : N :=
  match l with
  | [] => 0
  | b :: l' => N_of_u8 b + 256 * le_value l'
  end.

(** [std::time::Duration]: whole seconds (u64) and nanoseconds below 10^9. *)
Record duration := mk_duration { secs : N; nanos : N }.
Definition from_secs (s : N) : duration := mk_duration s 0.     (* [Duration::from_secs] *)
(** [<] on [Duration]: lexicographic. storage_impl.rs 70, 76; trust.rs 135. *)
Definition duration_ltb (a b : duration) : bool :=
  (secs a <? secs b) || ((secs a =? secs b) && (nanos a <? nanos b)).
Definition duration_eqb (a b : duration) : bool :=
  (secs a =? secs b) && (nanos a =? nanos b).
(** Values the Rust type can hold. Fields of type [Duration], trust.rs 40-49. *)
Definition duration_wf (d : duration) : Prop := secs d < u64_bound /\ nanos d < 1000000000.
(** Whole-second durations, the only ones the codecs and the database can represent. trust.rs 147-148, 168-169, 204-210; storage_impl.rs 160-161, 270-271. *)
Definition whole_secs (d : duration) : Prop := secs d < u64_bound /\ nanos d = 0.
