(** The vocabulary of the properties of the text forms and of the byte layouts. *)
From Coq Require Import List NArith Bool.
From Coq Require String.
Import String.StringSyntax.
From Verif Require Import Base Text Keys Trust Certificate Spec.
Import ListNotations.
Open Scope N_scope.

(** The value of digits, most significant first. *)
Definition positional (base : N) (ds : list N) : N := fold_left (fun a d => base * a + d) ds 0.

(** Character [c] is the decimal digit [d]. *)
Definition digit_char (c : byte) (d : N) : Prop := d < 10 /\ Byte.to_N c = 48 + d.
(** [s] is a non-empty string of decimal digits of value [n]. *)
Definition decimal (s : text) (n : N) : Prop :=
  exists ds, ds <> [] /\ Forall2 digit_char s ds /\ n = positional 10 ds.
(** [s] is a text of the 64-bit number [n]: digits, perhaps after a plus sign. *)
Definition number_text (s : text) (n : N) : Prop :=
  n < 2 ^ 64 /\ (decimal s n \/ exists s', s = x2b :: s' /\ decimal s' n).

(** Line [l] without a carriage return at its end. *)
Definition chopped (l l' : text) : Prop :=
  l = l' ++ [x0d] \/ (l' = l /\ forall m, l <> m ++ [x0d]).
(** [ls] are the lines of [s]: [s] is [raw] lines each ended by a newline and a last piece [tail]
    without one, which is a line if it is not empty. *)
Definition line_texts (s : text) (ls : list text) : Prop :=
  exists raw tail ls', s = flat_map (fun l => l ++ [x0a]) raw ++ tail /\
    (forall l, In l (tail :: raw) -> ~ In x0a l) /\ Forall2 chopped raw ls' /\
    ((tail = [] /\ ls = ls') \/ (tail <> [] /\ ls = ls' ++ [tail])).

(** Character [c] stands for the base58 digit [d]. *)
Definition base58_char (c : byte) (d : N) : Prop :=
  nth_error (str "123456789ABCDEFGHJKLMNPQRSTUVWXYZabcdefghijkmnopqrstuvwxyz") (N.to_nat d) = Some c.
(** [s] is the base58 text of [b]: a [1] for every leading zero byte, then the digits of the number the
    other bytes form, with no leading zero digit. *)
Definition base58_text (s : text) (b : bytes) : Prop :=
  exists z body ds rest, s = repeat x31 z ++ body /\ b = repeat x00 z ++ rest /\ Forall2 base58_char body ds /\
    hd_error ds <> Some 0 /\ hd_error rest <> Some x00 /\ positional 58 ds = positional 256 (map Byte.to_N rest).

(** The byte that announces a key format. *)
Definition format_byte (f : key_format) (b : byte) : Prop :=
  match f with Ed25519 => b = x00 | Rsa => b = x01 | Secp256k1 => b = x02 end.
(** The bytes of a key and of a signature: the format byte and the raw bytes. *)
Definition key_bytes (k : public_key) (b : bytes) : Prop := exists f, format_byte (pk_fmt k) f /\ b = f :: pk_raw k.
Definition signature_bytes (s : signature) (b : bytes) : Prop := exists f, format_byte (sig_fmt s) f /\ b = f :: sig_raw s.
(** Eight bytes hold [n], the least significant first. *)
Definition eight_bytes (n : N) (b : bytes) : Prop := length b = 8%nat /\ n = positional 256 (rev (map Byte.to_N b)).
(** [l] tells the length of [b]. *)
Definition length_byte (b : bytes) (l : byte) : Prop := Byte.to_N l = N.of_nat (length b).

(** The bytes of a trust: key and signature, each after its length, the expiry and the time of issue. *)
Definition trust_bytes (t : trust) (b : bytes) : Prop :=
  exists kl key sl sg ex iss, b = kl :: key ++ sl :: sg ++ ex ++ iss /\ length_byte key kl /\ key_bytes (issued_for t) key /\
    length_byte sg sl /\ signature_bytes (trust_sig t) sg /\ eight_bytes (secs (expires_at t)) ex /\ eight_bytes (secs (issued_at t)) iss.
(** The bytes of some trusts, each after its length. *)
Inductive trusts_bytes : list trust -> bytes -> Prop :=
| TB_nil : trusts_bytes [] []
| TB_cons : forall t ts l b bs, trust_bytes t b -> length_byte b l -> trusts_bytes ts bs -> trusts_bytes (t :: ts) (l :: b ++ bs).
(** The bytes of a certificate: a header [h], the number of trusts, the trusts. *)
Definition certificate_bytes (h : bytes) (c : certificate) (b : bytes) : Prop :=
  exists n bs, b = h ++ n :: bs /\ Byte.to_N n = N.of_nat (length c) /\ trusts_bytes c bs.
(** What is hashed and signed in a trust: key, expiry, time of issue. *)
Definition trust_payload (k : public_key) (expires issued : N) (b : bytes) : Prop :=
  exists key ex iss, b = key ++ ex ++ iss /\ key_bytes k key /\ eight_bytes expires ex /\ eight_bytes issued iss.
(** What is hashed and signed in a revocation: the length of the key, the key, the time. *)
Definition revocation_payload (k : public_key) (at_ : N) (b : bytes) : Prop :=
  exists l key w, b = l :: key ++ w /\ length_byte key l /\ key_bytes k key /\ eight_bytes at_ w.

(** The peer id of a key, as libp2p defines it: 0 (nothing is hashed), a length, and the key as a message of two
    fields, the kind (1 or 2) and the raw key after its length. *)
Definition peer_id_bytes (k : public_key) (b : bytes) : Prop :=
  exists n kind l msg, b = x00 :: n :: msg /\ length_byte msg n /\ msg = x08 :: kind :: x12 :: l :: pk_raw k /\
    (length_byte (pk_raw k) l) /\ (match pk_fmt k with Ed25519 => kind = x01 | Secp256k1 => kind = x02 | Rsa => False end).

(** The four lines of a trust. *)
Definition trust_lines (C : crypto) (t : trust) (a b c d : text) : Prop :=
  trust_fits C t /\ (exists kb, key_bytes (issued_for t) kb /\ base58_text a kb) /\
  (exists sb, signature_bytes (trust_sig t) sb /\ base58_text b sb) /\
  number_text c (secs (expires_at t)) /\ number_text d (secs (issued_at t)).
(** The lines of a list of trusts. *)
Inductive trusts_lines (C : crypto) : list trust -> list text -> Prop :=
| TL_nil : trusts_lines C [] []
| TL_cons : forall t ts a b c d ls, trust_lines C t a b c d -> trusts_lines C ts ls -> trusts_lines C (t :: ts) (a :: b :: c :: d :: ls).
