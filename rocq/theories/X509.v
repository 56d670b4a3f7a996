(** Model of [rsa::PublicKey::decode_x509], keypair/src/rsa.rs 117-121. [Lib] is the reader of asn1_der. [strict]: whether the
    readers that asn1_der_derive writes for a struct refuse objects after the last field; the theorems hold for both. *)
From Coq Require Import List NArith ZArith Bool.
From Verif Require Import Base Text Keys Convert.
Import ListNotations.
Open Scope N_scope.

Section X509.
Context (Lib : libs) (strict : bool).

(** A struct of two fields, as [#[derive(Asn1Der)]] reads it (rsa.rs 180-184, 226-232): a SEQUENCE with the fields in their
    order. [None]: any error ([Asn1DerError] is dropped by [map_err], rsa.rs 119). *)
Definition two_fields {A B} (first : byte * bytes -> option A) (second : byte * bytes -> option B) (der : bytes) : option (A * B) :=
  match der_sequence Lib der with
  | Some (a :: b :: more) =>
      match first a, second b, more with
      | Some x, Some y, [] => Some (x, y)
      | Some x, Some y, _ :: _ => if strict then None else Some (x, y)
      | _, _, _ => None
      end
  | _ => None
  end.

(** [Asn1OidRsaEncryption::from_der_object], rsa.rs 167-177. *)
Definition read_oid (o : byte * bytes) : option unit :=
  if negb (Byte.eqb (fst o) x06) then None
  else if negb (bytes_eqb (snd o) oid_rsa_encryption) then None
  else Some tt.
(** [()] in asn1_der: NULL without content. *)
Definition read_null (o : byte * bytes) : option unit :=
  if Byte.eqb (fst o) x05 then match snd o with [] => Some tt | _ => None end else None.
(** [Asn1RsaEncryption], rsa.rs 180-184. The object is a SEQUENCE; its content is read as that of the outer one. *)
Definition read_algorithm (o : byte * bytes) : option (unit * unit) :=
  if Byte.eqb (fst o) x30 then two_fields read_oid read_null (der_object x30 (snd o)) else None.
(** [Asn1SubjectPublicKey::from_der_object], rsa.rs 206-215: the first byte is skipped, whatever it is. *)
Definition read_bit_string (o : byte * bytes) : option bytes :=
  if negb (Byte.eqb (fst o) x03) then None else Some (skipn 1 (snd o)).

(** [decode_x509], rsa.rs 117-121. *)
Definition decode_x509 (der : bytes) : result decoding_error bytes :=
  match two_fields read_algorithm read_bit_string der with
  | Some (_, pk) => Ok pk
  | None => Err DE_Rsa
  end.
End X509.
