(** Model of the conversions of errors into [String]: [From<TrustGraphError> for String] (trust_graph.rs 91-95) and
    [From<SQLiteStorageError> for String] (service/src/storage_impl.rs 184-188). *)
From Coq Require Import List NArith Bool.
From Verif Require Import Base Text Storage Graph ErrorText.
Import ListNotations.

(** [format!("{err}")]. trust_graph.rs 91-95. *)
Definition string_of_graph_error (F : foreign) (e : graph_error) : text := graph_error_text F e.

(** [err.into()]: of type String, so it is this same conversion again. [stack]: how many calls fit on the stack; there is no answer
    when they are used up. storage_impl.rs 184-188. *)
Fixpoint string_of_storage_error (stack : nat) (e : storage_error) : result Empty_set text :=
  match stack with
  | O => OutOfFuel
  | S stack' => string_of_storage_error stack' e
  end.
