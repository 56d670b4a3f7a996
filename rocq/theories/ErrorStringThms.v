(** Errors as strings. *)
From Coq Require Import List NArith ZArith Bool Lia.
From Coq Require Import Strings.Byte.
From Coq Require String.
Import String.StringSyntax.
From Verif Require Import Base Text Keys Trust Certificate Relation Storage Graph ErrorText ErrorString.
Import ListNotations.

Lemma never : forall n e, string_of_storage_error n e = OutOfFuel.
Proof. induction n; intros e; [reflexivity|apply IHn]. Qed.

(** ** C184 *)
(** Converting an error of the database of the service into a string ends for no error and on no stack, however large. *)
Lemma p_C184_storage_refuted : forall e stack s, string_of_storage_error stack e <> Ok s.
Proof. intros e stack s. rewrite never. discriminate. Qed.

(** Converting an error of the graph into a string gives the text it is displayed as, which is never empty. *)
Lemma p_C184_graph : forall F e, string_of_graph_error F e = graph_error_text F e /\ string_of_graph_error F e <> [].
Proof. intros F e. split; [reflexivity|]. destruct e; discriminate. Qed.

(** The text of a database error inside an error of the graph. *)
Example e_C184_inner : forall F, string_of_graph_error F (GE_InternalStorage SE_WeightFactorConversionDB) =
  str "Internal storage error: Cannot convert weight factor as integer from DB".
Proof. intros F. reflexivity. Qed.
