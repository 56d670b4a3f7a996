(** Rating a list of certificates, whoever made them: the public method [TrustGraph::certificates_weight_factor]. *)
From Coq Require Import List NArith ZArith Bool.
From Verif Require Import Base Text Keys Trust Certificate Relation Storage Graph Spec.
Import ListNotations.
Open Scope N_scope.

(** The answer of the method to the certificates [cs], and the store afterwards; [fu]: the statement of the database that fails. *)
Definition rating (d : db) (cs : list certificate) (fu : option nat) : result graph_error (option N) * db :=
  match certificates_weight_factor cs (mk_world d fu) with (r, w) => (r, w_db w) end.

(** The certificate starts with a trust for a root, which has the maximum length [m]. *)
Definition starts_at (d : db) (c : certificate) (m : N) : Prop := exists t, at_pos c 0 t /\ root_max_len d (issued_for t) m.
(** The factor of a certificate: 16 less the length of its root, and one for each trust after the first. *)
Definition factor_of (d : db) (c : certificate) (n : N) : Prop := exists m, starts_at d c m /\ n + m = 16 + N.of_nat (length c - 1).
Definition least_factor (d : db) (cs : list certificate) (n : N) : Prop :=
  (exists c, In c cs /\ factor_of d c n) /\ forall c n', In c cs -> factor_of d c n' -> n <= n'.
(** As long as a certificate in memory can be. *)
Definition in_memory (c : certificate) : Prop := N.of_nat (length c) + 16 < u32_bound.

(** The certificates start with trusts for the same keys and have the same lengths. *)
Definition same_outline (c c' : certificate) : Prop :=
  length c = length c' /\ forall t t', at_pos c 0 t -> at_pos c' 0 t' -> issued_for t = issued_for t'.
