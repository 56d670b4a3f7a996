(** The vocabulary of the properties of the start data: JSON texts as RFC 8259 describes them, and what the data of the
    distro package is in JSON. *)
From Coq Require Import List NArith Bool Permutation.
From Coq Require String.
Import String.StringSyntax.
From Verif Require Import Base Text Service TextSpec Distro.
Import ListNotations.
Open Scope N_scope.

(** ** RFC 8259 *)
(** Insignificant whitespace: space, tab, newline, carriage return. *)
Definition gap (s : text) : Prop := forall c, In c s -> In c [x20; x09; x0a; x0d].

(** Numbers: [ minus ] int [ frac ] [ exp ]. *)
Definition digits (s : text) : Prop := s <> [] /\ forall c, In c s -> exists d, digit_char c d.
Definition int_part (s : text) : Prop := s = str "0" \/ (digits s /\ hd_error s <> Some x30).
Definition frac_part (s : text) : Prop := s = [] \/ exists ds, s = x2e :: ds /\ digits ds.
Definition exp_part (s : text) : Prop :=
  s = [] \/ exists e sign ds, s = e :: sign ++ ds /\ In e [x65; x45] /\ In sign [[]; [x2b]; [x2d]] /\ digits ds.
Definition json_number (s : text) : Prop :=
  exists sign i f e, s = sign ++ i ++ f ++ e /\ In sign [[]; [x2d]] /\ int_part i /\ frac_part f /\ exp_part e.

(** The value of a hexadecimal digit, in either case. *)
Definition hex_digit (c : byte) (d : N) : Prop :=
  exists i, d = N.of_nat i /\ (nth_error (str "0123456789abcdef") i = Some c \/ nth_error (str "0123456789ABCDEF") i = Some c).
(** Four hexadecimal digits of value [n]. *)
Definition hex_text (s : text) (n : N) : Prop :=
  exists ds, Forall2 hex_digit s ds /\ length ds = 4%nat /\ n = positional 16 ds.
(** The two-character escapes: what is after the backslash, and the character meant. *)
Definition escapes : list (byte * byte) :=
  [(x22, x22); (x5c, x5c); (x2f, x2f); (x62, x08); (x66, x0c); (x6e, x0a); (x72, x0d); (x74, x09)].
(** A byte that stands for itself in a string: neither a quote nor a backslash nor a control character. *)
Definition plain (c : byte) : Prop := c <> x22 /\ c <> x5c /\ 32 <= Byte.to_N c.

(** What can be between the quotes of a string. *)
Inductive string_body : text -> Prop :=
| sb_end : string_body []
| sb_plain : forall c s, plain c -> string_body s -> string_body (c :: s)
| sb_escape : forall e c s, In (e, c) escapes -> string_body s -> string_body (x5c :: e :: s)
| sb_unicode : forall h n s, hex_text h n -> string_body s -> string_body (x5c :: x75 :: h ++ s).

(** The bytes of the character with code point [n] in UTF-8. *)
Definition utf8_text (n : N) (s : text) : Prop :=
  (n < 2 ^ 7 /\ map Byte.to_N s = [n]) \/
  (2 ^ 7 <= n < 2 ^ 11 /\ exists a b, n = 64 * a + b /\ b < 64 /\ map Byte.to_N s = [192 + a; 128 + b]) \/
  (2 ^ 11 <= n < 2 ^ 16 /\ exists a b c, n = 64 * (64 * a + b) + c /\ b < 64 /\ c < 64 /\ map Byte.to_N s = [224 + a; 128 + b; 128 + c]) \/
  (2 ^ 16 <= n < 2 ^ 21 /\ exists a b c d, n = 64 * (64 * (64 * a + b) + c) + d /\ b < 64 /\ c < 64 /\ d < 64 /\
    map Byte.to_N s = [240 + a; 128 + b; 128 + c; 128 + d]).
Definition high_surrogate (n : N) : Prop := 55296 <= n < 56320.   (* D800 to DBFF *)
Definition low_surrogate (n : N) : Prop := 56320 <= n < 57344.    (* DC00 to DFFF *)

(** [spells w s]: what is written as [w] between quotes means the text [s]. *)
Inductive spells : text -> text -> Prop :=
| sp_end : spells [] []
| sp_plain : forall c w s, plain c -> spells w s -> spells (c :: w) (c :: s)
| sp_escape : forall e c w s, In (e, c) escapes -> spells w s -> spells (x5c :: e :: w) (c :: s)
| sp_unicode : forall h n u w s, hex_text h n -> ~ high_surrogate n -> ~ low_surrogate n -> utf8_text n u -> spells w s ->
    spells (x5c :: x75 :: h ++ w) (u ++ s)
| sp_pair : forall h n h' n' u w s, hex_text h n -> high_surrogate n -> hex_text h' n' -> low_surrogate n' ->
    utf8_text (65536 + 1024 * (n - 55296) + (n' - 56320)) u -> spells w s ->
    spells (x5c :: x75 :: h ++ x5c :: x75 :: h' ++ w) (u ++ s).

(** [json_text j s]: the text [s] is the value [j]. *)
Inductive json_text : json -> text -> Prop :=
| jt_null : json_text J_null (str "null")
| jt_true : json_text (J_bool true) (str "true")
| jt_false : json_text (J_bool false) (str "false")
| jt_number : forall s, json_number s -> json_text (J_number s) s
| jt_string : forall w, string_body w -> json_text (J_string w) (str """" ++ w ++ str """")
| jt_array_empty : forall g, gap g -> json_text (J_array []) (str "[" ++ g ++ str "]")
| jt_array : forall l s, l <> [] -> elements_text l s -> json_text (J_array l) (str "[" ++ s ++ str "]")
| jt_object_empty : forall g, gap g -> json_text (J_object []) (str "{" ++ g ++ str "}")
| jt_object : forall l s, l <> [] -> members_text l s -> json_text (J_object l) (str "{" ++ s ++ str "}")
with elements_text : list json -> text -> Prop :=
| et_one : forall j g s g', gap g -> json_text j s -> gap g' -> elements_text [j] (g ++ s ++ g')
| et_more : forall j g s g' l s', gap g -> json_text j s -> gap g' -> elements_text l s' ->
    elements_text (j :: l) (g ++ s ++ g' ++ str "," ++ s')
with members_text : list (text * json) -> text -> Prop :=
| mt_one : forall k j g g1 g2 s g', gap g -> string_body k -> gap g1 -> gap g2 -> json_text j s -> gap g' ->
    members_text [(k, j)] (g ++ str """" ++ k ++ str """" ++ g1 ++ str ":" ++ g2 ++ s ++ g')
| mt_more : forall k j g g1 g2 s g' l s', gap g -> string_body k -> gap g1 -> gap g2 -> json_text j s -> gap g' -> members_text l s' ->
    members_text ((k, j) :: l) (g ++ str """" ++ k ++ str """" ++ g1 ++ str ":" ++ g2 ++ s ++ g' ++ str "," ++ s').
(** A whole file. *)
Definition json_file (j : json) (s : text) : Prop := exists g s' g', gap g /\ json_text j s' /\ gap g' /\ s = g ++ s' ++ g'.

(** ** The data *)
(** The value [j] is the string [s]; is a number below [bound] written with digits only. *)
Definition is_string (s : text) (j : json) : Prop := exists w, j = J_string w /\ spells w s.
Definition is_uint (bound n : N) (j : json) : Prop := exists w, j = J_number w /\ decimal w n /\ n < bound.
(** In the members [ms], whose names all mean something, [v] is the one and only value named [name]. *)
Definition member (ms : list (text * json)) (name : text) (v : json) : Prop :=
  exists before k after, ms = before ++ (k, v) :: after /\ spells k name /\
    forall k' v', In (k', v') (before ++ after) -> exists name', spells k' name' /\ name' <> name.
(** The value [j] holds the fields [names] with the values [vs]: an object with each field exactly once and other members
    besides, in any order, or a list of just the values. *)
Definition has_fields (names : list text) (vs : list json) (j : json) : Prop :=
  (exists ms, j = J_object ms /\ Forall2 (member ms) names vs) \/ (j = J_array vs /\ length vs = length names).
(** The value [j] is a list of the things [l]. *)
Definition is_list {A} (is : A -> json -> Prop) (l : list A) (j : json) : Prop := exists vs, j = J_array vs /\ Forall2 is l vs.

Definition is_trust (t : dto_trust) (j : json) : Prop :=
  exists a b c d e, has_fields [str "issued_for"; str "expires_at"; str "signature"; str "sig_type"; str "issued_at"] [a; b; c; d; e] j /\
    is_string (dt_issued_for t) a /\ is_uint (2 ^ 64) (dt_expires_at t) b /\ is_string (dt_signature t) c /\
    is_string (dt_sig_type t) d /\ is_uint (2 ^ 64) (dt_issued_at t) e.
Definition is_cert (c : dto_certificate) (j : json) : Prop :=
  exists a, has_fields [str "chain"] [a] j /\ is_list is_trust c a.
Definition is_certs (c : distro_certs) (j : json) : Prop :=
  exists x y z, has_fields [str "root_node"; str "max_chain_length"; str "certs"] [x; y; z] j /\
    is_string (root_node c) x /\ is_uint (2 ^ 32) (max_chain_length c) y /\ is_list is_cert (certs c) z.
(** The text [s] is JSON for the start data [c]. *)
Definition certs_text (s : text) (c : distro_certs) : Prop := exists j, json_file j s /\ is_certs c j.

(** Numbers of the fields fit their types. *)
Definition trust_fits (t : dto_trust) : Prop := dt_expires_at t < 2 ^ 64 /\ dt_issued_at t < 2 ^ 64.
Definition certs_fit (c : distro_certs) : Prop := max_chain_length c < 2 ^ 32 /\ forall x t, In x (certs c) -> In t x -> trust_fits t.

(** The JSON objects of the trusts of [cs] are written with their five members in some order: [order t] for the trust [t]. *)
Definition orders (order : dto_trust -> list (text * text)) (cs : list dto_certificate) : Prop :=
  forall c t, In c cs -> In t c -> Permutation (order t)
    [ (str "issued_for", write_string (dt_issued_for t)); (str "expires_at", write_uint (dt_expires_at t));
      (str "signature", write_string (dt_signature t)); (str "sig_type", write_string (dt_sig_type t));
      (str "issued_at", write_uint (dt_issued_at t)) ].
(** The text [s] is a JSON object whose one member [certs] is the list of the certificates [cs]. *)
Definition start_script_data (s : text) (cs : list dto_certificate) : Prop :=
  exists ms v, json_file (J_object ms) s /\ member ms (str "certs") v /\ is_list is_cert cs v.
