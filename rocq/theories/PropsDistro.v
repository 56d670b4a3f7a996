(** The properties of the start data of the distro package. Every proof is a lemma of DistroThms.v. *)
From Coq Require Import List NArith Bool Permutation.
From Coq Require String.
Import String.StringSyntax.
From Verif Require Import Base Text Keys Trust Certificate Relation Storage Graph Service Spec ServiceSpec TextSpec Aqua AquaSpec Boot BootSpec Tools ToolsSpec
  Distro DistroData DistroSpec DistroThms.
Import ListNotations.
Open Scope N_scope.

(** ** C138 *)
(** What [to_string] writes is JSON for the data, and *)
Theorem C138_writes : forall c, certs_fit c -> certs_text (certs_to_string c) c.
Proof. exact p_C138_writes. Qed.
Print Assumptions C138_writes.

(** [from_str] reads it back to the same data. *)
Theorem C138_round_trip : forall c, certs_fit c -> certs_from_str (certs_to_string c) = Ok c.
Proof. exact p_C138_round_trip. Qed.
Print Assumptions C138_round_trip.

(** Different data have different texts. *)
Theorem C138_injective : forall c c', certs_fit c -> certs_fit c' -> certs_to_string c = certs_to_string c' -> c = c'.
Proof. exact p_C138_injective. Qed.
Print Assumptions C138_injective.

Example C138_example_fits : let c := mk_distro_certs (x22 :: x0a :: x5c :: x01 :: str "r") 4294967295 [[mk_dto_trust (str "p") 18446744073709551615 [xc3; xa9] (str "ed25519") 0]; []] in
  certs_fit c /\ certs_to_string c = str "{""root_node"":""\""\n\\\u0001r"",""max_chain_length"":4294967295,""certs"":[{""chain"":[{""issued_for"":""p"",""expires_at"":18446744073709551615,""signature"":"""
    ++ [xc3; xa9] ++ str """,""sig_type"":""ed25519"",""issued_at"":0}]},{""chain"":[]}]}".
Proof. exact e_C138_fits. Qed.

(** ** C139 *)
(** A text is read to start data exactly if it is JSON for them. *)
Theorem C139_exactly : forall s c, certs_from_str s = Ok c <-> certs_text s c.
Proof. exact p_C139_exactly. Qed.
Print Assumptions C139_exactly.

(** Every other text is an error, and then the first use of [KRAS_CERTS] panics: it never panics otherwise. *)
Theorem C139_otherwise : forall s,
  (exists c, certs_text s c /\ certs_from_str s = Ok c /\ kras_certs s = Ok c) \/ ((forall c, ~ certs_text s c) /\ certs_from_str s = Err JSON_Error /\ kras_certs s = Panic).
Proof. exact p_C139_otherwise. Qed.
Print Assumptions C139_otherwise.

(** A text is JSON for at most one value and for at most one start data. *)
Theorem C139_one_meaning : forall s, (forall j j', json_file j s -> json_file j' s -> j = j') /\ (forall c c', certs_text s c -> certs_text s c' -> c = c').
Proof. exact p_C139_one_meaning. Qed.
Print Assumptions C139_one_meaning.

(** Numbers of the data that was read fit their types. *)
Theorem C139_fits : forall s c, certs_from_str s = Ok c -> certs_fit c.
Proof. exact p_C139_fits. Qed.
Print Assumptions C139_fits.

(** Other spellings that are read: whitespace, any order, other members, escapes in names and values, structs as lists. *)
Example C139_example_spellings : certs_from_str (str " { ""extra"" : [ -1.5e+3 , null , {} ] , ""certs"":[[[[""p"",7,""\u0041\ud83D\uDE00"",""t"",9]]]] ,""max_chain_length"" : 0,
  ""root_node"":""\/""}  ") = Ok (mk_distro_certs (str "/") 0 [[mk_dto_trust (str "p") 7 [x41; xf0; x9f; x98; x80] (str "t") 9]]).
Proof. exact e_C139_spellings. Qed.

(** Texts that are not: a missing field, a field twice, a number that is too big, negative or a float, a lone surrogate, a comma too many, something after the value. *)
Example C139_example_refused : forall s, In s
  [ str "{}"; str "{""root_node"":"""",""max_chain_length"":0,""certs"":[],""certs"":[]}"; str "{""root_node"":"""",""max_chain_length"":4294967296,""certs"":[]}";
    str "{""root_node"":"""",""max_chain_length"":-0,""certs"":[]}"; str "{""root_node"":"""",""max_chain_length"":1.0,""certs"":[]}"; str "{""root_node"":""\ud800"",""max_chain_length"":1,""certs"":[]}";
    str "{""root_node"":"""",""max_chain_length"":1,""certs"":[],}"; str "["""",1,[]]]"; str "["""",01,[]]" ] -> certs_from_str s = Err JSON_Error.
Proof. exact e_C139_refused. Qed.

(** ** C140 *)
(** The packed file is read: the root is the Fluence root, the chain length 5, as the start script sets them, and the certificates are those of the model of
    the start script. *)
Theorem C140_packed : kras_certs init_certs_json = Ok (mk_distro_certs fluence_root_peer_id 5 shipped).
Proof. exact p_C140_packed. Qed.
Print Assumptions C140_packed.

(** The data file of the start script holds the same certificates and no others. *)
Theorem C140_on_start : forall cs, start_script_data on_start_json cs <-> cs = shipped.
Proof. exact p_C140_on_start. Qed.
Print Assumptions C140_on_start.

(** So a new node that is started with the packed certificates before 25 January 2025 is told it is a Fluence peer exactly if it is one of their eleven nodes. *)
Theorem C140_labels : forall C net me node data c boots x st r st' k now, crypto_laws C -> wasm32 C = true -> shipped_genuine C ->
  kras_certs init_certs_json = Ok c -> started_with (certs c) 1737828468 boots -> boot C me me node data None boots empty_db = (x, st node) ->
  network_state C st -> (forall c, fault net node c = None) -> peer_key C node k -> now < 1737828468 -> is_fluence_peer C net node now st = (r, st') ->
  x = Ok [R_true] /\ exists b, r = Ok ([b], []) /\ (b = true <-> exists p, In p shipped_nodes /\ peer_key C p k).
Proof. exact p_C140_labels. Qed.
Print Assumptions C140_labels.

(** In a build for the linter the data are replaced by an empty object and [KRAS_CERTS] panics when it is used. *)
Theorem C140_clippy : kras_certs clippy_certs_json = Panic.
Proof. exact p_C140_clippy. Qed.
Print Assumptions C140_clippy.

(** ** C141 *)
(** The file of the admin tool holds exactly the certificates the tool made, in whatever order the members of the trusts are written. *)
Theorem C141_holds : forall order cs, orders order cs -> (forall c t, In c cs -> In t c -> trust_fits t) ->
  forall cs', start_script_data (admin_file order cs) cs' <-> cs' = cs.
Proof. exact p_C141_holds. Qed.
Print Assumptions C141_holds.

(** The shipped data file of the start script is what the tool writes for the shipped certificates. *)
Theorem C141_shipped : exists order, orders order shipped /\ on_start_json = admin_file order shipped.
Proof. exact p_C141_shipped. Qed.
Print Assumptions C141_shipped.

(** From the keys to the label: the tool runs, writes its file in whatever order, and a new node is started with what the file says. *)
Theorem C141_labels : forall C net net' src me anode node data root issuer example peers ks cur st0 cs st1 order cs' boots x st r st' k now, crypto_laws C -> wasm32 C = true ->
  admin_input C root issuer example peers ks -> kp_public C root = root_key -> kp_public C issuer = label_key ->
  admin_main C net src anode root issuer example peers cur st0 = (Ok cs, st1) -> cur + 63072000 < i64_bound -> orders order cs ->
  start_script_data (admin_file order cs) cs' -> started_with cs' (cur + 63072000) boots ->
  boot C me me node data None boots empty_db = (x, st node) -> network_state C st -> (forall c, fault net' node c = None) -> peer_key C node k ->
  now < cur + 63072000 -> is_fluence_peer C net' node now st = (r, st') ->
  x = Ok [R_true] /\ exists b, r = Ok ([b], []) /\ (b = true <-> In k ks).
Proof. exact p_C141_labels. Qed.
Print Assumptions C141_labels.

Example C141_example_orders : orders trust_members shipped /\ orders shipped_order shipped /\ trust_members shipped_trust_0 <> shipped_order shipped_trust_0 /\
  (forall c t, In c shipped -> In t c -> trust_fits t).
Proof. exact e_C141_orders. Qed.

(** ** C142 *)
(** No file of the admin tool can be packed as it is: [KRAS_CERTS] panics, because the file names no root and no chain length. *)
Theorem C142_packed_refuted : forall order cs, orders order cs -> (forall c t, In c cs -> In t c -> trust_fits t) -> kras_certs (admin_file order cs) = Panic.
Proof. exact p_C142_packed_refuted. Qed.
Print Assumptions C142_packed_refuted.

(** The part that holds: with the two members added, as in the packed file, it is read to the same certificates. *)
Theorem C142_completed_partial : forall order cs root m, orders order cs -> (forall c t, In c cs -> In t c -> trust_fits t) -> m < 2 ^ 32 ->
  exists rest, admin_file order cs = str "{" ++ rest /\
    kras_certs (str "{""root_node"":" ++ write_string root ++ str ",""max_chain_length"":" ++ write_uint m ++ str "," ++ rest) = Ok (mk_distro_certs root m cs).
Proof. exact p_C142_completed_partial. Qed.
Print Assumptions C142_completed_partial.
