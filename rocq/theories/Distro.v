(** Model of distro/src/lib.rs, the package a node is built with: the start data [KRAS_CERTS] and its serde forms;
    of the JSON reader and writer of serde_json 1.0 as far as these types need them; and of the file that admin/index.ts
    writes. Nothing is proved here. *)
From Coq Require Import List NArith Bool.
From Coq Require String.
Import String.StringSyntax.
From Verif Require Import Base Text Service.
Import ListNotations.
Open Scope N_scope.

(** distro/src/lib.rs 37-42 [Certs]. [Cert] (44-47) is the list of its [chain]; [Trust] (49-56) has the fields of the
    record of the service, [dto_trust]. *)
Record distro_certs := mk_distro_certs { root_node : text; max_chain_length : N; certs : list dto_certificate }.

(** serde_json::Error; category, message and position dropped. Reached from distro/src/lib.rs 59. *)
Inductive json_error := JSON_Error.

(** A JSON value as serde_json walks over it. Strings and numbers are kept as they are written (a string without its
    quotes): they are only looked into where a field asks for them. The members of an object are in order of appearance.
    Simplified: serde_json builds no such tree, it reads the fields directly from the text; the outcome is the same up to
    the error that is reported. Its limit of 127 nested values counts only the values that are asked for, which are at
    most 5 deep. *)
Inductive json :=
| J_null
| J_bool (b : bool)
| J_number (written : text)
| J_string (written : text)
| J_array (l : list json)
| J_object (l : list (text * json)).

(** ** Characters *)
(** serde_json [parse_whitespace]: space, newline, tab, carriage return. Reached from distro/src/lib.rs 59. *)
Definition is_ws (c : byte) : bool := Byte.eqb c x20 || Byte.eqb c x0a || Byte.eqb c x09 || Byte.eqb c x0d.
Fixpoint skip_ws (s : text) : text :=
  match s with
  | c :: r => if is_ws c then skip_ws r else s
  | [] => []
  end.
Definition is_digit (c : byte) : bool := match dec_digit c with Some _ => true | None => false end.
(** serde_json [decode_hex_val]: both cases. Reached from distro/src/lib.rs 59. *)
Definition hex_val (c : byte) : option N :=
  let n := N_of_u8 c in
  if (48 <=? n) && (n <=? 57) then Some (n - 48)
  else if (65 <=? n) && (n <=? 70) then Some (n - 55)
  else if (97 <=? n) && (n <=? 102) then Some (n - 87)
  else None.
Definition hex4 (a b c d : byte) : option N :=
  match hex_val a, hex_val b, hex_val c, hex_val d with
  | Some a, Some b, Some c, Some d => Some (((a * 16 + b) * 16 + c) * 16 + d)
  | _, _, _, _ => None
  end.
(** The character after a backslash, and what it stands for. Reached from distro/src/lib.rs 59. *)
Definition simple_escape (c : byte) : option byte :=
  if Byte.eqb c x22 then Some x22 else if Byte.eqb c x5c then Some x5c else if Byte.eqb c x2f then Some x2f
  else if Byte.eqb c x62 then Some x08 else if Byte.eqb c x66 then Some x0c else if Byte.eqb c x6e then Some x0a
  else if Byte.eqb c x72 then Some x0d else if Byte.eqb c x74 then Some x09 else None.
Definition is_control (c : byte) : bool := N_of_u8 c <? 32.

(** ** Walking over a value *)
(** serde_json [ignore_str]: from after the opening quote to after the closing one; what is between them, and the rest. Reached from distro/src/lib.rs 59. *)
Fixpoint scan_string (s : text) : result json_error (text * text) :=
  match s with
  | [] => Err JSON_Error
  | c :: r =>
      if Byte.eqb c x22 then Ok ([], r)
      else if Byte.eqb c x5c then
        match r with
        | [] => Err JSON_Error
        | e :: r1 =>
            if Byte.eqb e x75 then
              match r1 with
              | a :: b :: g :: h :: r2 =>
                  match hex4 a b g h with
                  | Some _ => let? x := scan_string r2 in Ok (c :: e :: a :: b :: g :: h :: fst x, snd x)
                  | None => Err JSON_Error
                  end
              | _ => Err JSON_Error
              end
            else match simple_escape e with
                 | Some _ => let? x := scan_string r1 in Ok (c :: e :: fst x, snd x)
                 | None => Err JSON_Error
                 end
        end
      else if is_control c then Err JSON_Error
      else let? x := scan_string r in Ok (c :: fst x, snd x)
  end.

(** serde_json [ignore_integer], [ignore_decimal], [ignore_exponent]. Reached from distro/src/lib.rs 59. *)
Definition scan_integer (s : text) : result json_error (text * text) :=
  match s with
  | [] => Err JSON_Error
  | c :: r =>
      if Byte.eqb c x30 then
        match r with
        | d :: _ => if is_digit d then Err JSON_Error else Ok ([c], r)
        | [] => Ok ([c], r)
        end
      else if is_digit c then Ok (span is_digit s) else Err JSON_Error
  end.
Definition scan_digits (s : text) : result json_error (text * text) :=
  match span is_digit s with
  | ([], _) => Err JSON_Error
  | x => Ok x
  end.
Definition scan_fraction (s : text) : result json_error (text * text) :=
  match s with
  | c :: r => if Byte.eqb c x2e then let? x := scan_digits r in Ok (c :: fst x, snd x) else Ok ([], s)
  | [] => Ok ([], s)
  end.
Definition scan_exponent (s : text) : result json_error (text * text) :=
  match s with
  | c :: r =>
      if Byte.eqb c x65 || Byte.eqb c x45 then
        match r with
        | g :: r1 =>
            if Byte.eqb g x2b || Byte.eqb g x2d then let? x := scan_digits r1 in Ok (c :: g :: fst x, snd x)
            else let? x := scan_digits r in Ok (c :: fst x, snd x)
        | [] => Err JSON_Error
        end
      else Ok ([], s)
  | [] => Ok ([], s)
  end.
Definition scan_unsigned (s : text) : result json_error (text * text) :=
  let? i := scan_integer s in
  let? f := scan_fraction (snd i) in
  let? e := scan_exponent (snd f) in
  Ok (fst i ++ fst f ++ fst e, snd e).
Definition scan_number (s : text) : result json_error (text * text) :=
  match s with
  | c :: r => if Byte.eqb c x2d then let? x := scan_unsigned r in Ok (c :: fst x, snd x) else scan_unsigned s
  | [] => Err JSON_Error
  end.

(** serde_json [parse_ident]: the literals. Reached from distro/src/lib.rs 59. *)
Fixpoint after_literal (l s : text) : result json_error text :=
  match l with
  | [] => Ok s
  | x :: l' => match s with
               | c :: r => if Byte.eqb x c then after_literal l' r else Err JSON_Error
               | [] => Err JSON_Error
               end
  end.

(** serde_json [ignore_value], and [deserialize_any] for the shape of it: a value from the start of [s] after whitespace,
    and the rest. [elements]: a list from its first value to after the bracket; [members]: an object from its first key to
    after the brace. The fuel bounds the depth of the calls; [from_str] gives enough (proved in DistroFacts.v). Reached from distro/src/lib.rs 59. *)
Fixpoint read_value (n : nat) (s : text) {struct n} : result json_error (json * text) :=
  match n with
  | O => OutOfFuel
  | S n =>
      match skip_ws s with
      | [] => Err JSON_Error
      | c :: r =>
          if Byte.eqb c x22 then let? x := scan_string r in Ok (J_string (fst x), snd x)
          else if Byte.eqb c x5b then
            match skip_ws r with
            | b :: r1 => if Byte.eqb b x5d then Ok (J_array [], r1)
                         else let? x := read_elements n r in Ok (J_array (fst x), snd x)
            | [] => Err JSON_Error
            end
          else if Byte.eqb c x7b then
            match skip_ws r with
            | b :: r1 => if Byte.eqb b x7d then Ok (J_object [], r1)
                         else let? x := read_members n r in Ok (J_object (fst x), snd x)
            | [] => Err JSON_Error
            end
          else if Byte.eqb c x6e then let? r1 := after_literal (str "ull") r in Ok (J_null, r1)
          else if Byte.eqb c x74 then let? r1 := after_literal (str "rue") r in Ok (J_bool true, r1)
          else if Byte.eqb c x66 then let? r1 := after_literal (str "alse") r in Ok (J_bool false, r1)
          else let? x := scan_number (c :: r) in Ok (J_number (fst x), snd x)
      end
  end
with read_elements (n : nat) (s : text) {struct n} : result json_error (list json * text) :=
  match n with
  | O => OutOfFuel
  | S n =>
      let? v := read_value n s in
      match skip_ws (snd v) with
      | c :: r => if Byte.eqb c x2c then let? x := read_elements n r in Ok (fst v :: fst x, snd x)
                  else if Byte.eqb c x5d then Ok ([fst v], r) else Err JSON_Error
      | [] => Err JSON_Error
      end
  end
with read_members (n : nat) (s : text) {struct n} : result json_error (list (text * json) * text) :=
  match n with
  | O => OutOfFuel
  | S n =>
      match skip_ws s with
      | c :: r =>
          if Byte.eqb c x22 then
            let? k := scan_string r in
            match skip_ws (snd k) with
            | d :: r1 =>
                if Byte.eqb d x3a then
                  let? v := read_value n r1 in
                  match skip_ws (snd v) with
                  | e :: r2 => if Byte.eqb e x2c then let? x := read_members n r2 in Ok ((fst k, fst v) :: fst x, snd x)
                               else if Byte.eqb e x7d then Ok ([(fst k, fst v)], r2) else Err JSON_Error
                  | [] => Err JSON_Error
                  end
                else Err JSON_Error
            | [] => Err JSON_Error
            end
          else Err JSON_Error
      | [] => Err JSON_Error
      end
  end.

(** serde_json [from_str]: one value with nothing but whitespace around it. Reached from distro/src/lib.rs 59. *)
Definition read_json (s : text) : result json_error json :=
  let? x := read_value (2 * length s + 1) s in
  match skip_ws (snd x) with
  | [] => Ok (fst x)
  | _ => Err JSON_Error
  end.

(** ** Looking into values *)
(** [char::encode_utf8]. *)
Definition utf8 (n : N) : text :=
  if n <? 128 then [u8_of_N n]
  else if n <? 2048 then [u8_of_N (192 + n / 64); u8_of_N (128 + n mod 64)]
  else if n <? 65536 then [u8_of_N (224 + n / 4096); u8_of_N (128 + n / 64 mod 64); u8_of_N (128 + n mod 64)]
  else [u8_of_N (240 + n / 262144); u8_of_N (128 + n / 4096 mod 64); u8_of_N (128 + n / 64 mod 64); u8_of_N (128 + n mod 64)].

(** serde_json [parse_str], [parse_escape]: what a written string says. A surrogate must be the first of a pair. Reached from distro/src/lib.rs 59. *)
Fixpoint string_says (s : text) : result json_error text :=
  match s with
  | [] => Ok []
  | c :: r =>
      if Byte.eqb c x5c then
        match r with
        | [] => Err JSON_Error
        | e :: r1 =>
            if Byte.eqb e x75 then
              match r1 with
              | a :: b :: g :: h :: r2 =>
                  match hex4 a b g h with
                  | Some n =>
                      if (56320 <=? n) && (n <=? 57343) then Err JSON_Error
                      else if (55296 <=? n) && (n <=? 56319) then
                        match r2 with
                        | p :: q :: a' :: b' :: g' :: h' :: r3 =>
                            if Byte.eqb p x5c && Byte.eqb q x75 then
                              match hex4 a' b' g' h' with
                              | Some m =>
                                  if (56320 <=? m) && (m <=? 57343)
                                  then let? x := string_says r3 in Ok (utf8 ((n - 55296) * 1024 + (m - 56320) + 65536) ++ x)
                                  else Err JSON_Error
                              | None => Err JSON_Error
                              end
                            else Err JSON_Error
                        | _ => Err JSON_Error
                        end
                      else let? x := string_says r2 in Ok (utf8 n ++ x)
                  | None => Err JSON_Error
                  end
              | _ => Err JSON_Error
              end
            else match simple_escape e with
                 | Some y => let? x := string_says r1 in Ok (y :: x)
                 | None => Err JSON_Error
                 end
        end
      else let? x := string_says r in Ok (c :: x)
  end.

(** [String::deserialize]. For distro/src/lib.rs 39, 51-54. *)
Definition as_string (j : json) : result json_error text :=
  match j with J_string s => string_says s | _ => Err JSON_Error end.
(** [u32::deserialize], [u64::deserialize] (serde_json [parse_integer], [parse_number], [parse_long_integer]): only digits,
    of a value that fits; everything else is a float or a negative number for serde_json and refused by the visitor. *)
Fixpoint digits_value (acc : N) (s : text) : option N :=
  match s with
  | [] => Some acc
  | c :: r => match dec_digit c with Some d => digits_value (acc * 10 + d) r | None => None end
  end.
Definition as_uint (bound : N) (j : json) : result json_error N :=
  match j with
  | J_number s => match digits_value 0 s with
                  | Some n => if n <? bound then Ok n else Err JSON_Error
                  | None => Err JSON_Error
                  end
  | _ => Err JSON_Error
  end.
(** [Vec::deserialize]. For distro/src/lib.rs 41, 46. *)
Definition as_vec {A} (f : json -> result json_error A) (j : json) : result json_error (list A) :=
  match j with J_array l => collect f l | _ => Err JSON_Error end.

(** [#[derive(Deserialize)]] of a struct, [visit_map]: a slot per field; a second value for a field is an error, members
    that are no fields are skipped, names are compared after their escapes. distro/src/lib.rs 37, 44, 49. *)
Fixpoint put_slot (names : list text) (slots : list (option json)) (k : text) (v : json) : result json_error (list (option json)) :=
  match names, slots with
  | n :: names', o :: slots' =>
      if bytes_eqb k n then match o with None => Ok (Some v :: slots') | Some _ => Err JSON_Error end
      else let? l := put_slot names' slots' k v in Ok (o :: l)
  | _, _ => Ok slots
  end.
Fixpoint visit_map (names : list text) (slots : list (option json)) (ms : list (text * json)) : result json_error (list (option json)) :=
  match ms with
  | [] => Ok slots
  | (k, v) :: rest =>
      let? k' := string_says k in
      let? slots' := put_slot names slots k' v in
      visit_map names slots' rest
  end.
(** ... then every field must have its value; [visit_seq]: a list with the fields in order is taken as well. distro/src/lib.rs 37, 44, 49. *)
Definition as_struct (names : list text) (j : json) : result json_error (list json) :=
  match j with
  | J_object ms =>
      let? slots := visit_map names (map (fun _ => None) names) ms in
      collect (fun o => match o with Some v => Ok v | None => Err JSON_Error end) slots
  | J_array l => if Nat.eqb (length l) (length names) then Ok l else Err JSON_Error
  | _ => Err JSON_Error
  end.

(** distro/src/lib.rs 49-56. *)
Definition trust_fields : list text := [str "issued_for"; str "expires_at"; str "signature"; str "sig_type"; str "issued_at"].
Definition as_trust (j : json) : result json_error dto_trust :=
  let? l := as_struct trust_fields j in
  match l with
  | [a; b; c; d; e] =>
      let? issued_for := as_string a in
      let? expires_at := as_uint u64_bound b in
      let? signature := as_string c in
      let? sig_type := as_string d in
      let? issued_at := as_uint u64_bound e in
      Ok (mk_dto_trust issued_for expires_at signature sig_type issued_at)
  | _ => Err JSON_Error
  end.
(** distro/src/lib.rs 44-47. *)
Definition as_cert (j : json) : result json_error dto_certificate :=
  let? l := as_struct [str "chain"] j in
  match l with
  | [a] => as_vec as_trust a
  | _ => Err JSON_Error
  end.
(** distro/src/lib.rs 37-42. *)
Definition as_certs (j : json) : result json_error distro_certs :=
  let? l := as_struct [str "root_node"; str "max_chain_length"; str "certs"] j in
  match l with
  | [a; b; c] =>
      let? root := as_string a in
      let? m := as_uint u32_bound b in
      let? cs := as_vec as_cert c in
      Ok (mk_distro_certs root m cs)
  | _ => Err JSON_Error
  end.
(** [serde_json::from_str::<Certs>]. distro/src/lib.rs 59. *)
Definition certs_from_str (s : text) : result json_error distro_certs :=
  let? j := read_json s in as_certs j.
(** distro/src/lib.rs 58-60 [KRAS_CERTS], at its first use: [from_str(..).unwrap()]. *)
Definition kras_certs (file : text) : result Empty_set distro_certs :=
  match certs_from_str file with
  | Ok c => Ok c
  | Err _ => Panic
  | Panic => Panic
  | OutOfFuel => OutOfFuel
  end.

(** ** Writing *)
Definition hex_char (n : N) : byte := if n <? 10 then u8_of_N (48 + n) else u8_of_N (87 + n).
(** serde_json [format_escaped_str_contents]; [JSON.stringify] writes strings in the same way. Reached from [Serialize], distro/src/lib.rs 37-56, and from admin/index.ts 83. *)
Definition write_char (c : byte) : text :=
  if Byte.eqb c x22 then [x5c; x22] else if Byte.eqb c x5c then [x5c; x5c]
  else if Byte.eqb c x08 then [x5c; x62] else if Byte.eqb c x0c then [x5c; x66] else if Byte.eqb c x0a then [x5c; x6e]
  else if Byte.eqb c x0d then [x5c; x72] else if Byte.eqb c x09 then [x5c; x74]
  else if is_control c then str "\u00" ++ [hex_char (N_of_u8 c / 16); hex_char (N_of_u8 c mod 16)]
  else [c].
Definition write_string (s : text) : text := x22 :: flat_map write_char s ++ [x22].
Definition write_uint (n : N) : text := u64_to_string n.
Fixpoint commas (l : list text) : text :=
  match l with
  | [] => []
  | [x] => x
  | x :: l' => x ++ x2c :: commas l'
  end.
Definition write_array (l : list text) : text := x5b :: commas l ++ [x5d].
Definition write_object (l : list (text * text)) : text :=
  x7b :: commas (map (fun m => write_string (fst m) ++ x3a :: snd m) l) ++ [x7d].

(** [serde_json::to_string], [#[derive(Serialize)]]: the fields in the order of the struct. distro/src/lib.rs 37-56. *)
Definition trust_members (t : dto_trust) : list (text * text) :=
  [ (str "issued_for", write_string (dt_issued_for t)); (str "expires_at", write_uint (dt_expires_at t));
    (str "signature", write_string (dt_signature t)); (str "sig_type", write_string (dt_sig_type t));
    (str "issued_at", write_uint (dt_issued_at t)) ].
Definition write_cert (order : dto_trust -> list (text * text)) (c : dto_certificate) : text :=
  write_object [(str "chain", write_array (map (fun t => write_object (order t)) c))].
Definition certs_to_string (c : distro_certs) : text :=
  write_object [ (str "root_node", write_string (root_node c)); (str "max_chain_length", write_uint (max_chain_length c));
                 (str "certs", write_array (map (write_cert trust_members) (certs c))) ].

(** admin/index.ts 83: [JSON.stringify({certs: certificates})]. [order t] are the members of the trust object, in the order in
    which the node's answer was turned into an object. Simplified: JavaScript numbers are exact below 2^53. *)
Definition admin_file (order : dto_trust -> list (text * text)) (cs : list dto_certificate) : text :=
  write_object [(str "certs", write_array (map (write_cert order) cs))].
