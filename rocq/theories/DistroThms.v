(** The properties of the start data in their final form. PropsDistro.v restates them. *)
From Coq Require Import List NArith Bool Lia Permutation.
From Coq Require String.
Import String.StringSyntax.
From Verif Require Import Base BaseFacts Text TextFacts Keys Trust Certificate Relation Storage Graph Service Spec ServiceSpec TextSpec Aqua AquaSpec Boot BootSpec BootThms
  Tools ToolsSpec ToolsThms Distro DistroData DistroSpec DistroFacts.
Import ListNotations.
Open Scope N_scope.

(** ** C138 *)
(** What [to_string] writes is JSON for the data, and *)
Lemma p_C138_writes : forall c, certs_fit c -> certs_text (certs_to_string c) c.
Proof.
  intros [root m cs] [L F]. apply (written_distro trust_members root m cs); [intros c t _ _; apply Permutation_refl|exact F|exact L].
Qed.
(** [from_str] reads it back to the same data. *)
Lemma p_C138_round_trip : forall c, certs_fit c -> certs_from_str (certs_to_string c) = Ok c.
Proof. intros c F. apply certs_from_str_iff. apply p_C138_writes. exact F. Qed.
(** Different data have different texts. *)
Lemma p_C138_injective : forall c c', certs_fit c -> certs_fit c' -> certs_to_string c = certs_to_string c' -> c = c'.
Proof. intros c c' F F' E. apply p_C138_round_trip in F, F'. rewrite E in F. congruence. Qed.
Example e_C138_fits : let c := mk_distro_certs (x22 :: x0a :: x5c :: x01 :: str "r") 4294967295 [[mk_dto_trust (str "p") 18446744073709551615 [xc3; xa9] (str "ed25519") 0]; []] in
  certs_fit c /\ certs_to_string c = str "{""root_node"":""\""\n\\\u0001r"",""max_chain_length"":4294967295,""certs"":[{""chain"":[{""issued_for"":""p"",""expires_at"":18446744073709551615,""signature"":"""
    ++ [xc3; xa9] ++ str """,""sig_type"":""ed25519"",""issued_at"":0}]},{""chain"":[]}]}".
Proof.
  split; [|vm_compute; reflexivity]. split; [reflexivity|]. intros x t [<-|[<-|[]]]; [|intros []]. intros [<-|[]]. split; reflexivity.
Qed.

(** ** C139 *)
(** A text is read to start data exactly if it is JSON for them. *)
Lemma p_C139_exactly : forall s c, certs_from_str s = Ok c <-> certs_text s c.
Proof. exact certs_from_str_iff. Qed.
(** Every other text is an error, and then the first use of [KRAS_CERTS] panics: it never panics otherwise. *)
Lemma p_C139_otherwise : forall s,
  (exists c, certs_text s c /\ certs_from_str s = Ok c /\ kras_certs s = Ok c) \/ ((forall c, ~ certs_text s c) /\ certs_from_str s = Err JSON_Error /\ kras_certs s = Panic).
Proof.
  intros s. unfold kras_certs. destruct (certs_from_str_total s) as [(c & E)|E].
  - left. exists c. rewrite E. split; [apply certs_from_str_iff; exact E|auto].
  - right. rewrite E. split; [|auto]. intros c T. apply certs_from_str_iff in T. congruence.
Qed.
(** A text is JSON for at most one value and for at most one start data. *)
Lemma p_C139_one_meaning : forall s, (forall j j', json_file j s -> json_file j' s -> j = j') /\ (forall c c', certs_text s c -> certs_text s c' -> c = c').
Proof.
  intros s. split; [intros j j'; apply json_file_fun|]. intros c c' A B. apply certs_from_str_iff in A, B. congruence.
Qed.
(** Numbers of the data that was read fit their types. *)
Lemma p_C139_fits : forall s c, certs_from_str s = Ok c -> certs_fit c.
Proof.
  intros s c H. apply certs_from_str_iff in H. destruct H as (j & _ & x & y & z & _ & _ & (w & _ & _ & L) & (vs & _ & F)). split; [exact L|].
  intros ch t K K'. clear - F K K'. induction F as [|a v cs vs (b & _ & (us & _ & G)) F IH]; [destruct K|]. destruct K as [<-|K]; [|apply IH; exact K].
  clear - G K'. induction G as [|t' u ts us (? & ? & ? & ? & ? & _ & _ & (? & _ & _ & L1) & _ & _ & (? & _ & _ & L2)) G IH]; [destruct K'|]. destruct K' as [<-|K']; [split; assumption|apply IH; exact K'].
Qed.
(** Other spellings that are read: whitespace, any order, other members, escapes in names and values, structs as lists. *)
Example e_C139_spellings : certs_from_str (str " { ""extra"" : [ -1.5e+3 , null , {} ] , ""certs"":[[[[""p"",7,""\u0041\ud83D\uDE00"",""t"",9]]]] ,""max_chain_length"" : 0,
  ""root_node"":""\/""}  ") = Ok (mk_distro_certs (str "/") 0 [[mk_dto_trust (str "p") 7 [x41; xf0; x9f; x98; x80] (str "t") 9]]).
Proof. vm_compute. reflexivity. Qed.
(** Texts that are not: a missing field, a field twice, a number that is too big, negative or a float, a lone surrogate, a comma too many, something after the value. *)
Example e_C139_refused : forall s, In s
  [ str "{}"; str "{""root_node"":"""",""max_chain_length"":0,""certs"":[],""certs"":[]}"; str "{""root_node"":"""",""max_chain_length"":4294967296,""certs"":[]}";
    str "{""root_node"":"""",""max_chain_length"":-0,""certs"":[]}"; str "{""root_node"":"""",""max_chain_length"":1.0,""certs"":[]}"; str "{""root_node"":""\ud800"",""max_chain_length"":1,""certs"":[]}";
    str "{""root_node"":"""",""max_chain_length"":1,""certs"":[],}"; str "["""",1,[]]]"; str "["""",01,[]]" ] -> certs_from_str s = Err JSON_Error.
Proof. intros s H. repeat (destruct H as [<-|H]; [vm_compute; reflexivity|]). destruct H. Qed.

(** ** C140 *)
Lemma start_data_read : forall s cs, (exists ms v, read_json s = Ok (J_object ms) /\ named ms (str "certs") = [v] /\ keys_read ms /\ as_vec as_cert v = Ok cs) <-> start_script_data s cs.
Proof.
  intros s cs. split.
  - intros (ms & v & R & N & K & A). apply read_json_iff in R. pose proof R as (g & t & g' & _ & T & _). assert (W : written (J_object ms)) by (exists t; exact T).
    exists ms, v. split; [exact R|]. split; [apply member_iff; [intros k w I; apply (object_written ms W k w I)|split; assumption]|].
    apply (as_vec_iff _ as_cert is_cert) in A; [exact A| |intros u w Wu; apply as_cert_iff; exact Wu]. destruct (named_split _ _ _ N) as (a & k & b & E & _). apply (object_written ms W k v). rewrite E. apply in_or_app. right. left. reflexivity.
  - intros (ms & v & R & M & L). pose proof R as (g & t & g' & _ & T & _). assert (W : written (J_object ms)) by (exists t; exact T). apply read_json_iff in R.
    apply member_iff in M; [|intros k w I; apply (object_written ms W k w I)]. destruct M as [K N]. exists ms, v. split; [exact R|]. split; [exact N|]. split; [exact K|].
    apply (as_vec_iff _ as_cert is_cert); [|intros u w Wu; apply as_cert_iff; exact Wu|exact L]. destruct (named_split _ _ _ N) as (a & k & b & E & _). apply (object_written ms W k v). rewrite E. apply in_or_app. right. left. reflexivity.
Qed.
Lemma start_data_fun : forall s cs cs', start_script_data s cs -> start_script_data s cs' -> cs = cs'.
Proof.
  intros s cs cs' A B. apply start_data_read in A, B. destruct A as (ms & v & R & N & _ & A), B as (ms' & v' & R' & N' & _ & B). rewrite R in R'. injection R' as <-. rewrite N in N'. injection N' as <-. congruence.
Qed.
Lemma admin_file_says : forall order cs, orders order cs -> (forall c t, In c cs -> In t c -> trust_fits t) -> start_script_data (admin_file order cs) cs.
Proof.
  intros order cs O F. destruct (written_certs order cs O F) as (v & J & L). exists [(flat_map write_char (str "certs"), v)], v. split; [apply json_text_file; apply write_object_text; repeat constructor; exact J|]. split; [|exact L].
  exists [], (flat_map write_char (str "certs")), []. split; [reflexivity|]. split; [apply write_spells|intros k' v' []].
Qed.
(** The order of the members in the shipped files. *)
Definition shipped_order (t : dto_trust) : list (text * text) :=
  [ (str "sig_type", write_string (dt_sig_type t)); (str "expires_at", write_uint (dt_expires_at t)); (str "issued_at", write_uint (dt_issued_at t));
    (str "issued_for", write_string (dt_issued_for t)); (str "signature", write_string (dt_signature t)) ].
Lemma shipped_orders : forall cs, orders shipped_order cs.
Proof.
  intros cs c t _ _. unfold shipped_order. set (a := (str "sig_type", _)). set (b := (str "expires_at", _)). set (d := (str "issued_at", _)). set (e := (str "issued_for", _)). set (f := (str "signature", _)).
  apply (Permutation_trans (l' := [e; a; b; d; f])); [apply Permutation_sym, (Permutation_middle [a; b; d] [f] e)|]. constructor. apply (Permutation_trans (l' := [b; a; d; f])); [constructor|]. constructor.
  apply (Permutation_trans (l' := [f; a; d])); [apply Permutation_sym, (Permutation_middle [a; d] [] f)|reflexivity].
Qed.
Lemma shipped_fits : forall c t, In c shipped -> In t c -> trust_fits t.
Proof.
  intros c t Hc Ht. enough (A : forallb (fun c => forallb (fun t => (dt_expires_at t <? 2 ^ 64) && (dt_issued_at t <? 2 ^ 64)) c) shipped = true).
  { rewrite forallb_forall in A. specialize (A c Hc). rewrite forallb_forall in A. specialize (A t Ht). apply andb_prop in A. destruct A as [A B]. apply N.ltb_lt in A, B. split; assumption. }
  vm_compute. reflexivity.
Qed.
Lemma on_start_is : on_start_json = admin_file shipped_order shipped.
Proof. vm_compute. reflexivity. Qed.
Lemma init_certs_is : init_certs_json = write_object [ (str "root_node", write_string fluence_root_peer_id); (str "max_chain_length", write_uint 5); (str "certs", write_array (map (write_cert shipped_order) shipped)) ] ++ [x0a].
Proof. vm_compute. reflexivity. Qed.
(** The packed file is read: the root is the Fluence root, the chain length 5, as the start script sets them, and the certificates are those of the model of
    the start script. *)
Lemma p_C140_packed : kras_certs init_certs_json = Ok (mk_distro_certs fluence_root_peer_id 5 shipped).
Proof.
  unfold kras_certs. replace (certs_from_str init_certs_json) with (@Ok json_error _ (mk_distro_certs fluence_root_peer_id 5 shipped)); [reflexivity|]. symmetry. apply certs_from_str_iff.
  destruct (written_distro shipped_order fluence_root_peer_id 5 shipped (shipped_orders _) shipped_fits ltac:(reflexivity)) as (j & F & H). exists j. split; [|exact H]. rewrite init_certs_is.
  destruct F as (g & t & g' & G & T & G' & E). exists g, t, (g' ++ [x0a]). split; [exact G|]. split; [exact T|]. split; [apply gap_app; [exact G'|intros c [<-|[]]; cbn; tauto]|]. rewrite E, <- !app_assoc. reflexivity.
Qed.
(** The data file of the start script holds the same certificates and no others. *)
Lemma p_C140_on_start : forall cs, start_script_data on_start_json cs <-> cs = shipped.
Proof.
  assert (A : start_script_data on_start_json shipped) by (rewrite on_start_is; apply admin_file_says; [apply shipped_orders|apply shipped_fits]).
  intros cs. split; [intros B; apply (start_data_fun _ _ _ B A)|intros ->; exact A].
Qed.
(** So a new node that is started with the packed certificates before 25 January 2025 is told it is a Fluence peer exactly if it is one of their eleven nodes. *)
Lemma p_C140_labels : forall C net me node data c boots x st r st' k now, crypto_laws C -> wasm32 C = true -> shipped_genuine C ->
  kras_certs init_certs_json = Ok c -> started_with (certs c) 1737828468 boots -> boot C me me node data None boots empty_db = (x, st node) ->
  network_state C st -> (forall c, fault net node c = None) -> peer_key C node k -> now < 1737828468 -> is_fluence_peer C net node now st = (r, st') ->
  x = Ok [R_true] /\ exists b, r = Ok ([b], []) /\ (b = true <-> exists p, In p shipped_nodes /\ peer_key C p k).
Proof.
  intros C net me node data c boots x st r st' k now L W G Ek [M B] Eb Ns Nf Pk Ln Ef. rewrite p_C140_packed in Ek. injection Ek as <-. apply (p_C108_shipped_labels C net me node data boots x st r st' k now); assumption.
Qed.
(** In a build for the linter the data are replaced by an empty object and [KRAS_CERTS] panics when it is used. *)
Lemma p_C140_clippy : kras_certs clippy_certs_json = Panic.
Proof. vm_compute. reflexivity. Qed.

(** ** C141 *)
(** The file of the admin tool holds exactly the certificates the tool made, in whatever order the members of the trusts are written. *)
Lemma p_C141_holds : forall order cs, orders order cs -> (forall c t, In c cs -> In t c -> trust_fits t) ->
  forall cs', start_script_data (admin_file order cs) cs' <-> cs' = cs.
Proof.
  intros order cs O F cs'. pose proof (admin_file_says order cs O F) as A. split; [intros B; apply (start_data_fun _ _ _ B A)|intros ->; exact A].
Qed.
(** The shipped data file of the start script is what the tool writes for the shipped certificates. *)
Lemma p_C141_shipped : exists order, orders order shipped /\ on_start_json = admin_file order shipped.
Proof. exists shipped_order. split; [apply shipped_orders|apply on_start_is]. Qed.
(** From the keys to the label: the tool runs, writes its file in whatever order, and a new node is started with what the file says. *)
Lemma p_C141_labels : forall C net net' src me anode node data root issuer example peers ks cur st0 cs st1 order cs' boots x st r st' k now, crypto_laws C -> wasm32 C = true ->
  admin_input C root issuer example peers ks -> kp_public C root = root_key -> kp_public C issuer = label_key ->
  admin_main C net src anode root issuer example peers cur st0 = (Ok cs, st1) -> cur + 63072000 < i64_bound -> orders order cs ->
  start_script_data (admin_file order cs) cs' -> started_with cs' (cur + 63072000) boots ->
  boot C me me node data None boots empty_db = (x, st node) -> network_state C st -> (forall c, fault net' node c = None) -> peer_key C node k ->
  now < cur + 63072000 -> is_fluence_peer C net' node now st = (r, st') ->
  x = Ok [R_true] /\ exists b, r = Ok ([b], []) /\ (b = true <-> In k ks).
Proof.
  intros C net net' src me anode node data root issuer example peers ks cur st0 cs st1 order cs' boots x st r st' k now L W Ai Er Ei Ea Lt O Sd Sw Eb Ns Nf Pk Ln Ef.
  destruct (p_C111_admin_writes C net src anode root issuer example peers ks cur st0 L W Ai) as (cs0 & certs & st2 & Ea' & _ & Rec & Out). rewrite Ea in Ea'. injection Ea' as <- <-.
  assert (F : forall c t, In c cs -> In t c -> trust_fits t).
  { assert (T : forall c t, In c certs -> In t c -> secs (expires_at t) = cur + 63072000 /\ secs (issued_at t) = cur).
    { destruct Out as (tr & ti & te & ts & Tr & Ti & Te & Ts & ->). assert (A : forall b kk t, trust_asked C b kk (cur + 63072000) cur t -> secs (expires_at t) = cur + 63072000 /\ secs (issued_at t) = cur) by (intros b kk t (_ & -> & -> & _); split; reflexivity).
      intros c t [<-|Hc] Ht.
      - destruct Ht as [<-|[<-|[]]]; eapply A; eassumption.
      - apply in_map_iff in Hc. destruct Hc as (tn & <- & Hn). destruct Ht as [<-|[<-|[<-|[]]]]; [eapply A; eassumption|eapply A; eassumption|].
        clear - Ts Hn A. induction Ts as [|k0 t0 ks ts H Ts IH]; [destruct Hn|]. destruct Hn as [<-|Hn]; [eapply A; exact H|apply IH; exact Hn]. }
    intros c t Hc Ht. clear - Rec Lt T Hc Ht. induction Rec as [|r c0 cs certs R Rec IH]; [destruct Hc|]. destruct Hc as [<-|Hc]; [|apply IH; [intros c1 t1 H1 H2; apply (T c1 t1); [right; exact H1|exact H2]|exact Hc]].
    assert (T' : forall t1, In t1 c0 -> secs (expires_at t1) = cur + 63072000 /\ secs (issued_at t1) = cur) by (intros t1 H1; apply (T c0 t1); [left; reflexivity|exact H1]).
    clear - R Lt T' Ht. induction R as [|rt t1 r c0 (_ & X1 & X2 & _) R IH]; [destruct Ht|]. destruct Ht as [<-|Ht]; [|apply IH; [exact Ht|intros t2 H2; apply T'; right; exact H2]].
    destruct (T' t1 (or_introl eq_refl)) as [Y1 Y2]. rewrite X1 in Y1. rewrite X2 in Y2. cbn in Y1, Y2. unfold trust_fits. change (2 ^ 64) with 18446744073709551616. unfold i64_bound in Lt. lia. }
  apply (p_C141_holds order cs O F) in Sd. subst cs'.
  apply (p_C111_admin_labels C net net' src me anode node data root issuer example peers ks cur st0 cs st1 boots x st r st' k now); assumption.
Qed.
Example e_C141_orders : orders trust_members shipped /\ orders shipped_order shipped /\ trust_members shipped_trust_0 <> shipped_order shipped_trust_0 /\
  (forall c t, In c shipped -> In t c -> trust_fits t).
Proof. split; [intros c t _ _; apply Permutation_refl|]. split; [apply shipped_orders|]. split; [intros E; apply (f_equal (map fst)) in E; discriminate|apply shipped_fits]. Qed.

(** ** C142 *)
(** No file of the admin tool can be packed as it is: [KRAS_CERTS] panics, because the file names no root and no chain length. *)
Lemma p_C142_packed_refuted : forall order cs, orders order cs -> (forall c t, In c cs -> In t c -> trust_fits t) -> kras_certs (admin_file order cs) = Panic.
Proof.
  intros order cs O F. unfold kras_certs. destruct (certs_from_str_total (admin_file order cs)) as [(c & E)|E]; [|rewrite E; reflexivity]. exfalso.
  apply certs_from_str_iff in E. destruct E as (j & Fj & x & y & z & H & _). destruct (written_certs order cs O F) as (v & J & _).
  assert (Ej : j = J_object [(flat_map write_char (str "certs"), v)]) by (apply (json_file_fun (admin_file order cs)); [exact Fj|apply json_text_file; apply write_object_text; repeat constructor; exact J]). subst j.
  destruct H as [(ms & [= <-] & M)|[[=] _]]. inversion M as [|? ? ? ? (a & k & b & E & Sp & _) _]; subst. destruct a as [|p a]; [|destruct a; discriminate]. injection E as <- _ _.
  assert (K : str "certs" = str "root_node") by (apply (spells_fun _ _ _ (write_spells (str "certs")) Sp)). discriminate.
Qed.
(** The part that holds: with the two members added, as in the packed file, it is read to the same certificates. *)
Lemma p_C142_completed_partial : forall order cs root m, orders order cs -> (forall c t, In c cs -> In t c -> trust_fits t) -> m < 2 ^ 32 ->
  exists rest, admin_file order cs = str "{" ++ rest /\
    kras_certs (str "{""root_node"":" ++ write_string root ++ str ",""max_chain_length"":" ++ write_uint m ++ str "," ++ rest) = Ok (mk_distro_certs root m cs).
Proof.
  intros order cs root m O F L. exists (tl (admin_file order cs)). split; [reflexivity|]. pose proof (written_distro order root m cs O F L) as T. apply certs_from_str_iff in T. unfold kras_certs.
  match goal with |- context [certs_from_str ?s] => match type of T with certs_from_str ?s' = _ => replace s with s' end end; [rewrite T; reflexivity|].
  unfold admin_file, write_object. cbn [map commas fst snd tl]. generalize (write_array (map (write_cert order) cs)) (write_string root) (write_uint m). intros x y z. flat.
Qed.
