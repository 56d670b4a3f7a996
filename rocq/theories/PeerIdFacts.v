(** Facts about base-128 numbers and protobuf messages. *)
From Coq Require Import List NArith ZArith Bool Lia.
From Verif Require Import Base BaseFacts Text Keys Convert ConvertSpec Service PeerId PeerIdSpec.
Import ListNotations.
Open Scope N_scope.

Lemma groups_read : forall n b, groups_of n b -> forall left rest, (length b <= left)%nat ->
  read_varint false left (b ++ rest) = Some (n, rest).
Proof.
  induction 1 as [x L|x n b L G IH]; intros left rest H.
  - destruct left; [cbn in H; lia|]. cbn. apply N.ltb_lt in L. rewrite L. reflexivity.
  - destruct left as [|left]; [cbn in H; lia|]. cbn [app read_varint andb]. apply N.ltb_ge in L. rewrite L.
    rewrite IH by (cbn in H; lia). reflexivity.
Qed.

Lemma varint_read : forall n b rest, varint n b -> read_varint false 10 (b ++ rest) = Some (n, rest).
Proof. intros n b rest [G L]. apply groups_read; assumption. Qed.

Lemma varint_nonempty : forall n b, varint n b -> (1 <= length b)%nat.
Proof. intros n b [G _]. inversion G; cbn; lia. Qed.

Lemma write_groups : forall left n, n < 128 ^ N.of_nat left -> (0 < left)%nat -> groups_of n (write_varint left n).
Proof.
  induction left as [|left IH]; intros n B P; [lia|]. cbn [write_varint]. destruct (n <? 128) eqn:E.
  - apply N.ltb_lt in E. pose proof (N_of_u8_of_N_small n ltac:(lia)) as V. rewrite <- V at 1. constructor. lia.
  - apply N.ltb_ge in E. pose proof (N.mod_lt n 128 ltac:(lia)) as M.
    pose proof (N_of_u8_of_N_small (128 + n mod 128) ltac:(lia)) as V.
    destruct left as [|left]; [cbn in B; lia|].
    assert (Q : n / 128 < 128 ^ N.of_nat (S left)).
    { apply N.div_lt_upper_bound; [lia|]. rewrite <- N.pow_succ_r'. rewrite <- Nat2N.inj_succ. exact B. }
    specialize (IH (n / 128) Q ltac:(lia)).
    pose proof (more_groups (u8_of_N (128 + n mod 128)) (n / 128) _ ltac:(lia) IH) as G.
    rewrite V in G. replace (128 + n mod 128 - 128 + 128 * (n / 128)) with n in G; [exact G|].
    pose proof (N.div_mod n 128 ltac:(lia)). lia.
Qed.

Lemma write_length : forall left n, (length (write_varint left n) <= left)%nat.
Proof. induction left as [|left IH]; intros n; cbn; [lia|]. destruct (n <? 128); cbn; [lia|]. specialize (IH (n / 128)). lia. Qed.

Lemma write_varint_ok : forall n, n < 128 ^ 10 -> varint n (write_varint 10 n).
Proof. intros n B. split; [apply write_groups; [exact B|lia]|apply write_length]. Qed.

Lemma one_byte : forall n, n < 128 -> write_varint 10 n = [u8_of_N n].
Proof. intros n B. cbn [write_varint]. apply N.ltb_lt in B. rewrite B. reflexivity. Qed.

Lemma firstn_len : forall (d rest : bytes), firstn (N.to_nat (len d)) (d ++ rest) = d.
Proof. intros d rest. rewrite len_to_nat, firstn_app, Nat.sub_diag, firstn_all, firstn_O. apply app_nil_r. Qed.
Lemma skipn_len : forall (d rest : bytes), skipn (N.to_nat (len d)) (d ++ rest) = rest.
Proof. intros d rest. rewrite len_to_nat, skipn_app, Nat.sub_diag, skipn_all. reflexivity. Qed.

(** One field is read as the message says. *)
Lemma field_read : forall f b, field_of f b -> forall fuel k d rest, (length b <= fuel)%nat -> exists fuel', (length rest <= fuel - length b + length rest)%nat /\
  (fuel - length b <= fuel')%nat /\
  read_message (fuel + length rest) k d (b ++ rest) =
  read_message (fuel' + length rest) (match f with Number 1 v => v | _ => k end) (match f with Chunk 2 x => x | _ => d end) rest.
Proof.
  intros f b F fuel k d rest L.
  assert (Z29 : 2 ^ 29 = 536870912) by reflexivity. assert (Z32 : 2 ^ 32 = u32_bound) by reflexivity.
  assert (U32 : u32_bound = 4294967296) by reflexivity. assert (U64 : u64_bound = 18446744073709551616) by reflexivity.
  destruct fuel as [|fuel].
  { exfalso. inversion F; subst; match goal with H : varint _ _ |- _ => pose proof (varint_nonempty _ _ H) end; rewrite !app_length in L; lia. }
  exists fuel. split; [lia|]. split.
  { inversion F; subst; match goal with H : varint _ ?t |- _ => pose proof (varint_nonempty _ _ H) end; rewrite ?app_length in *; lia. }
  assert (NE : exists x y, b ++ rest = x :: y).
  { destruct b as [|x b]; [|exists x, (b ++ rest); reflexivity].
    exfalso. inversion F as [no v t n B1 B2 V1 V2 E1 E2|no x t B1 B2 V1 E1 E2|no x t l B1 B2 V1 V2 E1 E2|no x t B1 B2 V1 E1 E2];
      apply app_eq_nil in E2; destruct E2 as [-> _]; pose proof (varint_nonempty _ _ V1) as N0; cbn in N0; lia. }
  destruct NE as [x [y NE]].
  change (S fuel + length rest)%nat with (S (fuel + length rest)).
  assert (U : forall k d, read_message (S (fuel + length rest)) k d (b ++ rest) =
    match read_varint false 10 (b ++ rest) with
          | Some (tag, b) =>
              if tag mod u32_bound =? 8 then
                match read_varint false 10 b with
                | Some (n, b') => read_message (fuel + length rest) (n mod u32_bound) d b'
                | None => None
                end
              else if tag mod u32_bound =? 18 then
                match read_varint false 10 b with
                | Some (n, b') =>
                    let size := n mod u32_bound in
                    if size <=? len b' then read_message (fuel + length rest) k (firstn (N.to_nat size) b') (skipn (N.to_nat size) b') else None
                | None => None
                end
              else
                match skip_field (tag mod u32_bound) b with
                | Some b' => read_message (fuel + length rest) k d b'
                | None => None
                end
          | None => None
          end) by (intros; rewrite NE; reflexivity).
  rewrite U. clear U NE x y L.
  inversion F as [no v t n B1 B2 V1 V2 E1 E2|no x t B1 B2 V1 E1 E2|no x t l B1 B2 V1 V2 E1 E2|no x t B1 B2 V1 E1 E2]; subst;
    rewrite <- !app_assoc, (varint_read _ _ _ V1), (N.mod_small _ u32_bound) by lia.
  - rewrite (varint_read _ _ _ V2).
    destruct (N.eqb_spec (8 * no) 8) as [E|E].
    + replace no with 1 by lia. rewrite N.mod_small by lia. reflexivity.
    + destruct (N.eqb_spec (8 * no) 18) as [E'|_]; [lia|]. unfold skip_field.
      replace (8 * no mod 8) with 0 by (rewrite N.mul_comm, N.mod_mul; lia). rewrite (varint_read _ _ _ V2).
      replace (match no with 1 => v | _ => k end) with k by (destruct no as [|[| |]]; try reflexivity; lia). reflexivity.
  - destruct (N.eqb_spec (8 * no + 1) 8) as [E|_]; [lia|]. destruct (N.eqb_spec (8 * no + 1) 18) as [E|_]; [lia|].
    unfold skip_field. replace ((8 * no + 1) mod 8) with 1 by (rewrite N.add_comm, N.mul_comm, N.mod_add by lia; reflexivity).
    rewrite len_app, B2. destruct (N.leb_spec 8 (8 + len rest)) as [_|X]; [|lia]. rewrite <- B2, skipn_len. reflexivity.
  - rewrite (varint_read _ _ _ V2). destruct (N.eqb_spec (8 * no + 2) 8) as [E|_]; [lia|].
    destruct (N.eqb_spec (8 * no + 2) 18) as [E|E].
    + replace no with 2 by lia. cbn zeta. rewrite (N.mod_small (len x)) by lia. rewrite len_app.
      destruct (N.leb_spec (len x) (len x + len rest)) as [_|X]; [|lia]. rewrite firstn_len, skipn_len. reflexivity.
    + unfold skip_field. replace ((8 * no + 2) mod 8) with 2 by (rewrite N.add_comm, N.mul_comm, N.mod_add by lia; reflexivity).
      rewrite (varint_read _ _ _ V2), (N.mod_small (len x)) by lia. rewrite len_app.
      destruct (N.leb_spec (len x) (len x + len rest)) as [_|X]; [|lia]. rewrite skipn_len.
      replace (match no with 2 => x | _ => d end) with d by (destruct no as [|[|[| |]|]]; try reflexivity; lia). reflexivity.
  - destruct (N.eqb_spec (8 * no + 5) 8) as [E|_]; [lia|]. destruct (N.eqb_spec (8 * no + 5) 18) as [E|_]; [lia|].
    unfold skip_field. replace ((8 * no + 5) mod 8) with 5 by (rewrite N.add_comm, N.mul_comm, N.mod_add by lia; reflexivity).
    rewrite len_app, B2. destruct (N.leb_spec 4 (4 + len rest)) as [_|X]; [|lia]. rewrite <- B2, skipn_len. reflexivity.
Qed.

Lemma message_read : forall fs b, message_of fs b -> forall fuel k d, (length b <= fuel)%nat ->
  read_message fuel k d b = Some (fold_left (fun k f => match f with Number 1 v => v | _ => k end) fs k,
                                  fold_left (fun d f => match f with Chunk 2 x => x | _ => d end) fs d).
Proof.
  induction 1 as [|f fs b bs F M IH]; intros fuel k d L.
  - destruct fuel; reflexivity.
  - rewrite app_length in L.
    destruct (field_read f b F (fuel - length bs) k d bs ltac:(lia)) as [fuel' [_ [G E]]].
    replace (fuel - length bs + length bs)%nat with fuel in E by lia. rewrite E. cbn [fold_left].
    apply IH. lia.
Qed.

(** What is read is in the bytes. *)
Lemma varint_suffix : forall strict left b n rest, read_varint strict left b = Some (n, rest) -> exists a, b = a ++ rest.
Proof.
  induction left as [|left IH]; intros b n rest H; [discriminate|]. destruct b as [|x b]; [discriminate|]. cbn [read_varint] in H.
  destruct (N_of_u8 x <? 128); [inversion H; subst; exists [x]; reflexivity|].
  destruct (strict && _); [discriminate|].
  destruct (read_varint strict left b) as [[m r]|] eqn:E; [|discriminate]. inversion H; subst. destruct (IH _ _ _ E) as [a ->].
  exists (x :: a). reflexivity.
Qed.

Lemma skip_suffix : forall tag b rest, skip_field tag b = Some rest -> exists a, b = a ++ rest.
Proof.
  intros tag b rest H. unfold skip_field in H.
  assert (Fx : forall n, (if n <=? len b then Some (skipn (N.to_nat n) b) else None) = Some rest -> exists a, b = a ++ rest).
  { intros n X. destruct (n <=? len b); [|discriminate]. inversion X; subst. exists (firstn (N.to_nat n) b). symmetry. apply firstn_skipn. }
  cbv zeta in H.
  destruct (N.eq_dec (tag mod 8) 0) as [E0|E0]; [rewrite E0 in H|destruct (N.eq_dec (tag mod 8) 2) as [E2|E2]; [rewrite E2 in H|]].
  - destruct (read_varint false 10 b) as [[m r]|] eqn:E; [|discriminate]. inversion H; subst. eapply varint_suffix. exact E.
  - destruct (read_varint false 10 b) as [[m r]|] eqn:E; [|discriminate]. destruct (varint_suffix _ _ _ _ _ E) as [a ->].
    destruct (m mod u64_bound <=? len r); [|discriminate]. inversion H; subst.
    exists (a ++ firstn (N.to_nat (m mod u64_bound)) r). rewrite <- app_assoc, firstn_skipn. reflexivity.
  - destruct (tag mod 8) as [|[[p|p|]|[p|[p|p|]|]|]]; try discriminate; try contradiction; try (apply Fx in H; exact H).
    destruct p; [discriminate|discriminate|apply Fx in H; exact H].
Qed.

Lemma message_contains : forall fuel k d b n data, read_message fuel k d b = Some (n, data) ->
  data = d \/ exists a c, b = a ++ data ++ c.
Proof.
  induction fuel as [|fuel IH]; intros k d b n data H.
  - destruct b; [|discriminate]. inversion H; subst. left. reflexivity.
  - destruct b as [|x b]; [inversion H; subst; left; reflexivity|]. cbn [read_message] in H. set (w := x :: b) in *. clearbody w.
    destruct (read_varint false 10 w) as [[tag r]|] eqn:E; [|discriminate]. destruct (varint_suffix _ _ _ _ _ E) as [a ->]. clear E.
    assert (K : forall u r', r = u ++ r' -> forall k' d', read_message fuel k' d' r' = Some (n, data) ->
      data = d' \/ exists a' c, a ++ r = a' ++ data ++ c).
    { intros u r' -> k' d' R. destruct (IH _ _ _ _ _ R) as [X|[a' [c X]]]; [left; exact X|right].
      exists (a ++ u ++ a'), c. rewrite X, <- !app_assoc. reflexivity. }
    destruct (tag mod u32_bound =? 8).
    + destruct (read_varint false 10 r) as [[m r']|] eqn:E; [|discriminate]. destruct (varint_suffix _ _ _ _ _ E) as [u ->].
      exact (K u r' eq_refl _ _ H).
    + destruct (tag mod u32_bound =? 18).
      * destruct (read_varint false 10 r) as [[m r']|] eqn:E; [|discriminate]. destruct (varint_suffix _ _ _ _ _ E) as [u X].
        cbn zeta in H. destruct (m mod u32_bound <=? len r'); [|discriminate]. set (z := N.to_nat (m mod u32_bound)) in *.
        assert (S : r = (u ++ firstn z r') ++ skipn z r') by (rewrite <- app_assoc, firstn_skipn; exact X).
        destruct (K _ _ S _ _ H) as [->|R]; [|right; exact R]. right.
        exists (a ++ u), (skipn z r'). rewrite firstn_skipn, X, <- app_assoc. reflexivity.
      * destruct (skip_field (tag mod u32_bound) r) as [r'|] eqn:E; [|discriminate]. destruct (skip_suffix _ _ _ E) as [u X].
        exact (K u r' X _ _ H).
Qed.
