(** Property C75: what the bytes of a log stand for, and what bytes are written for a value. *)
From Verif Require Import Base Dict PyStr PyFloat Utf8 Struct ModelTypes ModelRead ModelApi Spec SpecSection SpecMsg
  ProofsTrace ProofsChange ProofsInv ProofsCut ProofsSection ProofsData ProofsWhole ProofsFields ProofsLoad ProofsProps ProofsFile ProofsEq Samples
  PropsRead SpecWalk ProofsWalk ProofsRead ProofsMsg ProofsExpand ProofsLog SpecLog PropsColumns SpecTools SpecText ProofsText
  SpecNumber ProofsNumber ProofsIeee ProofsDouble ProofsInt.
Ltac Zify.zify_post_hook ::= idtac.

(** ** Texts *)
(** Bytes are decoded as UTF-8; invalid bytes are left out when errors are ignored. *)
Theorem C75_text : forall ign b s, utf8_decode ign b = Ok s <-> text ign b s.
Proof. exact text_iff. Qed.
(** Ignoring errors always gives a text; otherwise there is one exception. *)
Theorem C75_text_total : forall ign b, (exists s, text ign b s) \/ (ign = false /\ utf8_decode ign b = Err UnicodeDecodeError).
Proof.
  intros [|] b; [left; apply lenient_total|]. destruct (utf8_decode false b) as [s|e] eqn:E.
  - left. exists s. now apply strict_iff.
  - right. split; [reflexivity|]. f_equal. exact (strict_err _ _ E).
Qed.
(** What is valid without the option is the same text with it. *)
Theorem C75_text_valid : forall b s, text false b s -> text true b s.
Proof. intros b s. induction 1 as [|c p b s Hc _ IH]; [constructor|exact (ln_char c p b s Hc IH)]. Qed.
(** A text is written as the bytes that spell it. *)
Theorem C75_text_written : forall s b, utf8_encode s = Ok b <-> text false b s.
Proof. exact encode_iff. Qed.
(** "a", a truncated sequence of three, a stray continuation, U+00E9 *)
Example C75_text_ex : text true [97; 226; 130; 195; 169; 191; 98] [97; 233; 98] /\ ~ (exists s, text false [97; 226; 130; 195; 169; 191; 98] s).
Proof.
  split; [apply text_iff; reflexivity|]. intros (s & H). apply text_iff in H. discriminate.
Qed.

(** ** Numbers *)
(** A type of integers reads its bytes as two's complement, and nothing else. *)
Theorem C75_int : forall c bits signed b v, bytes_ok b -> int_type c = Some (bits, signed) ->
  (unpack_val c b = Ok v <-> exists z, v = VInt z /\ integer bits signed b z).
Proof.
  intros c bits signed b v Hb H. destruct (int_type_spec _ _ _ H) as (E & ->).
  assert (Hn : (0 < ctype_size c)%nat) by (destruct c; simpl; lia).
  assert (Hu : unpack_val c b = let* x := unpack_u (ctype_size c) b in Ok (VInt (if ctype_signed c then to_signed (ctype_size c) x else x))) by (destruct c; try discriminate H; reflexivity).
  rewrite Hu. unfold unpack_u. split.
  - destruct (Nat.eqb_spec (length b) (ctype_size c)) as [L|]; [|discriminate]. intros X. injection X as <-. eexists. split; [reflexivity|].
    apply (integer_iff _ _ _ _ _ Hb E Hn). auto.
  - intros (z & -> & I). apply (integer_iff _ _ _ _ _ Hb E Hn) in I as (L & ->). rewrite L, Nat.eqb_refl. reflexivity.
Qed.
Lemma half_even n : (0 < n)%nat -> exists h, 256 ^ Z.of_nat n = 2 * h /\ 256 ^ Z.of_nat n / 2 = h.
Proof.
  intros Hn. exists (256 ^ Z.of_nat n / 2). split; [|reflexivity]. destruct n as [|n]; [lia|].
  replace (Z.of_nat (S n)) with (1 + Z.of_nat n) by lia. rewrite Z.pow_add_r by lia. change (256 ^ 1) with (128 * 2).
  replace (128 * 2 * 256 ^ Z.of_nat n) with (128 * 256 ^ Z.of_nat n * 2) by lia. rewrite Z.div_mul by lia. lia.
Qed.
Lemma unpack_pack_int c bits signed z b : int_type c = Some (bits, signed) -> pack_int c z = Ok b -> unpack_val c b = Ok (VInt z).
Proof.
  intros H P.
  assert (Hn : (0 < ctype_size c)%nat) by (destruct c; simpl; lia).
  assert (Hu : unpack_val c b = let* x := unpack_u (ctype_size c) b in Ok (VInt (if ctype_signed c then to_signed (ctype_size c) x else x))) by (destruct c; try discriminate H; reflexivity).
  rewrite Hu. unfold pack_int in P. destruct (half_even _ Hn) as (h & Eh & Eh2). cbv zeta in P. rewrite Eh2 in P. destruct (ctype_signed c).
  - destruct ((- h <=? z) && (z <? h)) eqn:R; [|discriminate]. injection P as <-. unfold to_signed, of_signed. rewrite Eh.
    rewrite unpack_u_enc by (rewrite Eh; destruct (Z.ltb_spec z 0); lia). cbn [bind]. do 2 f_equal.
    rewrite <- Eh, Eh2, Eh. destruct (Z.ltb_spec z 0); [destruct (Z.ltb_spec (z + 2 * h) h)|destruct (Z.ltb_spec z h)]; lia.
  - apply pack_u_Ok in P as (R & ->). now rewrite unpack_u_enc.
Qed.
(** An integer is written as the bytes that stand for it; one that has none is refused. *)
Theorem C75_int_written : forall c bits signed z, int_type c = Some (bits, signed) ->
  (forall b, pack_val c (VInt z) = Ok b <-> bytes_ok b /\ integer bits signed b z) /\
  (pack_val c (VInt z) = Err StructError <-> ~ exists b, bytes_ok b /\ integer bits signed b z).
Proof.
  intros c bits signed z H. destruct (int_type_spec _ _ _ H) as (E & Es).
  assert (Hn : (0 < ctype_size c)%nat) by (destruct c; simpl; lia).
  assert (Hp : pack_val c (VInt z) = pack_int c z) by (destruct c; try discriminate H; reflexivity).
  assert (A : forall b, pack_val c (VInt z) = Ok b <-> bytes_ok b /\ integer bits signed b z).
  { intros b. split.
    - intros P. assert (Hb : bytes_ok b).
      { rewrite Hp in P. unfold pack_int in P. destruct (ctype_signed c).
        - cbv zeta in P. destruct (_ && _); [|discriminate]. injection P as <-. apply le_enc_bytes_ok.
        - apply pack_u_Ok in P as (_ & ->). apply le_enc_bytes_ok. }
      split; [exact Hb|]. pose proof (C75_int c bits signed b (VInt z) Hb H) as I.
      assert (U : unpack_val c b = Ok (VInt z)) by (rewrite Hp in P; exact (unpack_pack_int c bits signed z b H P)).
      apply I in U as (z' & X & R). injection X as <-. exact R.
    - intros (Hb & I). apply pack_unpack_val; [exact Hb| |destruct c; try discriminate H; reflexivity].
      apply (C75_int c bits signed b (VInt z) Hb H). eauto. }
  split; [exact A|]. split.
  - intros P (b & Hb). apply A in Hb. rewrite P in Hb. discriminate.
  - intros N. destruct (pack_val c (VInt z)) as [b|e] eqn:P; [destruct N; exists b; apply A; reflexivity|].
    assert (Q : pack_int c z = Err e) by congruence. clear - Q. unfold pack_int, pack_u in Q. destruct (ctype_signed c); cbv zeta in Q; match type of Q with (if ?t then _ else _) = _ => destruct t end; try discriminate; now injection Q as ->.
Qed.

(** A float is read as the number that its bytes stand for, as a double; a double is read bit by bit. *)
Theorem C75_float : forall b v, bytes_ok b ->
  (unpack_val F32 b = Ok v <-> exists x, v = VFloat x /\ lenZ b = 4 /\ 0 <= x < 2 ^ 64 /\ binary64 x = as_double (binary32 (weight b))) /\
  (unpack_val F64 b = Ok v <-> v = VFloat (weight b) /\ lenZ b = 8).
Proof.
  intros b v Hb. unfold unpack_val. cbn [ctype_size]. unfold unpack_u. rewrite weight_dec. split.
  - destruct (Nat.eqb_spec (length b) 4) as [L|L].
    + pose proof (le_dec_range b Hb) as R. rewrite L in R. change (256 ^ Z.of_nat 4) with (2 ^ 32) in R. destruct (widen_number _ R) as (W & N). cbn [bind]. split.
      * intros X. injection X as <-. eexists. split; [reflexivity|]. unfold lenZ. rewrite L. auto.
      * intros (x & -> & _ & Rx & E). do 2 f_equal. apply b64_inj; [exact W|exact Rx|]. now rewrite N, E.
    + split; [discriminate|]. intros (x & _ & X & _). unfold lenZ in X. lia.
  - destruct (Nat.eqb_spec (length b) 8) as [L|L].
    + cbn [bind]. unfold lenZ. rewrite L. split; [intros X; injection X as <-; auto|now intros (-> & _)].
    + split; [discriminate|]. intros (_ & X). unfold lenZ in X. lia.
Qed.
(** A value is written as a float by rounding to the nearest; OverflowError exactly if it is too large.  Infinities and
    NaNs stay what they are. *)
Theorem C75_float_written : forall x, 0 <= x < 2 ^ 64 ->
  match binary64 x with
  | Finite s n => (too_large n -> pack_val F32 (VFloat x) = Err OverflowError) /\
      (~ too_large n -> exists b, pack_val F32 (VFloat x) = Ok b /\ bytes_ok b /\ lenZ b = 4 /\ nearest n s (weight b))
  | y => exists b, pack_val F32 (VFloat x) = Ok b /\ bytes_ok b /\ lenZ b = 4 /\
      match y with NaN s q p => binary32 (weight b) = NaN s true (p / 2 ^ 29) | _ => binary32 (weight b) = y end
  end.
Proof.
  intros x Hx. pose proof (narrow_number x Hx) as N. cbn [pack_val].
  assert (W : forall r, 0 <= r < 2 ^ 32 -> bytes_ok (le_enc 4 r) /\ lenZ (le_enc 4 r) = 4 /\ weight (le_enc 4 r) = r).
  { intros r Hr. split; [apply le_enc_bytes_ok|]. split; [unfold lenZ; now rewrite length_le_enc|]. rewrite weight_dec. apply le_dec_enc. exact Hr. }
  destruct (binary64 x) as [s n|s|s q p].
  - destruct N as (N1 & N2). split.
    + intros T. apply N1 in T. now rewrite T.
    + intros T. destruct (narrow x) as [r|] eqn:E; [|destruct T; now apply N1]. destruct (N2 r eq_refl) as (R & Hn). destruct (W r R) as (A & B & C).
      eexists. split; [reflexivity|]. rewrite C. auto.
  - destruct N as (r & -> & R & E). destruct (W r R) as (A & B & C). eexists. split; [reflexivity|]. rewrite C. auto.
  - destruct N as (r & -> & R & E). destruct (W r R) as (A & B & C). eexists. split; [reflexivity|]. rewrite C. auto.
Qed.
(** a double is written as it is *)
Theorem C75_double_written : forall x, 0 <= x < 2 ^ 64 ->
  exists b, pack_val F64 (VFloat x) = Ok b /\ bytes_ok b /\ lenZ b = 8 /\ weight b = x.
Proof.
  intros x Hx. exists (le_enc 8 x). split; [reflexivity|]. split; [apply le_enc_bytes_ok|]. split; [unfold lenZ; now rewrite length_le_enc|].
  rewrite weight_dec. apply le_dec_enc. exact Hx.
Qed.
(** An integer that is written as a double is rounded to the nearest; StructError exactly if it is too large.  As a float it is
    first made a double, so that it can be rounded twice. *)
Theorem C75_int_as_float : forall z,
  (double_too_large (Z.abs z * 2 ^ 1074) -> pack_val F64 (VInt z) = Err StructError /\ pack_val F32 (VInt z) = Err StructError) /\
  (~ double_too_large (Z.abs z * 2 ^ 1074) -> exists x b, 0 <= x < 2 ^ 64 /\ nearest_double (Z.abs z * 2 ^ 1074) (z <? 0) x /\
     pack_val F64 (VInt z) = Ok b /\ bytes_ok b /\ lenZ b = 8 /\ weight b = x /\ pack_val F32 (VInt z) = pack_val F32 (VFloat x)).
Proof.
  intros z. destruct (int_double z) as (A & B). cbn [pack_val]. split; intros T.
  - apply A in T. rewrite T. split; reflexivity.
  - destruct (double_of_int z) as [x|]; [|destruct T; now apply A]. destruct (B x eq_refl) as (R & N). destruct (C75_double_written x R) as (b & E & H1 & H2 & H3).
    exists x, b. cbn [pack_val] in E. repeat split; try assumption; try apply R.
Qed.
(** 2^53 + 1 is a tie; 2^1024 is too large; 16777217 is no float *)
Example C75_int_as_float_ex : pack_val F64 (VInt 9007199254740993) = pack_val F64 (VInt 9007199254740992) /\
  pack_val F64 (VInt (2 ^ 1024)) = Err StructError /\ pack_val F32 (VInt 16777217) = Ok (le_enc 4 1266679808) /\ pack_val F32 (VInt (2 ^ 128)) = Err OverflowError /\
  pack_val F32 (VBool true) = Ok [0; 0; 128; 63].
Proof. repeat split; vm_compute; reflexivity. Qed.

(** ** Information messages and parameters *)
Lemma char_name c r : ctype_name c <> lit "char[" ++ r.
Proof. destruct c; discriminate. Qed.
Lemma info_stands ign ty b v : bytes_ok b -> (info_value ign ty b v <-> stands ign ty b v).
Proof.
  intros Hb. unfold info_value. split.
  - intros [(r & s & -> & Hd & ->)|[(c & _ & Hc & Hu)|(N & Hc & ->)]].
    + constructor. now apply text_iff.
    + apply ctype_of_Some in Hc. subst ty. destruct (int_type c) as [[bits signed]|] eqn:It.
      * destruct (proj1 (C75_int c bits signed b v Hb It) Hu) as (z & -> & Iz). now apply (sd_int ign c bits signed).
      * destruct c; try discriminate It.
        -- destruct (proj1 (proj1 (C75_float b v Hb)) Hu) as (x & -> & L & R & E). now apply (sd_float ign).
        -- destruct (proj1 (proj2 (C75_float b v Hb)) Hu) as (-> & L). now apply (sd_double ign).
        -- unfold unpack_val in Hu. cbn [ctype_size] in Hu. destruct b as [|x [|]]; try discriminate Hu. apply (f_equal (fun r => match r with Ok a => a | Err _ => VInt 0 end)) in Hu. cbn in Hu. rewrite <- Hu, Z.add_0_r. apply (sd_bool ign).
        -- unfold unpack_val in Hu. cbn [ctype_size] in Hu. destruct b as [|x [|]]; try discriminate Hu. injection Hu as <-. apply (sd_char ign).
    + apply sd_bytes; [|exact N]. now apply ctype_of_None_iff.
  - intros H. destruct H as [r b s H|c bits signed b z It I|b x L R E|b L|x|x|ty b N N'].
    + left. exists r, s. split; [reflexivity|]. split; [now apply text_iff|reflexivity].
    + right. left. exists c. split; [apply char_name|]. split; [apply ctype_of_name|]. apply (C75_int c bits signed b _ Hb It). eauto.
    + right. left. exists F32. split; [apply (char_name F32)|]. split; [reflexivity|]. apply (C75_float b _ Hb). eauto 6.
    + right. left. exists F64. split; [apply (char_name F64)|]. split; [reflexivity|]. apply (C75_float b _ Hb). auto.
    + right. left. exists CBool. split; [apply (char_name CBool)|]. split; [reflexivity|]. unfold unpack_val. cbn. now rewrite Z.add_0_r.
    + right. left. exists CChar. split; [apply (char_name CChar)|]. split; [reflexivity|]. reflexivity.
    + right. right. split; [exact N'|]. split; [now apply ctype_of_None_iff|reflexivity].
Qed.
(** An information or parameter message is read exactly if its bytes say so. *)
Theorem C75_info : forall ign data m, bytes_ok data -> (parse_info ign data = Ok m <-> info_says ign data m).
Proof.
  intros ign data m Hb. rewrite (info_iff ign data m Hb). unfold info_def, info_says, ignored. split.
  - intros (k & rest & tx & t & -> & D & -> & A & B & C & V). exists k, rest, t. split; [reflexivity|]. split; [now apply text_iff|].
    apply Forall_cons_iff in Hb as (_ & Hb). repeat split; auto. apply info_stands; [|exact V].
    rewrite <- (firstn_skipn (Z.to_nat k) rest) in Hb. now apply Forall_app in Hb.
  - intros (k & rest & t & -> & D & A & B & C & V). exists k, rest. eexists. exists t. split; [reflexivity|]. split; [apply text_iff; exact D|]. split; [reflexivity|].
    apply Forall_cons_iff in Hb as (_ & Hb). repeat split; auto. apply info_stands; [|exact V].
    rewrite <- (firstn_skipn (Z.to_nat k) rest) in Hb. now apply Forall_app in Hb.
Qed.

(** ** Datasets *)
(** An element of a column of a dataset is what the bytes of its field stand for. *)
Theorem C75_element : forall c b v, bytes_ok b -> lenZ b = Z.of_nat (ctype_size c) ->
  (stands_elem c b v <-> v = np_elem (np_of c) (le_dec b)).
Proof.
  intros c b v Hb L. assert (Ln : length b = ctype_size c) by (unfold lenZ in L; lia). split.
  - intros H. destruct H as [c bits signed b z It I|c b z C I|b x L' R E|b L'].
    + assert (Hn : (0 < ctype_size c)%nat) by (destruct c; simpl; lia). destruct (int_type_spec _ _ _ It) as (E & ->).
      apply (integer_iff _ _ _ _ _ Hb E Hn) in I as (_ & ->). destruct c; try discriminate It; reflexivity.
    + apply (integer_iff 8 true 1 b z Hb eq_refl ltac:(lia)) in I as (_ & ->). destruct C as [->| ->]; reflexivity.
    + pose proof (proj2 (proj1 (C75_float b (VFloat x) Hb)) ltac:(eauto 6)) as U. unfold unpack_val, unpack_u in U. rewrite Ln, Nat.eqb_refl in U.
      cbn [bind] in U. apply (f_equal (fun r => match r with Ok a => a | Err _ => VInt 0 end)) in U. cbv beta iota in U. rewrite <- U. reflexivity.
    + rewrite weight_dec. reflexivity.
  - intros ->. destruct (int_type c) as [[bits signed]|] eqn:It.
    + assert (Hn : (0 < ctype_size c)%nat) by (destruct c; simpl; lia). destruct (int_type_spec _ _ _ It) as (E & ->).
      assert (X : np_elem (np_of c) (le_dec b) = VInt (if ctype_signed c then to_signed (ctype_size c) (le_dec b) else le_dec b)) by (destruct c; try discriminate It; reflexivity).
      rewrite X. apply (se_int c bits (ctype_signed c) b _ It). apply (integer_iff _ _ _ _ _ Hb E Hn). auto.
    + destruct c; try discriminate It.
      * pose proof (proj1 (proj1 (C75_float b (VFloat (widen (le_dec b))) Hb))) as U. unfold unpack_val, unpack_u in U. rewrite Ln, Nat.eqb_refl in U.
        destruct (U eq_refl) as (x & X & A & B & C). apply (f_equal (fun r => match r with VFloat a => a | _ => 0 end)) in X. cbv beta iota in X.
        change (np_elem (np_of F32) (le_dec b)) with (VFloat (widen (le_dec b))). rewrite X. now apply se_float.
      * change (np_elem (np_of F64) (le_dec b)) with (VFloat (le_dec b)). rewrite <- weight_dec. now apply se_double.
      * apply se_byte; [now left|]. apply (integer_iff 8 true 1 b _ Hb eq_refl ltac:(lia)). auto.
      * apply se_byte; [now right|]. apply (integer_iff 8 true 1 b _ Hb eq_refl ltac:(lia)). auto.
Qed.
Lemma scattered_bytes f evs : bytes_ok f -> forall q, scattered f q evs -> forall ty p, In (EMsg ty p) evs -> bytes_ok p.
Proof.
  intros Hb. induction evs as [|[ty p| |] evs IH]; cbn [scattered]; intros q H t x [].
  - apply (f_equal (fun e => match e with EMsg _ a => a | _ => [] end)) in H0. cbv beta iota in H0. subst x. destruct H as (q' & _ & H & _).
    destruct (message_at_fits f q' ty p Hb H) as (_ & B & _). exact B.
  - destruct H as (q' & _ & _ & H). eapply IH; eauto.
  - discriminate.
  - eapply IH; eauto.
  - discriminate.
  - eapply IH; eauto.
Qed.
Lemma subscription_bytes cf fmts id evs s rows : (forall ty p, In (EMsg ty p) evs -> bytes_ok p) -> subscription cf fmts evs id = Some (s, rows) -> Forall bytes_ok rows.
Proof.
  unfold subscription. revert s rows. induction evs as [|e evs IH] using rev_ind; intros s rows H; [discriminate|].
  rewrite fold_left_app. cbn [fold_left].
  assert (H' : forall ty p, In (EMsg ty p) evs -> bytes_ok p) by (intros; eapply H, in_or_app; eauto).
  destruct (fold_left (sub_step cf fmts id) evs None) as [[s0 r0]|] eqn:E.
  - specialize (IH s0 r0 H' eq_refl). destruct e as [ty p| |]; cbn [sub_step]; try (intros X; injection X as <- <-; exact IH).
    destruct (ty =? 65).
    + destruct (parse_add cf fmts p) as [s1|]; [destruct (_ && _)|]; intros X; injection X as <- <-; auto.
    + destruct (ty =? 68); [|intros X; injection X as <- <-; exact IH]. destruct (msg_id p); [|intros X; injection X as <- <-; exact IH].
      destruct (_ && _); intros X; injection X as <- <-; [|exact IH]. apply Forall_app. split; [exact IH|]. constructor; [|constructor].
      apply Forall_slice. apply (H ty p). apply in_or_app. right. now left.
  - destruct e as [ty p| |]; cbn [sub_step]; try discriminate. destruct (ty =? 65).
    + destruct (parse_add cf fmts p) as [s1|]; [destruct (_ && _)|]; try discriminate; intros X; injection X as <- <-; auto.
    + destruct (ty =? 68); [|discriminate]. destruct (msg_id p); discriminate.
Qed.
Lemma field_offset_nonneg fs i : 0 <= field_offset fs i.
Proof. unfold field_offset. induction (firstn i fs); cbn [map fold_right]; lia. Qed.
Lemma field_offset_next fs : forall i fd, nth_error fs i = Some fd ->
  field_offset fs i + Z.of_nat (ctype_size (fd_type fd)) <= field_offset fs (length fs).
Proof.
  unfold field_offset. induction fs as [|x fs IH]; intros [|i] fd E; try discriminate; cbn [nth_error length firstn map fold_right] in *.
  - injection E as <-. pose proof (field_offset_nonneg fs (length fs)) as N. unfold field_offset in N. lia.
  - specialize (IH i fd E). lia.
Qed.
(** Every value of a dataset that was loaded is what the bytes of its field stand for, in the record of its data message. *)
Theorem C75_samples : forall cf f u, bytes_ok f -> cf_hdr cf = false -> produces cf f (Ok u) ->
  exists defs secs, trace cf f u defs secs /\
  forall ds, In ds (u_data u) ->
  exists evs s rows, In evs secs /\ subscription cf (u_formats u) evs (ds_id ds) = Some (s, rows) /\ rows <> [] /\
    forall i fd, nth_error (ds_fields ds) i = Some fd ->
      exists col, nth_error (ds_data ds) i = Some (column_name i fd, col) /\ length (c_raw col) = length rows /\
      forall j row, nth_error rows j = Some row ->
        let o := field_offset (ds_fields ds) i in
        exists raw, nth_error (c_raw col) j = Some raw /\
          stands_elem (fd_type fd) (slice o (o + Z.of_nat (ctype_size (fd_type fd))) row) (np_elem (c_type col) raw).
Proof.
  intros cf f u Hb Hh Hp. destruct (C10_columns cf f u Hb Hh Hp) as (defs & secs & Ht & H). exists defs, secs. split; [exact Ht|].
  intros ds Hd. destruct (H ds Hd) as (evs & s & rows & He & Hs & Hne & _ & Hlen & _ & _ & Hc). exists evs, s, rows. split; [exact He|]. split; [exact Hs|]. split; [exact Hne|].
  destruct Ht as (_ & _ & Hsc & _). rewrite Forall_forall in Hsc. specialize (Hsc _ He).
  assert (Hr : Forall bytes_ok rows) by (eapply subscription_bytes; [|exact Hs]; exact (scattered_bytes f evs Hb 0 Hsc)).
  intros i fd E. eexists. split; [exact (Hc i fd E)|]. cbn [c_raw c_type]. split; [apply map_length|]. intros j row Ej. cbv zeta.
  eexists. split; [apply map_nth_error; exact Ej|]. apply nth_error_In in Ej. rewrite Forall_forall in Hr, Hlen.
  apply C75_element; [apply Forall_slice; exact (Hr _ Ej)| |reflexivity].
  pose proof (field_offset_nonneg (ds_fields ds) i). pose proof (field_offset_next _ _ _ E). rewrite lenZ_slice; [lia|lia|]. rewrite (Hlen _ Ej). lia.
Qed.

(** ** Cases that meet the hypotheses *)
Example C75_int_ex : unpack_val I16 [254; 255] = Ok (VInt (-2)) /\ integer 16 true [254; 255] (-2) /\
  pack_val U8 (VInt 256) = Err StructError /\ pack_val I32 (VInt (-2)) = Ok [254; 255; 255; 255].
Proof.
  split; [reflexivity|]. split; [|split; reflexivity].
  split; [reflexivity|]. split; [exists (-1); reflexivity|]. split; reflexivity || discriminate.
Qed.
(** 1.5, 0.1 as the nearest float, 1e39 *)
Example C75_float_ex : unpack_val F32 [0; 0; 192; 63] = Ok (VFloat 4609434218613702656) /\
  pack_val F32 (VFloat 4591870180066957722) = Ok [205; 204; 204; 61] /\ pack_val F32 (VFloat 5190180909796617370) = Err OverflowError.
Proof. repeat split; reflexivity. Qed.
Example C75_float_written_ex : exists n, binary64 4591870180066957722 = Finite false n /\ ~ too_large n /\ nearest n false 1036831949.
Proof.
  pose proof (C75_float_written 4591870180066957722 ltac:(split; [discriminate|reflexivity])) as H.
  destruct (binary64 4591870180066957722) as [s n|s|s q p] eqn:E; try discriminate E.
  exists n. assert (s = false) as -> by (apply (f_equal (fun x => match x with Finite a _ => a | _ => true end)) in E; symmetry; exact E).
  split; [reflexivity|]. assert (T : ~ too_large n) by (intros T; apply H in T; discriminate T). split; [exact T|].
  destruct H as (_ & H). destruct (H T) as (b & B & _ & _ & N). change (Ok [205; 204; 204; 61] = Ok b) in B. injection B as <-. exact N.
Qed.
(** a message "int16_t x" with the value -2 *)
Example C75_info_ex : info_says false (9 :: lit "int16_t x" ++ [254; 255]) (mkInfo (lit "int16_t") (lit "x") (VInt (-2))).
Proof. apply C75_info; [vm_compute; repeat constructor; discriminate|reflexivity]. Qed.
Example C75_samples_ex : exists u, produces cf0 s_file (Ok u) /\ u_data u <> [].
Proof. eexists. split; [exists 30%nat; vm_compute; reflexivity|discriminate]. Qed.
