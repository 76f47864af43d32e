(** The readers of integers, floats and texts agree with what the bytes stand for. *)
From Verif Require Import Base Dict PyStr PyFloat Utf8 Struct ModelTypes ModelRead SpecNumber.
Ltac Zify.zify_post_hook ::= Z.div_mod_to_equations.

(** ** Texts *)
Lemma char_bytes_enc c p : char_bytes c p -> scalar_ok c = true /\ p = utf8_enc1 c.
Proof.
  unfold cont. intros H. split.
  - apply scalar_ok_iff. destruct H; unfold cont in *; lia.
  - unfold utf8_enc1. destruct H; unfold cont in *;
      match goal with |- context [if ?c <? 128 then _ else _] => destruct (Z.ltb_spec c 128); [|destruct (Z.ltb_spec c 2048); [|destruct (Z.ltb_spec c 65536)]] end;
      try lia; repeat (apply f_equal2); try reflexivity; lia.
Qed.
Lemma char_bytes_decode ign c p b : char_bytes c p -> utf8_decode ign (p ++ b) = (let* s := utf8_decode ign b in Ok (c :: s)).
Proof. intros H. apply char_bytes_enc in H as [H ->]. now apply utf8_decode_enc1. Qed.
Lemma cont_skip x l : cont x -> utf8_decode true (x :: l) = utf8_decode true l.
Proof.
  unfold cont. intros H. cbn [utf8_decode].
  replace ((0 <=? x) && (x <? 128)) with false by lia. replace ((194 <=? x) && (x <? 224)) with false by lia.
  replace ((224 <=? x) && (x <? 240)) with false by lia. replace ((240 <=? x) && (x <? 245)) with false by lia. reflexivity.
Qed.
Lemma conts_skip p l : Forall cont p -> utf8_decode true (p ++ l) = utf8_decode true l.
Proof. induction 1 as [|x p H _ IH]; [reflexivity|]. cbn [app]. rewrite cont_skip by assumption. exact IH. Qed.
Lemma char_bytes_cons c q : char_bytes c q -> exists x p, q = x :: p /\ Forall cont p.
Proof. intros H. destruct H; eexists _, _; (split; [reflexivity|]); repeat (apply Forall_cons || apply Forall_nil); unfold cont in *; lia. Qed.
Definition no_char (l : bytes) : Prop := forall c q r, char_bytes c q -> l <> q ++ r.
Definition bad (ign : bool) (r : bytes) : res str := if ign then utf8_decode ign r else Err UnicodeDecodeError.
Lemma head_cases x l : (exists c p r, char_bytes c p /\ x :: l = p ++ r) \/
  (no_char (x :: l) /\ forall ign, utf8_decode ign (x :: l) = bad ign l).
Proof.
  assert (Q : (exists c p r, char_bytes c p /\ x :: l = p ++ r) \/ (forall ign, utf8_decode ign (x :: l) = bad ign l)).
  { unfold bad. cbn [utf8_decode].
    destruct ((0 <=? x) && (x <? 128)) eqn:E1.
    { left. exists x, [x], l. split; [apply cb_1; lia|reflexivity]. }
    destruct ((194 <=? x) && (x <? 224)) eqn:E2.
    { destruct l as [|y l]; [now right|]. destruct (is_cont y) eqn:C; [|now right]. unfold is_cont in C.
      left. exists ((x - 192) * 64 + (y - 128)), [x; y], l. split; [apply cb_2; unfold cont; lia|reflexivity]. }
    destruct ((224 <=? x) && (x <? 240)) eqn:E3.
    { destruct l as [|y [|z l]]; try now right. cbn zeta.
      destruct (is_cont y && is_cont z && _ && _) eqn:C; [|now right]. unfold is_cont in C.
      apply andb_true_iff in C as [C S]. apply scalar_ok_iff in S. apply andb_true_iff in C as [C L]. apply andb_true_iff in C as [C1 C2].
      left. exists ((x - 224) * 4096 + (y - 128) * 64 + (z - 128)), [x; y; z], l. split; [|reflexivity].
      destruct (Z.eq_dec x 224) as [->|N1]; [|destruct (Z.eq_dec x 237) as [->|N2]].
      - change ((224 - 224) * 4096) with 0. rewrite Z.add_0_l. apply cb_e0; unfold cont; lia.
      - change (237 - 224) with 13. apply cb_ed; unfold cont; lia.
      - apply cb_3; unfold cont; lia. }
    destruct ((240 <=? x) && (x <? 245)) eqn:E4; [|now right].
    destruct l as [|y [|z [|w l]]]; try now right. cbn zeta.
    destruct (is_cont y && is_cont z && is_cont w && _ && _) eqn:C; [|now right]. unfold is_cont in C.
    apply andb_true_iff in C as [C S]. apply scalar_ok_iff in S. apply andb_true_iff in C as [C L]. apply andb_true_iff in C as [C C3]. apply andb_true_iff in C as [C1 C2].
    left. exists ((x - 240) * 262144 + (y - 128) * 4096 + (z - 128) * 64 + (w - 128)), [x; y; z; w], l. split; [|reflexivity].
    destruct (Z.eq_dec x 240) as [->|N1]; [|destruct (Z.eq_dec x 244) as [->|N2]].
    - change ((240 - 240) * 262144) with 0. rewrite Z.add_0_l. apply cb_f0; unfold cont; lia.
    - change (244 - 240) with 4. apply cb_f4; unfold cont; lia.
    - apply cb_4; unfold cont; lia. }
  destruct Q as [Q|Q]; [now left|].
  right. split; [|exact Q]. intros c q r H E. specialize (Q true). rewrite E, (char_bytes_decode true c q r H) in Q. unfold bad in Q.
  destruct (char_bytes_cons c q H) as (y & p & -> & F). cbn [app] in E. injection E as -> ->.
  rewrite conts_skip in Q by assumption. destruct (utf8_decode_ignore_total r) as (s & Es). rewrite Es in Q. cbn [bind] in Q. injection Q as Q.
  apply (f_equal (@length Z)) in Q. cbn [length] in Q. lia.
Qed.
Lemma spelled_decode b s : spelled b s -> utf8_decode false b = Ok s.
Proof. induction 1 as [|c p b s H _ IH]; [reflexivity|]. now rewrite (char_bytes_decode false c p b H), IH. Qed.
Lemma char_bytes_length c q : char_bytes c q -> (0 < length q)%nat.
Proof. intros H. destruct H; cbn; lia. Qed.
Lemma decode_spelled_aux n : forall b s, (length b <= n)%nat -> utf8_decode false b = Ok s -> spelled b s.
Proof.
  induction n as [|n IH]; intros b s L E.
  - destruct b; [|cbn in L; lia]. injection E as <-. constructor.
  - destruct b as [|x l]; [injection E as <-; constructor|].
    destruct (head_cases x l) as [(c & p & r & H & Eq)|[_ Q]]; [|rewrite Q in E; discriminate].
    rewrite Eq, (char_bytes_decode false c p r H) in E. destruct (utf8_decode false r) as [s'|] eqn:Er; [|discriminate]. injection E as <-.
    rewrite Eq. constructor; [exact H|]. apply IH; [|exact Er]. apply (f_equal (@length Z)) in Eq. rewrite app_length in Eq. pose proof (char_bytes_length c p H). cbn [length] in *. lia.
Qed.
Lemma strict_iff b s : utf8_decode false b = Ok s <-> spelled b s.
Proof. split; [apply (decode_spelled_aux (length b)); lia|apply spelled_decode]. Qed.
Lemma strict_err b e : utf8_decode false b = Err e -> e = UnicodeDecodeError.
Proof.
  revert e. induction b as [b IH] using (well_founded_induction (Wf_nat.well_founded_ltof _ (@length Z))). intros e E.
  destruct b as [|x l]; [discriminate|]. destruct (head_cases x l) as [(c & p & r & H & Eq)|[_ Q]]; [|rewrite Q in E; now injection E].
  rewrite Eq, (char_bytes_decode false c p r H) in E. destruct (utf8_decode false r) as [s'|e'] eqn:Er; [discriminate|]. cbn [bind] in E. injection E as <-.
  apply (IH r); [|exact Er]. unfold Wf_nat.ltof. apply (f_equal (@length Z)) in Eq. rewrite app_length in Eq. pose proof (char_bytes_length c p H). cbn [length] in *. lia.
Qed.

Lemma opening_conts x p : opening (x :: p) -> Forall cont p.
Proof.
  intros (_ & c & q & H). destruct (char_bytes_cons _ _ H) as (y & t & E & F). cbn [app] in E. injection E as -> <-. now apply Forall_app in F as [F _].
Qed.
Lemma lenient_decode b s : lenient b s -> utf8_decode true b = Ok s.
Proof.
  induction 1 as [|c p b s H _ IH|p b s Hp N O _ _ IH]; [reflexivity| |].
  - now rewrite (char_bytes_decode true c p b H), IH.
  - destruct p as [|x p]; [now elim Hp|]. cbn [app] in *.
    destruct (head_cases x (p ++ b)) as [(c & q & r & H & Eq)|[_ Q]]; [now elim (N c q r H)|]. rewrite Q. unfold bad.
    assert (F : Forall cont p).
    { destruct O as [O|O]; [now apply opening_conts in O|]. destruct p; [constructor|]. unfold lenZ in O. cbn [length] in O. lia. }
    now rewrite conts_skip.
Qed.
(** whether bytes open a sequence can be decided *)
Definition openb (p : bytes) : bool :=
  match p with
  | [a] => ((0 <=? a) && (a <=? 127)) || ((194 <=? a) && (a <=? 244))
  | [a; x] => ((194 <=? a) && (a <=? 223) && (128 <=? x) && (x <=? 191)) || ((a =? 224) && (160 <=? x) && (x <=? 191)) || ((a =? 237) && (128 <=? x) && (x <=? 159)) ||
      ((225 <=? a) && (a <=? 239) && negb (a =? 237) && (128 <=? x) && (x <=? 191)) || ((a =? 240) && (144 <=? x) && (x <=? 191)) ||
      ((241 <=? a) && (a <=? 243) && (128 <=? x) && (x <=? 191)) || ((a =? 244) && (128 <=? x) && (x <=? 143))
  | [a; x; y] => (128 <=? y) && (y <=? 191) && (((a =? 224) && (160 <=? x) && (x <=? 191)) || ((a =? 237) && (128 <=? x) && (x <=? 159)) ||
      ((225 <=? a) && (a <=? 239) && negb (a =? 237) && (128 <=? x) && (x <=? 191)) || ((a =? 240) && (144 <=? x) && (x <=? 191)) ||
      ((241 <=? a) && (a <=? 243) && (128 <=? x) && (x <=? 191)) || ((a =? 244) && (128 <=? x) && (x <=? 143)))
  | _ => false
  end.
Lemma opening_len p : opening p -> (length p <= 4)%nat.
Proof. intros (_ & c & q & H). remember (p ++ q) as l eqn:E. assert (length l <= 4)%nat by (destruct H; cbn; lia). subst l. rewrite app_length in *. lia. Qed.
Lemma openb_of p : opening p -> (length p < 4)%nat -> openb p = true.
Proof.
  intros (N & c & q & H) L. remember (p ++ q) as l eqn:E. destruct p as [|a [|x [|y [|z p]]]]; [now elim N| | | |cbn in L; lia];
    cbn [app] in E; destruct H; unfold cont in *; injection E; clear E; intros; try discriminate; subst; cbn [openb]; lia.
Qed.
Lemma of_openb p : openb p = true -> opening p.
Proof.
  destruct p as [|a [|x [|y [|z p]]]]; cbn [openb]; try discriminate; intros H; (split; [discriminate|]).
  - destruct (Z.leb_spec a 127); [exists a, []; apply cb_1; lia|].
    destruct (Z.leb_spec a 223); [eexists _, [128]; apply cb_2; unfold cont; lia|].
    destruct (Z.eq_dec a 224) as [->|]; [eexists _, [160; 128]; apply cb_e0; unfold cont; lia|].
    destruct (Z.eq_dec a 237) as [->|]; [eexists _, [128; 128]; apply cb_ed; unfold cont; lia|].
    destruct (Z.leb_spec a 239); [eexists _, [128; 128]; apply cb_3; unfold cont; lia|].
    destruct (Z.eq_dec a 240) as [->|]; [eexists _, [144; 128; 128]; apply cb_f0; unfold cont; lia|].
    destruct (Z.eq_dec a 244) as [->|]; [eexists _, [128; 128; 128]; apply cb_f4; unfold cont; lia|].
    eexists _, [128; 128; 128]; apply cb_4; unfold cont; lia.
  - destruct (Z.leb_spec a 223); [eexists _, []; apply cb_2; unfold cont; lia|].
    destruct (Z.eq_dec a 224) as [->|]; [eexists _, [128]; apply cb_e0; unfold cont; lia|].
    destruct (Z.eq_dec a 237) as [->|]; [eexists _, [128]; apply cb_ed; unfold cont; lia|].
    destruct (Z.leb_spec a 239); [eexists _, [128]; apply cb_3; unfold cont; lia|].
    destruct (Z.eq_dec a 240) as [->|]; [eexists _, [128; 128]; apply cb_f0; unfold cont; lia|].
    destruct (Z.eq_dec a 244) as [->|]; [eexists _, [128; 128]; apply cb_f4; unfold cont; lia|].
    eexists _, [128; 128]; apply cb_4; unfold cont; lia.
  - destruct (Z.eq_dec a 224) as [->|]; [eexists _, []; apply cb_e0; unfold cont; lia|].
    destruct (Z.eq_dec a 237) as [->|]; [eexists _, []; apply cb_ed; unfold cont; lia|].
    destruct (Z.leb_spec a 239); [eexists _, []; apply cb_3; unfold cont; lia|].
    destruct (Z.eq_dec a 240) as [->|]; [eexists _, [128]; apply cb_f0; unfold cont; lia|].
    destruct (Z.eq_dec a 244) as [->|]; [eexists _, [128]; apply cb_f4; unfold cont; lia|].
    eexists _, [128]; apply cb_4; unfold cont; lia.
Qed.
Lemma open_dec p : no_char p -> opening p \/ ~ opening p.
Proof.
  intros Hn. destruct (openb p) eqn:E; [left; now apply of_openb|]. right. intros O.
  destruct (Nat.lt_ge_cases (length p) 4) as [L|L]; [rewrite (openb_of p O L) in E; discriminate|].
  destruct O as (N & c & q & H). assert (L4 : (length (p ++ q) <= 4)%nat) by (clear -H; remember (p ++ q) as l eqn:E; clear E; destruct H; cbn; lia).
  rewrite app_length in L4. assert (q = []) by (destruct q; [reflexivity|cbn in L4; lia]). subst q. rewrite app_nil_r in H.
  apply (Hn c p [] H). now rewrite app_nil_r.
Qed.
Lemma no_char_app p b : no_char (p ++ b) -> no_char p.
Proof. intros N c q r H ->. apply (N c q (r ++ b) H). now rewrite app_assoc. Qed.
(** the longest opening *)
Lemma longest p b : no_char (p ++ b) -> p <> [] -> (opening p \/ lenZ p = 1) ->
  exists p' b', p ++ b = p' ++ b' /\ p' <> [] /\ (opening p' \/ lenZ p' = 1) /\ (forall x r, b' = x :: r -> ~ opening (p' ++ [x])).
Proof.
  revert p. induction b as [|x b IH]; intros p N Hp O.
  - exists p, []. repeat split; auto. discriminate.
  - assert (Ea : p ++ x :: b = (p ++ [x]) ++ b) by now rewrite <- app_assoc.
    destruct (open_dec (p ++ [x])) as [D|D].
    + apply (no_char_app _ b). now rewrite <- Ea.
    + rewrite Ea in N |- *. apply IH; [exact N|now destruct p|now left].
    + exists p, (x :: b). repeat split; auto. intros y r E. injection E as <- <-. exact D.
Qed.
Lemma lenient_total b : exists s, lenient b s.
Proof.
  induction b as [b IH] using (well_founded_induction (Wf_nat.well_founded_ltof _ (@length Z))). unfold Wf_nat.ltof in IH.
  destruct b as [|x l]; [exists []; constructor|]. destruct (head_cases x l) as [(c & p & r & H & Eq)|[N _]].
  - destruct (IH r) as (s & Hs). { apply (f_equal (@length Z)) in Eq. rewrite app_length in Eq. pose proof (char_bytes_length c p H). cbn [length] in *. lia. }
    exists (c :: s). rewrite Eq. now constructor.
  - destruct (longest [x] l N ltac:(discriminate) (or_intror eq_refl)) as (p & b & E & Hp & O & M). cbn [app] in E.
    destruct (IH b) as (s & Hs). { apply (f_equal (@length Z)) in E. rewrite app_length in E. destruct p; [now elim Hp|]. cbn [length] in *. lia. }
    exists s. rewrite E in N |- *. now constructor.
Qed.
Lemma lenient_iff b s : utf8_decode true b = Ok s <-> lenient b s.
Proof.
  split; [|apply lenient_decode]. intros E. destruct (lenient_total b) as (s' & H). pose proof (lenient_decode _ _ H) as E'. rewrite E in E'. now injection E' as <-.
Qed.
Lemma text_iff ign b s : utf8_decode ign b = Ok s <-> text ign b s.
Proof. destruct ign; [apply lenient_iff|apply strict_iff]. Qed.
Lemma encode_iff s b : utf8_encode s = Ok b <-> spelled b s.
Proof.
  split; [intros E; apply strict_iff; now apply utf8_decode_encode|].
  induction 1 as [|c p b s H _ IH]; [reflexivity|]. apply char_bytes_enc in H as [H ->]. cbn [utf8_encode]. now rewrite H, IH.
Qed.

(** ** Integers *)
Lemma weight_cons x b : weight (x :: b) = x + 256 * weight b.
Proof.
  unfold weight. cbn [length seq map fold_right nth]. rewrite <- seq_shift, map_map. change (256 ^ Z.of_nat 0) with 1. rewrite Z.mul_1_r. f_equal.
  generalize (seq 0 (length b)) as l. induction l as [|i l IH]; [reflexivity|]. cbn [map fold_right]. rewrite IH, Nat2Z.inj_succ, Z.pow_succ_r by lia. cbn [nth]. lia.
Qed.
Lemma weight_dec b : weight b = le_dec b.
Proof. induction b as [|x b IH]; [reflexivity|]. rewrite weight_cons, IH. reflexivity. Qed.
Lemma unique_residue p x y q : 0 <= y - x -> y - x < p -> y = x + q * p -> y = x.
Proof. intros. assert (q = 0) by nia. subst. lia. Qed.
Lemma integer_iff bits signed n b z : bytes_ok b -> bits = 8 * Z.of_nat n -> (0 < n)%nat ->
  (integer bits signed b z <-> length b = n /\ z = if signed then to_signed n (le_dec b) else le_dec b).
Proof.
  intros B -> Hn. unfold integer, lenZ. rewrite weight_dec. pose proof (le_dec_range b B) as R.
  assert (P : 2 ^ (8 * Z.of_nat n) = 256 ^ Z.of_nat n) by (rewrite Z.pow_mul_r by lia; reflexivity).
  assert (H : 2 ^ (8 * Z.of_nat n - 1) = 256 ^ Z.of_nat n / 2).
  { rewrite <- P. assert (Es : 8 * Z.of_nat n = Z.succ (8 * Z.of_nat n - 1)) by lia. set (k := 8 * Z.of_nat n - 1) in *. rewrite Es, Z.pow_succ_r by lia.
    now rewrite Z.mul_comm, Z.div_mul by lia. }
  rewrite P, H. clear P H. split.
  - intros (L & (q & E) & X). assert (L' : length b = n) by lia. split; [exact L'|]. rewrite L' in R. destruct signed.
    + pose proof (to_signed_range n (le_dec b) Hn R) as T. pose proof (pow256_even n Hn) as Ev. pose proof (pow256_pos n) as Pp.
      assert (exists q', to_signed n (le_dec b) = le_dec b + q' * 256 ^ Z.of_nat n) as (q' & E').
      { unfold to_signed. destruct (_ <? _); [exists 0|exists (-1)]; lia. }
      set (p := 256 ^ Z.of_nat n) in *. clearbody p. set (h := p / 2) in *. clearbody h. assert (q = q') by nia. subst. lia.
    + assert (q = 0) by nia. subst q. lia.
  - intros (L & ->). split; [lia|]. rewrite L in R. destruct signed.
    + split; [|now apply to_signed_range]. unfold to_signed. destruct (_ <? _); [exists 0|exists (-1)]; lia.
    + split; [exists 0; lia|lia].
Qed.
Lemma int_type_spec c bits signed : int_type c = Some (bits, signed) -> bits = 8 * Z.of_nat (ctype_size c) /\ signed = ctype_signed c.
Proof. destruct c; cbn; intros E; try discriminate; injection E as <- <-; split; reflexivity. Qed.

(** ** Floats *)
Definition parts (we wm s e m : Z) : number :=
  if e =? 2 ^ we - 1 then if m =? 0 then Infinite (s =? 1) else NaN (s =? 1) (2 ^ (wm - 1) <=? m) (m mod 2 ^ (wm - 1))
  else Finite (s =? 1) (if e =? 0 then m else (2 ^ wm + m) * 2 ^ (e - 1)).
Lemma b32_mk s e m : s = 0 \/ s = 1 -> 0 <= e < 256 -> 0 <= m < 8388608 -> binary32 (f32_mk s e m) = parts 8 23 s e m.
Proof.
  intros Hs He Hm. unfold binary32, ieee, parts. cbn zeta. unfold f32_mk. change (2 ^ (8 + 23)) with 2147483648. change (2 ^ 23) with 8388608. change (2 ^ 8) with 256.
  replace (2147483648 <=? s * 2147483648 + e * 8388608 + m) with (s =? 1) by lia.
  replace (((s * 2147483648 + e * 8388608 + m) / 8388608) mod 256) with e by lia.
  replace ((s * 2147483648 + e * 8388608 + m) mod 8388608) with m by lia. reflexivity.
Qed.
Lemma b64_mk s e m : s = 0 \/ s = 1 -> 0 <= e < 2048 -> 0 <= m < 4503599627370496 -> binary64 (f64_mk s e m) = parts 11 52 s e m.
Proof.
  intros Hs He Hm. unfold binary64, ieee, parts. cbn zeta. unfold f64_mk. change (2 ^ (11 + 52)) with 9223372036854775808. change (2 ^ 52) with 4503599627370496. change (2 ^ 11) with 2048.
  replace (9223372036854775808 <=? s * 9223372036854775808 + e * 4503599627370496 + m) with (s =? 1) by lia.
  replace (((s * 9223372036854775808 + e * 4503599627370496 + m) / 4503599627370496) mod 2048) with e by lia.
  replace ((s * 9223372036854775808 + e * 4503599627370496 + m) mod 4503599627370496) with m by lia. reflexivity.
Qed.
Lemma f64_split b : 0 <= b < 2 ^ 64 -> b = f64_mk (f64_sign b) (f64_exp b) (f64_man b) /\
  (f64_sign b = 0 \/ f64_sign b = 1) /\ 0 <= f64_exp b < 2048 /\ 0 <= f64_man b < 4503599627370496.
Proof. change (2 ^ 64) with 18446744073709551616. intros H. unfold f64_mk, f64_sign, f64_exp, f64_man. lia. Qed.
Lemma pow_add a b : 0 <= a -> 0 <= b -> 2 ^ a * 2 ^ b = 2 ^ (a + b).
Proof. intros. now rewrite Z.pow_add_r. Qed.
Lemma widen_number b : 0 <= b < 2 ^ 32 -> 0 <= widen b < 2 ^ 64 /\ binary64 (widen b) = as_double (binary32 b).
Proof.
  change (2 ^ 32) with 4294967296. change (2 ^ 64) with 18446744073709551616. intros Hb.
  destruct (f32_parts b Hb) as (E & Hs & He & Hm). unfold widen. cbn zeta.
  set (s := f32_sign b) in *. set (e := f32_exp b) in *. set (m := f32_man b) in *. clearbody s e m. rewrite E. rewrite b32_mk by assumption. clear E Hb b.
  unfold parts at 1. change (2 ^ 8 - 1) with 255. change (2 ^ (23 - 1)) with 4194304. change (2 ^ 23) with 8388608.
  destruct (Z.eqb_spec e 255) as [->|Ne].
  - destruct (Z.eqb_spec m 0) as [->|Nm].
    + split; [unfold f64_mk; lia|]. rewrite b64_mk by lia. reflexivity.
    + split; [unfold f64_mk; destruct (Z.ltb_spec m 4194304); lia|].
      rewrite b64_mk by (destruct (Z.ltb_spec m 4194304); lia). unfold parts, as_double. change (2047 =? 2 ^ 11 - 1) with true. cbv iota.
      change (2 ^ (52 - 1)) with 2251799813685248. change (2 ^ 29) with 536870912.
      destruct (Z.ltb_spec m 4194304).
      * replace ((m + 4194304) * 536870912 =? 0) with false by lia. replace (2251799813685248 <=? (m + 4194304) * 536870912) with true by lia. f_equal. lia.
      * replace (m * 536870912 =? 0) with false by lia. replace (2251799813685248 <=? m * 536870912) with true by lia. f_equal. lia.
  - cbn [as_double]. destruct (Z.eqb_spec e 0) as [->|N0].
    + destruct (Z.eqb_spec m 0) as [->|Nm].
      * split; [unfold f64_mk; lia|]. rewrite b64_mk by lia. reflexivity.
      * pose proof (Z.log2_spec m ltac:(lia)) as [L1 L2]. pose proof (Z.log2_nonneg m) as L0. set (k := Z.log2 m) in *. clearbody k.
        assert (Hk : k < 23) by (apply (Z.pow_lt_mono_r_iff 2); [lia|lia|change (2 ^ 23) with 8388608; lia]).
        rewrite Z.pow_succ_r in L2 by lia. assert (P : 2 ^ k * 2 ^ (52 - k) = 4503599627370496) by (rewrite pow_add by lia; replace (k + (52 - k)) with 52 by lia; reflexivity).
        assert (P0 : 0 < 2 ^ (52 - k)) by (apply Z.pow_pos_nonneg; lia).
        assert (R : 0 <= (m - 2 ^ k) * 2 ^ (52 - k) < 4503599627370496) by nia.
        split; [unfold f64_mk; lia|]. rewrite b64_mk by lia. unfold parts. change (2 ^ 11 - 1) with 2047. change (2 ^ 52) with 4503599627370496.
        replace (k + 874 =? 2047) with false by lia. replace (k + 874 =? 0) with false by lia. f_equal. unfold unit_ratio.
        replace (4503599627370496 + (m - 2 ^ k) * 2 ^ (52 - k)) with (m * 2 ^ (52 - k)) by nia.
        rewrite <- Z.mul_assoc, pow_add by lia. f_equal. f_equal. lia.
    + split; [unfold f64_mk; lia|]. rewrite b64_mk by lia. unfold parts. change (2 ^ 11 - 1) with 2047. change (2 ^ 52) with 4503599627370496.
      replace (e + 896 =? 2047) with false by lia. replace (e + 896 =? 0) with false by lia. f_equal. unfold unit_ratio.
      replace (4503599627370496 + m * 536870912) with ((8388608 + m) * 2 ^ 29) by (change (2 ^ 29) with 536870912; lia).
      rewrite <- !Z.mul_assoc, !pow_add by lia. f_equal. f_equal. lia.
Qed.
