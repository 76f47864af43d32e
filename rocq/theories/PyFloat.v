(** IEEE-754 numbers as bit patterns.  A Python float is the 64-bit pattern of a
    binary64; [struct.unpack('<f')] widens a binary32 (C cast float->double),
    [struct.pack('<f')] narrows with round-half-even and raises OverflowError
    when a finite value becomes infinite (core.py 58-59, 366, 441, 591).
    Conversions quieten signalling NaNs, as the C cast does on the usual hardware. *)
From Verif Require Import Base.
Ltac Zify.zify_post_hook ::= Z.div_mod_to_equations.

(** Fields of an IEEE 754 number ('f' and 'd' of core.py 58-59): the sign bit of a single *)
Definition f32_sign (b : Z) := b / 2147483648.
(** the biased exponent of a single (core.py 58) *)
Definition f32_exp (b : Z) := (b / 8388608) mod 256.
(** the mantissa of a single (core.py 58) *)
Definition f32_man (b : Z) := b mod 8388608.
(** the sign bit of a double (core.py 59) *)
Definition f64_sign (b : Z) := (b / 9223372036854775808) mod 2.
(** the biased exponent of a double (core.py 59) *)
Definition f64_exp (b : Z) := (b / 4503599627370496) mod 2048.
(** the mantissa of a double (core.py 59) *)
Definition f64_man (b : Z) := b mod 4503599627370496.

(** A double from its fields (core.py 59) *)
Definition f64_mk (s e m : Z) : Z := s * 9223372036854775808 + e * 4503599627370496 + m.
(** A single from its fields (core.py 58) *)
Definition f32_mk (s e m : Z) : Z := s * 2147483648 + e * 8388608 + m.

(** binary32 -> binary64 *)
Definition widen (b : Z) : Z :=
  let s := f32_sign b in let e := f32_exp b in let m := f32_man b in
  if e =? 255 then
    if m =? 0 then f64_mk s 2047 0
    else f64_mk s 2047 ((if m <? 4194304 then m + 4194304 else m) * 536870912)
  else if e =? 0 then
    if m =? 0 then f64_mk s 0 0
    else let k := Z.log2 m in f64_mk s (k + 874) ((m - 2 ^ k) * 2 ^ (52 - k))
  else f64_mk s (e + 896) (m * 536870912).

(** division by 2^sh rounding to nearest, ties to even *)
Definition round_shift (m sh : Z) : Z :=
  let d := 2 ^ sh in let q := m / d in let r := m mod d in
  if 2 * r <? d then q
  else if d <? 2 * r then q + 1
  else if q mod 2 =? 0 then q else q + 1.

(** int -> binary64, round to nearest even: the conversion made where core.py 366 and 441 pack an
    int as a float, where times are scaled (ulog2csv.py 134, 137) and by SQLite *)
Definition f64_of_Z (z : Z) : Z :=
  let a := Z.abs z in
  if a =? 0 then 0 else
  let e := Z.log2 a in
  let m := if e <=? 52 then a * 2 ^ (52 - e) else round_shift a (e - 52) in
  (if z <? 0 then 9223372036854775808 else 0) + (1023 + e) * 4503599627370496 + (m - 4503599627370496).

(** the same with the check of PyFloat_AsDouble (core.py 366, 441); [None] = too large for a float *)
Definition double_of_int (z : Z) : option Z :=
  if 2047 * 4503599627370496 <=? f64_of_Z (Z.abs z) then None else Some (f64_of_Z z).

(** binary64 -> binary32; [None] = overflow *)
Definition narrow (b : Z) : option Z :=
  let s := f64_sign b in let e := f64_exp b in let m := f64_man b in
  if e =? 2047 then
    if m =? 0 then Some (f32_mk s 255 0)
    else let h := m / 536870912 in
         Some (f32_mk s 255 (if h <? 4194304 then h + 4194304 else h))
  else
    let mm := if e =? 0 then m else m + 4503599627370496 in
    let e32 := (if e =? 0 then 1 else e) - 896 in
    if 1 <=? e32 then
      let q := (e32 - 1) * 8388608 + round_shift mm 29 in
      if 255 * 8388608 <=? q then None else Some (f32_mk s 0 q)
    else Some (f32_mk s 0 (round_shift mm (30 - e32))).

(** NaN as a double (core.py 591; sqlite3 stores it as NULL, db.py 650-725) *)
Definition f64_is_nan (b : Z) : bool := (f64_exp b =? 2047) && negb (f64_man b =? 0).
(** Zero of either sign as a double (core.py 591) *)
Definition f64_is_zero (b : Z) : bool := (f64_exp b =? 0) && (f64_man b =? 0).
(** NaN as a single (core.py 591) *)
Definition f32_is_nan (b : Z) : bool := (f32_exp b =? 255) && negb (f32_man b =? 0).
(** signalling NaN (core.py 58, 591) *)
Definition f32_is_snan (b : Z) : bool := f32_is_nan b && (f32_man b <? 4194304).

(** Python [a == b] on floats: NaN differs from everything, -0.0 == 0.0. *)
Definition f64_eqb (a b : Z) : bool :=
  if f64_is_nan a || f64_is_nan b then false
  else (f64_is_zero a && f64_is_zero b) ||
       ((f64_sign a =? f64_sign b) && (f64_exp a =? f64_exp b) && (f64_man a =? f64_man b)).

(** The integer value of a float, if it is an integer ([float == int]).
    (int of a float: ulog2csv.py 134, 137; stored in INT columns by db.py 514-730) *)
Definition f64_to_Z (b : Z) : option Z :=
  let e := f64_exp b in let m := f64_man b in
  let sg := if f64_sign b =? 0 then 1 else -1 in
  if e =? 2047 then None
  else if e =? 0 then if m =? 0 then Some 0 else None
  else
    let mm := m + 4503599627370496 in
    if 1075 <=? e then Some (sg * (mm * 2 ^ (e - 1075)))
    else let d := 2 ^ (1075 - e) in
         if mm mod d =? 0 then Some (sg * (mm / d)) else None.

Lemma round_shift_exact m sh : 0 <= sh -> m mod 2 ^ sh = 0 -> round_shift m sh = m / 2 ^ sh.
Proof.
  intros Hs H. unfold round_shift. cbn zeta. rewrite H.
  assert (0 < 2 ^ sh) by (apply Z.pow_pos_nonneg; lia).
  destruct (Z.ltb_spec (2 * 0) (2 ^ sh)); [reflexivity|lia].
Qed.

Lemma f32_parts b : 0 <= b < 4294967296 ->
  b = f32_mk (f32_sign b) (f32_exp b) (f32_man b) /\
  (f32_sign b = 0 \/ f32_sign b = 1) /\ 0 <= f32_exp b < 256 /\ 0 <= f32_man b < 8388608.
Proof. intros H. unfold f32_mk, f32_sign, f32_exp, f32_man. lia. Qed.

Lemma f64_parts_mk s e m : (s = 0 \/ s = 1) -> 0 <= e < 2048 -> 0 <= m < 4503599627370496 ->
  f64_sign (f64_mk s e m) = s /\ f64_exp (f64_mk s e m) = e /\ f64_man (f64_mk s e m) = m.
Proof. intros. unfold f64_mk, f64_sign, f64_exp, f64_man. lia. Qed.

(** struct.unpack of '<f' quiets a signalling NaN on its way to a double (core.py 591) *)
Definition f32_quiet (b : Z) : Z := if f32_is_snan b then b + 4194304 else b.

Ltac zt := rewrite ?(proj2 (Z.eqb_eq _ _)), ?(proj2 (Z.eqb_neq _ _)) by lia.

Lemma narrow_mk s e m : (s = 0 \/ s = 1) -> 0 <= e < 2048 -> 0 <= m < 4503599627370496 ->
  narrow (f64_mk s e m) =
  (if e =? 2047 then
    if m =? 0 then Some (f32_mk s 255 0)
    else let h := m / 536870912 in
         Some (f32_mk s 255 (if h <? 4194304 then h + 4194304 else h))
  else
    let mm := if e =? 0 then m else m + 4503599627370496 in
    let e32 := (if e =? 0 then 1 else e) - 896 in
    if 1 <=? e32 then
      let q := (e32 - 1) * 8388608 + round_shift mm 29 in
      if 255 * 8388608 <=? q then None else Some (f32_mk s 0 q)
    else Some (f32_mk s 0 (round_shift mm (30 - e32)))).
Proof.
  intros Hs He Hm. unfold narrow. destruct (f64_parts_mk s e m Hs He Hm) as (-> & -> & ->). reflexivity.
Qed.

(** Writing a float that was read from a binary32 gives the same 4 bytes back
    (signalling NaNs come back quiet). *)
Lemma narrow_widen b : 0 <= b < 4294967296 -> narrow (widen b) = Some (f32_quiet b).
Proof.
  intros Hb. destruct (f32_parts b Hb) as (E & Hs & He & Hm).
  unfold f32_quiet, f32_is_snan, f32_is_nan. unfold widen. cbn zeta.
  set (s := f32_sign b) in *. set (e := f32_exp b) in *. set (m := f32_man b) in *.
  clearbody s e m. subst b. clear Hb.
  destruct (Z.eqb_spec e 255) as [->|He'].
  - destruct (Z.eqb_spec m 0) as [->|Hm'].
    + rewrite narrow_mk by lia. reflexivity.
    + destruct (Z.ltb_spec m 4194304).
      * rewrite narrow_mk by lia. cbn zeta.
        replace (2047 =? 2047) with true by reflexivity.
        replace ((m + 4194304) * 536870912 =? 0) with false by lia.
        replace ((m + 4194304) * 536870912 / 536870912) with (m + 4194304) by lia.
        replace (m + 4194304 <? 4194304) with false by lia.
        simpl. f_equal. unfold f32_mk. lia.
      * rewrite narrow_mk by lia. cbn zeta.
        replace (2047 =? 2047) with true by reflexivity.
        replace (m * 536870912 =? 0) with false by lia.
        replace (m * 536870912 / 536870912) with m by lia.
        replace (m <? 4194304) with false by lia. reflexivity.
  - cbn [andb]. destruct (Z.eqb_spec e 0) as [->|He0].
    + destruct (Z.eqb_spec m 0) as [->|Hm'].
      * rewrite narrow_mk by lia. cbn zeta. replace (0 =? 2047) with false by reflexivity.
        replace (0 =? 0) with true by reflexivity. replace (1 <=? 1 - 896) with false by reflexivity.
        change (round_shift 0 (30 - (1 - 896))) with 0. reflexivity.
      * set (k := Z.log2 m).
        assert (Hk : 2 ^ k <= m < 2 ^ Z.succ k) by (apply Z.log2_spec; lia).
        assert (Hk0 : 0 <= k) by apply Z.log2_nonneg.
        assert (Hk1 : k < 23).
        { apply (Z.pow_lt_mono_r_iff 2); [lia|lia|]. change (2 ^ 23) with 8388608. lia. }
        rewrite Z.pow_succ_r in Hk by lia.
        assert (Hp : 2 ^ k * 2 ^ (52 - k) = 4503599627370496).
        { rewrite <- Z.pow_add_r by lia. replace (k + (52 - k)) with 52 by lia. reflexivity. }
        assert (Hp2 : 0 < 2 ^ (52 - k)) by (apply Z.pow_pos_nonneg; lia).
        assert (Hr : 0 <= (m - 2 ^ k) * 2 ^ (52 - k) < 4503599627370496).
        { split; [apply Z.mul_nonneg_nonneg; lia|]. rewrite <- Hp. apply Z.mul_lt_mono_pos_r; lia. }
        rewrite narrow_mk by lia. cbn zeta.
        replace (k + 874 =? 2047) with false by lia.
        replace (k + 874 =? 0) with false by lia.
        replace (1 <=? k + 874 - 896) with false by lia.
        replace (30 - (k + 874 - 896)) with (52 - k) by lia.
        replace ((m - 2 ^ k) * 2 ^ (52 - k) + 4503599627370496) with (m * 2 ^ (52 - k)) by lia.
        rewrite round_shift_exact; [|lia|apply Z.mod_mul; lia].
        rewrite Z.div_mul by lia. reflexivity.
    + rewrite narrow_mk by lia. cbn zeta.
      replace (e + 896 =? 2047) with false by lia. replace (e + 896 =? 0) with false by lia.
      replace (1 <=? e + 896 - 896) with true by lia.
      rewrite round_shift_exact; [|lia|change (2 ^ 29) with 536870912; lia].
      change (2 ^ 29) with 536870912.
      replace ((m * 536870912 + 4503599627370496) / 536870912) with (m + 8388608) by lia.
      replace (255 * 8388608 <=? (e + 896 - 896 - 1) * 8388608 + (m + 8388608)) with false by lia.
      unfold f32_mk. f_equal. lia.
Qed.

Lemma narrow_widen_exact b : 0 <= b < 4294967296 -> f32_is_snan b = false ->
  narrow (widen b) = Some b.
Proof. intros Hb H. rewrite narrow_widen by assumption. unfold f32_quiet. now rewrite H. Qed.

Lemma widen_range b : 0 <= b < 4294967296 -> 0 <= widen b < 18446744073709551616.
Proof.
  intros Hb. destruct (f32_parts b Hb) as (E & Hs & He & Hm).
  unfold widen. cbn zeta.
  set (s := f32_sign b) in *. set (e := f32_exp b) in *. set (m := f32_man b) in *.
  clearbody s e m. subst b. clear Hb. unfold f64_mk.
  destruct (Z.eqb_spec e 255) as [->|He'].
  - destruct (Z.eqb_spec m 0) as [->|Hm']; [lia|]. destruct (Z.ltb_spec m 4194304); lia.
  - destruct (Z.eqb_spec e 0) as [->|He0]; [|lia].
    destruct (Z.eqb_spec m 0) as [->|Hm']; [lia|].
    set (k := Z.log2 m).
    assert (Hk : 2 ^ k <= m < 2 ^ Z.succ k) by (apply Z.log2_spec; lia).
    assert (Hk0 : 0 <= k) by apply Z.log2_nonneg.
    assert (Hk1 : k < 23).
    { apply (Z.pow_lt_mono_r_iff 2); [lia|lia|]. change (2 ^ 23) with 8388608. lia. }
    rewrite Z.pow_succ_r in Hk by lia.
    assert (Hp : 2 ^ k * 2 ^ (52 - k) = 4503599627370496).
    { rewrite <- Z.pow_add_r by lia. replace (k + (52 - k)) with 52 by lia. reflexivity. }
    assert (Hp2 : 0 < 2 ^ (52 - k)) by (apply Z.pow_pos_nonneg; lia).
    assert (Hr : 0 <= (m - 2 ^ k) * 2 ^ (52 - k) < 4503599627370496).
    { split; [apply Z.mul_nonneg_nonneg; lia|]. rewrite <- Hp. apply Z.mul_lt_mono_pos_r; lia. }
    lia.
Qed.

Lemma widen_nan b : 0 <= b < 4294967296 -> f64_is_nan (widen b) = f32_is_nan b.
Proof.
  intros Hb. destruct (f32_parts b Hb) as (E & Hs & He & Hm).
  unfold f64_is_nan, f32_is_nan, widen. cbn zeta.
  set (s := f32_sign b) in *. set (e := f32_exp b) in *. set (m := f32_man b) in *.
  clearbody s e m. subst b. clear Hb.
  destruct (Z.eqb_spec e 255) as [->|He'].
  - destruct (Z.eqb_spec m 0) as [->|Hm'].
    + destruct (f64_parts_mk s 2047 0) as (_ & -> & ->); lia.
    + destruct (Z.ltb_spec m 4194304);
      match goal with |- context [f64_mk s 2047 ?x] => destruct (f64_parts_mk s 2047 x) as (_ & -> & ->) end;
      try lia.
  - destruct (Z.eqb_spec e 0) as [->|He0].
    + destruct (Z.eqb_spec m 0) as [->|Hm'].
      { destruct (f64_parts_mk s 0 0) as (_ & -> & ->); try lia. }
      set (k := Z.log2 m).
      assert (Hk : 2 ^ k <= m < 2 ^ Z.succ k) by (apply Z.log2_spec; lia).
      assert (Hk0 : 0 <= k) by apply Z.log2_nonneg.
      assert (Hk1 : k < 23).
      { apply (Z.pow_lt_mono_r_iff 2); [lia|lia|]. change (2 ^ 23) with 8388608. lia. }
      rewrite Z.pow_succ_r in Hk by lia.
      assert (Hp : 2 ^ k * 2 ^ (52 - k) = 4503599627370496).
      { rewrite <- Z.pow_add_r by lia. replace (k + (52 - k)) with 52 by lia. reflexivity. }
      assert (Hp2 : 0 < 2 ^ (52 - k)) by (apply Z.pow_pos_nonneg; lia).
      assert (Hr : 0 <= (m - 2 ^ k) * 2 ^ (52 - k) < 4503599627370496).
      { split; [apply Z.mul_nonneg_nonneg; lia|]. rewrite <- Hp. apply Z.mul_lt_mono_pos_r; lia. }
      match goal with |- context [f64_mk s ?e ?x] => destruct (f64_parts_mk s e x) as (_ & -> & ->) end; lia.
    + match goal with |- context [f64_mk s ?e ?x] => destruct (f64_parts_mk s e x) as (_ & -> & ->) end; lia.
Qed.

(* sanity: 1.0f, smallest denormal, largest finite, overflow, NaN *)
Example widen_one : widen 1065353216 = 4607182418800017408. Proof. vm_compute. reflexivity. Qed.
Example widen_denorm : widen 1 = 3936146074321813504. Proof. vm_compute. reflexivity. Qed.
Example narrow_overflow : narrow 5183771782906367355 = None. Proof. vm_compute. reflexivity. Qed.
Example narrow_tenth : narrow 4591870180066957722 = Some 1036831949. Proof. vm_compute. reflexivity. Qed.
