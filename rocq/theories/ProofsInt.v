(** Integers as floats: rounding to the nearest binary64 number. *)
From Verif Require Import Base Dict PyStr PyFloat Struct ModelTypes ModelRead SpecNumber ProofsNumber ProofsIeee ProofsDouble.
Ltac Zify.zify_post_hook ::= idtac.

(** the bits of a positive integer, as one number *)
Definition place (a : Z) : Z := (1022 + Z.log2 a) * 4503599627370496 + (if Z.log2 a <=? 52 then a * 2 ^ (52 - Z.log2 a) else round_shift a (Z.log2 a - 52)).
Lemma f64_of_Z_place z : z <> 0 -> f64_of_Z z = f64_mk (sgn (z <? 0)) 0 (place (Z.abs z)).
Proof.
  intros H. unfold f64_of_Z, place, f64_mk. cbv zeta. replace (Z.abs z =? 0) with false by lia. destruct (z <? 0); unfold sgn; lia.
Qed.
(** what rounds up to a power of two *)
Lemma round_top a sh : 0 <= a -> 1 <= sh -> (9007199254740992 <= round_shift a sh <-> (2 ^ 54 - 1) * 2 ^ (sh - 1) <= a).
Proof.
  intros Ha Hs. pose proof (round_near a sh ltac:(lia) Ha) as N. cbv zeta in N. set (t := round_shift a sh) in *. clearbody t. destruct N as (T0 & T1 & T2).
  assert (P : 2 ^ sh = 2 * 2 ^ (sh - 1)) by (replace sh with (Z.succ (sh - 1)) at 1 by lia; apply Z.pow_succ_r; lia).
  assert (0 < 2 ^ (sh - 1)) by (apply Z.pow_pos_nonneg; lia). rewrite P in *. set (h := 2 ^ (sh - 1)) in *. clearbody h. change (2 ^ 54 - 1) with 18014398509481983.
  split; intros H1.
  - nia.
  - destruct (Z_le_gt_dec 9007199254740992 t) as [|N]; [assumption|]. exfalso.
    assert (E : 2 * Z.abs (t * (2 * h) - a) = 2 * h) by nia. assert (t = 9007199254740991) by nia. subst t. specialize (T2 E). discriminate T2.
Qed.
Lemma place_spec a : 0 < a -> let e := Z.log2 a in let t := place a - (1022 + e) * 4503599627370496 in
  0 <= e /\ 4503599627370496 <= t <= 9007199254740992 /\ mag 52 (place a) = t * 2 ^ (1022 + e) /\
  (e <= 52 -> t * 2 ^ (1022 + e) = a * 2 ^ 1074) /\ (52 < e -> t = round_shift a (e - 52)).
Proof.
  intros Ha. cbv zeta. unfold place. pose proof (Z.log2_spec a Ha) as (L1 & L2). pose proof (Z.log2_nonneg a) as L0. set (e := Z.log2 a) in *. clearbody e.
  rewrite Z.pow_succ_r in L2 by lia.
  set (t := if e <=? 52 then a * 2 ^ (52 - e) else round_shift a (e - 52)). replace ((1022 + e) * 4503599627370496 + t - (1022 + e) * 4503599627370496) with t by lia.
  assert (R : 4503599627370496 <= t <= 9007199254740992).
  { unfold t. destruct (Z.leb_spec e 52) as [E|E].
    - assert (P : 2 ^ e * 2 ^ (52 - e) = 4503599627370496) by (rewrite <- Z.pow_add_r by lia; replace (e + (52 - e)) with 52 by lia; reflexivity).
      assert (0 < 2 ^ (52 - e)) by (apply Z.pow_pos_nonneg; lia). nia.
    - assert (P : 2 ^ e = 4503599627370496 * 2 ^ (e - 52)) by (change 4503599627370496 with (2 ^ 52); rewrite <- Z.pow_add_r by lia; f_equal; lia).
      apply round_range; lia. }
  split; [exact L0|]. split; [exact R|]. split.
  - pose proof (mag_high 52 (1023 + e) t ltac:(lia) ltac:(lia)) as M. change (2 ^ 52) with 4503599627370496 in M.
    replace (1023 + e - 1) with (1022 + e) in M by lia. apply M. lia.
  - split.
    + intros E. unfold t. replace (e <=? 52) with true by lia. rewrite <- Z.mul_assoc, <- Z.pow_add_r by lia. do 2 f_equal. lia.
    + intros E. unfold t. replace (e <=? 52) with false by lia. reflexivity.
Qed.
Lemma b64_of s p : 0 <= p -> p < 2047 * 4503599627370496 -> binary64 (f64_mk (sgn s) 0 p) = Finite s (mag 52 p).
Proof.
  intros P0 P1. replace (f64_mk (sgn s) 0 p) with (f64_mk (sgn s) (p / 4503599627370496) (p mod 4503599627370496)) by (unfold f64_mk; pose proof (Z.div_mod p 4503599627370496); lia).
  pose proof (Z.mod_pos_bound p 4503599627370496 ltac:(lia)). assert (0 <= p / 4503599627370496 < 2047) by (split; [apply Z.div_pos; lia|apply Z.div_lt_upper_bound; lia]).
  rewrite b64_mk by (try (destruct s; cbn; auto); lia).
  unfold parts. change (2 ^ 11 - 1) with 2047. replace (p / 4503599627370496 =? 2047) with false by lia. destruct s; reflexivity.
Qed.
Lemma scale_iff w a u : 0 < u -> (w * u <= a * u <-> w <= a).
Proof. intros. nia. Qed.
Lemma top_iff a : 0 < a -> (2047 * 4503599627370496 <= place a <-> double_too_large (a * 2 ^ 1074)).
Proof.
  intros Ha. destruct (place_spec a Ha) as (L0 & R & _ & _ & T). pose proof (Z.log2_spec a Ha) as (L1 & L2). set (e := Z.log2 a) in *. clearbody e.
  assert (Q : double_too_large (a * 2 ^ 1074) <-> (2 ^ 54 - 1) * 2 ^ 970 <= a).
  { unfold double_too_large. replace (2 ^ 2044) with (2 ^ 970 * 2 ^ 1074) by (rewrite <- Z.pow_add_r by lia; reflexivity). rewrite Z.mul_assoc.
    apply scale_iff. apply Z.pow_pos_nonneg; lia. }
  rewrite Q. clear Q. assert (W : 0 < 2 ^ 970) by (apply Z.pow_pos_nonneg; lia).
  assert (P23 : 2 ^ 1023 = 2 ^ 53 * 2 ^ 970) by (rewrite <- Z.pow_add_r by lia; reflexivity).
  assert (P24 : 2 ^ 1024 = 2 ^ 54 * 2 ^ 970) by (rewrite <- Z.pow_add_r by lia; reflexivity).
  change (2 ^ 54) with 18014398509481984 in *. change (2 ^ 53) with 9007199254740992 in *. change (18014398509481984 - 1) with 18014398509481983.
  destruct (Z.lt_trichotomy e 1023) as [E|[E|E]].
  - assert (2 ^ Z.succ e <= 2 ^ 1023) by (apply Z.pow_le_mono_r; lia). split; intros H1; [lia|]. rewrite P23 in *. generalize dependent (2 ^ 970). intros; nia.
  - subst e. specialize (T ltac:(lia)). pose proof (round_top a (1023 - 52) ltac:(lia) ltac:(lia)) as B.
    change (1023 - 52 - 1) with 970 in B. change (2 ^ 54 - 1) with 18014398509481983 in B. rewrite <- B, <- T. lia.
  - assert (2 ^ 1024 <= 2 ^ e) by (apply Z.pow_le_mono_r; lia). split; intros H1; [|lia]. rewrite P24 in *. generalize dependent (2 ^ 970). intros; nia.
Qed.
Lemma mk64_even s p : Z.even (f64_mk (sgn s) 0 p) = Z.even p.
Proof.
  unfold f64_mk. rewrite Z.even_add. destruct s; cbn [sgn]; [change (Z.even (1 * 9223372036854775808 + 0 * 4503599627370496)) with true|change (Z.even (0 * 9223372036854775808 + 0 * 4503599627370496)) with true]; destruct (Z.even p); reflexivity.
Qed.
Lemma place_near s a : 0 < a -> place a < 2047 * 4503599627370496 -> nearest_double (a * 2 ^ 1074) s (f64_mk (sgn s) 0 (place a)).
Proof.
  intros Ha Hp. destruct (place_spec a Ha) as (L0 & R & M & T1 & T2). pose proof (Z.log2_spec a Ha) as (L1 & L2). set (e := Z.log2 a) in *. clearbody e.
  set (t := place a - (1022 + e) * 4503599627370496) in *. exists (mag 52 (place a)). split; [apply b64_of; [unfold t in R; lia|exact Hp]|].
  intros b' k' Hb Hk. pose proof (b64_back b' Hb) as B. rewrite Hk in B. destruct B as (p' & Rp & _ & ->). rewrite mk64_even.
  destruct (Z_le_gt_dec e 52) as [E|E].
  - rewrite M, (T1 E). rewrite Z.sub_diag. destruct (Z.eq_dec (mag 52 p') (a * 2 ^ 1074)) as [->|N].
    + right. split; [now rewrite Z.sub_diag|now left].
    + left. rewrite Z.abs_0. lia.
  - specialize (T2 ltac:(lia)). rewrite M. assert (Ev : Z.even (place a) = Z.even t).
    { replace (place a) with ((1022 + e) * 4503599627370496 + t) by (unfold t; lia). rewrite Z.even_add, Z.even_mul. change (Z.even 4503599627370496) with true.
      rewrite Bool.orb_true_r. destruct (Z.even t); reflexivity. }
    rewrite Ev. pose proof (fun x => round_nearest a (e - 52) x ltac:(lia) ltac:(lia)) as RN. cbv zeta in RN. rewrite <- T2 in RN.
    assert (G : 2 ^ (1022 + e) = 2 ^ (e - 52) * 2 ^ 1074) by (rewrite <- Z.pow_add_r by lia; f_equal; lia).
    assert (U : 0 < 2 ^ 1074) by (apply Z.pow_pos_nonneg; lia). assert (D : 0 < 2 ^ (e - 52)) by (apply Z.pow_pos_nonneg; lia).
    assert (Ae : 4503599627370496 * 2 ^ (e - 52) <= a) by (change 4503599627370496 with (2 ^ 52); rewrite <- Z.pow_add_r by lia; replace (52 + (e - 52)) with e by lia; exact L1).
    assert (K : (exists t', mag 52 p' = t' * 2 ^ (1022 + e)) \/ mag 52 p' < 4503599627370496 * 2 ^ (1022 + e)).
    { destruct (Z_le_gt_dec ((1023 + e) * 4503599627370496) p') as [Hle|Hgt].
      - left. destruct (mag_multiple 52 (1023 + e) p' ltac:(lia) ltac:(lia)) as (t' & X); [change (2 ^ 52) with 4503599627370496; exact Hle|].
        exists t'. rewrite X. do 2 f_equal. lia.
      - right. pose proof (mag_lt 52 p' ((1023 + e) * 4503599627370496) ltac:(lia) ltac:(lia)) as X.
        pose proof (mag_high 52 (1023 + e) 4503599627370496 ltac:(lia) ltac:(lia)) as Y. change (2 ^ 52) with 4503599627370496 in Y. specialize (Y ltac:(lia)).
        replace ((1023 + e - 1) * 4503599627370496 + 4503599627370496) with ((1023 + e) * 4503599627370496) in Y by lia. replace (1023 + e - 1) with (1022 + e) in Y by lia. lia. }
    rewrite G in *. clear M T1 T2 Ev L1 L2 G Rp Hb Hk Hp. generalize dependent (2 ^ (e - 52)). generalize dependent (2 ^ 1074). intros u Hu d RN Hd Ae K.
    clearbody t. generalize dependent (mag 52 p'). intros k' K.
    assert (A1 : forall x, Z.abs (x * (d * u) - a * u) = Z.abs (x * d - a) * u) by (intros x; rewrite <- abs_scale by lia; f_equal; lia).
    rewrite A1. destruct K as [(t' & ->)|K].
    + rewrite A1. destruct (RN t') as [X|(X & [->|Y])]; [left; nia|right; split; [reflexivity|now left]|right; split; [now rewrite X|now right]].
    + left. assert (X : Z.abs (t * d - a) <= Z.abs (4503599627370496 * d - a)) by (destruct (RN 4503599627370496) as [X|(X & _)]; lia).
      rewrite (Z.abs_neq (4503599627370496 * d - a)) in X by lia. rewrite (Z.abs_neq (k' - a * u)) by nia. nia.
Qed.
Theorem int_double z :
  (double_of_int z = None <-> double_too_large (Z.abs z * 2 ^ 1074)) /\
  (forall b, double_of_int z = Some b -> 0 <= b < 2 ^ 64 /\ nearest_double (Z.abs z * 2 ^ 1074) (z <? 0) b).
Proof.
  destruct (Z.eq_dec z 0) as [->|Nz].
  - split.
    + split; [discriminate|]. unfold double_too_large. change (Z.abs 0 * 2 ^ 1074) with 0. intros H. exfalso. revert H. apply Z.lt_nge. apply Z.mul_pos_pos; [reflexivity|apply Z.pow_pos_nonneg; lia].
    + intros b E. change (Some 0 = Some b) in E. injection E as <-. split; [split; [discriminate|reflexivity]|]. exists 0. split; [reflexivity|].
      intros b' k' _ _. change (Z.abs 0 * 2 ^ 1074) with 0. change (0 <? 0) with false. destruct (Z.eq_dec k' 0) as [->|N]; [right; split; [reflexivity|now left]|left; lia].
  - unfold double_of_int. rewrite (f64_of_Z_place z Nz), (f64_of_Z_place (Z.abs z)), Z.abs_involutive by lia. replace (Z.abs z <? 0) with false by lia.
    change (f64_mk (sgn false) 0 (place (Z.abs z))) with (0 + place (Z.abs z)). rewrite Z.add_0_l. pose proof (top_iff (Z.abs z) ltac:(lia)) as T.
    destruct (Z.leb_spec (2047 * 4503599627370496) (place (Z.abs z))) as [H|H].
    + split; [split; [intros _; now apply T|reflexivity]|discriminate].
    + split; [split; [discriminate|intros X; apply T in X; lia]|]. intros b E. apply (f_equal (fun o => match o with Some x => x | None => b end)) in E. cbv beta iota in E. subst b.
      split; [|apply place_near; [lia|exact H]]. destruct (place_spec (Z.abs z) ltac:(lia)) as (L0 & R & _).
      change (2 ^ 64) with 18446744073709551616. unfold f64_mk. destruct (z <? 0); cbn [sgn]; lia.
Qed.
