(** Writing a float: binary64 to binary32 is rounding to the nearest. *)
From Verif Require Import Base Dict PyStr PyFloat Struct ModelTypes ModelRead SpecNumber ProofsNumber.
Ltac Zify.zify_post_hook ::= idtac.

(** ** Rounding *)
Definition mag (w p : Z) : Z := let e := p / 2 ^ w in let m := p mod 2 ^ w in if e =? 0 then m else (2 ^ w + m) * 2 ^ (e - 1).
Lemma mag_lt w p p' : 0 <= w -> 0 <= p < p' -> mag w p < mag w p'.
Proof.
  intros Hw H. unfold mag. cbn zeta. assert (P : 0 < 2 ^ w) by (apply Z.pow_pos_nonneg; lia). set (q := 2 ^ w) in *. clearbody q.
  pose proof (Z.div_mod p q ltac:(lia)) as D. pose proof (Z.mod_pos_bound p q P) as M. pose proof (Z.div_mod p' q ltac:(lia)) as D'. pose proof (Z.mod_pos_bound p' q P) as M'.
  set (e := p / q) in *. set (m := p mod q) in *. set (e' := p' / q) in *. set (m' := p' mod q) in *. clearbody e m e' m'. clear Hw w.
  assert (0 <= e) by nia. assert (e <= e') by nia.
  destruct (Z.eqb_spec e 0) as [->|N], (Z.eqb_spec e' 0) as [->|N'].
  - lia.
  - assert (0 < 2 ^ (e' - 1)) by (apply Z.pow_pos_nonneg; lia). nia.
  - lia.
  - destruct (Z.eq_dec e e') as [<-|Ne].
    + assert (m < m') by nia. assert (0 < 2 ^ (e - 1)) by (apply Z.pow_pos_nonneg; lia). nia.
    + assert (X : 2 ^ (e - 1) * 2 <= 2 ^ (e' - 1)).
      { replace (2 ^ (e - 1) * 2) with (2 ^ e) by (replace e with (Z.succ (e - 1)) at 1 by lia; rewrite Z.pow_succ_r by lia; lia). apply Z.pow_le_mono_r; lia. }
      assert (0 < 2 ^ (e - 1)) by (apply Z.pow_pos_nonneg; lia). nia.
Qed.
Lemma mag_low w t : 0 <= w -> 0 <= t <= 2 ^ w -> mag w t = t.
Proof.
  intros Hw H. unfold mag. cbn zeta. assert (P : 0 < 2 ^ w) by (apply Z.pow_pos_nonneg; lia). set (q := 2 ^ w) in *. clearbody q.
  destruct (Z.eq_dec t q) as [->|N].
  - rewrite Z.div_same, Z.mod_same by lia. cbn. lia.
  - rewrite Z.div_small, Z.mod_small by lia. reflexivity.
Qed.
Lemma mag_high w e t : 0 <= w -> 1 <= e -> 2 ^ w <= t <= 2 * 2 ^ w -> mag w ((e - 1) * 2 ^ w + t) = t * 2 ^ (e - 1).
Proof.
  intros Hw He H. unfold mag. cbn zeta. assert (P : 0 < 2 ^ w) by (apply Z.pow_pos_nonneg; lia). set (q := 2 ^ w) in *. clearbody q.
  destruct (Z.eq_dec t (2 * q)) as [->|N].
  - replace ((e - 1) * q + 2 * q) with ((e + 1) * q) by lia. rewrite Z.div_mul, Z.mod_mul by lia. replace (e + 1 =? 0) with false by lia.
    replace (e + 1 - 1) with (Z.succ (e - 1)) by lia. rewrite Z.pow_succ_r by lia. lia.
  - replace ((e - 1) * q + t) with (e * q + (t - q)) by lia. rewrite Z.add_comm, Z.div_add, Z.mod_add by lia. rewrite Z.div_small, Z.mod_small by lia.
    replace (0 + e =? 0) with false by lia. replace (0 + e - 1) with (e - 1) by lia. f_equal. lia.
Qed.
(** a finite number above 2^w units of its exponent is a multiple of that unit *)
Lemma mag_multiple w e p : 0 <= w -> 1 <= e -> e * 2 ^ w <= p -> exists t, mag w p = t * 2 ^ (e - 1).
Proof.
  intros Hw He H. unfold mag. cbn zeta. assert (P : 0 < 2 ^ w) by (apply Z.pow_pos_nonneg; lia). set (q := 2 ^ w) in *. clearbody q.
  assert (L : e <= p / q) by (apply Z.div_le_lower_bound; lia). replace (p / q =? 0) with false by lia.
  exists ((q + p mod q) * 2 ^ (p / q - e)). rewrite <- Z.mul_assoc, pow_add by lia. f_equal. f_equal. lia.
Qed.
Lemma round_near m sh : 0 <= sh -> 0 <= m -> let d := 2 ^ sh in let t := round_shift m sh in
  0 <= t /\ 2 * Z.abs (t * d - m) <= d /\ (2 * Z.abs (t * d - m) = d -> Z.even t = true).
Proof.
  intros Hs Hm. cbn zeta. unfold round_shift. cbn zeta. assert (P : 0 < 2 ^ sh) by (apply Z.pow_pos_nonneg; lia). set (d := 2 ^ sh) in *. clearbody d.
  pose proof (Z.div_mod m d ltac:(lia)) as D. pose proof (Z.mod_pos_bound m d P) as M. pose proof (Z.div_pos m d Hm P) as Q0. set (q := m / d) in *. set (r := m mod d) in *. clearbody q r.
  destruct (Z.ltb_spec (2 * r) d).
  - split; [lia|]. replace (q * d - m) with (- r) by lia. rewrite Z.abs_opp, Z.abs_eq by lia. split; lia.
  - destruct (Z.ltb_spec d (2 * r)).
    + split; [lia|]. replace ((q + 1) * d - m) with (d - r) by lia. rewrite Z.abs_eq by lia. split; lia.
    + assert (2 * r = d) by lia. rewrite Zmod_even. destruct (Z.even q) eqn:Ev; cbn [Z.eqb].
      * split; [lia|]. replace (q * d - m) with (- r) by lia. rewrite Z.abs_opp, Z.abs_eq by lia. split; [lia|auto].
      * split; [lia|]. replace ((q + 1) * d - m) with (d - r) by lia. rewrite Z.abs_eq by lia. split; [lia|]. intros _. rewrite Z.even_add, Ev. reflexivity.
Qed.
Lemma round_nearest m sh t' : 0 <= sh -> 0 <= m -> let d := 2 ^ sh in let t := round_shift m sh in
  Z.abs (t * d - m) < Z.abs (t' * d - m) \/ (Z.abs (t * d - m) = Z.abs (t' * d - m) /\ (t = t' \/ Z.even t = true)).
Proof.
  intros Hs Hm. cbn zeta. destruct (round_near m sh Hs Hm) as (_ & N & Ev). assert (P : 0 < 2 ^ sh) by (apply Z.pow_pos_nonneg; lia).
  set (d := 2 ^ sh) in *. set (t := round_shift m sh) in *. clearbody d t.
  destruct (Z.eq_dec t t') as [<-|Ne]; [right; auto|].
  assert (d <= Z.abs ((t' - t) * d)) by (rewrite Z.abs_mul, (Z.abs_eq d) by lia; nia).
  assert (Z.abs ((t' - t) * d) <= Z.abs (t' * d - m) + Z.abs (t * d - m)) by (replace ((t' - t) * d) with ((t' * d - m) - (t * d - m)) by lia; lia).
  destruct (Z.eq_dec (2 * Z.abs (t * d - m)) d) as [E|Ne2]; [|left; lia].
  destruct (Z.eq_dec (Z.abs (t * d - m)) (Z.abs (t' * d - m))); [right; auto|left; lia].
Qed.
Lemma round_range m sh lo hi : 0 <= sh -> lo * 2 ^ sh <= m -> m <= hi * 2 ^ sh -> 0 <= m -> lo <= round_shift m sh <= hi.
Proof.
  intros Hs L H Hm. destruct (round_near m sh Hs Hm) as (_ & N & _). assert (P : 0 < 2 ^ sh) by (apply Z.pow_pos_nonneg; lia).
  set (d := 2 ^ sh) in *. set (t := round_shift m sh) in *. clearbody d t. split; nia.
Qed.

Lemma b32_finite r s k : 0 <= r < 2 ^ 32 -> binary32 r = Finite s k -> exists p, 0 <= p /\ p < 255 * 8388608 /\ r = (if s then 2147483648 else 0) + p /\ k = mag 23 p.
Proof.
  change (2 ^ 32) with 4294967296. intros Hr. destruct (f32_parts r Hr) as (E & Hs & He & Hm).
  set (sg := f32_sign r) in *. set (e := f32_exp r) in *. set (m := f32_man r) in *. clearbody sg e m. rewrite E at 1. rewrite b32_mk by assumption.
  unfold parts. change (2 ^ 8 - 1) with 255. destruct (Z.eqb_spec e 255); [destruct (m =? 0); discriminate|]. intros X.
  pose proof (f_equal (fun x => match x with Finite a _ => a | _ => false end) X) as X1. pose proof (f_equal (fun x => match x with Finite _ a => a | _ => 0 end) X) as X2.
  cbv beta iota in X1, X2. clear X. subst s k.
  exists (e * 8388608 + m). split; [lia|]. split; [lia|]. split; [rewrite E; unfold f32_mk; destruct Hs as [->| ->]; [change (0 =? 1) with false|change (1 =? 1) with true]; cbv iota; lia|].
  unfold mag. change (2 ^ 23) with 8388608. cbn zeta. rewrite <- (Z.div_unique (e * 8388608 + m) 8388608 e m), <- (Z.mod_unique (e * 8388608 + m) 8388608 e m) by lia. reflexivity.
Qed.
Lemma b32_of s p : s = 0 \/ s = 1 -> 0 <= p -> p < 255 * 8388608 -> binary32 (f32_mk s 0 p) = Finite (s =? 1) (mag 23 p).
Proof.
  intros Hs P0 P1. replace (f32_mk s 0 p) with (f32_mk s (p / 8388608) (p mod 8388608)) by (unfold f32_mk; pose proof (Z.div_mod p 8388608); lia).
  pose proof (Z.mod_pos_bound p 8388608 ltac:(lia)). assert (0 <= p / 8388608 < 255) by (split; [apply Z.div_pos; lia|apply Z.div_lt_upper_bound; lia]).
  rewrite b32_mk by lia.
  unfold parts. change (2 ^ 8 - 1) with 255. replace (p / 8388608 =? 255) with false by lia. reflexivity.
Qed.
Lemma mk_even s p : s = 0 \/ s = 1 -> Z.even (f32_mk s 0 p) = Z.even p.
Proof. intros [->| ->]; unfold f32_mk; rewrite Z.even_add; change (Z.even (0 * 2147483648 + 0 * 8388608)) with true; change (Z.even (1 * 2147483648 + 0 * 8388608)) with true; destruct (Z.even p); reflexivity. Qed.
Lemma abs_scale a x : 0 <= a -> Z.abs (x * a) = Z.abs x * a.
Proof. intros. rewrite Z.abs_mul, (Z.abs_eq a) by assumption. reflexivity. Qed.

Section Narrow.
Variables (s : Z) (Hs : s = 0 \/ s = 1).
Lemma near_of n p g u d mm t : 0 < g -> 0 < u -> 0 <= p -> p < 255 * 8388608 -> Z.even p = Z.even t ->
  mag 23 p = t * g -> unit_ratio = d * u -> n = mm * g * u ->
  (forall t', Z.abs (t * d - mm) < Z.abs (t' * d - mm) \/ (Z.abs (t * d - mm) = Z.abs (t' * d - mm) /\ (t = t' \/ Z.even t = true))) ->
  (forall p', 0 <= p' < 255 * 8388608 -> (exists t', mag 23 p' = t' * g) \/ (exists t', mag 23 p' < t' * g /\ t' * d <= mm)) ->
  nearest n (s =? 1) (f32_mk s 0 p).
Proof using Hs.
  intros Hg Hu P0 P1 Ev Mp U En Rn G. exists (mag 23 p). split; [now apply b32_of|]. intros r' k' Hr Hk.
  destruct (b32_finite r' _ k' Hr Hk) as (p' & Q0 & Q1 & _ & ->). rewrite mk_even, Ev by assumption. rewrite Mp, U, En.
  assert (D : forall x, x * g * (d * u) - mm * g * u = (x * d - mm) * (g * u)) by (intros; ring).
  assert (Hgu : 0 < g * u) by now apply Z.mul_pos_pos.
  rewrite D, abs_scale by lia. destruct (G p' (conj Q0 Q1)) as [(t' & E)|(t' & L & M)].
  - rewrite E, D, abs_scale by lia. destruct (Rn t') as [R|[R C]].
    + left. apply Z.mul_lt_mono_pos_r; assumption.
    + right. split; [now rewrite R|]. destruct C as [->|C]; auto.
  - left. set (k := mag 23 p') in *. clearbody k.
    assert (B : Z.abs (t * d - mm) * (g * u) <= (mm - t' * d) * (g * u)).
    { apply Z.mul_le_mono_nonneg_r; [lia|]. destruct (Rn t') as [R|[R _]]; lia. }
    assert (Hd : 0 < d). { assert (0 < unit_ratio) by (unfold unit_ratio; apply Z.pow_pos_nonneg; lia). rewrite U in H. clear -H Hu. nia. }
    assert (C : k * (d * u) < t' * g * (d * u)) by (apply Z.mul_lt_mono_pos_r; [now apply Z.mul_pos_pos|exact L]).
    assert (F : t' * g * (d * u) - mm * g * u = - ((mm - t' * d) * (g * u))) by ring.
    set (a := k * (d * u)) in *. set (b := (mm - t' * d) * (g * u)) in *. set (c := mm * g * u) in *. clearbody a b c. lia.
Qed.
Lemma scale_le a b p q : 0 <= p -> 0 <= q -> (a * 2 ^ (p + q) <= b * 2 ^ q <-> a * 2 ^ p <= b).
Proof using. intros Hp Hq. rewrite Z.pow_add_r, Z.mul_assoc by assumption. assert (0 < 2 ^ q) by (apply Z.pow_pos_nonneg; lia). symmetry. now apply Z.mul_le_mono_pos_r. Qed.

Lemma narrow_finite e m n : 0 <= e < 2047 -> 0 <= m < 4503599627370496 -> n = (if e =? 0 then m else (4503599627370496 + m) * 2 ^ (e - 1)) ->
  (narrow (f64_mk s e m) = None <-> too_large n) /\ (forall r, narrow (f64_mk s e m) = Some r -> 0 <= r < 2 ^ 32 /\ nearest n (s =? 1) r).
Proof using Hs.
  intros He Hm En. rewrite narrow_mk by lia. replace (e =? 2047) with false by lia. cbn zeta.
  set (mm := if e =? 0 then m else m + 4503599627370496). set (E := if e =? 0 then 1 else e).
  assert (HE : 1 <= E <= 2046) by (unfold E; destruct (Z.eqb_spec e 0); lia).
  assert (Hmm : 0 <= mm < 2 ^ 53) by (change (2 ^ 53) with 9007199254740992; unfold mm; destruct (Z.eqb_spec e 0); lia).
  assert (Hmm' : 1 < E -> 2 ^ 52 <= mm) by (change (2 ^ 52) with 4503599627370496; unfold mm, E; destruct (Z.eqb_spec e 0); lia).
  assert (En' : n = mm * 2 ^ (E - 1)).
  { rewrite En. unfold mm, E. destruct (Z.eqb_spec e 0); [change (2 ^ (1 - 1)) with 1; lia|]. f_equal. lia. }
  clearbody mm E. clear En He Hm e m. unfold too_large, unit_ratio. rewrite <- Z.mul_assoc, pow_add by lia. change (252 + 925) with 1177.
  destruct (Z.leb_spec 1 (E - 896)) as [L|L].
  - specialize (Hmm' ltac:(lia)).
    assert (T : 8388608 <= round_shift mm 29 <= 16777216).
    { apply round_range; [lia| | |lia]; [change (8388608 * 2 ^ 29) with (2 ^ 52)|change (16777216 * 2 ^ 29) with (2 ^ 53)]; lia. }
    pose proof (round_near mm 29 ltac:(lia) ltac:(lia)) as (_ & Rn & Re). cbv zeta in Rn, Re.
    pose proof (fun t' => round_nearest mm 29 t' ltac:(lia) ltac:(lia)) as RN. cbv zeta in RN.
    set (t := round_shift mm 29) in *. clearbody t.
    split.
    + (* overflow *)
      rewrite En'. destruct (Z.leb_spec (255 * 8388608) ((E - 896 - 1) * 8388608 + t)) as [O|O].
      * split; [intros _|reflexivity]. destruct (Z.eq_dec E 1150) as [->|NE].
        -- assert (t = 16777216) by lia. subst t. change (1150 - 1) with 1149. change 1177 with (28 + 1149). apply scale_le; [lia|lia|].
           change (2 ^ 28) with 268435456. change (2 ^ 29) with 536870912 in *. change (2 ^ 25) with 33554432. change (2 ^ 53) with 9007199254740992 in *. lia.
        -- replace (E - 1) with (1150 + (E - 1151)) by lia. rewrite Z.pow_add_r by lia. assert (0 < 2 ^ (E - 1151)) by (apply Z.pow_pos_nonneg; lia).
           assert (X : (2 ^ 25 - 1) * 2 ^ 1177 <= mm * 2 ^ 1150).
           { change 1177 with (27 + 1150). apply scale_le; [lia|lia|]. change (2 ^ 27) with 134217728. change (2 ^ 25) with 33554432. change (2 ^ 52) with 4503599627370496 in *. lia. }
           set (A := (2 ^ 25 - 1) * 2 ^ 1177) in *. rewrite Z.mul_assoc. set (B := mm * 2 ^ 1150) in *. set (C := 2 ^ (E - 1151)) in *.
           assert (0 <= B) by (unfold B; apply Z.mul_nonneg_nonneg; [lia|apply Z.pow_nonneg; lia]). clearbody A B C. nia.
      * split; [discriminate|]. intros TL. exfalso. assert (LE : E <= 1150) by lia. destruct (Z.eq_dec E 1150) as [->|NE].
        -- change (1150 - 1) with 1149 in TL. change 1177 with (28 + 1149) in TL. apply scale_le in TL; [|lia|lia].
           change (2 ^ 28) with 268435456 in *. change (2 ^ 29) with 536870912 in *. change (2 ^ 25) with 33554432 in *. change (2 ^ 53) with 9007199254740992 in *.
           assert (t <= 16777215) by lia. assert (t = 16777215) by lia. subst t. specialize (Re ltac:(lia)). discriminate.
        -- assert (Y : mm * 2 ^ (E - 1) <= mm * 2 ^ 1148) by (apply Z.mul_le_mono_nonneg_l; [lia|apply Z.pow_le_mono_r; lia]).
           pose proof (Z.le_trans _ _ _ TL Y) as X. change 1177 with (29 + 1148) in X. apply scale_le in X; [|lia|lia].
           change (2 ^ 29) with 536870912 in *. change (2 ^ 25) with 33554432 in *. change (2 ^ 53) with 9007199254740992 in *. lia.
    + intros r. destruct (Z.leb_spec (255 * 8388608) ((E - 896 - 1) * 8388608 + t)) as [O|O]; [discriminate|]. intros Er. 
      apply (f_equal (fun o => match o with Some x => x | None => 0 end)) in Er. cbv beta iota in Er. subst r.
      split; [unfold f32_mk; change (2 ^ 32) with 4294967296; lia|].
      apply (near_of n ((E - 896 - 1) * 8388608 + t) (2 ^ (E - 896 - 1)) (2 ^ 896) (2 ^ 29) mm t).
      * apply Z.pow_pos_nonneg; lia.
      * apply Z.pow_pos_nonneg; lia.
      * lia.
      * exact O.
      * rewrite Z.even_add, Z.even_mul. change (Z.even 8388608) with true. rewrite orb_true_r. now destruct (Z.even t).
      * change 8388608 with (2 ^ 23) in *. apply mag_high; [lia|lia|]. change (2 * 2 ^ 23) with 16777216. lia.
      * unfold unit_ratio. now rewrite pow_add by lia.
      * rewrite En', <- Z.mul_assoc, pow_add by lia. f_equal. f_equal. lia.
      * exact RN.
      * intros p' Hp. destruct (Z.le_gt_cases ((E - 896) * 8388608) p') as [G|G].
        -- left. change 8388608 with (2 ^ 23) in G. apply (mag_multiple 23 (E - 896) p'); lia.
        -- right. exists 8388608. split; [|change (8388608 * 2 ^ 29) with (2 ^ 52); lia].
           assert (X : mag 23 ((E - 896 - 1) * 2 ^ 23 + 2 ^ 23) = 2 ^ 23 * 2 ^ (E - 896 - 1)) by (apply mag_high; lia).
           change (8388608 * 2 ^ (E - 896 - 1)) with (2 ^ 23 * 2 ^ (E - 896 - 1)). rewrite <- X. apply mag_lt; [lia|]. change (2 ^ 23) with 8388608. lia.
  - assert (SH : 0 <= 30 - (E - 896)) by lia.
    assert (T : 0 <= round_shift mm (30 - (E - 896)) <= 8388608).
    { apply round_range; [lia|lia| |lia]. assert (2 ^ 30 <= 2 ^ (30 - (E - 896))) by (apply Z.pow_le_mono_r; lia). change (2 ^ 53) with (8388608 * 2 ^ 30) in Hmm. nia. }
    pose proof (fun t' => round_nearest mm (30 - (E - 896)) t' SH ltac:(lia)) as RN. cbv zeta in RN.
    set (sh := 30 - (E - 896)) in *. set (t := round_shift mm sh) in *.
    split.
    + split; [discriminate|]. intros TL. exfalso. rewrite En' in TL.
      assert (Y : mm * 2 ^ (E - 1) <= mm * 2 ^ 895) by (apply Z.mul_le_mono_nonneg_l; [lia|apply Z.pow_le_mono_r; lia]).
      pose proof (Z.le_trans _ _ _ TL Y) as X. change 1177 with (282 + 895) in X. apply scale_le in X; [|lia|lia].
      assert (2 ^ 53 <= 2 ^ 282) by (apply Z.pow_le_mono_r; lia). change (2 ^ 25) with 33554432 in *. lia.
    + intros r Er. apply (f_equal (fun o => match o with Some x => x | None => 0 end)) in Er. cbv beta iota in Er. subst r.
      split; [unfold f32_mk; change (2 ^ 32) with 4294967296; lia|].
      apply (near_of n t 1 (2 ^ (E - 1)) (2 ^ sh) mm t).
      * lia.
      * apply Z.pow_pos_nonneg; lia.
      * lia.
      * lia.
      * reflexivity.
      * rewrite mag_low; [lia|lia|]. change (2 ^ 23) with 8388608. lia.
      * unfold unit_ratio, sh. rewrite pow_add by lia. f_equal. lia.
      * rewrite En'. now rewrite Z.mul_1_r.
      * exact RN.
      * intros p' _. left. exists (mag 23 p'). lia.
Qed.
End Narrow.
