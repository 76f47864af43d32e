(** binary64 numbers: different bits stand for different numbers; every one as binary32. *)
From Verif Require Import Base Dict PyStr PyFloat Struct ModelTypes ModelRead SpecNumber ProofsNumber ProofsIeee.
Ltac Zify.zify_post_hook ::= idtac.

Definition sgn (s : bool) : Z := if s then 1 else 0.
Lemma sgn_eqb s : s = 0 \/ s = 1 -> sgn (s =? 1) = s.
Proof. intros [->| ->]; reflexivity. Qed.
Lemma b64_back b : 0 <= b < 2 ^ 64 ->
  match binary64 b with
  | Finite s n => exists p, 0 <= p < 2047 * 4503599627370496 /\ b = f64_mk (sgn s) 0 p /\ n = mag 52 p
  | Infinite s => b = f64_mk (sgn s) 2047 0
  | NaN s q p => b = f64_mk (sgn s) 2047 (sgn q * 2251799813685248 + p) /\ 0 <= p < 2251799813685248
  end.
Proof.
  intros Hb. destruct (f64_split b Hb) as (E & Hs & He & Hm).
  set (sg := f64_sign b) in *. set (e := f64_exp b) in *. set (m := f64_man b) in *. clearbody sg e m. subst b. rewrite b64_mk by assumption.
  unfold parts. change (2 ^ 11 - 1) with 2047. change (2 ^ (52 - 1)) with 2251799813685248. destruct (Z.eqb_spec e 2047) as [->|Ne].
  - destruct (Z.eqb_spec m 0) as [->|Nm]; rewrite sgn_eqb by assumption; [reflexivity|].
    pose proof (Z.mod_pos_bound m 2251799813685248 ltac:(lia)) as B. split; [|exact B]. f_equal.
    destruct (Z.leb_spec 2251799813685248 m); unfold sgn.
    + rewrite <- (Z.mod_unique m 2251799813685248 1 (m - 2251799813685248)) by lia. lia.
    + rewrite Z.mod_small by lia. lia.
  - exists (e * 4503599627370496 + m). rewrite sgn_eqb by assumption. split; [lia|]. split; [unfold f64_mk; lia|].
    unfold mag. change (2 ^ 52) with 4503599627370496. cbn zeta.
    rewrite <- (Z.div_unique (e * 4503599627370496 + m) 4503599627370496 e m), <- (Z.mod_unique (e * 4503599627370496 + m) 4503599627370496 e m) by lia. reflexivity.
Qed.
Lemma mag_inj w p p' : 0 <= w -> 0 <= p -> 0 <= p' -> mag w p = mag w p' -> p = p'.
Proof.
  intros Hw A B E. destruct (Z.lt_trichotomy p p') as [H|[H|H]]; [|exact H|];
    [pose proof (mag_lt w p p' Hw ltac:(lia))|pose proof (mag_lt w p' p Hw ltac:(lia))]; lia.
Qed.
Lemma b64_inj b b' : 0 <= b < 2 ^ 64 -> 0 <= b' < 2 ^ 64 -> binary64 b = binary64 b' -> b = b'.
Proof.
  intros H H' E. pose proof (b64_back b H) as B. pose proof (b64_back b' H') as B'. rewrite E in B. destruct (binary64 b') as [s n|s|s q p].
  - destruct B as (p & R & -> & M), B' as (p' & R' & -> & M'). f_equal. apply (mag_inj 52); lia.
  - now rewrite B, B'.
  - destruct B as (-> & _), B' as (-> & _). reflexivity.
Qed.

(** every binary64 number as a binary32 number *)
Lemma narrow_number b : 0 <= b < 2 ^ 64 ->
  match binary64 b with
  | Finite s n => (narrow b = None <-> too_large n) /\ (forall r, narrow b = Some r -> 0 <= r < 2 ^ 32 /\ nearest n s r)
  | Infinite s => exists r, narrow b = Some r /\ 0 <= r < 2 ^ 32 /\ binary32 r = Infinite s
  | NaN s q p => exists r, narrow b = Some r /\ 0 <= r < 2 ^ 32 /\ binary32 r = NaN s true (p / 2 ^ 29)
  end.
Proof.
  intros Hb. destruct (f64_split b Hb) as (E & Hs & He & Hm).
  set (sg := f64_sign b) in *. set (e := f64_exp b) in *. set (m := f64_man b) in *. clearbody sg e m. subst b. clear Hb. rewrite b64_mk by assumption.
  unfold parts. change (2 ^ 11 - 1) with 2047. change (2 ^ (52 - 1)) with 2251799813685248. destruct (Z.eqb_spec e 2047) as [->|Ne].
  - rewrite narrow_mk by assumption. change (2047 =? 2047) with true. cbv iota. change (2 ^ 32) with 4294967296. destruct (Z.eqb_spec m 0) as [->|Nm].
    + eexists. split; [reflexivity|]. split; [unfold f32_mk; lia|]. rewrite b32_mk by lia. reflexivity.
    + cbv zeta. set (h := m / 536870912).
      assert (Hh : 0 <= h < 8388608) by (unfold h; split; [apply Z.div_pos; lia|apply Z.div_lt_upper_bound; lia]).
      assert (Hd : m mod 2251799813685248 / 2 ^ 29 = h mod 4194304).
      { change (2 ^ 29) with 536870912. pose proof (Z.div_mod m 536870912 ltac:(lia)) as D. fold h in D. pose proof (Z.mod_pos_bound m 536870912 ltac:(lia)) as B.
        set (l := m mod 536870912) in *. pose proof (Z.div_mod h 4194304 ltac:(lia)) as D2. pose proof (Z.mod_pos_bound h 4194304 ltac:(lia)) as B2.
        set (k := h mod 4194304) in *. clearbody h l k.
        rewrite <- (Z.mod_unique m 2251799813685248 (h / 4194304) (k * 536870912 + l)) by lia.
        symmetry. apply (Z.div_unique (k * 536870912 + l) 536870912 k l); lia. }
      rewrite Hd. eexists. split; [reflexivity|]. split; [unfold f32_mk; destruct (Z.ltb_spec h 4194304); lia|].
      rewrite b32_mk by (try assumption; destruct (Z.ltb_spec h 4194304); lia). unfold parts. change (255 =? 2 ^ 8 - 1) with true. cbv iota. change (2 ^ (23 - 1)) with 4194304.
      destruct (Z.ltb_spec h 4194304).
      * replace (h + 4194304 =? 0) with false by lia. replace (4194304 <=? h + 4194304) with true by lia. f_equal.
        replace (h + 4194304) with (h + 1 * 4194304) by lia. apply Z.mod_add. lia.
      * replace (h =? 0) with false by lia. replace (4194304 <=? h) with true by lia. reflexivity.
  - apply narrow_finite; [assumption|lia|assumption|]. reflexivity.
Qed.
