(** Versions 0.b.c compared as texts, for every b. *)
From Verif Require Import Base Dict PyStr ModelRos SpecRos ProofsRos.
Ltac Zify.zify_post_hook ::= Z.div_mod_to_equations.

(** ** Decimal texts, digit by digit *)
Lemma dd_acc f : forall n acc, dec_digits f n acc = dec_digits f n [] ++ acc.
Proof.
  induction f as [|f IH]; intros n acc; cbn [dec_digits]; [reflexivity|]. cbn zeta. destruct (n / 10 =? 0); [reflexivity|].
  rewrite (IH _ (_ :: acc)), (IH _ [_]), <- app_assoc. reflexivity.
Qed.
Lemma dd_fuel f : forall g n acc, 0 <= n < 2 ^ Z.of_nat f -> n < 2 ^ Z.of_nat g -> (0 < f)%nat -> (0 < g)%nat -> dec_digits f n acc = dec_digits g n acc.
Proof.
  induction f as [|f IH]; intros [|g] n acc H1 H2 F G; try lia. cbn [dec_digits]. cbn zeta. destruct (Z.eqb_spec (n / 10) 0) as [E|E]; [reflexivity|].
  rewrite Nat2Z.inj_succ, Z.pow_succ_r in H1, H2 by lia. apply IH; try lia.
  - destruct f; [cbn in H1; lia|lia].
  - destruct g; [cbn in H2; lia|lia].
Qed.
Lemma str_step n : 10 <= n -> str_of_Z n = str_of_Z (n / 10) ++ [48 + n mod 10].
Proof.
  intros H. rewrite !str_of_Z_nonneg by lia. unfold str_of_nonneg at 1. cbn [dec_digits]. cbn zeta.
  destruct (Z.eqb_spec (n / 10) 0); [lia|]. rewrite dd_acc. f_equal.
  assert (L : forall m, 0 < m -> m < 2 ^ Z.of_nat (S (Z.to_nat (Z.log2 m)))).
  { intros m Hm. rewrite Nat2Z.inj_succ, Z2Nat.id by apply Z.log2_nonneg. apply Z.log2_spec. lia. }
  pose proof (L n ltac:(lia)) as Ln. pose proof (L (n / 10) ltac:(lia)) as Lm. rewrite Nat2Z.inj_succ, Z.pow_succ_r in Ln by lia.
  unfold str_of_nonneg. apply dd_fuel; [lia|exact Lm| |lia]. destruct (Z.to_nat (Z.log2 n)); [cbn in Ln; lia|lia].
Qed.
Lemma str_digit n : 0 <= n <= 9 -> str_of_Z n = [48 + n].
Proof. intros H. assert (n = 0 \/ n = 1 \/ n = 2 \/ n = 3 \/ n = 4 \/ n = 5 \/ n = 6 \/ n = 7 \/ n = 8 \/ n = 9) as C by lia. repeat destruct C as [->|C]; try reflexivity. now subst. Qed.
(** the first two digits *)
Lemma two_first k : forall b, 10 * 10 ^ Z.of_nat k <= b < 100 * 10 ^ Z.of_nat k ->
  exists d1 d2 r, str_of_Z b = (48 + d1) :: (48 + d2) :: r /\ length r = k /\ Forall (fun c => 48 <= c <= 57) r /\ 1 <= d1 <= 9 /\ 0 <= d2 <= 9 /\
    (10 * d1 + d2) * 10 ^ Z.of_nat k <= b < (10 * d1 + d2 + 1) * 10 ^ Z.of_nat k.
Proof.
  induction k as [|k IH]; intros b H.
  - change (10 ^ Z.of_nat 0) with 1 in *. exists (b / 10), (b mod 10), []. rewrite str_step, str_digit by lia. repeat split; auto; lia.
  - rewrite Nat2Z.inj_succ, Z.pow_succ_r in * by lia. assert (0 < 10 ^ Z.of_nat k) by (apply Z.pow_pos_nonneg; lia). set (p := 10 ^ Z.of_nat k) in *.
    destruct (IH (b / 10) ltac:(lia)) as (d1 & d2 & r & E & L & F & D1 & D2 & B). exists d1, d2, (r ++ [48 + b mod 10]).
    rewrite str_step, E by lia. split; [reflexivity|]. split; [rewrite app_length, L; cbn; lia|]. split; [apply Forall_app; split; [exact F|constructor; [lia|constructor]]|].
    do 2 (split; [lia|]). nia.
Qed.
(** every number from ten on has its number of digits *)
Lemma digits_of b : 10 <= b -> exists k, 10 * 10 ^ Z.of_nat k <= b < 100 * 10 ^ Z.of_nat k.
Proof.
  intros H. assert (E : forall n b, 10 <= b < 100 * 10 ^ Z.of_nat n -> exists k, 10 * 10 ^ Z.of_nat k <= b < 100 * 10 ^ Z.of_nat k).
  { induction n as [|n IH]; intros x Hx; [exists O; cbn in *; lia|]. destruct (Z_lt_le_dec x (100 * 10 ^ Z.of_nat n)) as [L|L]; [apply IH; lia|].
    exists (S n). rewrite Nat2Z.inj_succ, Z.pow_succ_r in * by lia. lia. }
  apply (E (Z.to_nat b)). rewrite Z2Nat.id by lia. pose proof (Z.pow_gt_lin_r 10 b ltac:(lia) ltac:(lia)). lia.
Qed.
Lemma digits_unique j k b : 0 <= j -> 0 <= k -> 10 * 10 ^ j <= b < 100 * 10 ^ j -> 10 * 10 ^ k <= b < 100 * 10 ^ k -> j = k.
Proof.
  assert (M : forall j k, 0 <= j -> j < k -> 10 * 10 ^ j <= 10 ^ k) by (intros; rewrite <- Z.pow_succ_r by lia; apply Z.pow_le_mono_r; lia).
  intros Hj Hk A B. destruct (Z.lt_total j k) as [L|[L|L]]; auto; [specialize (M j k Hj L)|specialize (M k j Hk L)]; lia.
Qed.

(** ** The comparison *)
Section large.
  Variables (y1 y2 : Z) (q : str).
  Hypothesis Hq : q = [48; 46; 48 + y1; 48 + y2; 46; 48].
  Hypothesis Hy : 0 <= y1 <= 9 /\ 0 <= y2 <= 9.
  Lemma large_version k b c : (0 < k)%nat -> 10 * 10 ^ Z.of_nat k <= b < 100 * 10 ^ Z.of_nat k ->
    (str_leb q (version_text 0 b c) = true <-> (10 * y1 + y2) * 10 ^ Z.of_nat k <= b).
  Proof.
    intros Hk Hb. destruct (two_first k b Hb) as (d1 & d2 & r & E & L & F & D1 & D2 & B).
    destruct r as [|c1 r]; [cbn in L; lia|]. apply Forall_cons_iff in F as [F _].
    assert (0 < 10 ^ Z.of_nat k) by (apply Z.pow_pos_nonneg; lia).
    rewrite text_0. unfold before_patch. rewrite E, Hq. change (lit "0.") with [48; 46]. cbn [app]. unfold str_leb. cbn [str_cmp]. rewrite !Z.compare_refl.
    transitivity (10 * y1 + y2 <= 10 * d1 + d2); [|split; intros; nia].
    destruct (Z.compare_spec (48 + y1) (48 + d1)) as [E1|E1|E1]; [|split; intros; [lia|reflexivity]|split; intros; [discriminate|lia]].
    destruct (Z.compare_spec (48 + y2) (48 + d2)) as [E2|E2|E2]; [|split; intros; [lia|reflexivity]|split; intros; [discriminate|lia]].
    destruct (Z.compare_spec 46 c1); [lia| |lia]. split; intros; [lia|reflexivity].
  Qed.
End large.
Lemma id_large k b c : (0 < k)%nat -> 10 * 10 ^ Z.of_nat k <= b < 100 * 10 ^ Z.of_nat k -> (uses_id (version_text 0 b c) = true <-> 25 * 10 ^ Z.of_nat k <= b).
Proof. intros H1 H2. apply (large_version 2 5 (lit "0.25.0") eq_refl ltac:(lia) k b c H1 H2). Qed.
Lemma seq_large k b c : (0 < k)%nat -> 10 * 10 ^ Z.of_nat k <= b < 100 * 10 ^ Z.of_nat k -> (uses_seqnum (version_text 0 b c) = true <-> 32 * 10 ^ Z.of_nat k <= b).
Proof. intros H1 H2. apply (large_version 3 2 (lit "0.32.0") eq_refl ltac:(lia) k b c H1 H2). Qed.
