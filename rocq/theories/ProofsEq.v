(** Comparing logs: [ulog_eqb] decides [same_log] on loaded logs. *)
From Coq Require Import Permutation.
From Verif Require Import Base Dict Utf8 PyStr PyFloat Struct PySort ModelTypes ModelRead ModelApi Spec SpecApi.
From Verif Require Import ProofsRead ProofsFile ProofsSync ProofsInv ProofsTrace ProofsChange ProofsSection ProofsWhole ProofsFields ProofsApi.
Ltac Zify.zify_post_hook ::= Z.div_mod_to_equations.

(** ** Floats *)
Lemma f64_bounds b : (f64_sign b = 0 \/ f64_sign b = 1) /\ 0 <= f64_exp b < 2048 /\ 0 <= f64_man b < 2 ^ 52.
Proof. unfold f64_sign, f64_exp, f64_man. change (2 ^ 52) with 4503599627370496. lia. Qed.

Lemma mag_bounds m e : 0 <= m < 2 ^ 52 -> 1 <= e ->
  2 ^ (51 + e) <= (m + 2 ^ 52) * 2 ^ (e - 1) < 2 ^ (52 + e).
Proof.
  intros Hm He.
  replace (2 ^ (51 + e)) with (2 ^ 52 * 2 ^ (e - 1)) by (rewrite <- Z.pow_add_r by lia; f_equal; lia).
  replace (2 ^ (52 + e)) with (2 * 2 ^ 52 * 2 ^ (e - 1))
    by (rewrite <- (Z.pow_succ_r 2 52), <- Z.pow_add_r by lia; f_equal; lia).
  assert (0 < 2 ^ (e - 1)) by (apply Z.pow_pos_nonneg; lia). nia.
Qed.

Lemma SomeFin a b : Some (Fin a) = Some (Fin b) <-> a = b.
Proof. split; congruence. Qed.
Lemma SomeZ (a b : Z) : Some a = Some b <-> a = b.
Proof. split; congruence. Qed.
Lemma f64_to_Z_number b z : f64_to_Z b = Some z <-> number_of_float b = Some (Fin (z * 2 ^ 1074)).
Proof.
  unfold f64_to_Z, number_of_float. destruct (f64_bounds b) as (Hs & He & Hm).
  set (s := f64_sign b) in *. set (e := f64_exp b) in *. set (m := f64_man b) in *. clearbody s e m.
  change 4503599627370496 with (2 ^ 52). cbn zeta.
  assert (HP : 2 ^ 52 < 2 ^ 1074) by (apply Z.pow_lt_mono_r; lia).
  destruct (Z.eqb_spec e 2047); [destruct (m =? 0); split; discriminate|].
  destruct (Z.eqb_spec e 0) as [->|He0].
  { destruct (Z.eqb_spec m 0) as [->|Hm0].
    - rewrite Z.mul_0_r, SomeFin, SomeZ. generalize dependent (2 ^ 1074). intros P HP. split; intros H; [subst; reflexivity|]. symmetry in H. apply Z.mul_eq_0 in H. lia.
    - split; [discriminate|]. intros H. apply SomeFin in H. exfalso.
      assert (0 < m < 2 ^ 1074) by lia. revert H. generalize dependent (2 ^ 1074). intros P HP H1 H.
      assert (z = 0 \/ 1 <= z \/ z <= -1) as [->|[Hz|Hz]] by lia; destruct (s =? 0); nia. }
  assert (Hd0 : 0 < 2 ^ (e - 1)) by (apply Z.pow_pos_nonneg; lia).
  destruct (Z.leb_spec 1075 e).
  - assert (E : 2 ^ (e - 1) = 2 ^ (e - 1075) * 2 ^ 1074) by (rewrite <- Z.pow_add_r by lia; f_equal; lia).
    rewrite E. assert (0 < 2 ^ 1074) by (apply Z.pow_pos_nonneg; lia).
    generalize dependent (2 ^ 1074). intros P HP _ HP0.
    set (sg := if s =? 0 then 1 else -1).
    replace (sg * ((m + 2 ^ 52) * (2 ^ (e - 1075) * P))) with (sg * ((m + 2 ^ 52) * 2 ^ (e - 1075)) * P) by ring.
    rewrite SomeFin, SomeZ. split; intros H1; [rewrite H1; reflexivity|].
    apply Z.mul_reg_r in H1; [exact H1|lia].
  - assert (E : 2 ^ 1074 = 2 ^ (1075 - e) * 2 ^ (e - 1)) by (rewrite <- Z.pow_add_r by lia; f_equal; lia).
    rewrite E. assert (Hd : 0 < 2 ^ (1075 - e)) by (apply Z.pow_pos_nonneg; lia).
    clear HP E. generalize dependent (2 ^ (1075 - e)). generalize dependent (2 ^ (e - 1)). intros Q HQ d Hd.
    set (mm := m + 2 ^ 52). clearbody mm.
    assert (K : forall sg, sg = 1 \/ sg = -1 -> (sg * (mm * Q) = z * (d * Q) <-> mm = sg * z * d)).
    { intros sg [-> | ->]; split; intros; nia. }
    specialize (K (if s =? 0 then 1 else -1) ltac:(destruct (s =? 0); auto)).
    set (sg := if s =? 0 then 1 else -1) in *.
    assert (Hsg : sg = 1 \/ sg = -1) by (unfold sg; destruct (s =? 0); auto). clearbody sg.
    destruct (Z.eqb_spec (mm mod d) 0) as [E0|E0].
    + rewrite SomeFin, SomeZ. split; intros H1.
      * apply K. subst z.
        assert (mm = d * (mm / d)) by (rewrite (Z.div_mod mm d) at 1 by lia; lia). destruct Hsg as [-> | ->]; nia.
      * apply K in H1. subst mm. rewrite Z.div_mul by lia. destruct Hsg as [-> | ->]; lia.
    + split; [discriminate|]. intros H1. apply SomeFin, K in H1. exfalso. apply E0.
      subst mm. apply Z.mod_mul. lia.
Qed.

Lemma f64_is_nan_number b : f64_is_nan b = true <-> number_of_float b = None.
Proof.
  unfold f64_is_nan, number_of_float. destruct (f64_exp b =? 2047); cbn [andb].
  - destruct (f64_man b =? 0); cbn; split; congruence.
  - destruct (f64_exp b =? 0); split; discriminate.
Qed.

Lemma pow_between e e' x : 1 <= e -> 1 <= e' -> 2 ^ (51 + e) <= x < 2 ^ (52 + e) ->
  2 ^ (51 + e') <= x < 2 ^ (52 + e') -> e = e'.
Proof.
  intros H1 H2 H3 H4.
  assert (2 ^ (51 + e) < 2 ^ (52 + e')) by lia. assert (2 ^ (51 + e') < 2 ^ (52 + e)) by lia.
  apply Z.pow_lt_mono_r_iff in H; [|lia|lia]. apply Z.pow_lt_mono_r_iff in H0; [|lia|lia]. lia.
Qed.

Lemma number_of_float_eq a b n : number_of_float a = Some n -> number_of_float b = Some n ->
  (f64_is_zero a = true /\ f64_is_zero b = true) \/
  (f64_sign a = f64_sign b /\ f64_exp a = f64_exp b /\ f64_man a = f64_man b).
Proof.
  unfold number_of_float, f64_is_zero.
  destruct (f64_bounds a) as (Hs & He & Hm). destruct (f64_bounds b) as (Hs' & He' & Hm').
  set (s := f64_sign a) in *. set (e := f64_exp a) in *. set (m := f64_man a) in *.
  set (s' := f64_sign b) in *. set (e' := f64_exp b) in *. set (m' := f64_man b) in *.
  clearbody s e m s' e' m'. cbn zeta.
  destruct (Z.eqb_spec e 2047) as [->|].
  { destruct (Z.eqb_spec m 0) as [->|]; [|discriminate]. intros H; injection H as <-.
    destruct (Z.eqb_spec e' 2047) as [->|]; [|destruct (e' =? 0); discriminate].
    destruct (Z.eqb_spec m' 0) as [->|]; [|discriminate]. intros H; injection H as H. right.
    destruct Hs as [-> | ->], Hs' as [-> | ->]; cbn in H; auto; discriminate. }
  assert (B : forall x, 1 <= x -> 2 ^ 52 <= 2 ^ (51 + x)) by (intros; apply Z.pow_le_mono_r; lia).
  destruct (Z.eqb_spec e 0) as [->|E0].
  { intros Hn; rewrite <- Hn; clear Hn n. destruct (Z.eqb_spec e' 2047); [destruct (m' =? 0); discriminate|].
    destruct (Z.eqb_spec e' 0) as [->|].
    - intros H. apply SomeFin in H. destruct Hs as [-> | ->], Hs' as [-> | ->]; cbn [Z.eqb] in *; lia.
    - intros H. apply SomeFin in H. exfalso. pose proof (mag_bounds m' e' Hm' ltac:(lia)).
      specialize (B e' ltac:(lia)). generalize dependent ((m' + 2 ^ 52) * 2 ^ (e' - 1)). intros.
      destruct Hs as [-> | ->], Hs' as [-> | ->]; cbn [Z.eqb] in *; lia. }
  intros Hn; rewrite <- Hn; clear Hn n. destruct (Z.eqb_spec e' 2047); [destruct (m' =? 0); discriminate|].
  pose proof (mag_bounds m e Hm ltac:(lia)) as Hb. pose proof (B e ltac:(lia)) as Hb'.
  destruct (Z.eqb_spec e' 0) as [->|].
  - intros H; apply SomeFin in H. exfalso. generalize dependent ((m + 2 ^ 52) * 2 ^ (e - 1)). intros.
    destruct Hs as [-> | ->], Hs' as [-> | ->]; cbn [Z.eqb] in *; lia.
  - intros H; apply SomeFin in H. right. pose proof (mag_bounds m' e' Hm' ltac:(lia)) as Hc.
    assert (s = s' /\ (m' + 2 ^ 52) * 2 ^ (e' - 1) = (m + 2 ^ 52) * 2 ^ (e - 1)) as [-> Hx].
    { pose proof (B e' ltac:(lia)).
      generalize dependent ((m + 2 ^ 52) * 2 ^ (e - 1)). generalize dependent ((m' + 2 ^ 52) * 2 ^ (e' - 1)). intros.
      destruct Hs as [-> | ->], Hs' as [-> | ->]; cbn [Z.eqb] in *; lia. }
    rewrite Hx in Hc. assert (e = e') as -> by (eapply pow_between; try eassumption; lia).
    assert (0 < 2 ^ (e' - 1)) by (apply Z.pow_pos_nonneg; lia). apply Z.mul_reg_r in Hx; [|lia]. lia.
Qed.

Lemma f64_eqb_number a b : f64_eqb a b = true <-> exists n, number_of_float a = Some n /\ number_of_float b = Some n.
Proof.
  unfold f64_eqb. destruct (f64_is_nan a) eqn:Na.
  { cbn [orb]. split; [discriminate|]. intros (n & H & _). apply f64_is_nan_number in Na. congruence. }
  destruct (f64_is_nan b) eqn:Nb.
  { cbn [orb]. split; [discriminate|]. intros (n & _ & H). apply f64_is_nan_number in Nb. congruence. }
  cbn [orb]. split.
  - intros H. apply orb_true_iff in H as [H|H].
    + apply andb_true_iff in H as [H1 H2]. exists (Fin 0). unfold f64_is_zero in *.
      unfold number_of_float. split.
      * apply andb_true_iff in H1 as [H1 H1']. apply Z.eqb_eq in H1, H1'. rewrite H1, H1'. rewrite Z.mul_0_r. reflexivity.
      * apply andb_true_iff in H2 as [H1' H2]. apply Z.eqb_eq in H1', H2. rewrite H1', H2. rewrite Z.mul_0_r. reflexivity.
    + rewrite !andb_true_iff, !Z.eqb_eq in H. destruct H as [[E1 E2] E3].
      destruct (number_of_float a) as [n|] eqn:E; [|apply f64_is_nan_number in E; congruence].
      exists n. split; auto. unfold number_of_float in *. rewrite <- E1, <- E2, <- E3. exact E.
  - intros (n & Ha & Hb). destruct (number_of_float_eq _ _ _ Ha Hb) as [[-> ->]|(-> & -> & ->)]; [reflexivity|].
    rewrite !Z.eqb_refl. apply orb_true_r.
Qed.

(** ** Values *)
Lemma same_value_inv v w : same_value v w <->
  (exists n, number_of v = Some n /\ number_of w = Some n) \/ (num_of v = None /\ num_of w = None /\ v = w).
Proof.
  split.
  - intros H. destruct H; [left; eauto|right; auto..].
  - intros [(n & H1 & H2)|(H1 & H2 & <-)]; [econstructor; eauto|].
    destruct v; try discriminate; constructor.
Qed.
Lemma number_cases x : (exists z, number_of x = Some (Fin (z * 2 ^ 1074)) /\ num_of x = Some (inl z)) \/
                       (exists b, number_of x = number_of_float b /\ num_of x = Some (inr b)) \/
                       (number_of x = None /\ num_of x = None).
Proof. destruct x as [z|b|b|s|s]; cbn [number_of num_of]; eauto 6. Qed.
Lemma scale_inj x y : Some (Fin (x * 2 ^ 1074)) = Some (Fin (y * 2 ^ 1074)) -> x = y.
Proof.
  intros H. apply SomeFin in H. apply Z.mul_reg_r in H; [auto|].
  assert (0 < 2 ^ 1074) by (apply Z.pow_pos_nonneg; lia). lia.
Qed.
Lemma int_float_same z b : (match f64_to_Z b with Some z' => z =? z' | None => false end) = true <->
  exists n, Some (Fin (z * 2 ^ 1074)) = Some n /\ number_of_float b = Some n.
Proof.
  split.
  - destruct (f64_to_Z b) as [z'|] eqn:E; [|discriminate]. intros H. apply Z.eqb_eq in H as ->.
    apply f64_to_Z_number in E. eauto.
  - intros (n & <- & E). apply f64_to_Z_number in E. rewrite E. apply Z.eqb_refl.
Qed.
Lemma value_eqb_same v w : value_eqb v w = true <-> same_value v w.
Proof.
  rewrite same_value_inv. unfold value_eqb.
  destruct (number_cases v) as [(z & Hv & Hv')|[(b & Hv & Hv')|(Hv & Hv')]]; rewrite Hv, Hv';
  destruct (number_cases w) as [(z' & Hw & Hw')|[(b' & Hw & Hw')|(Hw & Hw')]]; rewrite Hw, Hw'; cbn [num_eqb].
  - split.
    + intros H. apply Z.eqb_eq in H as ->. eauto.
    + intros [(n & <- & H)|(H & _)]; [|discriminate]. apply Z.eqb_eq. symmetry. apply scale_inj. exact H.
  - rewrite int_float_same. split; [eauto|]. intros [H|(H & _)]; [exact H|discriminate].
  - split; [discriminate|]. intros [(n & _ & H)|(H & _)]; discriminate.
  - rewrite int_float_same. split.
    + intros (n & H1 & H2). left. eauto.
    + intros [(n & H1 & H2)|(H & _)]; [eauto|discriminate].
  - rewrite f64_eqb_number. split; [eauto|]. intros [H|(H & _)]; [exact H|discriminate].
  - split; [discriminate|]. intros [(n & _ & H)|(H & _)]; discriminate.
  - split; [discriminate|]. intros [(n & H & _)|(_ & H & _)]; discriminate.
  - split; [discriminate|]. intros [(n & H & _)|(_ & H & _)]; discriminate.
  - clear Hv Hw. split.
    + intros H. right. split; [reflexivity|]. split; [reflexivity|].
      destruct v as [?|?|?|x|x]; try discriminate; destruct w as [?|?|?|y|y]; try discriminate;
        (destruct (str_eqb_spec x y) as [->|]; [reflexivity|discriminate]).
    + intros [(n & H & _)|(_ & _ & <-)]; [discriminate|].
      destruct v as [?|?|?|x|x]; try discriminate; (destruct (str_eqb_spec x x); [reflexivity|contradiction]).
Qed.

Lemma same_value_sym v w : same_value v w -> same_value w v.
Proof. intros H. destruct H as [v w n H1 H2| |]; [exact (sv_num _ _ _ H2 H1)|constructor..]. Qed.
Lemma same_value_trans v w x : same_value v w -> same_value w x -> same_value v x.
Proof.
  rewrite !same_value_inv.
  intros [(n & H1 & H2)|(H1 & H2 & ->)] [(m & H3 & H4)|(H3 & H4 & E)]; subst; auto.
  - left. exists n. rewrite H3 in H2. injection H2 as <-. auto.
  - left. eauto.
  - left. eauto.
Qed.
Lemma same_value_refl v : not_nan v -> same_value v v.
Proof.
  intros H. apply same_value_inv. destruct (number_of v) as [n|] eqn:E; [left; eauto|right].
  destruct v as [z|b|b|s|s]; try discriminate; auto.
  cbn [number_of] in E. apply f64_is_nan_number in E. cbn [not_nan] in H. congruence.
Qed.
Lemma same_value_not_nan v : same_value v v -> not_nan v.
Proof.
  rewrite same_value_inv. destruct v as [z|b|b|s|s]; cbn [not_nan]; auto. intros [(n & H & _)|(H & _)]; [|discriminate].
  cbn [number_of] in H. destruct (f64_is_nan b) eqn:E; auto. apply f64_is_nan_number in E. congruence.
Qed.

(** ** Containers *)
Lemma list_eqb_same {A} (eqb : A -> A -> bool) R l m :
  (forall x y, In x l -> eqb x y = true <-> R x y) -> list_eqb eqb l m = true <-> Forall2 R l m.
Proof.
  revert m. induction l as [|x l IH]; intros [|y m] H; cbn [list_eqb].
  - split; auto.
  - split; [discriminate|inversion 1].
  - split; [discriminate|inversion 1].
  - rewrite andb_true_iff, H, IH by (auto using in_eq, in_cons). split.
    + intros []; constructor; auto.
    + inversion 1; auto.
Qed.
Lemma Forall2_eq {A} (l m : list A) : Forall2 eq l m <-> l = m.
Proof.
  split.
  - induction 1; congruence.
  - intros ->. induction m; constructor; auto.
Qed.

Section DictEq.
  Context {K V : Type} (keqb : K -> K -> bool) (veqb : V -> V -> bool) (R : V -> V -> Prop).
  Hypothesis keqb_spec : forall a b, reflect (a = b) (keqb a b).

  Lemma dict_eqb_same (d e : dict K V) :
    (forall k x y, In (k, x) d -> veqb x y = true <-> R x y) -> NoDup (dkeys d) -> NoDup (dkeys e) ->
    dict_eqb keqb veqb d e = true <-> same_dict keqb R d e.
  Proof.
    intros Hv Nd Ne. unfold dict_eqb. rewrite andb_true_iff, Nat.eqb_eq, forallb_forall. split.
    - intros [Hl Hf] k.
      assert (Hin : incl (dkeys d) (dkeys e)).
      { intros x Hx. apply in_map_iff in Hx as ([k1 v] & <- & Hx). specialize (Hf _ Hx). cbn [fst snd] in *.
        destruct (dget keqb k1 e) eqn:E; [|discriminate]. apply (dget_In keqb keqb_spec) in E.
        apply in_map_iff. eexists; split; [|exact E]. reflexivity. }
      assert (Hin' : incl (dkeys e) (dkeys d)).
      { apply NoDup_length_incl; auto. unfold dkeys. rewrite !map_length. lia. }
      destruct (dget keqb k d) as [v|] eqn:Ed.
      + apply (dget_In keqb keqb_spec) in Ed. specialize (Hf _ Ed). cbn [fst snd] in Hf.
        destruct (dget keqb k e) as [w|]; [|discriminate]. cbn. apply (Hv _ _ _ Ed). exact Hf.
      + destruct (dget keqb k e) as [w|] eqn:Ee; cbn; auto.
        apply (dget_None keqb keqb_spec) in Ed. apply Ed. apply Hin'.
        apply (dget_In keqb keqb_spec) in Ee. apply in_map_iff. eexists; split; [|exact Ee]. reflexivity.
    - intros H.
      assert (Hk : forall k, In k (dkeys d) <-> In k (dkeys e)).
      { intros k. specialize (H k). split; intros Hk.
        - destruct (dget keqb k e) as [w|] eqn:Ee.
          + apply (dget_In keqb keqb_spec) in Ee. apply in_map_iff. eexists; split; [|exact Ee]. reflexivity.
          + destruct (dget_Some_key keqb keqb_spec _ _ Hk) as (v & E). rewrite E in H. contradiction.
        - destruct (dget keqb k d) as [w|] eqn:Ee.
          + apply (dget_In keqb keqb_spec) in Ee. apply in_map_iff. eexists; split; [|exact Ee]. reflexivity.
          + destruct (dget_Some_key keqb keqb_spec _ _ Hk) as (v & E). rewrite E in H. contradiction. }
      split.
      + assert (P : Permutation (dkeys d) (dkeys e)) by (apply NoDup_Permutation; auto).
        apply Permutation_length in P. unfold dkeys in P. rewrite !map_length in P. exact P.
      + intros [k v] Hkv. cbn [fst snd]. specialize (H k). rewrite (In_dget keqb keqb_spec _ _ _ Nd Hkv) in H.
        destruct (dget keqb k e) as [w|]; [|contradiction]. apply (Hv _ _ _ Hkv). exact H.
  Qed.
  Lemma same_dict_sym (d e : dict K V) : (forall x y, R x y -> R y x) -> same_dict keqb R d e -> same_dict keqb R e d.
  Proof. intros HR H k. specialize (H k). destruct (dget keqb k d), (dget keqb k e); cbn in *; auto. Qed.
  Lemma same_dict_trans (d e f : dict K V) : (forall x y z, R x y -> R y z -> R x z) ->
    same_dict keqb R d e -> same_dict keqb R e f -> same_dict keqb R d f.
  Proof.
    intros HR H1 H2 k. specialize (H1 k). specialize (H2 k).
    destruct (dget keqb k d), (dget keqb k e), (dget keqb k f); cbn in *; eauto; contradiction.
  Qed.
  Lemma same_dict_refl (d : dict K V) : Forall (fun kv => R (snd kv) (snd kv)) d -> same_dict keqb R d d.
  Proof.
    intros H k. destruct (dget keqb k d) eqn:E; cbn; auto. apply (dget_In keqb keqb_spec) in E.
    rewrite Forall_forall in H. exact (H _ E).
  Qed.
End DictEq.

Lemma zset_eqb_same a b : NoDup a -> NoDup b -> zset_eqb a b = true <-> same_set a b.
Proof.
  intros Na Nb. unfold zset_eqb. rewrite andb_true_iff, Nat.eqb_eq, forallb_forall. split.
  - intros [Hl H].
    assert (I : incl a b).
    { intros x Hx. specialize (H _ Hx). apply existsb_exists in H as (y & Hy & E). apply Z.eqb_eq in E as ->. exact Hy. }
    assert (I' : incl b a) by (apply NoDup_length_incl; auto; lia). intros x. split; auto.
  - intros H. split.
    + apply Permutation_length. apply NoDup_Permutation; auto.
    + intros x Hx. apply existsb_exists. exists x. split; [apply H; auto|apply Z.eqb_refl].
Qed.
Lemma keys_eqb_same a b : NoDup a -> NoDup b -> keys_eqb a b = true <-> (forall k, In k a <-> In k b).
Proof.
  intros Na Nb. unfold keys_eqb. rewrite andb_true_iff, Nat.eqb_eq, forallb_forall. split.
  - intros [Hl H].
    assert (I : incl a b).
    { intros x Hx. specialize (H _ Hx). apply existsb_exists in H as (y & Hy & E). destruct (str_eqb_spec x y) as [->|]; [exact Hy|discriminate]. }
    assert (I' : incl b a) by (apply NoDup_length_incl; auto; lia). intros x. split; auto.
  - intros H. split.
    + apply Permutation_length. apply NoDup_Permutation; auto.
    + intros x Hx. apply existsb_exists. exists x. split; [apply H; auto|]. destruct (str_eqb_spec x x); auto.
Qed.

(** ** Every dictionary of a loaded log has distinct keys *)
Record wf_log (u : ulog) : Prop := {
  wf_info : NoDup (dkeys (u_info u));
  wf_infot : NoDup (dkeys (u_infot u));
  wf_multi : NoDup (dkeys (u_multi u));
  wf_multit : NoDup (dkeys (u_multit u));
  wf_params : NoDup (dkeys (u_params u));
  wf_defaults : NoDup (dkeys (u_defaults u));
  wf_defaults' : Forall (fun kv => NoDup (dkeys (snd kv))) (u_defaults u);
  wf_formats : NoDup (dkeys (u_formats u));
  wf_tagged : NoDup (dkeys (u_tagged u));
  wf_filtered : NoDup (u_filtered u);
  wf_missing : NoDup (u_missing u);
  wf_subs : Forall (fun kv => NoDup (map fst (sb_dtype (snd kv)))) (u_subs u);
  wf_data : Forall (fun d => NoDup (dkeys (ds_data d))) (u_data u) }.

Lemma NoDup_snoc {A} (l : list A) x : NoDup l -> ~ In x l -> NoDup (l ++ [x]).
Proof.
  intros H Hx. apply (NoDup_Add (a := x) (l := l)); [|auto].
  pose proof (Add_app x l []) as HA. rewrite app_nil_r in HA. exact HA.
Qed.
Lemma NoDup_set_add x l : NoDup l -> NoDup (set_add x l).
Proof.
  intros H. unfold set_add. destruct (existsb (Z.eqb x) l) eqn:E; [exact H|]. apply NoDup_snoc; auto.
  intros Hi. apply not_true_iff_false in E. apply E. apply existsb_exists. exists x. split; auto. apply Z.eqb_refl.
Qed.
Lemma sset_NoDup {V} k (v : V) d : NoDup (dkeys d) -> NoDup (dkeys (sset k v d)).
Proof. apply (NoDup_dset str_eqb str_eqb_spec). Qed.
Lemma zset_NoDup {V} k (v : V) d : NoDup (dkeys d) -> NoDup (dkeys (zset k v d)).
Proof. apply (NoDup_dset Z.eqb Zeqb_spec). Qed.
Lemma Forall_dset {K V} (eqb : K -> K -> bool) (P : K * V -> Prop) k v (d : dict K V) :
  (forall k', P (k', v)) -> Forall P d -> Forall P (dset eqb k v d).
Proof.
  intros Hv H. induction H as [|[k' v'] d Hp H IH]; cbn [dset]; [constructor; auto|].
  destruct (eqb k k'); constructor; auto.
Qed.
Lemma np_dtype_aux_NoDup l : forall i seen dt, np_dtype_aux i seen l = Ok dt ->
  NoDup (map fst dt) /\ (forall x, In x seen -> ~ In x (map fst dt)).
Proof.
  induction l as [|fd l IH]; intros i seen dt H; cbn in H.
  - injection H as <-. split; [constructor|auto].
  - match type of H with (if existsb (str_eqb ?x) _ then _ else _) = _ => set (n := x) in * end.
    destruct (existsb (str_eqb n) seen) eqn:E; [discriminate|].
    apply bind_Ok_inv in H as (t & Ht & H). injection H as <-.
    destruct (IH _ _ _ Ht) as [I1 I2]. cbn [map fst]. split.
    + constructor; [|exact I1]. apply I2. left. reflexivity.
    + intros x Hx [Hn|Hn].
      * subst x. apply not_true_iff_false in E. apply E. apply existsb_exists. exists n. split; auto.
        destruct (str_eqb_spec n n); auto.
      * exact (I2 x (or_intror Hx) Hn).
Qed.
Lemma parse_add_NoDup cf fmts p s : parse_add cf fmts p = Ok s -> NoDup (map fst (sb_dtype s)).
Proof.
  unfold parse_add. intros H. repeat (apply bind_Ok_inv in H as (? & ? & H)). injection H as <-. cbn [sb_dtype].
  match goal with H : np_dtype _ = Ok _ |- _ => exact (proj1 (np_dtype_aux_NoDup _ _ _ _ H)) end.
Qed.
Lemma columns_keys off dt rs : map fst (columns off dt rs) = map fst dt.
Proof. revert off. induction dt as [|[n t] dt IH]; intros off; cbn; [reflexivity|]. f_equal. apply IH. Qed.
Lemma dataset_of_keys s d : dataset_of s = Ok d -> dkeys (ds_data d) = map fst (sb_dtype s).
Proof.
  unfold dataset_of. intros H. match type of H with (if ?b then _ else _) = _ => destruct b; [discriminate|] end.
  injection H as <-. cbn [ds_data]. apply columns_keys.
Qed.
Lemma mapM_In {A B} (f : A -> res B) l m : mapM f l = Ok m -> forall y, In y m -> exists x, In x l /\ f x = Ok y.
Proof.
  revert m. induction l as [|x l IH]; intros m H y Hy; cbn in H; [injection H as <-; contradiction|].
  apply bind_Ok_inv in H as (b & Hb & H). apply bind_Ok_inv in H as (bs & Hbs & H). injection H as <-.
  destruct Hy as [<-|Hy]; [exists x; cbn; auto|]. destruct (IH _ Hbs _ Hy) as (x' & H1 & H2). exists x'. cbn; auto.
Qed.
Lemma add_bits_wf fuel : forall bits key v d, NoDup (dkeys d) -> Forall (fun kv => NoDup (dkeys (snd kv))) d ->
  NoDup (dkeys (add_default_bits fuel bits key v d)) /\
  Forall (fun kv => NoDup (dkeys (snd kv))) (add_default_bits fuel bits key v d).
Proof.
  induction fuel as [|n IH]; intros bits key v d H1 H2; cbn [add_default_bits]; [auto|].
  destruct (bits =? 0); [auto|]. cbv zeta. apply IH.
  - unfold set_default. cbv zeta. set (t := Z.land _ _ - 1). set (d' := if zmem t d then d else zset t [] d).
    assert (Hd : NoDup (dkeys d')) by (unfold d'; destruct (zmem t d); auto; apply zset_NoDup; auto).
    destruct (zget t d'); auto. apply zset_NoDup. exact Hd.
  - unfold set_default. cbv zeta. set (t := Z.land _ _ - 1). set (d' := if zmem t d then d else zset t [] d).
    assert (Hd : Forall (fun kv => NoDup (dkeys (snd kv))) d').
    { unfold d'. destruct (zmem t d); auto. apply Forall_dset; auto. intros; cbn; constructor. }
    destruct (zget t d') as [m|] eqn:E; auto. apply Forall_dset; auto. intros k0. cbn [snd]. apply sset_NoDup.
    apply (dget_In Z.eqb Zeqb_spec) in E. rewrite Forall_forall in Hd. exact (Hd _ E).
Qed.

Ltac usimp := cbn [u_corrupt u_start u_last u_info u_infot u_multi u_multit u_params u_defaults u_changed u_formats u_logged u_tagged u_dropouts u_data u_subs u_filtered u_missing u_version u_compat u_incompat u_offsets u_has_sync u_sync_cnt set_corrupt set_start set_last set_info set_infot set_multi set_multit set_params set_defaults set_changed set_formats set_logged set_tagged set_dropouts set_data set_subs set_filtered set_missing set_version set_compat set_incompat set_offsets set_has_sync set_sync_cnt add_info add_param_default].

Lemma wf_log_preserved cf : preserved cf wf_log.
Proof.
  intros u u' H []. destruct H; try (constructor; usimp; auto using sset_NoDup, NoDup_set_add; fail).
  - unfold add_info_multi in H. destruct (sget _ _).
    + destruct (negb _).
      * apply bind_Ok_inv in H as (l' & _ & H). injection H as <-. constructor; usimp; auto using sset_NoDup.
      * injection H as <-. constructor; usimp; auto using sset_NoDup.
    + injection H as <-. constructor; usimp; auto using sset_NoDup.
  - destruct (add_bits_wf 9 b (im_key m) (im_value m) _ wf_defaults0 wf_defaults'0) as [A B].
    unfold add_param_default. constructor; usimp; auto.
  - constructor; usimp; auto. apply Forall_dset; auto. intros k0. eapply parse_add_NoDup; eauto.
  - constructor; usimp; auto. destruct (zget _ _); apply zset_NoDup; auto.
  - constructor; usimp; auto. apply Forall_dset; auto. intros k0. cbn.
    apply (dget_In Z.eqb Zeqb_spec) in H. rewrite Forall_forall in wf_subs0. exact (wf_subs0 _ H).
  - apply finalize_inv in H as (ds & Hm & ->). constructor; usimp; auto.
    rewrite Forall_forall. intros d Hd. apply (Permutation_in _ (Permutation_sym (ssort_perm _ _))) in Hd.
    apply in_app_or in Hd as [Hd|Hd]; [rewrite Forall_forall in wf_data0; auto|].
    destruct (mapM_In _ _ _ Hm _ Hd) as (s & Hs & E). apply dataset_of_keys in E. rewrite E.
    apply filter_In in Hs as [Hs _]. apply in_rev in Hs. apply in_map_iff in Hs as (kv & <- & Hs).
    rewrite Forall_forall in wf_subs0. exact (wf_subs0 _ Hs).
Qed.
Lemma loaded_wf cf f u : produces cf f (Ok u) -> wf_log u.
Proof.
  intros H. destruct (load_readings cf f u H) as (v & t & _ & Hr).
  apply readings_changes in Hr. apply (preserved_changes cf _ (wf_log_preserved cf)) in Hr; [exact Hr|].
  constructor; cbn; constructor.
Qed.
Lemma finalize_subs u u' : finalize u = Ok u' -> u_subs u' = [].
Proof. intros H. apply finalize_inv in H as (ds & _ & ->). reflexivity. Qed.
Lemma loaded_subs cf f u : bytes_ok f -> produces cf f (Ok u) -> u_subs u = [].
Proof.
  intros Hb [n H]. unfold load, load_at in H. destruct (read_header f 0) as [[v t]|] eqn:Eh; [|discriminate].
  cbv zeta in H. fold (after_header v t) in H.
  destruct (def_loop n cf f (0 + 16) (after_header v t)) as [[[p u2]|]|] eqn:E; try discriminate.
  destruct (def_loop_events cf f n Hb (0 + 16) _ _ _ ltac:(lia) E) as (evs & Hd & _).
  assert (Hs : u_subs u2 = []).
  { pose proof (def_const def_rest cf (fun e a b => def_rest_same cf e a b) _ _ _ Hd) as R.
    unfold def_rest in R. cbn in R. congruence. }
  destruct (cf_hdr cf); [injection H as <-; exact Hs|].
  revert H. match goal with |- read_sections _ _ _ ?l _ _ = _ -> _ => generalize l end. intros offs.
  assert (R : forall b p u w, read_data n cf b f p u = Some (Ok w) -> u_subs w = []).
  { intros b q x w Hr. unfold read_data in Hr. destruct (data_loop _ _ _ _ _ _ _) as [[x'|]|]; try discriminate.
    injection Hr as Hr. eapply finalize_subs; eauto. }
  clear E Hd Hs. revert p u2. induction offs as [|o offs IH]; intros p u2 H; cbn [read_sections] in H.
  - eapply R; eauto.
  - destruct (read_data n cf o f p u2) as [[u3|]|] eqn:E; try discriminate.
    destruct (seek_abs (cf_kind cf) o); [|discriminate]. eapply IH; eauto.
Qed.

(** ** [ulog_eqb] decides [same_log] *)
Lemma str_eqb_eq a b : str_eqb a b = true <-> a = b.
Proof. destruct (str_eqb_spec a b); split; auto; discriminate. Qed.
Lemma ctype_eqb_eq a b : ctype_eqb a b = true <-> a = b.
Proof. destruct a, b; split; intros H; try reflexivity; discriminate. Qed.
Lemma nptype_eqb_eq a b : nptype_eqb a b = true <-> a = b.
Proof.
  destruct a as [n s|n], b as [m r|m]; cbn; try (split; discriminate).
  - rewrite andb_true_iff, Nat.eqb_eq, eqb_true_iff. split; [intros [-> ->]; reflexivity|intros H; injection H; auto].
  - rewrite Nat.eqb_eq. split; [intros ->; reflexivity|intros H; injection H; auto].
Qed.
Lemma field_eqb_eq a b : field_eqb a b = true <-> a = b.
Proof.
  unfold field_eqb. rewrite andb_true_iff, str_eqb_eq, ctype_eqb_eq. destruct a, b; cbn.
  split; [intros [-> ->]; reflexivity|intros H; injection H; auto].
Qed.
Lemma list_eqb_eq {A} (eqb : A -> A -> bool) l m : (forall x y, eqb x y = true <-> x = y) ->
  list_eqb eqb l m = true <-> l = m.
Proof. intros H. rewrite (list_eqb_same eqb eq) by (intros; apply H). apply Forall2_eq. Qed.
Lemma format_eqb_eq a b : format_eqb a b = true <-> a = b.
Proof.
  unfold format_eqb. rewrite andb_true_iff, str_eqb_eq, list_eqb_eq.
  - destruct a, b; cbn. split; [intros [-> ->]; reflexivity|intros H; injection H; auto].
  - intros [[x1 x2] x3] [[y1 y2] y3]. cbn. rewrite !andb_true_iff, !str_eqb_eq, Z.eqb_eq.
    split; [intros [[-> ->] ->]; reflexivity|intros H; injection H; auto].
Qed.
Lemma log_eqb_eq a b : log_eqb a b = true <-> a = b.
Proof.
  unfold log_eqb. rewrite !andb_true_iff, !Z.eqb_eq, str_eqb_eq. destruct a, b; cbn.
  split; [intros [[-> ->] ->]; reflexivity|intros H; injection H; auto].
Qed.
Lemma tag_eqb_eq a b : tag_eqb a b = true <-> a = b.
Proof.
  unfold tag_eqb. rewrite !andb_true_iff, !Z.eqb_eq, str_eqb_eq. destruct a, b; cbn.
  split; [intros [[[-> ->] ->] ->]; reflexivity|intros H; injection H; auto].
Qed.
Lemma drop_eqb_eq a b : drop_eqb a b = true <-> a = b.
Proof.
  unfold drop_eqb. rewrite !andb_true_iff, !Z.eqb_eq. destruct a, b; cbn.
  split; [intros [-> ->]; reflexivity|intros H; injection H; auto].
Qed.
Lemma elem_same t x y :
  np_eqb t x y || (np_isnan t x && np_isnan t y) = true <-> same_elem t x y.
Proof.
  unfold np_eqb, np_isnan, same_elem.
  assert (G : forall a b, f64_eqb a b || (f64_is_nan a && f64_is_nan b) = true <-> number_of_float a = number_of_float b).
  { intros a b. rewrite orb_true_iff, andb_true_iff, f64_eqb_number, !f64_is_nan_number. split.
    - intros [(n & H1 & H2)|[H1 H2]]; congruence.
    - intros H. destruct (number_of_float a) as [n|]; [left; eauto|right; auto]. }
  destruct t as [n sg|n].
  - cbn. rewrite orb_false_r. apply Z.eqb_eq.
  - do 5 (destruct n as [|n]; [apply G|]). apply G.
Qed.
Lemma column_same a b : array_equal a b = true <-> same_column a b.
Proof.
  unfold array_equal. rewrite andb_true_iff, nptype_eqb_eq, (list_eqb_same _ (same_elem (c_type a))) by (intros; apply elem_same).
  split; [intros []; constructor; auto|intros []; auto].
Qed.
Lemma dataset_same a b : NoDup (dkeys (ds_data a)) -> NoDup (dkeys (ds_data b)) ->
  data_eqb a b = true <-> same_dataset a b.
Proof.
  intros Na Nb. unfold data_eqb.
  rewrite !andb_true_iff, !Z.eqb_eq, str_eqb_eq, (list_eqb_eq field_eqb) by apply field_eqb_eq.
  rewrite (keys_eqb_same _ _ Na Nb), (list_eqb_same _ same_column) by (intros; apply column_same).
  split; [intros [[[[[? ?] ?] ?] ?] [? ?]]; constructor; auto|intros []; auto 10].
Qed.
Lemma datasets_same l m : Forall (fun d => NoDup (dkeys (ds_data d))) l -> Forall (fun d => NoDup (dkeys (ds_data d))) m ->
  list_eqb data_eqb l m = true <-> Forall2 same_dataset l m.
Proof.
  intros H. revert m. induction H as [|x l Hx Hl IH]; intros m Hm.
  - destruct m; cbn; split; auto; try discriminate. inversion 1.
  - destruct Hm as [|y m Hy Hm]; cbn; [split; [discriminate|inversion 1]|].
    rewrite andb_true_iff, dataset_same, IH by auto. split; [intros []; constructor; auto|inversion 1; auto].
Qed.
Lemma defaults_same (d e : dict Z (dict str value)) :
  NoDup (dkeys d) -> NoDup (dkeys e) ->
  Forall (fun kv => NoDup (dkeys (snd kv))) d -> Forall (fun kv => NoDup (dkeys (snd kv))) e ->
  dict_eqb Z.eqb (dict_eqb str_eqb value_eqb) d e = true <-> same_dict Z.eqb (same_dict str_eqb same_value) d e.
Proof.
  intros Nd Ne Fd Fe.
  (* values outside the two dictionaries do not matter: restrict the comparison *)
  set (ok := fun x : dict str value => NoDup (dkeys x)).
  assert (Hd : forall k v, zget k d = Some v -> ok v).
  { intros k v E. apply (dget_In Z.eqb Zeqb_spec) in E. rewrite Forall_forall in Fd. exact (Fd _ E). }
  assert (He : forall k v, zget k e = Some v -> ok v).
  { intros k v E. apply (dget_In Z.eqb Zeqb_spec) in E. rewrite Forall_forall in Fe. exact (Fe _ E). }
  assert (V : forall x y, ok x -> ok y -> dict_eqb str_eqb value_eqb x y = true <-> same_dict str_eqb same_value x y).
  { intros x y Hx Hy. apply (dict_eqb_same str_eqb value_eqb same_value); auto using str_eqb_spec. intros; apply value_eqb_same. }
  etransitivity.
  { apply (dict_eqb_same Z.eqb _ (fun x y => dict_eqb str_eqb value_eqb x y = true)); auto using Zeqb_spec. tauto. }
  split; intros H k; specialize (H k); specialize (Hd k); specialize (He k); unfold same_opt in *;
    change (list Z) with str in *;
    destruct (zget k d) as [x|], (zget k e) as [y|]; auto; apply V; auto.
Qed.

Lemma ulog_eqb_same a b : wf_log a -> wf_log b -> u_subs a = [] -> u_subs b = [] ->
  ulog_eqb a b = true <-> same_log a b.
Proof.
  intros [] [] Sa Sb. unfold ulog_eqb. rewrite Sa, Sb. rewrite !andb_true_iff.
  rewrite !eqb_true_iff, !Z.eqb_eq, !str_eqb_eq.
  rewrite !(dict_eqb_same str_eqb value_eqb same_value) by (auto using str_eqb_spec; intros; apply value_eqb_same).
  rewrite !(dict_eqb_same str_eqb str_eqb eq) by (auto using str_eqb_spec; intros; apply str_eqb_eq).
  rewrite (dict_eqb_same str_eqb (list_eqb (list_eqb value_eqb)) (Forall2 (Forall2 same_value)))
    by (auto using str_eqb_spec; intros; apply list_eqb_same; intros; apply list_eqb_same; intros; apply value_eqb_same).
  rewrite (defaults_same _ _) by auto.
  rewrite (list_eqb_same _ (fun x y : Z * str * value => fst x = fst y /\ same_value (snd x) (snd y))).
  2: { intros [[x1 x2] x3] [[y1 y2] y3] _. cbn. rewrite !andb_true_iff, Z.eqb_eq, str_eqb_eq, value_eqb_same.
       split; [intros [[-> ->] ?]; auto|intros [E ?]; injection E as -> ->; auto]. }
  rewrite (dict_eqb_same str_eqb format_eqb eq) by (auto using str_eqb_spec; intros; apply format_eqb_eq).
  rewrite (list_eqb_eq log_eqb) by apply log_eqb_eq.
  rewrite (dict_eqb_same Z.eqb (list_eqb tag_eqb) eq) by (auto using Zeqb_spec; intros; apply list_eqb_eq, tag_eqb_eq).
  rewrite (list_eqb_eq drop_eqb) by apply drop_eqb_eq.
  rewrite datasets_same by auto. rewrite !zset_eqb_same by auto.
  split.
  - intros H. repeat match goal with H : _ /\ _ |- _ => destruct H end. constructor; assumption.
  - intros []. repeat match goal with |- _ /\ _ => split end; assumption || reflexivity.
Qed.

(** ** [same_log] is symmetric, transitive and, without NaN values, reflexive *)
Lemma Forall2_sym {A} (R : A -> A -> Prop) l m : (forall x y, R x y -> R y x) -> Forall2 R l m -> Forall2 R m l.
Proof. intros H. induction 1; constructor; auto. Qed.
Lemma Forall2_trans {A} (R : A -> A -> Prop) l m n : (forall x y z, R x y -> R y z -> R x z) ->
  Forall2 R l m -> Forall2 R m n -> Forall2 R l n.
Proof. intros H H1. revert n. induction H1; intros n H2; inversion H2; subst; constructor; eauto. Qed.
Lemma Forall2_refl {A} (R : A -> A -> Prop) l : Forall (fun x => R x x) l -> Forall2 R l l.
Proof. induction 1; constructor; auto. Qed.
Lemma same_elem_sym t x y : same_elem t x y -> same_elem t y x.
Proof. unfold same_elem. destruct (np_elem t x), (np_elem t y); auto. Qed.
Lemma same_elem_trans t x y z : same_elem t x y -> same_elem t y z -> same_elem t x z.
Proof.
  unfold same_elem. destruct t as [n sg|n]; cbn; [congruence|].
  do 5 (destruct n as [|n]; [congruence|]). congruence.
Qed.
Lemma same_elem_refl t x : same_elem t x x.
Proof. unfold same_elem. destruct (np_elem t x); auto. Qed.
Lemma same_column_sym a b : same_column a b -> same_column b a.
Proof.
  intros [E H]. constructor; auto. rewrite <- E. eapply Forall2_sym; [|exact H]. apply same_elem_sym.
Qed.
Lemma same_column_trans a b c : same_column a b -> same_column b c -> same_column a c.
Proof.
  intros [E H] [E' H']. constructor; [congruence|]. rewrite <- E in H'.
  eapply Forall2_trans; [|exact H|exact H']. apply same_elem_trans.
Qed.
Lemma same_column_refl a : same_column a a.
Proof. constructor; auto. apply Forall2_refl, Forall_forall. intros; apply same_elem_refl. Qed.
Lemma same_dataset_sym a b : same_dataset a b -> same_dataset b a.
Proof.
  intros []. constructor; auto; [intros k; symmetry; auto|]. eapply Forall2_sym; eauto using same_column_sym.
Qed.
Lemma same_dataset_trans a b c : same_dataset a b -> same_dataset b c -> same_dataset a c.
Proof.
  intros [] []. constructor; try congruence; [intros k; etransitivity; eauto|].
  eapply Forall2_trans; eauto using same_column_trans.
Qed.
Lemma same_dataset_refl a : same_dataset a a.
Proof. constructor; auto; [tauto|]. apply Forall2_refl, Forall_forall. intros; apply same_column_refl. Qed.

Lemma same_log_sym a b : same_log a b -> same_log b a.
Proof.
  intros []. constructor; auto.
  all: try (eapply same_dict_sym; [|eassumption]; auto using same_value_sym; fail).
  - eapply same_dict_sym; [|eassumption]. intros x y Hx. eapply Forall2_sym; [|exact Hx].
    intros x' y' Hx'. eapply Forall2_sym; [|exact Hx']. apply same_value_sym.
  - eapply same_dict_sym; [|eassumption]. intros x y. apply same_dict_sym. apply same_value_sym.
  - eapply Forall2_sym; [|eassumption]. intros x y []; auto using same_value_sym.
  - eapply Forall2_sym; [|eassumption]. apply same_dataset_sym.
  - intros x. symmetry. auto.
  - intros x. symmetry. auto.
Qed.
Lemma same_log_trans a b c : same_log a b -> same_log b c -> same_log a c.
Proof.
  intros [] []. constructor; try congruence.
  all: try (eapply same_dict_trans; [|eassumption|eassumption]; eauto using same_value_trans; intros; congruence).
  - eapply same_dict_trans; [|eassumption|eassumption]. intros x y z H1 H2. eapply Forall2_trans; [|exact H1|exact H2].
    intros x' y' z' H1' H2'. eapply Forall2_trans; [|exact H1'|exact H2']. apply same_value_trans.
  - eapply same_dict_trans; [|eassumption|eassumption]. intros x y z. apply same_dict_trans. apply same_value_trans.
  - eapply Forall2_trans; [|eassumption|eassumption]. intros x y z [] []. split; [congruence|]. eapply same_value_trans; eauto.
  - eapply Forall2_trans; [|eassumption|eassumption]. apply same_dataset_trans.
  - intros x. etransitivity; eauto.
  - intros x. etransitivity; eauto.
Qed.
Lemma same_log_refl u : no_nan u -> same_log u u.
Proof.
  intros [].
  constructor; auto; try (apply Forall2_refl, Forall_forall; intros; apply same_dataset_refl);
    try (intros x; tauto);
    try (apply (same_dict_refl str_eqb eq str_eqb_spec), Forall_forall; auto; fail);
    try (apply (same_dict_refl Z.eqb eq Zeqb_spec), Forall_forall; auto; fail).
  - apply (same_dict_refl str_eqb _ str_eqb_spec). eapply Forall_impl; [|exact nn_info]. intros; now apply same_value_refl.
  - apply (same_dict_refl str_eqb _ str_eqb_spec). eapply Forall_impl; [|exact nn_multi]. cbn. intros [k l] Hl. cbn in *.
    apply Forall2_refl. eapply Forall_impl; [|exact Hl]. cbn. intros g Hg. apply Forall2_refl.
    eapply Forall_impl; [|exact Hg]. intros; now apply same_value_refl.
  - apply (same_dict_refl str_eqb _ str_eqb_spec). eapply Forall_impl; [|exact nn_params]. intros; now apply same_value_refl.
  - apply (same_dict_refl Z.eqb _ Zeqb_spec). eapply Forall_impl; [|exact nn_defaults]. cbn. intros [k l] Hl. cbn in *.
    apply (same_dict_refl str_eqb _ str_eqb_spec). eapply Forall_impl; [|exact Hl]. intros; now apply same_value_refl.
  - apply Forall2_refl. eapply Forall_impl; [|exact nn_changed]. intros; split; auto. now apply same_value_refl.
Qed.
