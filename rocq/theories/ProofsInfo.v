From Verif Require Import Base Dict PyStr PyFloat Struct PySort ModelTypes ModelRead ModelApi ModelTools ModelInfo.
From Verif Require Import Spec SpecSection SpecLog SpecTools SpecInfo ProofsListing ProofsWindow ProofsLoad ProofsFields ProofsWhole ProofsProps.
From Coq Require Import Permutation Sorted.

(** ** rounding *)
Lemma round_div_near n d : 0 < d -> Z.abs (2 * d * round_div n d - 2 * n) <= d.
Proof.
  intros Hd. unfold round_div. cbv zeta. pose proof (Z.div_mod n d ltac:(lia)) as M.
  pose proof (Z.mod_pos_bound n d Hd) as B. set (q := n / d) in *. set (r := n mod d) in *. clearbody q r. subst n.
  destruct (Z.ltb_spec (2 * r) d); [nia|]. destruct (Z.ltb_spec d (2 * r)); [nia|]. destruct (Z.even q); nia.
Qed.
Lemma round_div_lower n d k : 0 < d -> k * d <= n -> k <= round_div n d.
Proof.
  intros Hd H. assert (k <= n / d) by (apply Z.div_le_lower_bound; lia).
  unfold round_div. cbv zeta. destruct (Z.ltb (2 * (n mod d)) d); [lia|]. destruct (d <? 2 * (n mod d)); [lia|].
  destruct (Z.even (n / d)); lia.
Qed.

Lemma pow2_pred x : 1 <= x -> 2 ^ x = 2 ^ (x - 1) * 2.
Proof. intros H. change 2 with (2 ^ 1) at 3. rewrite <- Z.pow_add_r by lia. f_equal. lia. Qed.
Lemma quot_exp_spec n d : 0 < n -> 0 < d ->
  let e := quot_exp n d in
  (0 <= e -> d * 2 ^ e <= n < d * 2 ^ (e + 1)) /\ (e < 0 -> d <= n * 2 ^ (- e) /\ n * 2 ^ (- e) < 2 * d).
Proof.
  intros Hn Hd. cbv zeta. unfold quot_exp. cbv zeta.
  pose proof (Z.log2_spec n Hn) as [N1 N2]. pose proof (Z.log2_spec d Hd) as [D1 D2].
  pose proof (Z.log2_nonneg n) as Ln. pose proof (Z.log2_nonneg d) as Ld.
  set (a := Z.log2 n) in *. set (b := Z.log2 d) in *. clearbody a b.
  rewrite Z.pow_succ_r in N2, D2 by lia.
  destruct (Z.leb_spec 0 (a - b)) as [E|E].
  - assert (Pa : 2 ^ a = 2 ^ b * 2 ^ (a - b)) by (rewrite <- Z.pow_add_r by lia; f_equal; lia).
    assert (0 < 2 ^ b) by (apply Z.pow_pos_nonneg; lia). assert (0 < 2 ^ (a - b)) by (apply Z.pow_pos_nonneg; lia).
    destruct (Z.leb_spec (d * 2 ^ (a - b)) n) as [F|F].
    + split; [|lia]. intros _. rewrite Z.pow_add_r by lia. change (2 ^ 1) with 2. nia.
    + split; intros G.
      * replace (a - b - 1 + 1) with (a - b) by lia. split; [|lia].
        assert (2 ^ (a - b) = 2 ^ (a - b - 1) * 2) by (apply pow2_pred; lia). nia.
      * assert (a = b) by lia. subst b. replace (a - a) with 0 in * by lia. change (2 ^ 0) with 1 in *.
        change (- (0 - 1)) with 1. change (2 ^ 1) with 2. lia.
  - assert (Pb : 2 ^ b = 2 ^ a * 2 ^ (- (a - b))) by (rewrite <- Z.pow_add_r by lia; f_equal; lia).
    assert (0 < 2 ^ a) by (apply Z.pow_pos_nonneg; lia). assert (0 < 2 ^ (- (a - b))) by (apply Z.pow_pos_nonneg; lia).
    destruct (Z.leb_spec d (n * 2 ^ (- (a - b)))) as [F|F].
    + split; [lia|]. intros _. split; [lia|]. nia.
    + split; [lia|]. intros _.
      assert (Q : 2 ^ (- (a - b - 1)) = 2 ^ (- (a - b)) * 2) by (replace (- (a - b)) with (- (a - b - 1) - 1) by lia; apply pow2_pred; lia).
      rewrite Q. nia.
Qed.

(** the shift of a quotient below 2^53 *)
Lemma quot_shift n d : 0 < n < 2 ^ 53 -> 0 < d ->
  let s := 52 - quot_exp n d in 0 <= s /\ d < 2 * 2 ^ s.
Proof.
  intros Hn Hd. cbv zeta. pose proof (quot_exp_spec n d ltac:(lia) Hd) as [A B]. set (e := quot_exp n d) in *. clearbody e.
  destruct (Z_lt_ge_dec e 0) as [E|E].
  - specialize (B E) as [B1 B2]. split; [lia|].
    assert (2 * 2 ^ (52 - e) = 2 ^ 53 * 2 ^ (- e)) by (rewrite <- Z.pow_add_r by lia; rewrite Z.mul_comm; symmetry; replace (52 - e) with (53 + - e - 1) by lia; apply pow2_pred; lia).
    assert (0 < 2 ^ (- e)) by (apply Z.pow_pos_nonneg; lia). nia.
  - specialize (A ltac:(lia)) as [A1 A2].
    assert (e < 53). { destruct (Z_lt_ge_dec e 53); [assumption|]. assert (2 ^ 53 <= 2 ^ e) by (apply Z.pow_le_mono_r; lia). nia. }
    split; [lia|]. assert (2 ^ 53 = 2 * (2 ^ (52 - e) * 2 ^ e)) by (rewrite <- (Z.pow_add_r 2 (52 - e) e) by lia; replace (52 - e + e) with 52 by lia; reflexivity).
    assert (0 < 2 ^ e) by (apply Z.pow_pos_nonneg; lia). nia.
Qed.

Lemma int_quot_exact n d : 0 <= n < 2 ^ 53 -> 0 < d -> int_quot n d = n / d.
Proof.
  intros Hn Hd. unfold int_quot, fquot. destruct (Z.eqb_spec n 0) as [->|Hz]; [reflexivity|].
  pose proof (quot_shift n d ltac:(lia) Hd) as [S1 S2]. cbv zeta in *. set (s := 52 - quot_exp n d) in *. clearbody s.
  destruct (Z.leb_spec 0 s); [|lia]. destruct (Z.leb_spec 0 s); [|lia].
  assert (HP : 0 < 2 ^ s) by (apply Z.pow_pos_nonneg; lia). generalize dependent (2 ^ s). intros P S2 HP.
  pose proof (Z.div_mod n d ltac:(lia)) as M. pose proof (Z.mod_pos_bound n d Hd) as MB.
  set (q := n / d) in *. set (r := n mod d) in *. clearbody q r.
  assert (A : q * P <= round_div (n * P) d) by (apply round_div_lower; nia).
  pose proof (round_div_near (n * P) d Hd) as B. set (m := round_div (n * P) d) in *. clearbody m.
  symmetry. apply Z.div_unique with (r := m - q * P); [|lia]. left. split; [lia|].
  assert (m < (q + 1) * P); [|lia]. nia.
Qed.

Lemma tenths_near n : 0 <= n < 2 ^ 53 -> Z.abs (tenths n * 100 - n) <= 50 /\ 0 <= tenths n.
Proof.
  intros Hn. unfold tenths, fquot. destruct (Z.eqb_spec n 0) as [->|Hz]; [vm_compute; split; discriminate|].
  pose proof (quot_shift n 1000 ltac:(lia) ltac:(lia)) as [S1 S2].
  pose proof (quot_exp_spec n 1000 ltac:(lia) ltac:(lia)) as [A B]. cbv zeta in *.
  assert (E : quot_exp n 1000 <= 43).
  { set (e := quot_exp n 1000) in *. clearbody e. destruct (Z_le_gt_dec e 43); [assumption|]. specialize (A ltac:(lia)).
    assert (2 ^ 44 <= 2 ^ e) by (apply Z.pow_le_mono_r; lia). change (2 ^ 44) with 17592186044416 in *. change (2 ^ 53) with 9007199254740992 in *. lia. }
  set (s := 52 - quot_exp n 1000) in *. assert (9 <= s) by lia. clearbody s. clear A B.
  destruct (Z.leb_spec 0 s); [|lia]. destruct (Z.leb_spec 0 s); [|lia].
  assert (HP : 2 ^ 9 <= 2 ^ s) by (apply Z.pow_le_mono_r; lia). change (2 ^ 9) with 512 in HP. generalize dependent (2 ^ s). intros P S2 HP.
  pose proof (round_div_near (n * P) 1000 ltac:(lia)) as B. pose proof (round_div_lower (n * P) 1000 0 ltac:(lia) ltac:(nia)) as M0.
  set (m := round_div (n * P) 1000) in *. clearbody m.
  pose proof (round_div_near (m * 10) P ltac:(lia)) as C. pose proof (round_div_lower (m * 10) P 0 ltac:(lia) ltac:(nia)) as T0.
  set (T := round_div (m * 10) P) in *. clearbody T. split; [|lia].
  assert (D : Z.abs (P * (T * 100 - n)) <= 50 * P + 500) by lia.
  rewrite Z.abs_mul, (Z.abs_eq P) in D by lia. set (x := Z.abs (T * 100 - n)) in *. clearbody x. nia.
Qed.

(** ** the lines *)
Lemma hms_of n : hms n (hms_text n).
Proof.
  exists (n / 60 / 60), (n / 60 mod 60), (n mod 60). unfold hms_text.
  rewrite (two_digits_dd (n / 60 mod 60)), (two_digits_dd (n mod 60)) by lia. repeat split; lia.
Qed.
Lemma whole_seconds_exact t : 0 <= t <= 2 ^ 53 -> whole_seconds t = t / 1000000.
Proof. intros H. unfold whole_seconds. destruct (Z.ltb_spec t 0); [lia|]. apply seconds_exact, H. Qed.

Lemma fold_add l a : fold_left Z.add l a = a + sumZ l.
Proof. revert a. induction l as [|x r IH]; intros a; simpl; [lia|]. rewrite IH. lia. Qed.
Lemma sum_of_eq l : sum_of l = sumZ l.
Proof. unfold sum_of. rewrite fold_add. lia. Qed.
Lemma fold_max l a : (forall x, In x (a :: l) -> x <= fold_left Z.max l a) /\ In (fold_left Z.max l a) (a :: l).
Proof.
  revert a. induction l as [|y r IH]; intros a; simpl.
  - split; [intros x [->|[]]; lia|auto].
  - destruct (IH (Z.max a y)) as [A B]. split.
    + intros x [->|[->|Hx]]; [specialize (A (Z.max x y) (or_introl eq_refl)); lia|specialize (A (Z.max a x) (or_introl eq_refl)); lia|apply A; right; exact Hx].
    + destruct B as [B|B]; [|auto]. rewrite <- B. destruct (Z.max_spec a y) as [[_ ->]|[_ ->]]; auto.
Qed.
Lemma tenths_text_spec n : 0 <= n < 2 ^ 53 -> one_digit n (tenths_text n).
Proof.
  intros H. destruct (tenths_near n H) as [A B]. exists (tenths n / 10), (tenths n mod 10).
  split; [lia|]. split; [|reflexivity]. replace (10 * (tenths n / 10) + tenths n mod 10) with (tenths n) by lia. exact A.
Qed.
Lemma dropout_line_spec u : let l := map dr_dur (u_dropouts u) in 0 <= sumZ l < 2 ^ 53 -> dropouts_shown l (dropout_line u).
Proof.
  cbv zeta. unfold dropout_line. set (l := map dr_dur (u_dropouts u)). clearbody l. intros H. destruct l as [|x r]; [left; auto|].
  right. cbv iota. set (l := x :: r) in *. exists (tenths_text (sum_of l)), (max_of l). split; [discriminate|].
  rewrite sum_of_eq. split; [apply tenths_text_spec, H|]. unfold max_of, l. destruct (fold_max r x) as [A B].
  split; [exact B|]. split; [exact A|]. fold l. rewrite int_quot_exact by first [exact H|unfold l; simpl length; lia]. reflexivity.
Qed.


Lemma sorted_strs l : StronglySorted (fun a b => str_cmp a b <> Gt) (ssort str_leb l).
Proof.
  pose proof (ssort_sorted str_leb str_leb_total str_leb_trans l) as H. unfold sorted in H. induction H; constructor; auto.
  eapply Forall_impl; [|eassumption]. intros b. simpl. unfold str_leb. destruct (str_cmp a b); congruence.
Qed.
Lemma SSorted_filter {A} (R : A -> A -> Prop) p l : StronglySorted R l -> StronglySorted R (filter p l).
Proof.
  induction 1 as [|x r Hr IH Hx]; simpl; [constructor|]. destruct (p x); [|exact IH]. constructor; [exact IH|].
  apply Forall_forall. intros y Hy. apply filter_In in Hy as [Hy _]. rewrite Forall_forall in Hx. auto.
Qed.
Lemma In_ssort {A} (leb : A -> A -> bool) x l : In x (ssort leb l) <-> In x l.
Proof. split; apply Permutation_in; [symmetry|]; apply ssort_perm. Qed.

Lemma lookup_ok {V} k (d : dict str V) v : lookup k d = Ok v <-> sget k d = Some v.
Proof. unfold lookup. destruct (sget k d); split; congruence. Qed.
Lemma mapM_Forall2 {A B} (f : A -> res B) (R : A -> B -> Prop) l ls : (forall x y, f x = Ok y -> R x y) -> mapM f l = Ok ls -> Forall2 R l ls.
Proof.
  intros H. revert ls. induction l as [|x r IH]; intros ls E; simpl in E; [injection E as <-; constructor|].
  destruct (f x) as [y|] eqn:F; [|discriminate]. simpl in E. destruct (mapM f r) as [ys|]; [|discriminate]. simpl in E. injection E as <-. constructor; auto.
Qed.
Lemma key_lines_of {V} (p : str -> bool) (shown : str -> Prop) (line : str -> V -> str) (d : dict str V) ls :
  (forall k, p k = true <-> shown k) ->
  mapM (fun k => let* v := lookup k d in Ok (line k v)) (filter p (ssort str_leb (map fst d))) = Ok ls -> key_lines shown line d ls.
Proof.
  intros Hp E. exists (filter p (ssort str_leb (map fst d))). split; [apply SSorted_filter, sorted_strs|].
  split; [intros Hn; apply NoDup_filter; eapply Permutation_NoDup; [apply ssort_perm|exact Hn]|].
  split; [intros k; rewrite filter_In, In_ssort, Hp; reflexivity|].
  eapply mapM_Forall2; [|exact E]. intros k y F. cbv beta in F. destruct (lookup k d) as [v|] eqn:G; [|discriminate]. simpl in F. injection F as <-.
  exists v. split; [apply lookup_ok, G|reflexivity].
Qed.
Lemma filter_true {A} (l : list A) : filter (fun _ => true) l = l.
Proof. induction l; simpl; congruence. Qed.

Lemma ljust_left w s : at_left w s (ljust w s).
Proof. exists (w - length s)%nat. split; [reflexivity|]. unfold ljust. rewrite app_length, repeat_length. lia. Qed.
Lemma rjust_right w s : at_right w s (rjust w s).
Proof. exists (w - length s)%nat. split; [reflexivity|]. unfold rjust. rewrite app_length, repeat_length. lia. Qed.
Lemma message_size_total d : message_size d = total (ds_fields d).
Proof. unfold message_size. rewrite fold_add. simpl. induction (ds_fields d) as [|f r IH]; simpl; [reflexivity|]. rewrite IH. reflexivity. Qed.
Lemma table_line_row d t : table_line d = Ok t -> row d t.
Proof.
  unfold table_line. cbv zeta. rewrite message_size_total. destruct (lookup (lit "timestamp") (ds_data d)) as [c|] eqn:E; [|discriminate].
  unfold bind. intros F. apply (f_equal (fun r => match r with Ok x => x | Err _ => [] end)) in F. cbv beta iota in F. subst t.
  apply lookup_ok in E. eexists c, _, _, _. split; [exact E|]. split; [apply ljust_left|]. split; [apply rjust_right|]. split; [apply rjust_right|]. reflexivity.
Qed.

Lemma show_info_report vstr lstr verbose u out : show_info vstr lstr verbose u = Ok out ->
  0 <= u_start u <= 2 ^ 53 -> 0 <= u_last u - u_start u <= 2 ^ 53 -> 0 <= sumZ (map dr_dur (u_dropouts u)) < 2 ^ 53 ->
  report vstr lstr verbose u out.
Proof.
  intros E H1 H2 H3. unfold show_info in E. unfold bind in E.
  destruct (version_lines u) as [ver|] eqn:EV; [|discriminate]. destruct (info_lines vstr verbose u) as [infos|] eqn:EI; [|discriminate].
  destruct (multi_lines lstr verbose u) as [multis|] eqn:EM; [|discriminate]. destruct (table_lines u) as [rows|] eqn:ET; [|discriminate].
  apply (f_equal (fun r => match r with Ok x => x | Err _ => [] end)) in E. cbv beta iota in E. subst out.
  eexists _, (hms_text (u_start u / 1000000)), (hms_text ((u_last u - u_start u) / 1000000)), (dropout_line u), ver, infos, multis, rows, _.
  split. { unfold time_line. rewrite !whole_seconds_exact by assumption. reflexivity. }
  split; [reflexivity|]. split; [apply hms_of|]. split; [apply hms_of|]. split; [apply dropout_line_spec, H3|].
  split. { unfold version_lines, bind in EV. destruct (get_version_info_str u (lit "ver_sw_release")) as [v|] eqn:G; [|discriminate].
    exists v. split; [reflexivity|]. injection EV as <-. reflexivity. }
  split. { eapply key_lines_of; [|exact EI]. intros k. cbv beta. rewrite orb_true_iff, negb_true_iff. split.
    - intros [A|A]; [|auto]. intros Hp. apply starts_with_iff in Hp. congruence.
    - intros A. destruct (starts_with (lit "perf_") k) eqn:F; [|auto]. right. apply A. apply starts_with_iff. exact F. }
  unfold multi_lines in EM. cbv zeta in EM.
  split. { intros Z. rewrite Z in EM. cbn in EM. apply (f_equal (fun r => match r with Ok x => x | Err _ => [] end)) in EM. symmetry. exact EM. }
  assert (Hm : u_multi u <> [] -> (0 <? Z.of_nat (length (u_multi u))) = true) by (destruct (u_multi u); [congruence|intros _; simpl length; lia]).
  split. { intros Z ->. rewrite (Hm Z) in EM. unfold bind in EM at 1. destruct mapM as [ls|] eqn:EL in EM; [|discriminate].
    injection EM as <-. exists ls. split; [reflexivity|]. eapply (key_lines_of (fun _ => true)); [tauto|]. rewrite filter_true. exact EL. }
  split. { intros Z ->. rewrite (Hm Z) in EM. unfold bind in EM at 1. destruct mapM as [ls|] eqn:EL in EM; [|discriminate].
    apply (f_equal (fun r => match r with Ok x => x | Err _ => [] end)) in EM. cbv beta iota in EM. subst multis.
    exists (join (lit ", ") ls), ls. split; [reflexivity|]. split; [|apply join_separated]. eapply (key_lines_of (fun _ => true)); [tauto|]. rewrite filter_true. exact EL. }
  unfold table_lines in ET.
  split; [symmetry; apply ssort_perm|]. split; [|eapply mapM_Forall2; [|exact ET]; exact table_line_row].
  pose proof (ssort_sorted (fun a b => str_leb (row_key a) (row_key b)) (fun a b => str_leb_total _ _) (fun a b c => str_leb_trans _ _ _) (u_data u)) as H.
  unfold sorted in H. clear ET. induction H as [|a l Hl IH Hx]; constructor; auto. eapply Forall_impl; [|exact Hx]. intros b Hb Hc. cbv beta in Hb. unfold str_leb in Hb.
  change (str_cmp (row_key a) (row_key b) = Gt) in Hc. rewrite Hc in Hb. discriminate.
Qed.

(** ** when it fails *)
Lemma mapM_total {A B} (f : A -> res B) l : (forall x, In x l -> exists y, f x = Ok y) -> exists ys, mapM f l = Ok ys.
Proof.
  induction l as [|x r IH]; intros H; [exists []; reflexivity|]. destruct (H x (or_introl eq_refl)) as [y E].
  destruct IH as [ys F]; [intros z Hz; apply H; right; exact Hz|]. exists (y :: ys). simpl. rewrite E. simpl. rewrite F. reflexivity.
Qed.
Lemma lookup_in {V} k (d : dict str V) : In k (map fst d) -> exists v, lookup k d = Ok v.
Proof.
  intros H. unfold lookup. destruct (sget k d) eqn:E; [eauto|]. exfalso. revert E. induction d as [|[k0 v0] r IH]; [destruct H|]. unfold sget in *. cbn [dget fst snd].
  destruct (str_eqb k k0) eqn:F; [discriminate|]. apply IH. destruct H as [H|H]; [simpl in H; subst k0; rewrite str_eqb_refl in F; discriminate|exact H].
Qed.
Lemma key_lines_total {V} (p : str -> bool) (line : str -> V -> str) (d : dict str V) :
  exists ls, mapM (fun k => let* v := lookup k d in Ok (line k v)) (filter p (ssort str_leb (map fst d))) = Ok ls.
Proof.
  apply mapM_total. intros k Hk. apply filter_In in Hk as [Hk _]. apply In_ssort in Hk. destruct (lookup_in _ _ Hk) as [v E]. exists (line k v). rewrite E. reflexivity.
Qed.
Lemma show_info_total vstr lstr verbose u :
  (forall v, sget (lit "ver_sw_release") (u_info u) = Some v -> (exists z, v = VInt z) \/ (exists b, v = VBool b)) ->
  (forall d, In d (u_data u) -> sget (lit "timestamp") (ds_data d) <> None) ->
  exists out, show_info vstr lstr verbose u = Ok out.
Proof.
  intros HV HD. unfold show_info.
  assert (A : exists l, version_lines u = Ok l).
  { unfold version_lines, get_version_info_str, get_version_info. destruct (sget (lit "ver_sw_release") (u_info u)) as [v|]; [|eexists; reflexivity].
    assert (exists z, shift_of v = Ok z) as [z ->]. { destruct (HV v eq_refl) as [[z ->]|[b ->]]; eexists; reflexivity. }
    unfold bind. destruct (64 <=? Z.land z 255); eexists; reflexivity. }
  destruct A as [ver ->].
  assert (B : exists l, info_lines vstr verbose u = Ok l) by (unfold info_lines; apply key_lines_total).
  destruct B as [infos ->].
  assert (C : exists l, multi_lines lstr verbose u = Ok l).
  { unfold multi_lines. cbv zeta. destruct (0 <? Z.of_nat (length (u_multi u))); [|eexists; reflexivity].
    destruct verbose.
    all: match goal with |- context [mapM ?f ?l] => assert (E : exists ls, mapM f l = Ok ls) end;
      [apply mapM_total; intros k Hk; apply In_ssort in Hk; destruct (lookup_in _ _ Hk) as [v ->]; eexists; reflexivity|].
    all: destruct E as [ls ->]; eexists; reflexivity. }
  destruct C as [multis ->].
  assert (D : exists l, table_lines u = Ok l).
  { apply mapM_total. intros d Hd. apply In_ssort in Hd. specialize (HD d Hd). unfold table_line, lookup. cbv zeta.
    destruct (sget (lit "timestamp") (ds_data d)); [|congruence]. eexists. reflexivity. }
  destruct D as [rows ->]. eexists. reflexivity.
Qed.

(** ** the bytes of the records *)
Lemma inbox_subscription cf fmts evs id :
  subscription cf fmts evs id = match inbox cf fmts evs id with Some (s, ps) => Some (s, map (SpecSection.record s) ps) | None => None end /\
  (forall s ps, inbox cf fmts evs id = Some (s, ps) -> (exists d, parse_add cf fmts d = Ok s) /\ Forall (fun p => fits s p = true) ps).
Proof.
  unfold subscription, inbox. rewrite <- !fold_left_rev_right. induction (rev evs) as [|e r [IH1 IH2]]; simpl; [split; [reflexivity|discriminate]|].
  rewrite IH1. set (cur := fold_right (fun y x => inbox_step cf fmts id x y) None r) in *. clearbody cur.
  destruct e as [ty p| |]; simpl; try (split; [reflexivity|exact IH2]).
  destruct (ty =? 65).
  { destruct (parse_add cf fmts p) as [s|] eqn:E; [|split; [reflexivity|exact IH2]].
    destruct ((sb_id s =? id) && cf_filter cf (sb_name s)); [|split; [reflexivity|exact IH2]].
    split; [reflexivity|]. intros s0 ps E0. injection E0 as <- <-. split; [eauto|constructor]. }
  destruct (ty =? 68); [|split; [reflexivity|exact IH2]].
  destruct (msg_id p) as [i|]; [|split; [reflexivity|exact IH2]].
  destruct cur as [[s ps]|]; [|split; [reflexivity|exact IH2]].
  destruct ((i =? id) && fits s p) eqn:F; [|split; [reflexivity|exact IH2]].
  split; [rewrite map_app; reflexivity|]. intros s0 ps0 E0. injection E0 as <- <-. destruct (IH2 s ps eq_refl) as [A B].
  split; [exact A|]. apply Forall_app. split; [exact B|]. constructor; [|constructor]. apply andb_prop in F. apply F.
Qed.
Lemma sum_const {A} (f : A -> Z) l k : Forall (fun x => f x = k) l -> sumZ (map f l) = k * lenZ l.
Proof. induction 1 as [|x r Hx Hr IH]; [unfold lenZ; simpl; lia|]. cbn [map sumZ fold_right]. fold (sumZ (map f r)). rewrite lenZ_cons, IH, Hx. lia. Qed.
Lemma dataset_bytes cf v t defs secs u ds : read_as cf v t defs secs u -> In ds (u_data u) ->
  exists sec s ps, In sec secs /\ inbox cf (u_formats u) sec (ds_id ds) = Some (s, ps) /\
    ds_fields ds = sb_fields s /\ ds_name ds = sb_name s /\ ds_multi ds = sb_multi s /\
    forall k c, sget k (ds_data ds) = Some c ->
      lenZ (c_raw c) = lenZ ps /\ total (ds_fields ds) * lenZ (c_raw c) = sumZ (map (fun p => lenZ p - 2) ps).
Proof.
  intros Hr Hin. destruct (read_as_sections _ _ _ _ _ _ Hr) as (_ & _ & _ & _ & news & Hn & Hperm).
  apply (Permutation_in _ Hperm) in Hin. apply in_concat in Hin as (new & Hnew & Hds).
  assert (exists sec, In sec secs /\ new_data cf (u_formats u) sec new) as (sec & Hsec & Hnd).
  { clear - Hn Hnew. induction Hn as [|x y l l' A B IH]; [destruct Hnew|]. destruct Hnew as [->|Hnew]; [exists x; split; [left|]; auto|].
    destruct (IH Hnew) as (sec & H1 & H2). exists sec. split; [right|]; assumption. }
  destruct Hnd as (_ & H1 & _). destruct (H1 ds Hds) as (s & rs & Hs & _ & Hh).
  destruct (inbox_subscription cf (u_formats u) sec (ds_id ds)) as [E F]. rewrite Hs in E.
  destruct (inbox cf (u_formats u) sec (ds_id ds)) as [[s0 ps]|] eqn:G; [|discriminate]. injection E as E1 E2. subst s0 rs.
  destruct (F s ps eq_refl) as [[d Hd] Hf]. destruct Hh as (Hm & _ & Hnm & Hfl & _ & _ & Hc).
  exists sec, s, ps. repeat (split; [assumption|]). intros k c Hk. apply (dget_In str_eqb str_eqb_spec) in Hk.
  apply In_nth_error in Hk as [i Hi]. destruct (Hc i _ Hi) as (nt & _ & _ & _ & R). simpl in R.
  assert (L : lenZ (c_raw c) = lenZ ps) by (rewrite R; unfold lenZ; rewrite !map_length; reflexivity).
  split; [exact L|]. rewrite L, Hfl. symmetry. apply sum_const. eapply Forall_impl; [|exact Hf]. intros p Hp. cbv beta.
  apply (proj1 (accepted_size _ _ _ _ _ Hd)) in Hp. lia.
Qed.

(** ** one multi info message *)
Lemma hex_digit_value n : 0 <= n < 16 -> hex_value (hex_digit n) n.
Proof. intros H. unfold hex_digit. destruct (Z.ltb_spec n 10); [left|right]; lia. Qed.
Lemma spelled_app a b s t : spelled a s -> spelled b t -> spelled (a ++ b) (s ++ t).
Proof. induction 1; intros Hb; simpl; [exact Hb|apply sp_blank; auto|eapply sp_byte; eauto]. Qed.
Lemma spelled_byte x : byte_ok x -> spelled [x] (hex_byte x).
Proof.
  intros H. unfold byte_ok in H. unfold hex_byte. eapply sp_byte with (n1 := x / 16) (n2 := x mod 16); [apply hex_digit_value; lia|apply hex_digit_value; lia|lia|constructor].
Qed.
Lemma spelled_join sep l ts : Forall (fun c => c = 32 \/ c = 10) sep -> Forall2 spelled l ts -> spelled (concat l) (join sep ts).
Proof.
  intros Hs. assert (Hb : spelled [] sep) by (induction Hs; constructor; auto).
  induction 1 as [|x t l ts A B IH]; simpl; [constructor|]. destruct ts as [|t2 ts].
  - inversion B; subst. simpl. rewrite app_nil_r. exact A.
  - apply spelled_app; [exact A|]. change (concat l) with ([] ++ concat l). apply spelled_app; [exact Hb|exact IH].
Qed.
Lemma concat_single {A} (l : list A) : concat (map (fun x => [x]) l) = l.
Proof. induction l; simpl; congruence. Qed.
Lemma spelled_item b : bytes_ok b -> spelled b (join (lit " ") (map hex_byte b)).
Proof.
  intros H. rewrite <- (concat_single b) at 1. apply spelled_join; [constructor; [left; reflexivity|constructor]|].
  induction H; simpl; constructor; auto using spelled_byte.
Qed.
(** the text determines the bytes *)
Lemma hex_value_fun c n m : hex_value c n -> hex_value c m -> n = m.
Proof. intros [A|A] [B|B]; lia. Qed.
Lemma hex_not_blank c n : hex_value c n -> ~ (c = 32 \/ c = 10).
Proof. intros [A|A]; lia. Qed.
Lemma spelled_fun a t : spelled a t -> forall b, spelled b t -> a = b.
Proof.
  induction 1 as [|a c t Hc _ IH|x a c1 c2 n1 n2 t H1 H2 E _ IH]; intros b Hb; inversion Hb; subst; auto;
    try (exfalso; match goal with H : hex_value ?c ?n, K : ?c = 32 \/ ?c = 10 |- _ => exact (hex_not_blank c n H K) | H : hex_value 32 ?n |- _ => apply (hex_not_blank 32 n H); auto | H : hex_value 10 ?n |- _ => apply (hex_not_blank 10 n H); auto end).
  f_equal; [|auto]. assert (n1 = n0) by (eapply hex_value_fun; eauto). assert (n2 = n3) by (eapply hex_value_fun; eauto). subst. reflexivity.
Qed.
Lemma sum_lens (l : list bytes) : sumZ (map (fun b => lenZ b) l) = lenZ (concat l).
Proof. unfold sumZ, lenZ. induction l as [|x r IH]; [reflexivity|]. cbn [map fold_right concat]. rewrite app_length, Nat2Z.inj_add, <- IH. reflexivity. Qed.

Lemma mapM_map {A B C} (f : B -> res C) (g : A -> B) (h : A -> C) l : (forall x, f (g x) = Ok (h x)) -> mapM f (map g l) = Ok (map h l).
Proof. intros H. induction l as [|x r IH]; [reflexivity|]. cbn [map mapM]. rewrite H. cbn [bind]. rewrite IH. reflexivity. Qed.
Lemma entry_bytes name sep i l : l <> [] -> Forall bytes_ok l -> Forall (fun c => c = 32 \/ c = 10) sep ->
  exists t, entry_lines name sep i (map VBytes l) =
    Ok [lit "# " ++ name ++ lit " " ++ str_of_Z (Z.of_nat i) ++ lit " (len: " ++ str_of_Z (lenZ (concat l)) ++ lit "):"; t] /\
    spelled (concat l) t.
Proof.
  intros Hl Hb Hs. destruct l as [|x r]; [congruence|]. set (l := x :: r) in *.
  assert (E1 : mapM item_len (map VBytes l) = Ok (map (fun b => lenZ b) l)) by (apply mapM_map; reflexivity).
  assert (E2 : mapM item_hex (map VBytes l) = Ok (map (fun b => join (lit " ") (map hex_byte b)) l)) by (apply mapM_map; reflexivity).
  exists (join sep (map (fun b => join (lit " ") (map hex_byte b)) l)). split.
  - unfold entry_lines. change (map VBytes l) with (VBytes x :: map VBytes r) in *. rewrite E1. cbn [bind]. rewrite E2. cbn [bind]. rewrite sum_of_eq, sum_lens. reflexivity.
  - apply spelled_join; [exact Hs|]. clear E1 E2. clearbody l. clear Hl. induction Hb; simpl; constructor; auto using spelled_item.
Qed.
Lemma entry_texts name sep i l : entry_lines name sep i (map VStr l) =
  Ok [lit "# " ++ name ++ lit " " ++ str_of_Z (Z.of_nat i) ++ lit ":"; separated sep l].
Proof.
  assert (E : mapM item_text (map VStr l) = Ok l) by (rewrite (mapM_map item_text VStr (fun s => s)) by reflexivity; rewrite map_id; reflexivity).
  rewrite <- join_separated. destruct l as [|x r]; [reflexivity|]. unfold entry_lines. cbn [map]. cbn [map] in E. rewrite E. reflexivity.
Qed.
Lemma entries_app name sep i l : (forall j m, nth_error l j = Some m -> exists ls, entry_lines name sep (i + j) m = Ok ls) ->
  exists lss, entries_lines name sep i l = Ok (concat lss) /\ length lss = length l /\
    forall j m, nth_error l j = Some m -> exists ls, nth_error lss j = Some ls /\ entry_lines name sep (i + j) m = Ok ls.
Proof.
  revert i. induction l as [|m r IH]; intros i H.
  - exists []. split; [reflexivity|]. split; [reflexivity|]. intros [|j] m; discriminate.
  - destruct (H 0%nat m eq_refl) as [ls E]. rewrite Nat.add_0_r in E.
    destruct (IH (S i)) as (lss & E2 & L & N). { intros j x Hj. destruct (H (S j) x Hj) as [l0 E0]. exists l0. rewrite <- Nat.add_succ_comm in E0. exact E0. }
    exists (ls :: lss). simpl. rewrite E. simpl. rewrite E2. simpl. split; [reflexivity|]. split; [congruence|].
    intros [|j] x Hj; simpl in *.
    + injection Hj as <-. exists ls. rewrite Nat.add_0_r. auto.
    + destruct (N j x Hj) as (l0 & A & B). exists l0. split; [exact A|]. rewrite <- Nat.add_succ_comm. exact B.
Qed.

(** ** the numbers of a loaded log *)
Lemma scattered_payload f pos evs : bytes_ok f -> scattered f pos evs -> forall ty p, In (EMsg ty p) evs -> bytes_ok p.
Proof.
  intros Hf. revert pos. induction evs as [|e r IH]; intros pos H ty p Hin; [destruct Hin|].
  destruct Hin as [->|Hin].
  - simpl in H. destruct H as (q & _ & E & _). assert (Hs : bytes_ok (slice q (q + 3 + lenZ p) f)) by (now apply Forall_slice).
    rewrite E in Hs. unfold frame in Hs. apply Forall_app in Hs as [_ Hs]. exact Hs.
  - destruct e; simpl in H; [destruct H as (q & _ & _ & H)| |]; eapply IH; eauto.
Qed.
Lemma collect_In {X} (g : list event -> event -> list X) evs x : forall pre, In x (collect g pre evs) -> exists pre' e, In e evs /\ In x (g pre' e).
Proof.
  induction evs as [|e r IH]; intros pre H; [destruct H|]. simpl in H. apply in_app_or in H as [H|H].
  - exists pre, e. split; [left; reflexivity|exact H].
  - destruct (IH _ H) as (pre' & e' & A & B). exists pre', e'. split; [right|]; assumption.
Qed.
Lemma over_In {X} cf fmts (g : Z -> list event -> event -> list X) secs x : forall t0, In x (over_sections cf fmts g t0 secs) ->
  exists sec t pre e, In sec secs /\ In e sec /\ In x (g t pre e).
Proof.
  induction secs as [|s r IH]; intros t0 H; [destruct H|]. simpl in H. apply in_app_or in H as [H|H].
  - apply collect_In in H as (pre & e & A & B). exists s, t0, pre, e. split; [left; reflexivity|auto].
  - destruct (IH _ H) as (sec & t & pre & e & A & B). exists sec, t, pre, e. split; [right|]; assumption.
Qed.
Lemma last_ge cf fmts secs : forall t0, t0 <= last_over cf fmts t0 secs.
Proof.
  unfold last_over. induction secs as [|s r IH]; intros t0; simpl; [lia|]. specialize (IH (last_stamp cf fmts t0 s)).
  destruct (fold_max (collect (stamps cf fmts) [] s) t0) as [A _]. specialize (A t0 (or_introl eq_refl)). unfold last_stamp in *. lia.
Qed.
Lemma loaded_times cf f u : bytes_ok f -> cf_hdr cf = false -> produces cf f (Ok u) ->
  0 <= u_start u /\ u_start u <= u_last u /\ Forall (fun d => 0 <= dr_dur d < 65536) (u_dropouts u).
Proof.
  intros Hb Hh Hp. destruct (version_start cf f u Hb Hp) as (rest & _ & _ & Hs). split; [lia|].
  destruct (load_trace cf f u Hb Hh Hp) as (defs & secs & _ & Hsc & _ & Hr).
  destruct (read_as_sections _ _ _ _ _ _ Hr) as (_ & H1 & H2 & _). split; [rewrite H1; apply last_ge|].
  rewrite H2. apply Forall_forall. intros d Hd. apply over_In in Hd as (sec & t & pre & e & A & B & C).
  rewrite Forall_forall in Hsc. pose proof (scattered_payload f 0 sec Hb (Hsc _ A)) as Hpay. unfold dropouts_at in C.
  destruct e as [ty p| |]; try (destruct C). specialize (Hpay ty p B). destruct p as [|a [|b [|? ?]]]; try (destruct C).
  destruct (ty =? 79); [|destruct C]. destruct C as [<-|[]]. pose proof (Forall_inv Hpay) as Ha. pose proof (Forall_inv (Forall_inv_tail Hpay)) as Hbb. unfold byte_ok in Ha, Hbb. cbn [dr_dur]. lia.
Qed.
Lemma durations_sum l : Forall (fun d => 0 <= dr_dur d < 65536) l -> lenZ l < 2 ^ 37 -> 0 <= sumZ (map dr_dur l) < 2 ^ 53.
Proof.
  intros H Hl. assert (A : 0 <= sumZ (map dr_dur l) <= 65535 * lenZ l).
  { clear Hl. induction H as [|d r Hd Hr IH]; [unfold lenZ; simpl; lia|]. rewrite lenZ_cons. cbn [map sumZ fold_right]. fold (sumZ (map dr_dur r)). lia. }
  change (2 ^ 37) with 137438953472 in Hl. change (2 ^ 53) with 9007199254740992. lia.
Qed.
Lemma separated_nil l : separated [] l = concat l.
Proof. rewrite <- join_separated. induction l as [|x r IH]; [reflexivity|]. simpl. destruct r; [simpl; now rewrite app_nil_r|]. simpl in *. congruence. Qed.
