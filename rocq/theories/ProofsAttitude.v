(** Angles of a quaternion. *)
From Coq Require Import String Reals Lra Psatz.
From Verif Require Import Base Dict PyStr ModelAttitude SpecAttitude.
Open Scope R_scope.

Lemma hyp_sq x y : x <> 0 \/ y <> 0 -> 0 < x * x + y * y.
Proof. intros [H|H]; nra. Qed.
(** the angle of a point *)
Lemma atan2_cos_sin x y r : 0 < r -> x * x + y * y = r * r -> cos (atan2 y x) = x / r /\ sin (atan2 y x) = y / r.
Proof.
  intros Hr E.
  assert (A : forall s, s <> 0 -> cos (atan (y / s)) = Rabs s / sqrt (s * s + y * y) /\ sin (atan (y / s)) = (y / s) * (Rabs s / sqrt (s * s + y * y))).
  { intros s Hs. rewrite cos_atan, sin_atan.
    assert (S : sqrt (1 + (y / s)²) = sqrt (s * s + y * y) / Rabs s).
    { replace (1 + (y / s)²) with ((s * s + y * y) / (s * s)) by (unfold Rsqr; field; auto).
      rewrite sqrt_div by nra. f_equal. rewrite <- (sqrt_Rsqr_abs s). unfold Rsqr. reflexivity. }
    rewrite S. assert (0 < sqrt (s * s + y * y)) by (apply sqrt_lt_R0; nra). assert (Rabs s <> 0) by (apply Rabs_no_R0; auto).
    split; field; lra. }
  assert (Q : sqrt (x * x + y * y) = r) by (rewrite E; apply sqrt_square; lra).
  unfold atan2. destruct (Rlt_dec 0 x) as [P|P].
  - destruct (A x) as (A1 & A2); [lra|]. rewrite A1, A2, Q, Rabs_right by lra. split; field; lra.
  - destruct (Rlt_dec x 0) as [N|N].
    + destruct (A x) as (A1 & A2); [lra|]. rewrite Q, Rabs_left in A1, A2 by lra.
      destruct (Rle_dec 0 y).
      * rewrite neg_cos, neg_sin, A1, A2. split; field; lra.
      * replace (atan (y / x) - PI) with (- (PI - atan (y / x))) by ring.
        rewrite cos_neg, sin_neg. rewrite Rtrigo_facts.cos_pi_minus, Rtrigo_facts.sin_pi_minus, A1, A2. split; field; lra.
    + assert (x = 0) by lra. subst x. assert (Y : y * y = r * r) by lra.
      destruct (Rlt_dec 0 y).
      * assert (Ey : y = r) by nra. rewrite Ey, cos_PI2, sin_PI2. split; field; lra.
      * destruct (Rlt_dec y 0); [|nra]. assert (Ey : y = - r) by nra. rewrite Ey.
        rewrite cos_neg, sin_neg, cos_PI2, sin_PI2. split; field; lra.
Qed.
Lemma atan2_range y x : - PI < atan2 y x <= PI.
Proof.
  pose proof PI_RGT_0. unfold atan2.
  assert (A : forall t, - PI / 2 < atan t < PI / 2) by (intros t; apply atan_bound).
  destruct (Rlt_dec 0 x); [specialize (A (y / x)); lra|].
  destruct (Rlt_dec x 0) as [N|N].
  - destruct (Rle_dec 0 y) as [Y|Y].
    + assert (y / x <= 0). { unfold Rdiv. assert (/ x < 0) by (apply Rinv_lt_0_compat; auto). nra. }
      assert (atan (y / x) <= 0). { rewrite <- atan_0. destruct (Req_dec (y / x) 0) as [->|]; [lra|]. left. apply atan_increasing. lra. }
      specialize (A (y / x)). lra.
    + assert (0 < y / x). { unfold Rdiv. assert (/ x < 0) by (apply Rinv_lt_0_compat; auto). nra. }
      assert (0 < atan (y / x)). { rewrite <- atan_0. apply atan_increasing. auto. }
      specialize (A (y / x)). lra.
  - destruct (Rlt_dec 0 y); [lra|]. destruct (Rlt_dec y 0); lra.
Qed.
(** an angle in (-PI, PI] is determined by its cosine and sine *)
Lemma angle_unique a b : - PI < a <= PI -> - PI < b <= PI -> cos a = cos b -> sin a = sin b -> a = b.
Proof.
  intros Ha Hb Hc Hs. pose proof PI_RGT_0.
  assert (C : cos (a - b) = 1). { rewrite cos_minus, Hc, Hs. pose proof (sin2_cos2 b) as E. unfold Rsqr in E. lra. }
  destruct (Rtotal_order a b) as [L|[E|L]]; [|exact E|]; exfalso.
  - assert (0 < b - a < 2 * PI) by lra. replace (a - b) with (- (b - a)) in C by ring. rewrite cos_neg in C.
    replace (b - a) with (2 * ((b - a) / 2)) in C by field. rewrite cos_2a_sin in C.
    assert (0 < sin ((b - a) / 2)) by (apply sin_gt_0; lra). nra.
  - assert (0 < a - b < 2 * PI) by lra.
    replace (a - b) with (2 * ((a - b) / 2)) in C by field. rewrite cos_2a_sin in C.
    assert (0 < sin ((a - b) / 2)) by (apply sin_gt_0; lra). nra.
Qed.

Section Quat.
  Variables q0 q1 q2 q3 : R.
  Hypothesis U : q0 * q0 + q1 * q1 + q2 * q2 + q3 * q3 = 1.
  Let s := 2 * (q0 * q2 - q3 * q1).
  Lemma pitch_arg : -1 <= s <= 1.
  Proof.
    unfold s. pose proof (Rle_0_sqr (q0 - q2)). pose proof (Rle_0_sqr (q3 + q1)). pose proof (Rle_0_sqr (q0 + q2)). pose proof (Rle_0_sqr (q3 - q1)).
    unfold Rsqr in *. split; nra.
  Qed.
  Lemma Uq : q0 * q0 = 1 - q1 * q1 - q2 * q2 - q3 * q3.
  Proof. lra. Qed.
  Lemma row3 : (2 * (q0 * q1 + q2 * q3)) * (2 * (q0 * q1 + q2 * q3)) + (1 - 2 * (q1 * q1 + q2 * q2)) * (1 - 2 * (q1 * q1 + q2 * q2)) = 1 - s * s.
  Proof. unfold s. ring [Uq]. Qed.
  Lemma col1 : (2 * (q0 * q3 + q1 * q2)) * (2 * (q0 * q3 + q1 * q2)) + (1 - 2 * (q2 * q2 + q3 * q3)) * (1 - 2 * (q2 * q2 + q3 * q3)) = 1 - s * s.
  Proof. unfold s. ring [Uq]. Qed.
  Lemma rotate_matrix x y z : rotate (q0, q1, q2, q3) (x, y, z) =
    ((1 - 2 * (q2 * q2 + q3 * q3)) * x + 2 * (q1 * q2 - q0 * q3) * y + 2 * (q1 * q3 + q0 * q2) * z,
     2 * (q0 * q3 + q1 * q2) * x + (1 - 2 * (q1 * q1 + q3 * q3)) * y + 2 * (q2 * q3 - q0 * q1) * z,
     - s * x + 2 * (q0 * q1 + q2 * q3) * y + (1 - 2 * (q1 * q1 + q2 * q2)) * z).
  Proof. unfold rotate, qmul, conj, s. apply f_equal2; [apply f_equal2|]; ring [Uq]. Qed.
  Lemma lock_iff : gimbal_lock (q0, q1, q2, q3) <-> s * s = 1.
  Proof.
    unfold gimbal_lock. rewrite rotate_matrix. pose proof col1 as C.
    set (a := 2 * (q0 * q3 + q1 * q2)) in *. set (b := 1 - 2 * (q2 * q2 + q3 * q3)) in *. split.
    - intros (H1 & H2). assert (b = 0) by lra. assert (a = 0) by lra. rewrite H, H0 in C. lra.
    - intros H. rewrite H in C. assert (a = 0) by nra. assert (b = 0) by nra. lra.
  Qed.
End Quat.
Lemma rebuild q0 q1 q2 q3 : unit_quat (q0, q1, q2, q3) -> ~ gimbal_lock (q0, q1, q2, q3) -> forall v,
  turn (roll_of q0 q1 q2 q3) (pitch_of q0 q1 q2 q3) (yaw_of q0 q1 q2 q3) v = rotate (q0, q1, q2, q3) v.
Proof.
  intros U G ((x, y), z). unfold unit_quat in U. rewrite lock_iff in G by exact U. rewrite rotate_matrix by exact U.
  pose proof (pitch_arg q0 q1 q2 q3 U) as B. pose proof (row3 q0 q1 q2 q3 U) as R3. pose proof (col1 q0 q1 q2 q3 U) as C1.
  set (s := 2 * (q0 * q2 - q3 * q1)) in *.
  set (c := sqrt (1 - s * s)). assert (P : 0 < 1 - s * s) by (assert (s * s <> 1) by auto; nra).
  assert (Hc : 0 < c) by (apply sqrt_lt_R0; exact P). assert (Hcc : c * c = 1 - s * s) by (apply sqrt_sqrt; lra).
  unfold roll_of, pitch_of, yaw_of. fold s.
  destruct (atan2_cos_sin (1 - 2 * (q1 * q1 + q2 * q2)) (2 * (q0 * q1 + q2 * q3)) c Hc ltac:(lra)) as (r1 & r2).
  destruct (atan2_cos_sin (1 - 2 * (q2 * q2 + q3 * q3)) (2 * (q0 * q3 + q1 * q2)) c Hc ltac:(lra)) as (y1 & y2).
  unfold turn, rot_x, rot_y, rot_z. rewrite r1, r2, y1, y2, sin_asin by exact B. rewrite cos_asin by exact B.
  replace (sqrt (1 - s²)) with c by reflexivity.
  assert (Hd : c * c <> 0) by nra.
  assert (Uq := Uq q0 q1 q2 q3 U).
  assert (K : forall a b w, a = b * (c * c) -> a / c / c * w = b * w). { intros a b w ->. field. lra. }
  assert (E12 : (1 - 2 * (q2 * q2 + q3 * q3)) * s * (2 * (q0 * q1 + q2 * q3)) - 2 * (q0 * q3 + q1 * q2) * (1 - 2 * (q1 * q1 + q2 * q2)) = 2 * (q1 * q2 - q0 * q3) * (c * c)).
  { rewrite Hcc. unfold s. ring [Uq]. }
  assert (E13 : (1 - 2 * (q2 * q2 + q3 * q3)) * s * (1 - 2 * (q1 * q1 + q2 * q2)) + 2 * (q0 * q3 + q1 * q2) * (2 * (q0 * q1 + q2 * q3)) = 2 * (q1 * q3 + q0 * q2) * (c * c)).
  { rewrite Hcc. unfold s. ring [Uq]. }
  assert (E22 : 2 * (q0 * q3 + q1 * q2) * s * (2 * (q0 * q1 + q2 * q3)) + (1 - 2 * (q2 * q2 + q3 * q3)) * (1 - 2 * (q1 * q1 + q2 * q2)) = (1 - 2 * (q1 * q1 + q3 * q3)) * (c * c)).
  { rewrite Hcc. unfold s. ring [Uq]. }
  assert (E23 : 2 * (q0 * q3 + q1 * q2) * s * (1 - 2 * (q1 * q1 + q2 * q2)) - (1 - 2 * (q2 * q2 + q3 * q3)) * (2 * (q0 * q1 + q2 * q3)) = 2 * (q2 * q3 - q0 * q1) * (c * c)).
  { rewrite Hcc. unfold s. ring [Uq]. }
  set (r11 := 1 - 2 * (q2 * q2 + q3 * q3)) in *. set (r21 := 2 * (q0 * q3 + q1 * q2)) in *. set (r32 := 2 * (q0 * q1 + q2 * q3)) in *.
  set (r33 := 1 - 2 * (q1 * q1 + q2 * q2)) in *.
  f_equal; [f_equal|].
  - rewrite <- (K _ _ y E12), <- (K _ _ z E13). field. lra.
  - rewrite <- (K _ _ y E22), <- (K _ _ z E23). field. lra.
  - field. lra.
Qed.
Lemma unique q0 q1 q2 q3 roll pitch yaw : unit_quat (q0, q1, q2, q3) ->
  - PI < roll <= PI -> - (PI / 2) < pitch < PI / 2 -> - PI < yaw <= PI ->
  (forall v, turn roll pitch yaw v = rotate (q0, q1, q2, q3) v) ->
  roll = roll_of q0 q1 q2 q3 /\ pitch = pitch_of q0 q1 q2 q3 /\ yaw = yaw_of q0 q1 q2 q3.
Proof.
  intros U Hr Hp Hy T. unfold unit_quat in U.
  pose proof (T (1, 0, 0)) as Tx. pose proof (T (0, 1, 0)) as Ty. pose proof (T (0, 0, 1)) as Tz.
  rewrite rotate_matrix in Tx, Ty, Tz by exact U. unfold turn, rot_x, rot_y, rot_z in Tx, Ty, Tz.
  pose proof (row3 q0 q1 q2 q3 U) as R3. pose proof (col1 q0 q1 q2 q3 U) as C1.
  set (s := 2 * (q0 * q2 - q3 * q1)) in *.
  injection Tx as X1 X2 X3. injection Ty as _ _ Y3. injection Tz as _ _ Z3.
  assert (S : sin pitch = s) by lra.
  assert (C : 0 < cos pitch) by (apply cos_gt_0; lra).
  assert (CC : cos pitch * cos pitch = 1 - s * s). { pose proof (sin2_cos2 pitch) as E. unfold Rsqr in E. rewrite S in E. lra. }
  assert (P : pitch = pitch_of q0 q1 q2 q3). { unfold pitch_of. fold s. rewrite <- S. symmetry. apply asin_sin. lra. }
  assert (D : forall a b, cos pitch * a = b -> a = b / cos pitch) by (intros a b <-; field; lra).
  split; [|split; [exact P|]].
  - destruct (atan2_cos_sin (1 - 2 * (q1 * q1 + q2 * q2)) (2 * (q0 * q1 + q2 * q3)) (cos pitch) C ltac:(lra)) as (r1 & r2).
    apply angle_unique; [exact Hr|apply atan2_range| |]; unfold roll_of; [rewrite r1|rewrite r2]; apply D; lra.
  - destruct (atan2_cos_sin (1 - 2 * (q2 * q2 + q3 * q3)) (2 * (q0 * q3 + q1 * q2)) (cos pitch) C ltac:(lra)) as (r1 & r2).
    apply angle_unique; [exact Hy|apply atan2_range| |]; unfold yaw_of; [rewrite r1|rewrite r2]; apply D; lra.
Qed.

(** ** The columns *)
Definition new_key (s k : str) : Prop := k = lit "roll" ++ s \/ k = lit "pitch" ++ s \/ k = lit "yaw" ++ s.
Lemma q_not_new s s' i : ~ new_key s (q_name s' i).
Proof. intros [H|[H|H]]; discriminate H. Qed.
Lemma q_name_col s : q_name s 0 = quat_col s "0" /\ q_name s 1 = quat_col s "1" /\ q_name s 2 = quat_col s "2" /\ q_name s 3 = quat_col s "3".
Proof. repeat split. Qed.
Lemma map4_nth f : forall a b c d i, nth_error (map4 f a b c d) i =
  match nth_error a i, nth_error b i, nth_error c i, nth_error d i with Some w, Some x, Some y, Some z => Some (f w x y z) | _, _, _, _ => None end.
Proof.
  induction a as [|w a IH]; intros b c d i; [destruct i; reflexivity|].
  destruct b as [|x b]; [destruct i; cbn [map4 nth_error]; [reflexivity|destruct (nth_error a i); reflexivity]|].
  destruct c as [|y c]; [destruct i; cbn [map4 nth_error]; [reflexivity|destruct (nth_error a i), (nth_error b i); reflexivity]|].
  destruct d as [|z d]; [destruct i; cbn [map4 nth_error]; [reflexivity|destruct (nth_error a i), (nth_error b i), (nth_error c i); reflexivity]|].
  destruct i; cbn [map4 nth_error]; [reflexivity|apply IH].
Qed.

(** the columns of table [t] that [t'] gets for the suffix [s] *)
Record angles_of (s : str) (t t' : table) : Prop := mkAngles {
  an_has : has_quat (tb_data t) s;
  an_roll : exists c, sget (lit "roll" ++ s) (tb_data t') = Some c /\
    forall i, nth_error c i = option_map (fun q : quat => let '(a, b, c, d) := q in roll_of a b c d) (quat_row (tb_data t) s i);
  an_pitch : exists c, sget (lit "pitch" ++ s) (tb_data t') = Some c /\
    forall i, nth_error c i = option_map (fun q : quat => let '(a, b, c, d) := q in pitch_of a b c d) (quat_row (tb_data t) s i);
  an_yaw : exists c, sget (lit "yaw" ++ s) (tb_data t') = Some c /\
    forall i, nth_error c i = option_map (fun q : quat => let '(a, b, c, d) := q in yaw_of a b c d) (quat_row (tb_data t) s i) }.

Lemma add_angles_ok s t t' : add_angles s t = Ok t' ->
  tb_name t' = tb_name t /\ angles_of s t t' /\ (forall k, ~ new_key s k -> sget k (tb_data t') = sget k (tb_data t)).
Proof.
  unfold add_angles. intros E. repeat (apply bind_Ok in E as (? & ? & E)). apply (f_equal (fun r => match r with Ok x => x | Err _ => t end)) in E. cbv beta iota in E.
  subst t'. cbn [tb_name tb_data]. destruct (q_name_col s) as (N0 & N1 & N2 & N3). unfold q_column in *. rewrite N0, N1, N2, N3 in *.
  repeat match goal with H : match ?g with Some _ => _ | None => _ end = Ok _ |- _ => let G := fresh "G" in destruct g eqn:G in H; [|discriminate H];
    apply (f_equal (fun r => match r with Ok x => x | Err _ => [] end)) in H; cbv beta iota in H; subst end.
  assert (Hr : forall i, quat_row (tb_data t) s i = match nth_error x i, nth_error x0 i, nth_error x1 i, nth_error x2 i with Some a, Some b, Some c, Some e => Some (a, b, c, e) | _, _, _, _ => None end).
  { intros i. unfold quat_row, column. rewrite G2, G1, G0, G. reflexivity. }
  pose proof str_eqb_spec as SP.
  split; [reflexivity|]. split.
  - split; cbn [tb_data].
    + assert (GK : forall k v, sget k (tb_data t) = Some v -> In k (dkeys (tb_data t))).
      { intros k v E. apply (dget_In str_eqb SP) in E. apply in_map_iff. exists (k, v). auto. }
      intros i [<-|[<-|[<-|[<-|[]]]]]; eauto.
    + eexists. split; [rewrite !(dget_dset_neq str_eqb SP) by discriminate; apply (dget_dset_eq str_eqb SP)|]. intros i. rewrite map4_nth, Hr.
      destruct (nth_error x i), (nth_error x0 i), (nth_error x1 i), (nth_error x2 i); reflexivity.
    + eexists. split; [rewrite !(dget_dset_neq str_eqb SP) by discriminate; apply (dget_dset_eq str_eqb SP)|]. intros i. rewrite map4_nth, Hr.
      destruct (nth_error x i), (nth_error x0 i), (nth_error x1 i), (nth_error x2 i); reflexivity.
    + eexists. split; [apply (dget_dset_eq str_eqb SP)|]. intros i. rewrite map4_nth, Hr.
      destruct (nth_error x i), (nth_error x0 i), (nth_error x1 i), (nth_error x2 i); reflexivity.
  - intros k Hk. unfold new_key in Hk. rewrite !(dget_dset_neq str_eqb SP) by tauto. reflexivity.
Qed.
Lemma add_angles_err s t e : add_angles s t = Err e -> e = KeyError /\ ~ has_quat (tb_data t) s.
Proof.
  unfold add_angles, q_column. destruct (q_name_col s) as (N0 & N1 & N2 & N3). rewrite N0, N1, N2, N3.
  assert (M : forall i, sget (quat_col s i) (tb_data t) = None -> In i ["0"; "1"; "2"; "3"]%string -> ~ has_quat (tb_data t) s).
  { intros i Hn Hi Hq. apply (proj1 (dget_None str_eqb str_eqb_spec _ _)) in Hn. apply Hn, Hq, Hi. }
  destruct (sget (quat_col s "0") _) eqn:E0; cbn [bind]; [|intros H; injection H as <-; split; [reflexivity|eapply M; [exact E0|cbn; auto]]].
  destruct (sget (quat_col s "1") _) eqn:E1; cbn [bind]; [|intros H; injection H as <-; split; [reflexivity|eapply M; [exact E1|cbn; auto]]].
  destruct (sget (quat_col s "2") _) eqn:E2; cbn [bind]; [|intros H; injection H as <-; split; [reflexivity|eapply M; [exact E2|cbn; auto]]].
  destruct (sget (quat_col s "3") _) eqn:E3; cbn [bind]; [|intros H; injection H as <-; split; [reflexivity|eapply M; [exact E3|cbn; tauto]]].
  discriminate.
Qed.

(** one table through all requests *)
Definition requests (ms : list str) : list (str * str) := map split_suffix ms.
Record treated (rs : list (str * str)) (t t' : table) : Prop := mkTreated {
  tr_name : tb_name t' = tb_name t;
  tr_new : forall s, In (tb_name t, s) rs -> angles_of s t t';
  tr_old : forall k, (forall s, In (tb_name t, s) rs -> ~ new_key s k) -> sget k (tb_data t') = sget k (tb_data t) }.
Lemma new_key_inj s s' k : new_key s k -> new_key s' k -> s = s'.
Proof. intros [->|[->| ->]] [H| [H|H] ]; try discriminate H; injection H; auto. Qed.
Lemma same_quat s t t' : (forall i, sget (quat_col s i) (tb_data t') = sget (quat_col s i) (tb_data t)) ->
  (has_quat (tb_data t') s -> has_quat (tb_data t) s) /\ forall i, quat_row (tb_data t') s i = quat_row (tb_data t) s i.
Proof.
  intros H. split.
  - intros Hq i Hi. apply Hq in Hi. apply (dget_Some_key str_eqb str_eqb_spec) in Hi as (v & E). rewrite H in E.
    apply (dget_In str_eqb str_eqb_spec) in E. apply in_map_iff. exists (quat_col s i, v). auto.
  - intros i. unfold quat_row, column. rewrite !H. reflexivity.
Qed.
Lemma quat_not_new s s' i : ~ new_key s (quat_col s' i).
Proof. intros [H|[H|H]]; discriminate H. Qed.
Lemma treated_step n s rs t t1 t2 : (if str_eqb (tb_name t) n then add_angles s t else Ok t) = Ok t1 -> treated rs t1 t2 -> treated ((n, s) :: rs) t t2.
Proof.
  intros E [Z1 Z2 Z3]. destruct (str_eqb_spec (tb_name t) n) as [N|N].
  - subst n. destruct (add_angles_ok s t t1 E) as (E1 & A & O). rewrite E1 in *.
    assert (SQ : forall s', (has_quat (tb_data t1) s' -> has_quat (tb_data t) s') /\ forall i, quat_row (tb_data t1) s' i = quat_row (tb_data t) s' i).
    { intros s'. apply same_quat. intros i. apply O, quat_not_new. }
    assert (Z2' : forall s', In (tb_name t, s') rs -> angles_of s' t t2).
    { intros s' Hs. destruct (Z2 s' Hs) as [a (c1 & b1 & b2) (c2 & d1 & d2) (c3 & e1 & e2)]. destruct (SQ s') as (Q1 & Q2).
      split; [auto|exists c1|exists c2|exists c3]; (split; [assumption|]); intros i; rewrite <- Q2; auto. }
    split; [assumption| |].
    + intros s' [H|H]; [|auto]. injection H as <-.
      destruct (in_dec (fun a b : str * str => match str_eqb_spec (fst a) (fst b), str_eqb_spec (snd a) (snd b) with
          | ReflectT _ e1, ReflectT _ e2 => left (injective_projections a b e1 e2)
          | ReflectF _ n1, _ => right (fun e => n1 (f_equal fst e)) | _, ReflectF _ n2 => right (fun e => n2 (f_equal snd e)) end) (tb_name t, s) rs) as [I|I]; [auto|].
      assert (K : forall k, new_key s k -> sget k (tb_data t2) = sget k (tb_data t1)).
      { intros k Hk. apply Z3. intros s' Hs' Hk'. rewrite (new_key_inj _ _ _ Hk Hk') in I. contradiction. }
      destruct A as [a (c1 & b1 & b2) (c2 & d1 & d2) (c3 & e1 & e2)].
      split; [exact a|exists c1|exists c2|exists c3]; (split; [rewrite K; [assumption|unfold new_key; tauto]|assumption]).
    + intros k Hk. rewrite Z3; [|intros s' Hs'; apply Hk; now right]. apply O, Hk. now left.
  - apply (f_equal (fun r => match r with Ok x => x | Err _ => t end)) in E. cbv beta iota in E. subst t1.
    split; [assumption| |].
    + intros s' [H|H]; [|auto]. injection H as H _. congruence.
    + intros k Hk. apply Z3. intros s' Hs'. apply Hk. now right.
Qed.
Lemma mapM_Forall2 {A B} (f : A -> res B) : forall l l', mapM f l = Ok l' -> Forall2 (fun a b => f a = Ok b) l l'.
Proof.
  induction l as [|x l IH]; intros l' E; cbn [mapM] in E; [injection E as <-; constructor|].
  apply bind_Ok in E as (y & E1 & E). apply bind_Ok in E as (ys & E2 & E). injection E as <-. constructor; auto.
Qed.
Lemma mapM_err {A B} (f : A -> res B) : forall l e, mapM f l = Err e -> exists x, In x l /\ f x = Err e.
Proof.
  induction l as [|x l IH]; intros e E; cbn [mapM] in E; [discriminate|].
  destruct (f x) eqn:Ex; cbn [bind] in E; [|injection E as <-; exists x; split; [now left|assumption]].
  destruct (mapM f l) eqn:El; cbn [bind] in E; [discriminate|]. injection E as <-. destruct (IH _ eq_refl) as (z & Hz & Ez). exists z. split; [now right|assumption].
Qed.
Definition add_all (ms : list str) (l : list table) : res (list table) :=
  foldM (fun l m => add_to_message l (fst (split_suffix m)) (snd (split_suffix m))) ms l.
Lemma add_all_ok ms : forall l l', add_all ms l = Ok l' -> Forall2 (treated (requests ms)) l l'.
Proof.
  induction ms as [|m ms IH]; intros l l' E.
  - injection E as <-. induction l; constructor; auto. split; [reflexivity|intros s []|reflexivity].
  - unfold add_all in E. cbn [foldM] in E. apply bind_Ok in E as (l1 & E1 & E). apply IH in E. apply mapM_Forall2 in E1. clear IH.
    revert l' E. induction E1 as [|t t1 l l1 H1 E1 IH]; intros l' E; inversion E; subst; constructor; auto.
    cbn [requests map]. destruct (split_suffix m) as (n, s). eapply treated_step; eassumption.
Qed.
Lemma add_all_err ms : forall l e, add_all ms l = Err e -> e = KeyError /\ exists t s, In t l /\ In (tb_name t, s) (requests ms) /\ ~ has_quat (tb_data t) s.
Proof.
  induction ms as [|m ms IH]; intros l e E; [discriminate|].
  unfold add_all in E. cbn [foldM] in E. destruct (add_to_message l (fst (split_suffix m)) (snd (split_suffix m))) as [l1|e1] eqn:E1; cbn [bind] in E.
  - apply IH in E as (-> & t1 & s & H1 & H2 & H3). split; [reflexivity|].
    apply mapM_Forall2 in E1.
    assert (X : exists t, In t l /\ (if str_eqb (tb_name t) (fst (split_suffix m)) then add_angles (snd (split_suffix m)) t else Ok t) = Ok t1)
      by (clear - E1 H1; induction E1; [destruct H1|destruct H1 as [<-|H1]; [exists x; split; [now left|assumption]|destruct (IHE1 H1) as (t & A & B); exists t; split; [now right|assumption]]]).
    destruct X as (t & Ht & Et). exists t, s. destruct (str_eqb_spec (tb_name t) (fst (split_suffix m))).
    + destruct (add_angles_ok _ _ _ Et) as (N & _ & O). split; [exact Ht|]. split; [right; rewrite <- N; exact H2|].
      intros Hq. apply H3. apply (proj1 (same_quat s t1 t (fun i => eq_sym (O _ (quat_not_new _ _ _))))). exact Hq.
    + apply (f_equal (fun r => match r with Ok x => x | Err _ => t end)) in Et. cbv beta iota in Et. subst t1. split; [exact Ht|]. split; [now right|exact H3].
  - injection E as <-. apply mapM_err in E1 as (t & Ht & Et). destruct (str_eqb_spec (tb_name t) (fst (split_suffix m))) as [N|]; [|discriminate].
    apply add_angles_err in Et as (-> & H). split; [reflexivity|]. exists t, (snd (split_suffix m)). split; [exact Ht|]. split; [|exact H].
    left. rewrite N. apply surjective_pairing.
Qed.
Lemma starts_with_iff p : forall s, starts_with p s = true <-> exists r, s = p ++ r.
Proof.
  induction p as [|c p IH]; intros s; cbn [starts_with app]; [split; [eauto|reflexivity]|].
  destruct s as [|d s]; [split; [discriminate|intros (r & H); discriminate]|].
  rewrite Bool.andb_true_iff, IH, Z.eqb_eq. split; [intros (-> & r & ->); eauto|intros (r & H); injection H as -> ->; eauto].
Qed.
Lemma requests_asks ms name s : In (name, s) (requests ms) <-> asks ms name s.
Proof.
  unfold requests, asks. rewrite in_map_iff.
  assert (D : forall m, (exists n, m = n ++ lit ":_d" /\ split_suffix m = (n, lit "_d")) \/ ((~ exists n, m = n ++ lit ":_d") /\ split_suffix m = (m, []))).
  { intros m. unfold split_suffix, ends_with. destruct (starts_with (rev (lit ":_d")) (rev m)) eqn:E.
    - left. apply starts_with_iff in E as (r & E). apply (f_equal (@rev Z)) in E. rewrite rev_app_distr, !rev_involutive in E.
      exists (rev r). split; [exact E|]. f_equal. rewrite E, app_length. change (List.length (lit ":_d")) with 3%nat. replace (List.length (rev r) + 3 - 3)%nat with (List.length (rev r) + 0)%nat by lia.
      rewrite firstn_app_2. cbn [firstn]. apply app_nil_r.
    - right. split; [|reflexivity]. intros (n & ->). rewrite rev_app_distr in E.
      assert (T : starts_with (rev (lit ":_d")) (rev (lit ":_d") ++ rev n) = true) by (apply starts_with_iff; eauto). congruence. }
  split.
  - intros (m & E & Hm). destruct (D m) as [(n & H1 & H2)|(H1 & H2)]; rewrite H2 in E; apply pair_equal_spec in E as (<- & <-).
    + right. split; [reflexivity|]. now rewrite <- H1.
    + left. auto.
  - intros [(-> & Hm & Hn)|(-> & Hm)].
    + exists name. split; [|exact Hm]. destruct (D name) as [(n & H1 & _)|(_ & H)]; [exfalso; eauto|exact H].
    + exists (name ++ lit ":_d"). split; [|exact Hm]. destruct (D (name ++ lit ":_d")) as [(n & H1 & H2)|(H1 & _)]; [|exfalso; eauto].
      apply app_inv_tail in H1. rewrite H2, H1. reflexivity.
Qed.
