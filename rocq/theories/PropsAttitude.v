(** C49: roll, pitch and yaw added to the attitude topics.  Proved in exact real arithmetic; the axioms of the standard library's
    real numbers are listed by [Print Assumptions] below. *)
From Coq Require Import String Reals Lra.
From Verif Require Import Base Dict PyStr ModelAttitude SpecAttitude ProofsAttitude.
Open Scope R_scope.

(** The angles rebuild the rotation, except in gimbal lock. *)
Theorem C49_rebuild : forall q0 q1 q2 q3, unit_quat (q0, q1, q2, q3) -> ~ gimbal_lock (q0, q1, q2, q3) ->
  forall v, turn (roll_of q0 q1 q2 q3) (pitch_of q0 q1 q2 q3) (yaw_of q0 q1 q2 q3) v = rotate (q0, q1, q2, q3) v.
Proof. exact rebuild. Qed.
(** They are defined for every unit quaternion (the argument of arcsin is in its domain) and lie in the usual ranges. *)
Theorem C49_ranges : forall q0 q1 q2 q3, unit_quat (q0, q1, q2, q3) ->
  -1 <= 2 * (q0 * q2 - q3 * q1) <= 1 /\ sin (pitch_of q0 q1 q2 q3) = 2 * (q0 * q2 - q3 * q1) /\
  - PI < roll_of q0 q1 q2 q3 <= PI /\ - (PI / 2) <= pitch_of q0 q1 q2 q3 <= PI / 2 /\ - PI < yaw_of q0 q1 q2 q3 <= PI.
Proof.
  intros q0 q1 q2 q3 U. pose proof (pitch_arg _ _ _ _ U) as B. split; [exact B|]. split; [apply sin_asin; exact B|].
  split; [apply atan2_range|]. split; [|apply atan2_range]. unfold pitch_of. pose proof (asin_bound (2 * (q0 * q2 - q3 * q1))). lra.
Qed.
(** No other angles in those ranges do. *)
Theorem C49_unique : forall q0 q1 q2 q3 roll pitch yaw, unit_quat (q0, q1, q2, q3) ->
  - PI < roll <= PI -> - (PI / 2) < pitch < PI / 2 -> - PI < yaw <= PI ->
  (forall v, turn roll pitch yaw v = rotate (q0, q1, q2, q3) v) ->
  roll = roll_of q0 q1 q2 q3 /\ pitch = pitch_of q0 q1 q2 q3 /\ yaw = yaw_of q0 q1 q2 q3.
Proof. exact unique. Qed.
(** q and -q, the same rotation, give the same angles. *)
Theorem C49_sign : forall q0 q1 q2 q3, roll_of (- q0) (- q1) (- q2) (- q3) = roll_of q0 q1 q2 q3 /\
  pitch_of (- q0) (- q1) (- q2) (- q3) = pitch_of q0 q1 q2 q3 /\ yaw_of (- q0) (- q1) (- q2) (- q3) = yaw_of q0 q1 q2 q3.
Proof. intros. unfold roll_of, pitch_of, yaw_of. repeat split; f_equal; ring. Qed.
(** In gimbal lock the angles may be those of another rotation. *)
Theorem C49_lock_refuted : exists q0 q1 q2 q3 v, unit_quat (q0, q1, q2, q3) /\
  turn (roll_of q0 q1 q2 q3) (pitch_of q0 q1 q2 q3) (yaw_of q0 q1 q2 q3) v <> rotate (q0, q1, q2, q3) v.
Proof.
  exists (1/2), (-(1/2)), (1/2), (1/2), (0, 1, 0). split; [unfold unit_quat; lra|].
  assert (Z : forall y x, y = 0 -> x = 0 -> atan2 y x = 0).
  { intros y x -> ->. unfold atan2. destruct (Rlt_dec 0 0); [lra|reflexivity]. }
  unfold roll_of, yaw_of. rewrite !Z by lra. rewrite rotate_matrix by lra. unfold turn, rot_x, rot_y, rot_z. rewrite !cos_0, !sin_0.
  intros E. apply (f_equal (fun v : vec => fst (fst v))) in E. cbn [fst] in E. lra.
Qed.

(** The call: row by row, the tables asked for get three new columns whose angles rebuild the rotation of the row's quaternion. *)
Definition row_angles (suffix : str) (t : table) (i : nat) (roll pitch yaw : R) : Prop :=
  exists r p y, sget (lit "roll" ++ suffix) (tb_data t) = Some r /\ sget (lit "pitch" ++ suffix) (tb_data t) = Some p /\ sget (lit "yaw" ++ suffix) (tb_data t) = Some y /\
    nth_error r i = Some roll /\ nth_error p i = Some pitch /\ nth_error y i = Some yaw.
Lemma call_treated ms l l' : add_roll_pitch_yaw (Some ms) l = Ok l' -> Forall2 (treated (requests ms)) l l'.
Proof. exact (add_all_ok ms l l'). Qed.
Lemma F2_in {A B} (P : A -> B -> Prop) l l' : Forall2 P l l' -> forall i a b, nth_error l i = Some a -> nth_error l' i = Some b -> P a b.
Proof. induction 1; intros [|i] a b Ha Hb; cbn in Ha, Hb; try discriminate; [congruence|eauto]. Qed.
Theorem C49_rows : forall ms l l' n t t' suffix i q0 q1 q2 q3, add_roll_pitch_yaw (Some ms) l = Ok l' ->
  nth_error l n = Some t -> nth_error l' n = Some t' -> asks ms (tb_name t) suffix -> quat_row (tb_data t) suffix i = Some (q0, q1, q2, q3) ->
  exists roll pitch yaw, row_angles suffix t' i roll pitch yaw /\
    (unit_quat (q0, q1, q2, q3) -> ~ gimbal_lock (q0, q1, q2, q3) -> forall v, turn roll pitch yaw v = rotate (q0, q1, q2, q3) v).
Proof.
  intros ms l l' n t t' sx i q0 q1 q2 q3 E Ht Ht' Ha Hq. pose proof (F2_in _ _ _ (call_treated ms l l' E) n t t' Ht Ht') as T.
  apply (proj2 (requests_asks _ _ _)) in Ha. destruct (tr_new _ _ _ T sx Ha) as [_ (r & R1 & R2) (p & P1 & P2) (y & Y1 & Y2)].
  exists (roll_of q0 q1 q2 q3), (pitch_of q0 q1 q2 q3), (yaw_of q0 q1 q2 q3). split; [|apply C49_rebuild].
  exists r, p, y. rewrite R2, P2, Y2, Hq. auto 10.
Qed.
(** The new columns are as long as the quaternion's. *)
Theorem C49_length : forall ms l l' n t t' suffix i, add_roll_pitch_yaw (Some ms) l = Ok l' ->
  nth_error l n = Some t -> nth_error l' n = Some t' -> asks ms (tb_name t) suffix -> quat_row (tb_data t) suffix i = None ->
  forall k c, In k [lit "roll" ++ suffix; lit "pitch" ++ suffix; lit "yaw" ++ suffix]%list -> sget k (tb_data t') = Some c -> nth_error c i = None.
Proof.
  intros ms l l' n t t' sx i E Ht Ht' Ha Hq k c Hk Hc. pose proof (F2_in _ _ _ (call_treated ms l l' E) n t t' Ht Ht') as T.
  apply (proj2 (requests_asks _ _ _)) in Ha. destruct (tr_new _ _ _ T sx Ha) as [_ (r & R1 & R2) (p & P1 & P2) (y & Y1 & Y2)].
  destruct Hk as [<-|[<-|[<-|[]]]]; [rewrite R1 in Hc|rewrite P1 in Hc|rewrite Y1 in Hc]; injection Hc as <-; [rewrite R2|rewrite P2|rewrite Y2]; rewrite Hq; reflexivity.
Qed.
(** Nothing else changes: the same tables under the same names, and every other column. *)
Theorem C49_others : forall ms l l', add_roll_pitch_yaw (Some ms) l = Ok l' -> map tb_name l' = map tb_name l /\
  forall n t t' k, nth_error l n = Some t -> nth_error l' n = Some t' ->
    (forall suffix, asks ms (tb_name t) suffix -> ~ In k [lit "roll" ++ suffix; lit "pitch" ++ suffix; lit "yaw" ++ suffix]%list) ->
    sget k (tb_data t') = sget k (tb_data t).
Proof.
  intros ms l l' E. pose proof (call_treated ms l l' E) as F. split.
  - clear E. induction F as [|t t' l l' [H _ _] F IH]; [reflexivity|]. cbn [map]. now rewrite H, IH.
  - intros n t t' k Ht Ht' Hk. apply (tr_old _ _ _ (F2_in _ _ _ F n t t' Ht Ht')). intros s Hs Hn. apply (proj1 (requests_asks _ _ _)) in Hs.
    apply (Hk s Hs). destruct Hn as [->|[->| ->]]; cbn [In]; auto.
Qed.
(** The call succeeds exactly if the tables asked for have their quaternions; otherwise it raises KeyError. *)
Theorem C49_missing : forall ms l,
  ((forall t suffix, In t l -> asks ms (tb_name t) suffix -> has_quat (tb_data t) suffix) -> exists l', add_roll_pitch_yaw (Some ms) l = Ok l') /\
  ((exists t suffix, In t l /\ asks ms (tb_name t) suffix /\ ~ has_quat (tb_data t) suffix) -> add_roll_pitch_yaw (Some ms) l = Err KeyError).
Proof.
  intros ms l. split.
  - intros H. change (exists l', add_all ms l = Ok l'). destruct (add_all ms l) as [l'|e] eqn:E; [eauto|].
    apply add_all_err in E as (_ & t & s & H1 & H2 & H3). destruct H3. apply H; [exact H1|]. now apply requests_asks.
  - intros (t & s & H1 & H2 & H3). change (add_all ms l = Err KeyError). destruct (add_all ms l) as [l'|e] eqn:E.
    + exfalso. apply add_all_ok in E. apply In_nth_error in H1 as (n & Hn).
      assert (exists t', nth_error l' n = Some t') as (t' & Ht').
      { clear - E Hn. revert n Hn. induction E; intros [|n] Hn; cbn in Hn |- *; try discriminate; eauto. }
      apply H3. exact (an_has _ _ _ (tr_new _ _ _ (F2_in _ _ _ E n t t' Hn Ht') s (proj2 (requests_asks _ _ _) H2))).
    + apply add_all_err in E as (-> & _). reflexivity.
Qed.
(** Without argument, these topics are treated. *)
Theorem C49_default : forall l, add_roll_pitch_yaw None l =
  add_roll_pitch_yaw (Some [lit "vehicle_attitude"; lit "vehicle_vision_attitude"; lit "vehicle_attitude_groundtruth"; lit "vehicle_attitude_setpoint:_d"]) l.
Proof. reflexivity. Qed.

(** a turn about the vertical axis *)
Example C49_ex_unit : unit_quat (3/5, 0, 0, 4/5) /\ ~ gimbal_lock (3/5, 0, 0, 4/5) /\ rotate (3/5, 0, 0, 4/5) (1, 0, 0) = (-(7/25), 24/25, 0).
Proof.
  split; [unfold unit_quat; lra|]. unfold gimbal_lock. rewrite rotate_matrix by lra. split; [lra|]. apply f_equal2; [apply f_equal2|]; lra.
Qed.
Definition att : table := mkTable (lit "vehicle_attitude")
  [(lit "timestamp", [1; 2]); (lit "q[0]", [1; 3/5]); (lit "q[1]", [0; 0]); (lit "q[2]", [0; 0]); (lit "q[3]", [0; 4/5])].
Example C49_ex : has_quat (tb_data att) [] /\ asks default_messages (tb_name att) [] /\ quat_row (tb_data att) [] 1 = Some (3/5, 0, 0, 4/5) /\
  exists l', add_roll_pitch_yaw None [att] = Ok l' /\ map (fun t => dkeys (tb_data t)) l' =
    [[lit "timestamp"; lit "q[0]"; lit "q[1]"; lit "q[2]"; lit "q[3]"; lit "roll"; lit "pitch"; lit "yaw"]].
Proof.
  split; [intros i [<-|[<-|[<-|[<-|[]]]]]; cbn; tauto|]. split.
  { left. split; [reflexivity|]. split; [now left|]. intros (n & E). apply (f_equal (@rev Z)) in E. rewrite rev_app_distr in E. discriminate E. }
  split; [reflexivity|]. eexists. split; reflexivity.
Qed.
Example C49_ex_d : asks default_messages (lit "vehicle_attitude_setpoint") (lit "_d").
Proof. right. split; [reflexivity|]. right. right. right. now left. Qed.

Definition all_attitude := (@C49_rebuild, @C49_ranges, @C49_unique, @C49_sign, @C49_lock_refuted, @C49_rows, @C49_length, @C49_others, @C49_missing, @C49_default).
Print Assumptions all_attitude.
