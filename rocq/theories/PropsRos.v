(** Property C73: ulog2ros2bag as a program. *)
From Verif Require Import Base Dict PyStr PyFloat Struct ModelTypes ModelApi ModelTools ModelBag ModelRead ModelCommand ModelRos Spec SpecSection SpecLog SpecFilter SpecCommand SpecBag SpecRos
  ProofsFilter ProofsCommand ProofsBag ProofsRos ProofsVersions PropsFilter PropsBag PropsCommand.

(** ** The interface of the installed rosbag2_py *)
(** With a rosbag2_py of a version whose text is ordered as the version is, the program calls it as it is installed. *)
Theorem C73_version_partial : forall e a b c, 0 <= a -> 0 <= b -> 0 <= c -> installed e a b c -> well_ordered a b -> matches e.
Proof.
  intros e a b c Ha Hb Hc (V & I1 & I2) W. unfold matches. rewrite V. split; apply Bool.eq_true_iff_eq.
  - rewrite id_right; [exact I1|auto..|]. destruct W as [W|[W|W]]; auto.
  - rewrite seq_right; [exact I2|auto..|]. destruct W as [W|[W|W]]; [auto| |auto]. right; left. lia.
Qed.
Example C73_version_ex : exists e, installed e 0 15 9 /\ well_ordered 0 15 /\ v_id e = false.
Proof.
  exists (mkEnv None (lit "0.15.9") false false (fun _ _ => Ok tt)). split; [|split; [right; right; lia|reflexivity]]. split; [reflexivity|].
  cbn [v_id v_seq]. unfold at_least. split; (split; [discriminate|lia]).
Qed.
(** Exactly the versions 0.b.c for which what the program concludes is wrong: b has one digit, or three and more digits the
    first two of which come before 25 (or 32), as 0.100.c to 0.249.c, 0.1000.c to 0.2499.c, and so on. *)
Theorem C73_version_law : forall e b c, 0 <= b -> 0 <= c -> installed e 0 b c ->
  (v_id e <> uses_id (v_version e) <-> 3 <= b <= 9 \/ exists k, 1 <= k /\ 10 * 10 ^ k <= b < 25 * 10 ^ k) /\
  (v_seq e <> uses_seqnum (v_version e) <-> 4 <= b <= 9 \/ exists k, 1 <= k /\ 10 * 10 ^ k <= b < 32 * 10 ^ k).
Proof.
  intros e b c Hb Hc (V & I1 & I2). rewrite V.
  assert (X : forall x y P, (x = true <-> P) -> (y = true <-> P) -> x = y) by (intros [|] [|] P H1 H2; intuition congruence).
  assert (Y : forall x y P, (x = true <-> P) -> (y = true <-> ~ P) -> x <> y) by (intros [|] [|] P H1 H2; intuition congruence).
  destruct (Z_lt_le_dec b 100) as [S|S].
  { assert (N : forall z, ~ exists k, 1 <= k /\ 10 * 10 ^ k <= b < z * 10 ^ k).
    { intros z (k & K & A & _). pose proof (Z.pow_le_mono_r 10 1 k ltac:(lia) K) as M. change (10 ^ 1) with 10 in M. lia. }
    split; split; intros H.
    - left. destruct (Z_le_gt_dec 3 b), (Z_le_gt_dec b 9); try lia; (exfalso; apply H; apply (X _ _ _ I1), id_right; lia).
    - destruct H as [H|H]; [|now apply N in H]. apply (Y _ _ _ I1), id_wrong. lia.
    - left. destruct (Z_le_gt_dec 4 b), (Z_le_gt_dec b 9); try lia; (exfalso; apply H; apply (X _ _ _ I2), seq_right; lia).
    - destruct H as [H|H]; [|now apply N in H]. apply (Y _ _ _ I2), seq_wrong. lia. }
  destruct (digits_of b ltac:(lia)) as (k & K). assert (P : (0 < k)%nat) by (destruct k; [cbn in K; lia|lia]).
  pose proof (id_large k b c P K) as L1. pose proof (seq_large k b c P K) as L2.
  assert (A1 : v_id e = true) by (apply I1; unfold at_least; lia). assert (A2 : v_seq e = true) by (apply I2; unfold at_least; lia).
  assert (G : forall x, x <= 100 -> (b < x * 10 ^ Z.of_nat k <-> exists j, 1 <= j /\ 10 * 10 ^ j <= b < x * 10 ^ j)).
  { intros x Hx. split; [intros H; exists (Z.of_nat k); lia|]. intros (j & J & J1 & J2). assert (0 < 10 ^ j) by (apply Z.pow_pos_nonneg; lia).
    rewrite (digits_unique (Z.of_nat k) j b); [lia|lia|lia|lia|nia]. }
  rewrite A1, A2, <- !G by lia. split; split; intros H.
  - right. destruct (Z_lt_le_dec b (25 * 10 ^ Z.of_nat k)) as [l|l]; [exact l|]. apply L1 in l. congruence.
  - destruct H as [H|H]; [lia|]. intros E. symmetry in E. apply L1 in E. lia.
  - right. destruct (Z_lt_le_dec b (32 * 10 ^ Z.of_nat k)) as [l|l]; [exact l|]. apply L2 in l. congruence.
  - destruct H as [H|H]; [lia|]. intros E. symmetry in E. apply L2 in E. lia.
Qed.
(** 0.1024.0 is taken for older than 0.25.0, 0.2500.0 is not. *)
Example C73_version_law_ex : (exists k, 1 <= k /\ 10 * 10 ^ k <= 1024 < 25 * 10 ^ k) /\ uses_id (lit "0.1024.0") = false /\
  ~ (exists k, 1 <= k /\ 10 * 10 ^ k <= 2500 < 25 * 10 ^ k) /\ uses_id (lit "0.2500.0") = true.
Proof.
  split; [exists 2; lia|]. split; [reflexivity|]. split; [|reflexivity]. intros (k & K & A & B).
  assert (k = 2) as -> by (apply (digits_unique k 2 2500); lia). lia.
Qed.
(** As stated for all versions this is wrong: 0.9.1 counts as newer than 0.25.0. *)
Theorem C73_version_refuted : exists e, installed e 0 9 1 /\ ~ matches e /\ v_id e = false /\ uses_id (v_version e) = true.
Proof.
  exists (mkEnv None (lit "0.9.1") false false (fun _ _ => Ok tt)). split; [|split; [|split; reflexivity]].
  - split; [reflexivity|]. cbn [v_id v_seq]. unfold at_least. split; (split; [discriminate|lia]).
  - intros [H _]. vm_compute in H. discriminate.
Qed.

(** ** The bag *)
(** The bag of a run that ends with status 0 holds what each topic contributes. *)
Theorem C73_written : forall e ld a k ro u l, opened e ld a k ro u -> matches e -> contributions ro u (u_data u) l -> ended e ld a k (Exit 0) (bag_of l).
Proof. intros e ld a k ro u l O M H. exact (opened_run _ _ _ _ _ _ _ _ O (topics_contributed _ _ _ _ _ M H)). Qed.
(** The run and the conversion of C58 agree, and an exception leaves the bag as it was then: the topics before it as they
    should be, and of the topic itself nothing or the topic with the messages before the one that failed. *)
Theorem C73_agrees : forall e ld a k ro u, opened e ld a k ro u -> matches e ->
  (forall b, convert_ros2bag ro u = Ok b <-> ended e ld a k (Exit 0) b) /\
  (forall x, convert_ros2bag ro u = Err x <-> exists b, ended e ld a k (Raised x) b) /\
  (forall x b, ended e ld a k (Raised x) b ->
     exists ds d ds' b0, u_data u = ds ++ d :: ds' /\ foldM (bag_topic ro u) ds empty_bag = Ok b0 /\
       (b = b0 /\ len_ts d = Err x \/
        exists t fields n i ms, type_of ro (ds_name d) t /\ sget t (r_types ro) = Some fields /\ len_ts d = Ok n /\ (i < n)%nat /\
          mapM (write_sample ro (ros2_topic u d) fields d) (seq 0 i) = Ok ms /\ write_sample ro (ros2_topic u d) fields d i = Err x /\
          b = begun b0 (ros2_topic u d, lit "px4_msgs/msg/" ++ t) ms)).
Proof.
  intros e ld a k ro u O M. unfold ended, convert_ros2bag. fold empty_bag.
  destruct (topics_run e ro u (u_data u) empty_bag M) as [(b' & E1 & E2)|(ds & d & ds' & b1 & x & b2 & Eu & E1 & E2 & E3 & E4 & E5)].
  - rewrite (opened_run _ _ _ _ _ _ _ _ O E2), E1. split; [|split].
    + intros b. split; [intros H; now injection H as <-|intros H; injection H as <-; reflexivity].
    + intros x. split; [discriminate|intros (b & H); discriminate].
    + intros x b H. discriminate.
  - rewrite (opened_run _ _ _ _ _ _ _ _ O E5), E2. split; [|split].
    + intros b. split; discriminate.
    + intros y. split; [intros H; injection H as <-; eauto|intros (b & H); injection H as <- _; reflexivity].
    + intros y b H. injection H as <- <-. exists ds, d, ds', b1. split; [exact Eu|]. split; [exact E1|].
      destruct (topic_run e ro u b1 d M) as [(b' & E6 & _)|[(z & E6 & E7 & E8)|(z & t & fields & n & i & ms & E6 & T & G & L & Hi & Hm & Hw & E8)]]; [congruence| |].
      * left. rewrite E4 in E8. injection E8 as <- <-. now split.
      * right. rewrite E4 in E8. injection E8 as <- ->. exists t, fields, n, i, ms. split; [|auto 10]. apply calc_type. split; [exact T|].
        apply (f_equal (fun o => match o with Some _ => true | None => false end)) in G. unfold known. destruct (in_dec (list_eq_dec Z.eq_dec) t (dkeys (r_types ro))) as [H|H]; [exact H|].
        exfalso. apply sget_unknown in H. unfold str in H. rewrite H in G. discriminate.
Qed.
(** A topic without timestamps ends the run; the bag has the topics before it. *)
Theorem C73_no_time : forall e ld a k ro u ds d ds' l, opened e ld a k ro u -> matches e -> u_data u = ds ++ d :: ds' -> contributions ro u ds l ->
  sget (lit "timestamp") (ds_data d) = None -> ended e ld a k (Raised KeyError) (bag_of l).
Proof.
  intros e ld a k ro u ds d ds' l O M Eu C H. refine (opened_run _ _ _ _ _ _ (Err KeyError) _ O _).
  rewrite Eu, topics_app, (topics_contributed _ _ _ _ _ M C). cbn [ros_topics]. unfold ros_topic, len_ts. now rewrite H.
Qed.
(** A time that a bag cannot have ends the run with a TypeError; the bag has the topics before it, and the topic itself with
    the messages before that time. *)
Theorem C73_left : forall e ld a k ro u ds d ds' l t fields ts1 z ts2, opened e ld a k ro u -> matches e -> u_data u = ds ++ d :: ds' -> contributions ro u ds l ->
  type_of ro (ds_name d) t -> sget t (r_types ro) = Some fields -> fits ro fields d (ts1 ++ z :: ts2) -> Forall (small_time ro) ts1 ->
  (forall w, ~ written_at (r_np2 ro) 8 false z w) ->
  ended e ld a k (Raised TypeError) (begun (bag_of l) (ros2_topic u d, lit "px4_msgs/msg/" ++ t)
    (map (fun i => (ros2_topic u d, message ro fields d i, 1000 * nth i ts1 0)) (seq 0 (length ts1)))).
Proof.
  intros e ld a k ro u ds d ds' l t fields ts1 z ts2 O M Eu C T G F Sm W. refine (opened_run _ _ _ _ _ _ (Err TypeError) _ O _).
  rewrite Eu, topics_app, (topics_contributed _ _ _ _ _ M C). cbn [ros_topics]. destruct M as [M1 M2].
  rewrite (fits_run _ _ _ _ _ _ _ _ T G F), M1, Bool.eqb_reflx, (late_fails _ _ _ _ _ _ _ _ _ M2 F Sm W). unfold with_msgs, begun.
  cbn [b_topics b_msgs b_skipped b_ntopics b_nmsgs]. now rewrite app_nil_r.
Qed.
(** With a rosbag2_py that takes other arguments than the program concludes, nothing is converted: the first topic with a
    class ends the run with a TypeError, without the topic if the id is wrong, else at its first message. *)
Theorem C73_wrong_version : forall e ld a k ro u ds d ds' l t fields ts, opened e ld a k ro u -> u_data u = ds ++ d :: ds' -> contributions ro u ds l ->
  Forall (fun c => fst (fst c) = []) l -> type_of ro (ds_name d) t -> sget t (r_types ro) = Some fields -> fits ro fields d ts ->
  (v_id e <> uses_id (v_version e) -> ended e ld a k (Raised TypeError) (bag_of l)) /\
  (v_id e = uses_id (v_version e) -> v_seq e <> uses_seqnum (v_version e) -> ts <> [] ->
   ended e ld a k (Raised TypeError) (begun (bag_of l) (ros2_topic u d, lit "px4_msgs/msg/" ++ t) [])).
Proof.
  intros e ld a k ro u ds d ds' l t fields ts O Eu C N T G F. destruct (left_outs_run e ro u ds l empty_bag C N) as (b' & E1 & E2).
  rewrite (fold_bag _ _ _ _ C) in E2. injection E2 as <-. split.
  - intros V. refine (opened_run _ _ _ _ _ _ (Err TypeError) _ O _). rewrite Eu, topics_app, E1. cbn [ros_topics]. rewrite (fits_run _ _ _ _ _ _ _ _ T G F).
    destruct (Bool.eqb (v_id e) (uses_id (v_version e))) eqn:B; [apply Bool.eqb_prop in B; congruence|reflexivity].
  - intros V1 V2 Ne. refine (opened_run _ _ _ _ _ _ (Err TypeError) _ O _). rewrite Eu, topics_app, E1. cbn [ros_topics]. rewrite (fits_run _ _ _ _ _ _ _ _ T G F).
    rewrite V1, Bool.eqb_reflx, (seq_fails _ _ _ _ _ _ _ V2 F Ne). reflexivity.
Qed.

(** ** Before the topics *)
(** The name of the bag: that of -o, or the name of the file without its directory and its ending (a newline after the
    ending stays). *)
Theorem C73_name : forall dir base file, ~ In 47 base -> base <> [] -> base <> [46] -> file = base \/ file = dir ++ [47] ++ base ->
  (forall o, o <> [] -> bag_name file (Some o) = o) /\
  (forall no, no = None \/ no = Some [] ->
     (forall stem, base = stem ++ lit ".ulg" -> bag_name file no = lit "rosbag_" ++ stem) /\
     (forall stem, base = stem ++ lit ".ulg" ++ [10] -> bag_name file no = lit "rosbag_" ++ stem ++ [10]) /\
     ((forall stem, base <> stem ++ lit ".ulg") -> ~ In 10 base -> bag_name file no = lit "rosbag_" ++ base)).
Proof.
  intros dir base file H1 H2 H3 H4. split; [intros [|c o] Ne; [easy|reflexivity]|]. intros no Hno.
  assert (E : bag_name file no = lit "rosbag_" ++ sub_ulg base).
  { destruct (path_last base H1 H2 H3) as (P1 & P2). unfold bag_name. replace (nonempty no) with (@None str) by (destruct Hno as [->| ->]; reflexivity). f_equal. f_equal.
    destruct H4 as [->| ->]; [exact P1|apply P2]. }
  split; [intros stem ->; rewrite E; f_equal; apply sub_ending|]. split; [intros stem ->; rewrite E; f_equal; apply sub_newline|]. intros H5 H6. rewrite E. f_equal. apply sub_other; [exact H5|]. intros s ->. apply H6. apply in_or_app; right. apply in_or_app; right. now left.
Qed.
Example C73_name_ex : bag_name (lit "a.ulg/../log.ulg.ulg") None = lit "rosbag_log.ulg" /\ bag_name (lit "dir/x.ulg") (Some (lit "b")) = lit "b".
Proof. split; reflexivity. Qed.
(** -m: the bag is that of the topics that are asked for, under the names that they have without -m. *)
Theorem C73_selection : forall e cf ld a k f v t defs data ro u l,
  file_of k (ra_file a) = Some (Bytes f) -> (forall keep r, produces (with_filter keep cf) f r -> ld (ra_ignore a) keep f = r) ->
  (forall n, cf_filter cf n = true) -> cf_hdr cf = false -> well_framed f v t defs data -> not_appended defs ->
  produces cf f (Ok u) -> clean_section cf (u_formats u) (msgs data) ->
  v_ros e = Some ro -> matches e -> v_open e (bag_name (ra_file a) (ra_bag a)) (storage_name (ra_mcap a)) = Ok tt -> ra_verbose a = false ->
  forall ds, (exists keep, (forall n, keep n = true <-> asked (ra_messages a) n) /\ ds = filter (fun d => keep (ds_name d)) (u_data u)) ->
  contributions ro u ds l -> ended e ld a k (Exit 0) (bag_of l).
Proof.
  intros e cf ld a k f v t defs data ro u l Hk Hl Hall Hh Hw Ha Hp Hc R M Op Vb ds (keep & K & ->) C.
  destruct (framed_filter (csv_filter (ra_messages a)) cf f v t defs data u Hall Hw Ha Hh Hp Hc) as (w & Pw & O).
  assert (Ed : u_data w = filter (fun d => keep (ds_name d)) (u_data u)).
  { rewrite (on_data _ _ _ O). apply filter_ext. intros d. apply Bool.eq_true_iff_eq. rewrite K, csv_filter_spec. reflexivity. }
  apply (C73_written e ld a k ro w l).
  - split; [exact R| |exact Op|intros Q; congruence]. unfold open_log. unfold file_of in Hk. rewrite Hk. apply Hl. exact Pw.
  - exact M.
  - rewrite Ed. apply (contributions_same ro u w keep); assumption.
Qed.
(** Whatever fails before the topics leaves no bag: the log cannot be read, or the bag cannot be opened, for one of this
    name is there. *)
Theorem C73_no_bag : forall e ld a k ro x, v_ros e = Some ro ->
  (open_log ld k (ra_file a) (ra_ignore a) (csv_filter (ra_messages a)) = Err x -> ros_command e ld a k = mkRosRun (Raised x) None) /\
  (forall u, open_log ld k (ra_file a) (ra_ignore a) (csv_filter (ra_messages a)) = Ok u -> v_open e (bag_name (ra_file a) (ra_bag a)) (storage_name (ra_mcap a)) = Err x ->
   ros_command e ld a k = mkRosRun (Raised x) None).
Proof. intros e ld a k ro x R. unfold ros_command. rewrite R. split; [intros ->; reflexivity|intros u -> O; rewrite storage_is, O; reflexivity]. Qed.
(** Findings.  Without the packages of ROS nothing is written, whatever the log, and the status is 0 ... *)
Theorem C73_unavailable_refuted : forall e ld a k, v_ros e = None -> ros_command e ld a k = mkRosRun (Exit 0) None.
Proof. intros e ld a k H. unfold ros_command. now rewrite H. Qed.
(** ... and -v ends the run with an empty bag if the log's software version is not a number, where the run without -v
    converts the log. *)
Theorem C73_verbose_refuted : forall e ld a k ro u l s, opened e ld (mkRosArgs (ra_file a) (ra_bag a) (ra_mcap a) (ra_messages a) (ra_ignore a) false) k ro u -> matches e ->
  contributions ro u (u_data u) l -> ra_verbose a = true -> sget (lit "ver_sw_release") (u_info u) = Some (VStr s) ->
  ended e ld a k (Raised TypeError) empty_bag /\
  ended e ld (mkRosArgs (ra_file a) (ra_bag a) (ra_mcap a) (ra_messages a) (ra_ignore a) false) k (Exit 0) (bag_of l).
Proof.
  intros e ld a k ro u l s O M C Vb Hs. split; [|exact (C73_written _ _ _ _ _ _ _ O M C)]. destruct O as [O1 O2 O3 O4]. cbn [ra_file ra_bag ra_mcap ra_messages ra_ignore] in *.
  unfold ended, ros_command. rewrite O1, O2, !storage_is, O3, Vb. unfold get_version_info_str, get_version_info. rewrite Hs. reflexivity.
Qed.

(** ** Examples *)
Definition r_env (version : str) (id sq : bool) : rosenv := mkEnv (Some (b_ros true)) version id sq (fun _ _ => Ok tt).
Definition r_args (v : bool) : ros_args := mkRosArgs (lit "d/f.ulg") None true None false v.
Definition r_disk1 : disk := mkDisk [(lit "d/f.ulg", Bytes [])] [].
Definition r_load (u : ulog) : loader := fun _ _ _ => Ok u.
Lemma r_opened version id sq v u : (v = true -> exists s, get_version_info_str u (lit "ver_sw_release") = Ok s) ->
  opened (r_env version id sq) (r_load u) (r_args v) r_disk1 (b_ros true) u.
Proof. intros H. split; [reflexivity|reflexivity|reflexivity|exact H]. Qed.
(** a log with a topic without a class, one that does not fit its class and one that is written *)
Example C73_ex_written : exists l, matches (r_env (lit "0.26.1") true false) /\ contributions (b_ros true) b_log (u_data b_log) l /\
  ended (r_env (lit "0.26.1") true false) (r_load b_log) (r_args true) r_disk1 (Exit 0) (bag_of l) /\ lenZ (b_msgs (bag_of l)) = 2.
Proof.
  destruct (C58_ex_fits true) as (l & C). exists l. assert (M : matches (r_env (lit "0.26.1") true false)) by (split; vm_compute; reflexivity).
  split; [exact M|]. split; [exact C|]. split; [apply (C73_written _ _ _ _ (b_ros true) b_log); [apply r_opened; intros _; exists None; reflexivity|exact M|exact C]|].
  pose proof (fold_bag _ _ _ _ C) as E. pose proof (C58_ex true) as E'. unfold convert_ros2bag in E'. fold empty_bag in E'. rewrite E in E'.
  apply (f_equal (fun r => match r with Ok b => lenZ (b_msgs b) | Err _ => 0 end)) in E'. cbv beta iota in E'. rewrite E'. reflexivity.
Qed.
Lemma gyro_fits np2 multi t1 t2 : fits (b_ros np2) (match sget (lit "SensorGyro") (r_types (b_ros np2)) with Some f => f | None => [] end) (b_gyro multi [t1; t2]) [t1; t2].
Proof.
  constructor.
  + reflexivity.
  + cbn. repeat constructor; cbn; intuition discriminate.
  + split; [cbn; repeat constructor; cbn; intuition discriminate|]. repeat constructor; try (apply plain_lit; reflexivity); cbn; lia.
  + intros f Hf. cbn in Hf. destruct Hf as [<-|[<-|[<-|[<-|[]]]]]; cbn [fd_name].
    * exists (lit "uint64"). split; [left; split; [apply plain_lit; reflexivity|eexists; left; reflexivity]|].
      intros i Hi. cbn in Hi. destruct i as [|[|i]]; [| |lia]; do 3 eexists; (split; [reflexivity|]); (split; [intros n [=]|reflexivity]).
    * exists (lit "boolean"). split; [left; split; [apply plain_lit; reflexivity|eexists; right; left; reflexivity]|].
      intros i Hi. cbn in Hi. destruct i as [|[|i]]; [| |lia]; do 3 eexists; (split; [vm_compute; reflexivity|]); (split; [intros n [= <-]; cbn; lia|reflexivity]).
    * exists (lit "int16[2]"). split; [right; exists (lit "x"), 0%nat, [VInt 0; VInt 0]; split; [apply plain_lit; reflexivity|]; split; [reflexivity|]; split; [cbn; auto|cbn; lia]|].
      intros i Hi. cbn in Hi. destruct i as [|[|i]]; [| |lia]; do 3 eexists; (split; [vm_compute; reflexivity|]); (split; [intros n [= <-]; cbn; lia|reflexivity]).
    * exists (lit "int16[2]"). split; [right; exists (lit "x"), 1%nat, [VInt 0; VInt 0]; split; [apply plain_lit; reflexivity|]; split; [reflexivity|]; split; [cbn; auto|cbn; lia]|].
      intros i Hi. cbn in Hi. destruct i as [|[|i]]; [| |lia]; do 3 eexists; (split; [vm_compute; reflexivity|]); (split; [intros n [= <-]; cbn; lia|reflexivity]).
Qed.
(** the second sample is at 2^54 us, whose time in nanoseconds is not a number of 64 bits with sign: one message is in the bag *)
Definition r_late : ulog := set_data [b_gyro 0 [10; 2 ^ 54]] ulog0.
Example C73_ex_left : exists d ts1 z, u_data r_late = [d] /\ fits (b_ros true) (match sget (lit "SensorGyro") (r_types (b_ros true)) with Some f => f | None => [] end) d (ts1 ++ [z]) /\
  type_of (b_ros true) (ds_name d) (lit "SensorGyro") /\ Forall (small_time (b_ros true)) ts1 /\ (forall w, ~ written_at true 8 false z w) /\ length ts1 = 1%nat /\
  ended (r_env (lit "1.0.0") true true) (r_load r_late) (r_args false) r_disk1 (Raised TypeError)
    (mkBag [(lit "/px4/sensor_gyro", lit "px4_msgs/msg/SensorGyro")] [(lit "/px4/sensor_gyro", b_msg 10 true (-1) 3, 10000)] [] 0 0).
Proof.
  exists (b_gyro 0 [10; 2 ^ 54]), [10], (2 ^ 54). split; [reflexivity|].
  assert (T : type_of (b_ros true) (lit "sensor_gyro") (lit "SensorGyro")). { apply C58_type. split; [vm_compute; reflexivity|]. left; reflexivity. }
  split; [exact (gyro_fits true 0 10 (2 ^ 54))|]. split; [exact T|]. split; [repeat constructor; cbn; lia|]. split; [|split; [reflexivity|vm_compute; reflexivity]].
  intros w (B & _ & It & n & E). unfold in_type in It. change (256 ^ Z.of_nat 8) with 18446744073709551616 in *. change (2 ^ 63) with 9223372036854775808 in B.
  change (1000 * 2 ^ 54) with 18014398509481984000 in E. lia.
Qed.
(** Galactic has 0.9.1: nothing of this log is converted. *)
Example C73_ex_wrong : ended (r_env (lit "0.9.1") false false) (r_load b_log) (r_args false) r_disk1 (Raised TypeError)
  (mkBag [] [] [(lit "estimator_wind", Mismatch); (lit "odd", NoType)] 0 0).
Proof. vm_compute. reflexivity. Qed.
Example C73_ex_wrong_seq : ended (r_env (lit "0.4.0") true false) (r_load b_log) (r_args false) r_disk1 (Raised TypeError)
  (mkBag [(lit "/px4/sensor_gyro_1", lit "px4_msgs/msg/SensorGyro")] [] [(lit "estimator_wind", Mismatch); (lit "odd", NoType)] 0 0).
Proof. vm_compute. reflexivity. Qed.
Example C73_ex_verbose : exists l u, sget (lit "ver_sw_release") (u_info u) = Some (VStr (lit "1")) /\ contributions (b_ros true) u (u_data u) l /\
  opened (r_env (lit "0.26.1") true false) (r_load u) (r_args false) r_disk1 (b_ros true) u.
Proof.
  exists [], (set_info [(lit "ver_sw_release", VStr (lit "1"))] ulog0). split; [reflexivity|]. split; [constructor|]. apply r_opened. discriminate.
Qed.
(** -m on the log of C68_ex_log, read from its bytes; the class A has the fields of the topic a *)
Definition r_a : ros := mkRos [(lit "A", [(lit "timestamp", (lit "uint64", RScalar (VInt 0))); (lit "x", (lit "uint8", RScalar (VInt 0)))])]
  (fun _ v => Ok v) true (fun s => s) (fun _ => false) (fun _ => false).
Example C73_ex_selection : let e := mkEnv (Some r_a) (lit "0.26.1") true false (fun _ _ => Ok tt) in
  let r m := ros_command e read9 (mkRosArgs (lit "d/f.ULG") None false m false false) cmd_disk in
  let written sk := mkRosRun (Exit 0) (Some (lit "rosbag_f.ULG", lit "sqlite3",
    mkBag [(lit "/px4/a", lit "px4_msgs/msg/A")] [(lit "/px4/a", [(lit "timestamp", RScalar (VInt 20)); (lit "x", RScalar (VInt 7))], 20000)] sk 1 1)) in
  r (Some (lit "a,b")) = written [] /\ r None = written [(lit "gps_dump", NoType)].
Proof. cbv zeta. split; vm_compute; reflexivity. Qed.
