(** Property C58: the ROS 2 bag of a log. *)
From Verif Require Import Base Dict PyStr PyFloat Struct ModelTypes ModelApi ModelTools ModelBag SpecBag ProofsBag.

(** The bag holds what each topic contributes: one message for each sample of a topic that has a fitting class, nothing
    for the others, which are named with the reason; the counts printed at the end are those of the bag. *)
Theorem C58_bag : forall ro u l, Forall2 (fun d c => contribution ro u d (fst (fst c)) (snd (fst c)) (snd c)) (u_data u) l ->
  let topics := concat (map (fun c => fst (fst c)) l) in let messages := concat (map (fun c => snd (fst c)) l) in
  convert_ros2bag ro u = Ok (mkBag topics messages (concat (map snd l)) (lenZ topics) (lenZ messages)).
Proof. intros ro u l H topics messages. unfold convert_ros2bag. rewrite (bag_fold _ _ _ _ _ H). reflexivity. Qed.
(** The class of a topic is the one of the specification, and there is at most one. *)
Theorem C58_type : forall ro name t, calc_msgtype ro name = Some t /\ known ro t <-> type_of ro name t.
Proof. exact calc_type. Qed.
Theorem C58_type_unique : forall ro name t t', type_of ro name t -> type_of ro name t' -> t = t'.
Proof. exact type_of_fun. Qed.

(** ** An example *)
Definition b_ros (np2 : bool) : ros :=
  mkRos [(lit "SensorGyro", [(lit "timestamp", (lit "uint64", RScalar (VInt 0))); (lit "ok", (lit "boolean", RScalar (VBool false)));
                             (lit "extra", (lit "uint8", RScalar (VInt 7))); (lit "x", (lit "int16[2]", RArray [VInt 0; VInt 0]))]);
         (lit "Wind", [(lit "timestamp", (lit "uint64", RScalar (VInt 0)))])]
        (fun _ v => Ok v) np2 (fun s => s) (fun _ => false) (fun _ => false).
Definition b_gyro (multi : Z) (ts : list Z) : dataset :=
  mkDS multi 3 (lit "sensor_gyro") [mkFD (lit "timestamp") U64; mkFD (lit "ok") CBool; mkFD (lit "x[0]") I16; mkFD (lit "x[1]") I16] 0
    [(lit "timestamp", mkCol (NI 8 false) ts); (lit "ok", mkCol (NI 1 true) [1; 0]); (lit "x[0]", mkCol (NI 2 true) [65535; 2]);
     (lit "x[1]", mkCol (NI 2 true) [3; 4])].
Definition b_wind : dataset := mkDS 0 4 (lit "estimator_wind") [mkFD (lit "timestamp") U64; mkFD (lit "speed") F32] 0
  [(lit "timestamp", mkCol (NI 8 false) [5]); (lit "speed", mkCol (NF 4) [0])].
Definition b_odd : dataset := mkDS 0 5 (lit "odd") [] 0 [(lit "timestamp", mkCol (NI 8 false) [])].
Definition b_log : ulog := set_data [b_wind; b_odd; b_gyro 1 [10; 20]] ulog0.
Definition b_msg (t : Z) (ok : bool) (x y : Z) : rosmsg :=
  [(lit "timestamp", RScalar (VInt t)); (lit "ok", RScalar (VBool ok)); (lit "extra", RScalar (VInt 7)); (lit "x", RArray [VInt x; VInt y])].
Example C58_ex : forall np2, convert_ros2bag (b_ros np2) b_log =
  Ok (mkBag [(lit "/px4/sensor_gyro_1", lit "px4_msgs/msg/SensorGyro")]
            [(lit "/px4/sensor_gyro_1", b_msg 10 true (-1) 3, 10000); (lit "/px4/sensor_gyro_1", b_msg 20 false 2 4, 20000)]
            [(lit "estimator_wind", Mismatch); (lit "odd", NoType)] 1 2).
Proof. intros [|]; vm_compute; reflexivity. Qed.
Lemma plain_lit (s : str) : forallb (fun c => negb (c =? 46) && negb (c =? 91) && negb (c =? 10)) s = true -> plain s.
Proof. intros H. apply Forall_forall. intros c Hc. rewrite forallb_forall in H. specialize (H c Hc). lia. Qed.
Example C58_ex_fits : forall np2, exists l, Forall2 (fun d c => contribution (b_ros np2) b_log d (fst (fst c)) (snd (fst c)) (snd c)) (u_data b_log) l.
Proof.
  intros np2.
  assert (T1 : type_of (b_ros np2) (lit "estimator_wind") (lit "Wind")).
  { apply C58_type. split; [vm_compute; reflexivity|]. right; left; reflexivity. }
  assert (T2 : type_of (b_ros np2) (lit "sensor_gyro") (lit "SensorGyro")).
  { apply C58_type. split; [vm_compute; reflexivity|]. left; reflexivity. }
  assert (T3 : forall t, ~ type_of (b_ros np2) (lit "odd") t).
  { intros t H. apply C58_type in H as (H & _). vm_compute in H. discriminate. }
  eexists [([], [], [(lit "estimator_wind", Mismatch)]); ([], [], [(lit "odd", NoType)]); (_, _, [])].
  repeat apply Forall2_cons; [..|apply Forall2_nil]; cbn [fst snd].
  - apply co_left_out with (c := mkCol (NI 8 false) [5]); [reflexivity|repeat constructor; cbn; intuition discriminate|].
    eapply (lo_mismatch (b_ros np2) b_wind _ _ (mkFD (lit "speed") F32) T1); [vm_compute; reflexivity|repeat constructor; cbn; intuition discriminate|right; left; reflexivity|].
    exists (lit "speed"). split; [apply plain_lit; reflexivity|]. split; [left; reflexivity|]. cbn. intuition discriminate.
  - apply co_left_out with (c := mkCol (NI 8 false) []); [reflexivity|constructor|]. apply lo_type, T3.
  - eapply (co_written (b_ros np2) b_log (b_gyro 1 [10; 20]) _ _ [10; 20] T2); [vm_compute; reflexivity| |].
    2:{ repeat constructor; cbn; destruct np2; cbn; lia. }
    constructor.
    + reflexivity.
    + cbn. repeat constructor; cbn; intuition discriminate.
    + split; [cbn; repeat constructor; cbn; intuition discriminate|]. repeat constructor; try (apply plain_lit; reflexivity); cbn; lia.
    + intros f Hf. cbn in Hf. destruct Hf as [<-|[<-|[<-|[<-|[]]]]]; cbn [fd_name].
      * exists (lit "uint64"). split; [left; split; [apply plain_lit; reflexivity|eexists; left; reflexivity]|].
        intros i Hi. cbn in Hi. destruct i as [|[|i]]; [| |lia]; do 3 eexists; (split; [vm_compute; reflexivity|]); (split; [intros n [=]|reflexivity]).
      * exists (lit "boolean"). split; [left; split; [apply plain_lit; reflexivity|eexists; right; left; reflexivity]|].
        intros i Hi. cbn in Hi. destruct i as [|[|i]]; [| |lia]; do 3 eexists; (split; [vm_compute; reflexivity|]); (split; [intros n [= <-]; cbn; lia|reflexivity]).
      * exists (lit "int16[2]"). split; [right; exists (lit "x"), 0%nat, [VInt 0; VInt 0]; split; [apply plain_lit; reflexivity|]; split; [reflexivity|]; split; [cbn; auto|cbn; lia]|].
        intros i Hi. cbn in Hi. destruct i as [|[|i]]; [| |lia]; do 3 eexists; (split; [vm_compute; reflexivity|]); (split; [intros n [= <-]; cbn; lia|reflexivity]).
      * exists (lit "int16[2]"). split; [right; exists (lit "x"), 1%nat, [VInt 0; VInt 0]; split; [apply plain_lit; reflexivity|]; split; [reflexivity|]; split; [cbn; auto|cbn; lia]|].
        intros i Hi. cbn in Hi. destruct i as [|[|i]]; [| |lia]; do 3 eexists; (split; [vm_compute; reflexivity|]); (split; [intros n [= <-]; cbn; lia|reflexivity]).
Qed.
(** A field belongs to the array of the class that has its name without the number in brackets at the end. *)
Theorem C58_index : forall s, (forall b, numbered s b -> strip_index s = b) /\ ((forall b, ~ numbered s b) -> strip_index s = s).
Proof. intros s. split; [exact (strip_numbered s)|exact (strip_other s)]. Qed.
Example C58_index_ex : numbered (lit "a[3]b[12]") (lit "a[3]b").
Proof. exists (lit "a[3]b"), (lit "12"), []. split; [discriminate|]. split; [cbn; repeat constructor; lia|]. split; [now left|]. split; reflexivity. Qed.
(** Whatever is in the bag, each message stands at the time that the specification gives for a sample of the log. *)
Theorem C58_times : forall ro u b m, (forall d c, In d (u_data u) -> sget (lit "timestamp") (ds_data d) = Some c -> exists n sg, c_type c = NI n sg /\ (0 < n)%nat) ->
  convert_ros2bag ro u = Ok b -> In m (b_msgs b) ->
  exists d i n sg raw, In d (u_data u) /\ at_ d (lit "timestamp") i = Some (NI n sg, raw) /\ written_at (r_np2 ro) n sg raw (snd m).
Proof.
  intros ro u b m HT H Hm. destruct (proj1 (Forall_forall _ _) (bag_timed _ _ _ H) m Hm) as (d & i & ty & raw & Hd & Ha & N & B).
  pose proof Ha as Ha'. unfold at_ in Ha'. destruct (sget (lit "timestamp") (ds_data d)) as [c|] eqn:E; [|discriminate].
  destruct (HT d c Hd E) as (n & sg & Ht & Hn). destruct (nth_error (c_raw c) i); [|discriminate]. cbn in Ha'. injection Ha' as E1 E2.
  rewrite Ht in E1. subst ty. exists d, i, n, sg, raw. split; [exact Hd|]. split; [exact Ha|]. now apply nanoseconds_inv.
Qed.
Example C58_times_ex : forall np2, exists b, convert_ros2bag (b_ros np2) b_log = Ok b /\ b_msgs b <> [] /\
  (forall d c, In d (u_data b_log) -> sget (lit "timestamp") (ds_data d) = Some c -> exists n sg, c_type c = NI n sg /\ (0 < n)%nat).
Proof.
  intros np2. eexists. split; [apply C58_ex|]. split; [discriminate|].
  intros d c [<-|[<-|[<-|[]]]] E; apply (f_equal (option_map c_type)) in E; exists 8%nat, false; (split; [|lia]);
    apply (f_equal (fun o => match o with Some x => x | None => NF 4 end)) in E; symmetry; exact E.
Qed.
(** A topic without a timestamp ends the conversion, even when its class does not exist and it would be left out. *)
Theorem C58_no_time : forall ro u d rest, u_data u = d :: rest -> sget (lit "timestamp") (ds_data d) = None -> convert_ros2bag ro u = Err KeyError.
Proof. intros ro u d rest E H. unfold convert_ros2bag. rewrite E. cbn [foldM]. unfold bag_topic, len_ts. rewrite H. reflexivity. Qed.
(** Findings.  With numpy 2 a large timestamp is written at a wrong time without notice (here 2^61 us at time 0) ... *)
Theorem C58_time_refuted : exists u b m, convert_ros2bag (b_ros true) u = Ok b /\ b_msgs b = [(lit "/px4/sensor_gyro", m, 0)] /\
  sget (lit "timestamp") m = Some (RScalar (VInt (2 ^ 61))).
Proof. exists (set_data [b_gyro 0 [2 ^ 61]] ulog0). do 2 eexists. split; [vm_compute; reflexivity|]. split; vm_compute; reflexivity. Qed.
(** ... and with numpy 1 rounded: 80 years after 1970 in microseconds, as GPS times are. *)
Theorem C58_float_time_refuted : exists u b m t, convert_ros2bag (b_ros false) u = Ok b /\ b_msgs b = [(lit "/px4/sensor_gyro", m, t)] /\
  sget (lit "timestamp") m = Some (RScalar (VInt 2524607999999999)) /\ t <> 2524607999999999000.
Proof. exists (set_data [b_gyro 0 [2524607999999999]] ulog0). do 3 eexists. split; [vm_compute; reflexivity|]. split; [reflexivity|]. split; [reflexivity|]. discriminate. Qed.
(** An array that is longer than that of the class is not left out as other mismatches are: it ends the conversion. *)
Theorem C58_longer_refuted : forall np2, convert_ros2bag (b_ros np2)
    (set_data [b_gyro 0 [1]; mkDS 0 6 (lit "sensor_gyro") [mkFD (lit "x[2]") I16] 0 [(lit "timestamp", mkCol (NI 8 false) [1]); (lit "x[2]", mkCol (NI 2 true) [5])]] ulog0)
  = Err IndexError.
Proof. intros [|]; vm_compute; reflexivity. Qed.
