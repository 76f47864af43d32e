(** What ulog2ros2bag promises, independent of how it is computed. *)
From Verif Require Import Base Dict PyStr PyFloat Struct ModelTypes ModelApi ModelTools ModelBag.

(** ** Message types *)
(** [$] accepts the end of the name and a newline before it. *)
Definition at_end (s : str) : Prop := s = [] \/ s = [10].
Definition a_digit (ro : ros) (c : Z) : Prop := 48 <= c <= 57 \/ (128 <= c /\ r_digit ro c = true).
Definition a_word (ro : ros) (c : Z) : Prop :=
  48 <= c <= 57 \/ 65 <= c <= 90 \/ 97 <= c <= 122 \/ c = 95 \/ (128 <= c /\ r_word ro c = true).
Definition word (ro : ros) (s : str) : Prop := s <> [] /\ Forall (a_word ro) s.
Definition is (t : str) (s : str) : Prop := exists e, at_end e /\ s = t ++ e.
Definition starts (t : str) (s : str) : Prop := exists e, s = t ++ e.
(** a word, then [t], then the end *)
Definition ends_in (ro : ros) (t : str) (s : str) : Prop := exists w e, word ro w /\ at_end e /\ s = w ++ t ++ e.
(** The types of topics that are not named after their type, in the order in which they are tried. *)
Definition special (ro : ros) : list ((str -> Prop) * str) :=
  [((fun n => exists d e, a_digit ro d /\ at_end e /\ n = lit "actuator_controls_status_" ++ d :: e), lit "ActuatorControlsStatus");
   (starts (lit "actuator_outputs"), lit "ActuatorOutputs");
   (starts (lit "config_overrides"), lit "ConfigOverrides");
   ((fun n => exists r, n = lit "estimator_aid_src_" ++ r /\
       (is (lit "gnss_yaw") r \/ is (lit "ev_yaw") r \/ is (lit "fake_hgt") r \/ is (lit "airspeed") r \/ is (lit "sideslip") r \/ ends_in ro (lit "_hgt") r)), lit "EstimatorAidSource1d");
   ((fun n => exists r, n = lit "estimator_aid_src_" ++ r /\
       (is (lit "drag") r \/ is (lit "aux_vel") r \/ is (lit "optical_flow") r \/ ends_in ro (lit "_pos") r \/ is (lit "aux_global_position") r)), lit "EstimatorAidSource2d");
   ((fun n => exists r, n = lit "estimator_aid_src_" ++ r /\
       (is (lit "ev_vel") r \/ is (lit "gnss_vel") r \/ is (lit "gravity") r \/ is (lit "mag") r)), lit "EstimatorAidSource3d");
   (starts (lit "estimator_ev_pos_bias"), lit "EstimatorBias3d");
   ((fun n => starts (lit "estimator_baro_bias") n \/ starts (lit "estimator_gnss_hgt_bias") n), lit "EstimatorBias");
   (starts (lit "estimator_innovation"), lit "EstimatorInnovations");
   (is (lit "px4io_status"), lit "Px4ioStatus");
   (is (lit "vehicle_gps_position"), lit "SensorGps");
   ((fun n => exists c r, a_word ro c /\ n = lit "sensors_status_" ++ c :: r), lit "SensorsStatus");
   (starts (lit "vehicle_angular_velocity"), lit "VehicleAngularVelocity");
   ((fun n => ends_in ro (lit "attitude") n \/ ends_in ro (lit "attitude_groundtruth") n), lit "VehicleAttitude");
   (ends_in ro (lit "attitude_setpoint"), lit "VehicleAttitudeSetpoint");
   ((fun n => exists w r, word ro w /\ n = w ++ lit "_command" ++ r), lit "VehicleCommand");
   ((fun n => exists w c r, word ro w /\ a_word ro c /\ n = w ++ lit "_control_" ++ c :: r), lit "VehicleControlMode");
   ((fun n => exists p, In p [lit "aux_"; lit "estimator_"; lit "vehicle_"; lit "external_ins_"] /\
       (is (p ++ lit "global_position") n \/ is (p ++ lit "global_position_groundtruth") n)), lit "VehicleGlobalPosition");
   ((fun n => ends_in ro (lit "_local_position") n \/ ends_in ro (lit "_local_position_groundtruth") n), lit "VehicleLocalPosition");
   (ends_in ro (lit "_odometry"), lit "VehicleOdometry");
   ((fun n => is (lit "estimator_optical_flow_vel") n \/ is (lit "vehicle_optical_flow_vel") n), lit "VehicleOpticalFlowVel");
   (starts (lit "vehicle_thrust_setpoint"), lit "VehicleThrustSetpoint");
   (starts (lit "vehicle_torque_setpoint"), lit "VehicleTorqueSetpoint");
   ((fun n => is (lit "wind") n \/ is (lit "estimator_wind") n), lit "Wind")].
Inductive first_of {A} : list ((A -> Prop) * str) -> A -> str -> Prop :=
| fo_here : forall (P : A -> Prop) t l a, P a -> first_of ((P, t) :: l) a t
| fo_next : forall (P : A -> Prop) t l a x, ~ P a -> first_of l a x -> first_of ((P, t) :: l) a x.
(** px4_msgs has a class of that name *)
Definition known (ro : ros) (t : str) : Prop := In t (dkeys (r_types ro)).
(** The name in camel case (ASCII): underscores are left out, a letter is upper case exactly if no letter stands before it. *)
Definition letter (c : Z) : bool := ((65 <=? c) && (c <=? 90)) || ((97 <=? c) && (c <=? 122)).
Definition upper (c : Z) : Z := if (97 <=? c) && (c <=? 122) then c - 32 else c.
Definition lower (c : Z) : Z := if (65 <=? c) && (c <=? 90) then c + 32 else c.
Definition camel (s : str) : str :=
  concat (map (fun i => let c := nth i s 95 in
                        if c =? 95 then [] else [if Nat.eqb i 0 then upper c else if letter (nth (i - 1) s 95) then lower c else upper c])
              (seq 0 (length s))).
Definition camel_case (ro : ros) (s t : str) : Prop :=
  (Forall (fun c => c < 128) s -> t = camel s) /\ (~ Forall (fun c => c < 128) s -> t = r_camel ro s).
(** The class for a topic: the name in camel case, otherwise the first of the special ones. *)
Definition type_of (ro : ros) (name t : str) : Prop :=
  (camel_case ro name t \/ (forall c, camel_case ro name c -> ~ known ro c) /\ first_of (special ro) name t) /\ known ro t.

(** ** Messages *)
(** a field name as it is in a format: no dot, bracket or newline *)
Definition plain (s : str) : Prop := Forall (fun c => c <> 46 /\ c <> 91 /\ c <> 10) s.
Definition elem_name (b : str) (j : nat) : str := b ++ lit "[" ++ str_of_Z (Z.of_nat j) ++ lit "]".
(** the Python value for a field of ROS type [ty]: bool for an int8 (bool is an int8 in ULog), else the number *)
Definition ros_value (ty : str) (t : nptype) (raw : Z) : value :=
  match t with
  | NI 1 true => if starts_with (lit "bool") ty then VBool (negb (raw =? 0)) else np_elem t raw
  | _ => np_elem t raw
  end.
(** sample [i] of a column *)
Definition at_ (d : dataset) (name : str) (i : nat) : option (nptype * Z) :=
  match sget name (ds_data d) with Some c => option_map (pair (c_type c)) (nth_error (c_raw c) i) | None => None end.
(** what the message holds in place of a field: the sample, or the value of a new message if the log has no such field *)
Definition held (ro : ros) (d : dataset) (i : nat) (ty name : str) (new : value) : value :=
  if existsb (fun f => str_eqb (fd_name f) name) (ds_fields d) then
    match at_ d name i with
    | Some (t, raw) => match r_conv ro ty (ros_value ty t raw) with Ok w => w | Err _ => new end
    | None => new
    end
  else new.
Fixpoint mapi {A B} (f : nat -> A -> B) (n : nat) (l : list A) : list B :=
  match l with [] => [] | x :: r => f n x :: mapi f (S n) r end.
Definition message (ro : ros) (fields : rostype) (d : dataset) (i : nat) : rosmsg :=
  map (fun f => (fst f, match snd (snd f) with
                        | RScalar v => RScalar (held ro d i (fst (snd f)) (fst f) v)
                        | RArray l => RArray (mapi (fun j => held ro d i (fst (snd f)) (elem_name (fst f) j)) O l)
                        end)) fields.

(** The topic and the class fit: each field of the log is a field of the class or an element of an array field of the
    class, and all its samples are accepted there. *)
Definition slot (fields : rostype) (name ty : str) : Prop :=
  plain name /\ (exists v, In (name, (ty, RScalar v)) fields) \/
  exists b j l, plain b /\ name = elem_name b j /\ In (b, (ty, RArray l)) fields /\ (j < length l)%nat.
Record fits (ro : ros) (fields : rostype) (d : dataset) (ts : list Z) : Prop := mkFits {
  fi_time : sget (lit "timestamp") (ds_data d) = Some (mkCol (NI 8 false) ts);
  fi_names : NoDup (map fd_name (ds_fields d));
  fi_type : NoDup (dkeys fields) /\ Forall plain (dkeys fields);
  fi_slots : forall f, In f (ds_fields d) -> exists ty, slot fields (fd_name f) ty /\
    forall i, (i < length ts)%nat -> exists t raw w, at_ d (fd_name f) i = Some (t, raw) /\
      (forall n, t = NI n true -> 0 <= raw < 256 ^ Z.of_nat n) /\ r_conv ro ty (ros_value ty t raw) = Ok w }.
(** the times that are multiplied without loss: numpy 1 computes with floats, and a bag has 64 bit times *)
Definition small_time (ro : ros) (z : Z) : Prop := 0 <= z /\ (if r_np2 ro then 1000 * z < 2 ^ 63 else 1000 * z <= 2 ^ 53).
(** Why a topic is left out. *)
Inductive left_out (ro : ros) (d : dataset) : reason -> Prop :=
| lo_type : (forall t, ~ type_of ro (ds_name d) t) -> left_out ro d NoType
| lo_composed : forall t f, type_of ro (ds_name d) t -> In f (ds_fields d) -> In 46 (fd_name f) -> left_out ro d Composed
| lo_mismatch : forall t fields f, type_of ro (ds_name d) t -> sget t (r_types ro) = Some fields ->
    Forall (fun g => ~ In 46 (fd_name g)) (ds_fields d) -> In f (ds_fields d) ->
    (exists b, plain b /\ (fd_name f = b \/ exists j, fd_name f = elem_name b j) /\ ~ In b (dkeys fields)) -> left_out ro d Mismatch.
(** What one topic of the log contributes. *)
Inductive contribution (ro : ros) (u : ulog) (d : dataset) : list (str * str) -> list (str * rosmsg * Z) -> list (str * reason) -> Prop :=
| co_written : forall t fields ts, type_of ro (ds_name d) t -> sget t (r_types ro) = Some fields -> fits ro fields d ts -> Forall (small_time ro) ts ->
    contribution ro u d [(ros2_topic u d, lit "px4_msgs/msg/" ++ t)]
      (map (fun i => (ros2_topic u d, message ro fields d i, 1000 * nth i ts 0)) (seq 0 (length ts))) []
| co_left_out : forall why c, sget (lit "timestamp") (ds_data d) = Some c -> Forall (fun f => ~ In 10 (fd_name f)) (ds_fields d) ->
    left_out ro d why -> contribution ro u d [] [] [(ds_name d, why)].

(** [s] is [base] with a number in brackets at its end (or before a final newline). *)
Definition numbered (s base : str) : Prop :=
  exists a ds e, ds <> [] /\ Forall (fun c => 48 <= c <= 57) ds /\ (e = [] \/ e = [10]) /\
    s = a ++ [91] ++ ds ++ [93] ++ e /\ base = a ++ e.

(** The time at which a sample with the timestamp [raw] of integer type is written: thousand times its value, reduced to
    the timestamp's type by numpy 2, which refuses types of one byte, and to int64 by numpy 1, which computes with doubles
    if the type is uint64. *)
Definition in_type (n : nat) (sg : bool) (z : Z) : Prop :=
  if sg then - 256 ^ Z.of_nat n <= 2 * z < 256 ^ Z.of_nat n else 0 <= z < 256 ^ Z.of_nat n.
Definition written_at (np2 : bool) (n : nat) (sg : bool) (raw t : Z) : Prop :=
  let ns := 1000 * (if sg then to_signed n raw else raw) in
  (- 2 ^ 63 <= t < 2 ^ 63) /\
  if np2 then n <> 1%nat /\ in_type n sg t /\ exists k, t = ns + k * 256 ^ Z.of_nat n
  else if Nat.eqb n 8 && negb sg then t = rnd (1000 * rnd raw) else exists k, t = ns + k * 2 ^ 64.
