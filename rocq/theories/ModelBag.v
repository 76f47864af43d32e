(** convert_ulog2ros2bag (ulog2ros2bag.py), on a loaded log: message types, conversion of the samples and the bag.
    Left out: the command line, the name of the bag and its storage, what -v prints. *)
From Verif Require Import Base Dict PyStr PyFloat Struct ModelTypes ModelApi ModelTools.

(** What the ROS installation and the interpreter provide.
    [r_types]: the classes of px4_msgs.msg by name, each with its fields: name, type as text, value in a new message.
    [r_conv t v]: what a field (or array element) of type t holds after v was assigned to it, or the exception.
    [r_np2]: numpy 2, where an element keeps its type when it is multiplied with an int.
    [r_camel]: to_camel_case for names that are not ASCII.  [r_word], [r_digit]: \w and \d outside ASCII. *)
Inductive rosval := RScalar (v : value) | RArray (l : list value).
(** a message class of px4_msgs: name, type and first value of its fields
    (get_fields_and_field_types, 243, 354) *)
Definition rostype := dict str (str * rosval).
(** a message object: its attributes (365-385) *)
Definition rosmsg := dict str rosval.
(** What the imports 22-33 provide. *)
Record ros := mkRos {
  r_types : dict str rostype; r_conv : str -> value -> res value; r_np2 : bool;
  r_camel : str -> str; r_word : Z -> bool; r_digit : Z -> bool }.

(** ** to_camel_case (104-107), with str.title for ASCII *)
Fixpoint title (cased : bool) (s : str) : str :=
  match s with
  | [] => []
  | c :: r => if (97 <=? c) && (c <=? 122) then (if cased then c else c - 32) :: title true r
              else if (65 <=? c) && (c <=? 90) then (if cased then c + 32 else c) :: title true r
              else c :: title false r
  end.
(** to_camel_case (104-107) *)
Definition to_camel_case (ro : ros) (s : str) : str :=
  if forallb (fun c => c <? 128) s then concat (map (title false) (split1 95 s)) else r_camel ro s.

(** ** Regular expressions as far as calc_msgtype needs them.  re.match only asks whether some
    prefix matches, so the kind of repetition (greedy or not) makes no difference. The
    patterns of 308-333. *)
Inductive re :=
| Lit (s : str) | Digit | Word1 | Word0 | End_
| Opt (r : re) | Or (r1 r2 : re) | Seq (r1 r2 : re).
(** a character \w matches (308-333) *)
Definition word_char (ro : ros) (c : Z) : bool :=
  is_digit c || ((65 <=? c) && (c <=? 90)) || ((97 <=? c) && (c <=? 122)) || (c =? 95) || ((128 <=? c) && r_word ro c).
(** a character \d matches (309) *)
Definition digit_char (ro : ros) (c : Z) : bool := is_digit c || ((128 <=? c) && r_digit ro c).
(** \w+ followed by the rest of the pattern (308-333) *)
Fixpoint words (ro : ros) (s : str) (k : str -> bool) : bool :=
  match s with [] => false | c :: r => word_char ro c && (k r || words ro r k) end.
(** whether the pattern matches at the start, with [k] for the rest of the pattern (341) *)
Fixpoint re_match (ro : ros) (r : re) (s : str) (k : str -> bool) : bool :=
  match r with
  | Lit p => starts_with p s && k (skipn (length p) s)
  | Digit => match s with [] => false | c :: s' => digit_char ro c && k s' end
  | Word1 => words ro s k
  | Word0 => k s || words ro s k
  | End_ => match s with [] => k s | [c] => (c =? 10) && k s | _ => false end     (* $ *)
  | Opt a => k s || re_match ro a s k
  | Or a b => re_match ro a s k || re_match ro b s k
  | Seq a b => re_match ro a s (fun s' => re_match ro b s' k)
  end.
(** re.match(pattern, topic_name) is not None (341) *)
Definition py_match (ro : ros) (r : re) (s : str) : bool := re_match ro r s (fun _ => true).
(** (a)|(b)|... (312-316, 326, 329) *)
Fixpoint ors (l : list re) : re :=
  match l with [] => End_ | [r] => r | r :: l' => Or r (ors l') end.
(** patterns one after the other (308-333) *)
Fixpoint seqs (l : list re) : re :=
  match l with [] => Lit [] | [r] => r | r :: l' => Seq r (seqs l') end.

(** ** calc_msgtype (305-345) *)
(** REGEX_EXCEPTIONS (308-333), in order *)
Definition EXCEPTIONS : list (re * str) :=
  [(seqs [Lit (lit "actuator_controls_status_"); Digit; End_], lit "ActuatorControlsStatus");
   (seqs [Lit (lit "actuator_outputs"); Word0], lit "ActuatorOutputs");
   (seqs [Lit (lit "config_overrides"); Word0], lit "ConfigOverrides");
   (seqs [Lit (lit "estimator_aid_src_");
          ors [Lit (lit "gnss_yaw"); Lit (lit "ev_yaw"); Lit (lit "fake_hgt"); Lit (lit "airspeed"); Lit (lit "sideslip");
               Seq Word1 (Lit (lit "_hgt"))]; End_], lit "EstimatorAidSource1d");
   (seqs [Lit (lit "estimator_aid_src_");
          ors [Lit (lit "drag"); Lit (lit "aux_vel"); Lit (lit "optical_flow"); Seq Word1 (Lit (lit "_pos"));
               Lit (lit "aux_global_position")]; End_], lit "EstimatorAidSource2d");
   (seqs [Lit (lit "estimator_aid_src_");
          ors [Lit (lit "ev_vel"); Lit (lit "gnss_vel"); Lit (lit "gravity"); Lit (lit "mag")]; End_], lit "EstimatorAidSource3d");
   (Lit (lit "estimator_ev_pos_bias"), lit "EstimatorBias3d");
   (seqs [Lit (lit "estimator_"); ors [Lit (lit "baro"); Lit (lit "gnss_hgt")]; Lit (lit "_bias")], lit "EstimatorBias");
   (seqs [Lit (lit "estimator_innovation"); Word0], lit "EstimatorInnovations");
   (seqs [Lit (lit "px4io_status"); End_], lit "Px4ioStatus");
   (seqs [Lit (lit "vehicle_gps_position"); End_], lit "SensorGps");
   (seqs [Lit (lit "sensors_status_"); Word1], lit "SensorsStatus");
   (seqs [Lit (lit "vehicle_angular_velocity"); Word0], lit "VehicleAngularVelocity");
   (seqs [Word1; Lit (lit "attitude"); Opt (Lit (lit "_groundtruth")); End_], lit "VehicleAttitude");
   (seqs [Word1; Lit (lit "attitude_setpoint"); End_], lit "VehicleAttitudeSetpoint");
   (seqs [Word1; Lit (lit "_command"); Word0], lit "VehicleCommand");
   (seqs [Word1; Lit (lit "_control_"); Word1], lit "VehicleControlMode");
   (seqs [ors [Lit (lit "aux_"); Lit (lit "estimator_"); Lit (lit "vehicle_"); Lit (lit "external_ins_")];
          Lit (lit "global_position"); Opt (Lit (lit "_groundtruth")); End_], lit "VehicleGlobalPosition");
   (seqs [Word1; Lit (lit "_local_position"); Opt (Lit (lit "_groundtruth")); End_], lit "VehicleLocalPosition");
   (seqs [Word1; Lit (lit "_odometry"); End_], lit "VehicleOdometry");
   (seqs [ors [Lit (lit "estimator"); Lit (lit "vehicle")]; Lit (lit "_optical_flow_vel"); End_], lit "VehicleOpticalFlowVel");
   (seqs [Lit (lit "vehicle_thrust_setpoint"); Word0], lit "VehicleThrustSetpoint");
   (seqs [Lit (lit "vehicle_torque_setpoint"); Word0], lit "VehicleTorqueSetpoint");
   (seqs [Opt (Lit (lit "estimator_")); Lit (lit "wind"); End_], lit "Wind")].
(** calc_msgtype (305-345) *)
Definition calc_msgtype (ro : ros) (name : str) : option str :=
  let direct := to_camel_case ro name in
  if match sget direct (r_types ro) with Some _ => true | None => false end then Some direct
  else option_map snd (find (fun p => py_match ro (fst p) name) EXCEPTIONS).

(** ** Field names *)
(** re.match(r"(.*?)\.(.*?)", name) (235): a dot that no newline precedes *)
Fixpoint composed_name (s : str) : bool :=
  match s with [] => false | c :: r => (c =? 46) || (negb (c =? 10) && composed_name r) end.
(** digits and "]" at the start: their value and what follows.  Simplification: digits outside
    ASCII are not taken as \d. Used by the patterns of 245 and 367. *)
Fixpoint digits_bracket (some : bool) (acc : Z) (s : str) : option (Z * str) :=
  match s with
  | [] => None
  | c :: r => if is_digit c then digits_bracket true (acc * 10 + (c - 48)) r
              else if (c =? 93) && some then Some (acc, r) else None
  end.
(** re.sub(r"\[\d+\]$", "", name) (245): the first bracketed number at the end of the name *)
Fixpoint strip_index (s : str) : str :=
  match s with
  | [] => []
  | c :: r =>
    if c =? 91 then
      match digits_bracket false 0 r with
      | Some (_, t) => if match t with [] => true | [x] => x =? 10 | _ => false end then t else c :: strip_index r
      | None => c :: strip_index r
      end
    else c :: strip_index r
  end.
(** re.match(r"(.*?)\[(\d+)\]", name) (367): name and index *)
Fixpoint array_match (s : str) : option (str * Z) :=
  match s with
  | [] => None
  | c :: r =>
    match (if c =? 91 then digits_bracket false 0 r else None) with
    | Some (i, _) => Some ([], i)
    | None => if c =? 10 then None else match array_match r with Some (b, i) => Some (c :: b, i) | None => None end
    end
  end.

(** ** ros2ify_value (348-360) *)
Definition ros2ify_value (fields : rostype) (name : str) (t : nptype) (raw : Z) : res value :=
  match sget name fields with
  | None => Err KeyError
  | Some (ty, _) =>
    match t with
    | NI 1 true => if starts_with (lit "bool") ty then Ok (VBool (negb (to_signed 1 raw =? 0))) else Ok (np_elem t raw)
    | _ => Ok (np_elem t raw)
    end
  end.
(** l[n] = x of an array (373) *)
Fixpoint set_nth {A} (l : list A) (n : nat) (x : A) : list A :=
  match l, n with [], _ => [] | _ :: r, O => x :: r | y :: r, S m => y :: set_nth r m x end.
(** ** ros2_msg_from_ulg_topic (363-385): the body of the loop (366-383).  Assigning to an attribute is the setter of the message class, to an element
    that of an array of fixed length (the order of its two checks is not modelled). *)
Definition set_field (ro : ros) (fields : rostype) (d : dataset) (i : nat) (msg : rosmsg) (f : fielddata) : res rosmsg :=
  let* x := elem d (fd_name f) i in
  match array_match (fd_name f) with
  | Some (b, j) =>
    let* v := ros2ify_value fields b (fst x) (snd x) in
    match sget b msg, sget b fields with
    | Some (RArray l), Some (ty, _) =>
      if j <? lenZ l then let* w := r_conv ro ty v in Ok (sset b (RArray (set_nth l (Z.to_nat j) w)) msg) else Err IndexError
    | Some (RScalar _), _ => Err TypeError
    | _, _ => Err AttributeError
    end
  | None =>
    let* v := ros2ify_value fields (fd_name f) (fst x) (snd x) in
    match sget (fd_name f) msg, sget (fd_name f) fields with
    | Some (RScalar _), Some (ty, _) => let* w := r_conv ro ty v in Ok (sset (fd_name f) (RScalar w) msg)
    | Some (RArray _), _ => Err AssertionError
    | _, _ => Err AttributeError
    end
  end.
(** msg = MsgType() (365) *)
Definition new_msg (fields : rostype) : rosmsg := map (fun f => (fst f, snd (snd f))) fields.
(** ros2_msg_from_ulg_topic (363-385) *)
Definition ros2_msg (ro : ros) (fields : rostype) (d : dataset) (i : nat) : res rosmsg :=
  foldM (set_field ro fields d i) (ds_fields d) (new_msg fields).

(** ** data["timestamp"][i] * 1000 (273) and int() of it: numpy 2 keeps the type and wraps (an int that does not fit the
    type is refused), numpy 1 computes with int64, or with float64 for uint64.  Simplification: no float timestamps. *)
Definition wrap (n : nat) (sg : bool) (z : Z) : Z :=
  let m := z mod 256 ^ Z.of_nat n in if sg then to_signed n m else m.
(** int(ts) (273, 277) *)
Definition nanoseconds (np2 : bool) (t : nptype) (raw : Z) : res Z :=
  match t with
  | NF _ => Err Unmodelled
  | NI n sg =>
    let z := if sg then to_signed n raw else raw in
    if np2 then if Nat.eqb n 1 then Err OverflowError else Ok (wrap n sg (z * 1000))
    else if Nat.eqb n 8 && negb sg then Ok (rnd (rnd z * 1000)) else Ok (wrap 8 true (z * 1000))
  end.

(** ** The bag.  Simplification: what serialize_message makes of a message is not modelled, the bag holds the message.
    The time of writer.write is an int64 (pybind refuses others). *)
(** why a topic is skipped (221-226, 234-240, 248-262) *)
Inductive reason := NoType | Composed | Mismatch.
(** what the calls of writer and print of convert_ulog2ros2bag leave (222-226, 239, 249,
    265-285) *)
Record bag := mkBag {
  b_topics : list (str * str);                 (* create_topic: name and type *)
  b_msgs : list (str * rosmsg * Z);            (* write: topic, message, time *)
  b_skipped : list (str * reason);             (* the warnings *)
  b_ntopics : Z; b_nmsgs : Z }.                (* the last line printed *)
(** the loop 270-278 for one index: the message and its time *)
Definition write_sample (ro : ros) (topic : str) (fields : rostype) (d : dataset) (i : nat) : res (str * rosmsg * Z) :=
  let* m := ros2_msg ro fields d i in
  let* x := elem d (lit "timestamp") i in
  let* ns := nanoseconds (r_np2 ro) (fst x) (snd x) in
  if (- 9223372036854775808 <=? ns) && (ns <? 9223372036854775808) then Ok (topic, m, ns) else Err TypeError.
(** one turn of the loop over data_list (201-280) *)
Definition bag_topic (ro : ros) (u : ulog) (b : bag) (d : dataset) : res bag :=
  let* n := len_ts d in
  let topic := ros2_topic u d in
  let skip := fun why => Ok (mkBag (b_topics b) (b_msgs b) (b_skipped b ++ [(ds_name d, why)]) (b_ntopics b) (b_nmsgs b)) in
  match calc_msgtype ro (ds_name d) with
  | None => skip NoType
  | Some ty =>
    match sget ty (r_types ro) with
    | None => skip NoType
    | Some fields =>
      if existsb (fun f => composed_name (fd_name f)) (ds_fields d) then skip Composed
      else if negb (forallb (fun f => match sget (strip_index (fd_name f)) fields with Some _ => true | None => false end) (ds_fields d))
      then skip Mismatch
      else
        let* ms := mapM (write_sample ro topic fields d) (seq 0 n) in
        Ok (mkBag (b_topics b ++ [(topic, lit "px4_msgs/msg/" ++ ty)]) (b_msgs b ++ ms) (b_skipped b)
                  (b_ntopics b + 1) (b_nmsgs b + Z.of_nat n))
    end
  end.
(** convert_ulog2ros2bag (110-285) after the file was loaded (200-285) *)
Definition convert_ros2bag (ro : ros) (u : ulog) : res bag :=
  foldM (bag_topic ro u) (u_data u) (mkBag [] [] [] 0 0).
