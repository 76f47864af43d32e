(** ulog2ros2bag as a program: main() and convert_ulog2ros2bag (ulog2ros2bag.py) with the calls of the installed rosbag2_py, the
    name and storage of the bag, and what is in the bag when the program ends early.  Simplifications: the arguments are parsed
    already; printed text is left out; a bag holds what was written when the program ends, with or without writer.close(). *)
From Verif Require Import Base Dict PyStr PyFloat Struct ModelTypes ModelApi ModelTools ModelBag ModelCommand.

(** What is installed (19-40, 150-180, 288-302).  [v_ros]: px4_msgs and numpy, None if an import fails.  [v_version]: version("rosbag2_py").
    [v_id]: TopicMetadata takes an id as first argument.  [v_seq]: write takes a sequence number as last argument.
    [v_open]: what writer.open does for a name and a storage. *)
Record rosenv := mkEnv { v_ros : option ros; v_version : str; v_id : bool; v_seq : bool; v_open : str -> str -> res unit }.
(** rosbag_topicmetadata_uses_id (288-293): texts are compared *)
Definition uses_id (version : str) : bool := str_leb (lit "0.25.0") version.
(** rosbag_write_uses_seqnum (296-302) *)
Definition uses_seqnum (version : str) : bool := str_leb (lit "0.32.0") version.

(** Path(name).name (141): the last part of the path; pathlib leaves out empty parts and "." *)
Definition path_name (s : str) : str :=
  last (filter (fun p => negb (str_eqb p []) && negb (str_eqb p [46])) (split1 47 s)) [].
(** re.sub(r"\.ulg$", "", name) (140-142); $ also matches before a newline at the end *)
Definition sub_ulg (s : str) : str :=
  let n := length s in
  if str_eqb (skipn (n - 4) s) (lit ".ulg") then firstn (n - 4) s
  else if str_eqb (skipn (n - 5) s) (lit ".ulg" ++ [10]) then firstn (n - 5) s ++ [10]
  else s.
(** rosbag_name (140-142) *)
Definition bag_name (file : str) (bag : option str) : str :=
  match nonempty bag with Some b => b | None => lit "rosbag_" ++ sub_ulg (path_name file) end.

(** one turn of the loop over the samples (270-278): TypeError if write is called with another number of arguments
    than it takes, or with a time beyond int64 *)
Definition ros_sample (e : rosenv) (ro : ros) (topic : str) (fields : rostype) (d : dataset) (i : nat) : res (str * rosmsg * Z) :=
  let* m := ros2_msg ro fields d i in
  let* x := elem d (lit "timestamp") i in
  let* ns := nanoseconds (r_np2 ro) (fst x) (snd x) in
  if Bool.eqb (v_seq e) (uses_seqnum (v_version e)) && ((- 9223372036854775808 <=? ns) && (ns <? 9223372036854775808))
  then Ok (topic, m, ns) else Err TypeError.
(** what was written before an exception stays (270-278) *)
Fixpoint ros_samples (e : rosenv) (ro : ros) (topic : str) (fields : rostype) (d : dataset) (l : list nat) (b : bag) : res unit * bag :=
  match l with
  | [] => (Ok tt, b)
  | i :: r =>
    match ros_sample e ro topic fields d i with
    | Err x => (Err x, b)
    | Ok m => ros_samples e ro topic fields d r (mkBag (b_topics b) (b_msgs b ++ [m]) (b_skipped b) (b_ntopics b) (b_nmsgs b))
    end
  end.
(** one turn of the loop over data_list (201-280) *)
Definition ros_topic (e : rosenv) (ro : ros) (u : ulog) (b : bag) (d : dataset) : res unit * bag :=
  match len_ts d with
  | Err x => (Err x, b)
  | Ok n =>
    let topic := ros2_topic u d in
    let skip := fun why => (Ok tt, mkBag (b_topics b) (b_msgs b) (b_skipped b ++ [(ds_name d, why)]) (b_ntopics b) (b_nmsgs b)) in
    match calc_msgtype ro (ds_name d) with
    | None => skip NoType
    | Some ty =>
      match sget ty (r_types ro) with
      | None => skip NoType
      | Some fields =>
        if existsb (fun f => composed_name (fd_name f)) (ds_fields d) then skip Composed
        else if negb (forallb (fun f => match sget (strip_index (fd_name f)) fields with Some _ => true | None => false end) (ds_fields d))
        then skip Mismatch
        else if negb (Bool.eqb (v_id e) (uses_id (v_version e))) then (Err TypeError, b)
        else
          match ros_samples e ro topic fields d (seq 0 n)
                  (mkBag (b_topics b ++ [(topic, lit "px4_msgs/msg/" ++ ty)]) (b_msgs b) (b_skipped b) (b_ntopics b) (b_nmsgs b)) with
          | (Err x, b') => (Err x, b')
          | (Ok _, b') => (Ok tt, mkBag (b_topics b') (b_msgs b') (b_skipped b') (b_ntopics b' + 1) (b_nmsgs b' + Z.of_nat n))
          end
      end
    end
  end.
(** the loop over data_list (200-280) *)
Fixpoint ros_topics (e : rosenv) (ro : ros) (u : ulog) (l : list dataset) (b : bag) : res unit * bag :=
  match l with
  | [] => (Ok tt, b)
  | d :: r => match ros_topic e ro u b d with (Ok _, b') => ros_topics e ro u r b' | (Err x, b') => (Err x, b') end
  end.

(** the arguments (46-93) *)
Record ros_args := mkRosArgs { ra_file : str; ra_bag : option str; ra_mcap : bool; ra_messages : option str; ra_ignore : bool; ra_verbose : bool }.
(** storage_id (144-146) *)
Definition storage (mcap : bool) : str := if mcap then lit "mcap" else lit "sqlite3".
(** How a run ends, and the bag that was opened: its name, storage and contents (140-285). *)
Record rosrun := mkRosRun { rr_out : outcome; rr_bag : option (str * str * bag) }.
(** main (43-100) and convert_ulog2ros2bag (110-285) *)
Definition ros_command (e : rosenv) (ld : loader) (a : ros_args) (k : disk) : rosrun :=
  match v_ros e with
  | None => mkRosRun (Exit 0) None                              (* 95-96 *)
  | Some ro =>
    match open_log ld k (ra_file a) (ra_ignore a) (csv_filter (ra_messages a)) with
    | Err x => mkRosRun (Raised x) None
    | Ok u =>
      let name := bag_name (ra_file a) (ra_bag a) in
      match v_open e name (storage (ra_mcap a)) with
      | Err x => mkRosRun (Raised x) None
      | Ok _ =>
        match (if ra_verbose a then get_version_info_str u (lit "ver_sw_release") else Ok None) with     (* 196 *)
        | Err x => mkRosRun (Raised x) (Some (name, storage (ra_mcap a), mkBag [] [] [] 0 0))
        | Ok _ =>
          let '(r, b) := ros_topics e ro u (u_data u) (mkBag [] [] [] 0 0) in
          mkRosRun (match r with Ok _ => Exit 0 | Err x => Raised x end) (Some (name, storage (ra_mcap a), b))
        end
      end
    end
  end.
