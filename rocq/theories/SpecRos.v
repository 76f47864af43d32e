(** What ulog2ros2bag should do as a program. *)
From Verif Require Import Base Dict PyStr ModelTypes ModelApi ModelTools ModelBag ModelCommand ModelRos SpecBag.

(** The text of a version, and which of two versions is the later one. *)
Definition version_text (a b c : Z) : str := str_of_Z a ++ lit "." ++ str_of_Z b ++ lit "." ++ str_of_Z c.
Definition at_least (v w : Z * Z * Z) : Prop :=
  let '(a, b, c) := v in let '(x, y, z) := w in x < a \/ x = a /\ (y < b \/ y = b /\ z <= c).
(** The changes of the interface came with the versions that the program names. *)
Definition installed (e : rosenv) (a b c : Z) : Prop :=
  v_version e = version_text a b c /\ (v_id e = true <-> at_least (a, b, c) (0, 25, 0)) /\ (v_seq e = true <-> at_least (a, b, c) (0, 32, 0)).
(** The versions whose texts are ordered as the versions are, with respect to 0.25.0 and 0.32.0. *)
Definition well_ordered (a b : Z) : Prop := 1 <= a \/ b <= 2 \/ 10 <= b <= 99.

(** Bags from the parts that the topics contribute. *)
Definition empty_bag : bag := mkBag [] [] [] 0 0.
Definition bag_of (l : list (list (str * str) * list (str * rosmsg * Z) * list (str * reason))) : bag :=
  let topics := concat (map (fun c => fst (fst c)) l) in let messages := concat (map (fun c => snd (fst c)) l) in
  mkBag topics messages (concat (map snd l)) (lenZ topics) (lenZ messages).
(** [contribution] for each of some topics of the log *)
Definition contributions (ro : ros) (u : ulog) (ds : list dataset) l : Prop :=
  Forall2 (fun d c => contribution ro u d (fst (fst c)) (snd (fst c)) (snd c)) ds l.
(** A topic and its first messages are in the bag, beside what was there *)
Definition begun (b : bag) (topic : str * str) (ms : list (str * rosmsg * Z)) : bag :=
  mkBag (b_topics b ++ [topic]) (b_msgs b ++ ms) (b_skipped b) (b_ntopics b) (b_nmsgs b).

(** The program calls rosbag2_py as it is installed: what it concludes from the version is true. *)
Definition matches (e : rosenv) : Prop := v_id e = uses_id (v_version e) /\ v_seq e = uses_seqnum (v_version e).
(** The storage of the bag: mcap if that is asked for, otherwise sqlite3 *)
Definition storage_name (mcap : bool) : str := lit (if mcap then "mcap" else "sqlite3").
(** The program gets as far as the topics: the packages can be imported, the log can be loaded, the bag can be opened, and
    the software version can be printed if -v asks for it. *)
Record opened (e : rosenv) (ld : loader) (a : ros_args) (k : disk) (ro : ros) (u : ulog) : Prop := mkOpened {
  op_ros : v_ros e = Some ro;
  op_log : open_log ld k (ra_file a) (ra_ignore a) (csv_filter (ra_messages a)) = Ok u;
  op_bag : v_open e (bag_name (ra_file a) (ra_bag a)) (storage_name (ra_mcap a)) = Ok tt;
  op_version : ra_verbose a = true -> exists s, get_version_info_str u (lit "ver_sw_release") = Ok s }.
(** The run ended in a way, with a bag of the given contents under the name and in the storage that the arguments say. *)
Definition ended (e : rosenv) (ld : loader) (a : ros_args) (k : disk) (o : outcome) (b : bag) : Prop :=
  ros_command e ld a k = mkRosRun o (Some (bag_name (ra_file a) (ra_bag a), storage_name (ra_mcap a), b)).
