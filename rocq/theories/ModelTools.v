(** The command line tools and PX4 helpers, on loaded logs: extract_message.py, ulog2csv.py,
    extract_gps_dump.py, params.py, messages.py with px4_events.py, ulog2kml.py, the names used by
    ulog2ros2bag.py, and px4.py.  Arguments are those of the functions; the parsing of the command
    line, the progress messages and writing the text to a file are left out. *)
From Verif Require Import Base Dict PyStr PyFloat Struct PySort ModelTypes ModelRead ModelApi.
From Verif Require Sql.

(** One element of a column, data.data[key][i]: missing keys and indices raise. E.g.
    extract_message.py 51, ulog2csv.py 59, 148. *)
Definition elem (d : dataset) (key : str) (i : nat) : res (nptype * Z) :=
  match sget key (ds_data d) with
  | None => Err KeyError
  | Some c => let* x := py_nth (c_raw c) i in Ok (c_type c, x)
  end.

(** ** The time window (extract_message.py 40-45, ulog2csv.py 133-138) *)
(** an int converted to a float, as the integer that the float is. E.g. time_s * 1e6
    (ulog2csv.py 134, 137). *)
Definition rnd (z : Z) : Z := match f64_to_Z (f64_of_Z z) with Some x => x | None => z end.
(** element >= s * 1e6, computed in float64.  Simplifications: float timestamps are not modelled, and
    the int is assumed not to be too large for a float. *)
Definition reaches (s : Z) (t : nptype) (x : Z) : bool :=
  match np_elem t x with VInt z => rnd (rnd s * 1000000) <=? rnd z | _ => false end.
(** The first entry of np.where(...)[0] (extract_message.py 41, 44; ulog2csv.py 134, 137). *)
Fixpoint first_index {A} (p : A -> bool) (l : list A) : option nat :=
  match l with
  | [] => None
  | x :: r => if p x then Some O else option_map S (first_index p r)
  end.
(** np.where(data['timestamp'] >= s * 1e6)[0][0] *)
Definition index_at (d : dataset) (s : Z) : res nat :=
  match sget (lit "timestamp") (ds_data d) with
  | None => Err KeyError
  | Some c =>
    match c_type c with
    | NF _ => Err Unmodelled
    | t => match first_index (reaches s t) (c_raw c) with Some i => Ok i | None => Err IndexError end
    end
  end.
(** len(data['timestamp']) (extract_message.py 45, ulog2csv.py 138). *)
Definition len_ts (d : dataset) : res nat :=
  match sget (lit "timestamp") (ds_data d) with None => Err KeyError | Some c => Ok (length (c_raw c)) end.
(** None and 0 are both false *)
Definition given (t : option Z) : option Z := match t with Some 0 => None | _ => t end.
(** The indices of the first row and of the one after the last (extract_message.py 40-45,
    ulog2csv.py 133-138). *)
Definition window (d : dataset) (time_s time_e : option Z) : res (nat * nat) :=
  let* a := match given time_s with Some s => index_at d s | None => Ok O end in
  let* b := match given time_e with Some e => index_at d e | None => len_ts d end in
  Ok (a, b).

(** list.remove(x): the first occurrence. Used for 'timestamp' (extract_message.py 37,
    ulog2csv.py 113). *)
Fixpoint remove_first (x : str) (l : list str) : res (list str) :=
  match l with
  | [] => Err ValueError
  | y :: r => if str_eqb x y then Ok r else let* r' := remove_first x r in Ok (y :: r')
  end.
(** data_keys.remove('timestamp'); data_keys.insert(0, 'timestamp') (extract_message.py 37-38,
    ulog2csv.py 113-114). *)
Definition timestamp_first (l : list str) : res (list str) :=
  let* r := remove_first (lit "timestamp") l in Ok (lit "timestamp" :: r).

(** ** extract_message (extract_message.py 9-54); [loaded] is the outcome of loading the file with the
    message as filter *)
Definition row_dict (d : dataset) (keys : list str) (i : nat) : res (dict str value) :=
  foldM (fun r k => let* x := elem d k i in Ok (sset k (np_elem (fst x) (snd x)) r)) keys [].
(** The whole function (23-54). *)
Definition extract_message (loaded : res ulog) (message : str) (time_s time_e : option Z) : res (list (dict str value)) :=
  let* u := loaded in
  let* d := match get_dataset u message 0 with Ok d => Ok d | Err _ => Err AttributeError end in
  let* keys := timestamp_first (map fd_name (ds_fields d)) in
  let* w := window d time_s time_e in
  mapM (row_dict d keys) (seq (fst w) (snd w - fst w)).
(** the filter is a string, so "name in filter" is a test for a substring (core.py 1074-1075 through
    cf_filter) *)
Definition substring_filter (message : str) (name : str) : bool := str_in name message.

(** ** ulog2csv *)
(** The pattern of 95, a name followed by an index in brackets: the last opening bracket, a closing one at the end, no newline *)
Definition array_match (s : str) : option (str * str) :=
  if existsb (Z.eqb 10) s then None else
  match rev s with
  | 93 :: r =>
    let i := find_char 91 r in
    if i <? 0 then None
    else Some (rev (skipn (S (Z.to_nat i)) r), rev (firstn (Z.to_nat i) r))
  | _ => None
  end.
(** get_fields (97-115) *)
Definition csv_field (ks : list str * dict str Z) (f : fielddata) : res (list str * dict str Z) :=
  let '(keys, sizes) := ks in
  if starts_with (lit "_padding") (fd_name f) then Ok ks
  else
  match array_match (fd_name f), fd_type f with
  | Some (field, index), CChar =>
    let* i := py_int index in
    let n := Z.max (i + 1) (match sget field sizes with Some n => n | None => 0 end) in
    Ok (if i =? 0 then keys ++ [field] else keys, sset field n sizes)
  | _, _ => Ok (keys ++ [fd_name f], sizes)
  end.
(** The loop and the reordering (99-115). *)
Definition get_fields (d : dataset) : res (list str * dict str Z) :=
  let* ks := foldM csv_field (ds_fields d) ([], []) in
  let* keys := timestamp_first (fst ks) in
  Ok (keys, snd ks).

(** read_string_data (55-63); chr of a negative number raises *)
Fixpoint read_string (d : dataset) (field : str) (n : nat) (index : Z) (i : nat) : res str :=
  match n with
  | O => Ok []
  | S n' =>
    let* x := elem d (field ++ lit "[" ++ str_of_Z index ++ lit "]") i in
    match np_elem (fst x) (snd x) with
    | VInt c => if c =? 0 then Ok [] else
                if (c <? 0) || (1114111 <? c) then Err ValueError
                else let* r := read_string d field n' (index + 1) i in Ok (c :: r)
    | _ => Err TypeError
    end
  end.

(** [fstr] is str() of a float element; str(d.data[k][i]) (148). *)
Definition np_str (fstr : nptype -> Z -> str) (x : nptype * Z) : str :=
  match np_elem (fst x) (snd x) with VInt z => str_of_Z z | _ => fstr (fst x) (snd x) end.
(** One cell (144-148). *)
Definition csv_cell (fstr : nptype -> Z -> str) (d : dataset) (sizes : dict str Z) (i : nat) (k : str) : res str :=
  match sget k sizes with
  | Some n => read_string d k (Z.to_nat n) 0 i
  | None => let* x := elem d k i in Ok (np_str fstr x)
  end.
(** delimiter.join (131; the same text as that of 144-151). *)
Fixpoint join (sep : str) (l : list str) : str :=
  match l with [] => [] | [x] => x | x :: r => x ++ sep ++ join sep r end.
(** the text of one file (122-151) *)
Definition csv_text (fstr : nptype -> Z -> str) (delim : str) (time_s time_e : option Z) (d : dataset) : res str :=
  let* _ := len_ts d in
  let* ks := get_fields d in
  let* w := window d time_s time_e in
  let* rows := mapM (fun i => mapM (csv_cell fstr d (snd ks) i) (fst ks)) (seq (fst w) (snd w - fst w)) in
  Ok (concat (map (fun r => join delim r ++ [10]) (fst ks :: rows))).
(** name.replace('/', '_') (118) *)
Definition no_slash (s : str) : str := map (fun c => if c =? 47 then 95 else c) s.
(** The name of the output file (117-119). *)
Definition csv_name (prefix : str) (d : dataset) : str :=
  prefix ++ lit "_" ++ no_slash (ds_name d) ++ lit "_" ++ str_of_Z (ds_multi d) ++ lit ".csv".
(** The files written: a name that occurs again is overwritten.  After an exception see
    [ModelPartial.v]. convert_ulog2csv from 117 on (117-151). *)
Definition convert_ulog2csv (fstr : nptype -> Z -> str) (prefix delim : str) (time_s time_e : option Z) (u : ulog) : res (dict str str) :=
  foldM (fun files d => let* t := csv_text fstr delim time_s time_e d in Ok (sset (csv_name prefix d) t files)) (u_data u) [].

(** ** extract_gps_dump.main (61-92); the log was loaded with the filter ['gps_dump'] *)
(** The outcomes: no data (61-63), a wrong format (67-71), or the two files
    (78-92). *)
Inductive gps := GpsNoData | GpsBadFormat | GpsFiles (to_device from_device : bytes).
(** 'data['+str(k)+']' (92). *)
Definition data_key (k : nat) : str := lit "data[" ++ str_of_Z (Z.of_nat k) ++ lit "]".
(** instances[i] == required_instance, with [0]*len for a missing column *)
Definition gps_instance (d : dataset) (i : nat) : res value :=
  match sget (lit "instance") (ds_data d) with
  | Some _ => let* x := elem d (lit "instance") i in Ok (np_elem (fst x) (snd x))
  | None => Ok (VInt 0)
  end.
(** Simplification: the length is taken to be a uint8 column (as in the gps_dump message). The
    loop (82-92), one turn. *)
Definition gps_row (d : dataset) (inst : Z) (tf : bytes * bytes) (i : nat) : res (bytes * bytes) :=
  let* ins := gps_instance d i in
  let* l := elem d (lit "len") i in
  if negb (value_eqb ins (VInt inst)) then Ok tf
  else if negb (nptype_eqb (fst l) (NI 1 false)) then Err Unmodelled
  else
  let len := snd l in
  let n := Z.to_nat (if Z.land len 128 =? 0 then len else Z.land len 127) in
  let* b := mapM (fun k => let* x := elem d (data_key k) i in Ok (le_enc (np_size (fst x)) (snd x))) (seq 0 n) in
  Ok (if Z.land len 128 =? 0 then (fst tf, snd tf ++ concat b) else (fst tf ++ concat b, snd tf)).
(** From 61 on (61-92). *)
Definition gps_dump (u : ulog) (inst : Z) : res gps :=
  match u_data u with
  | [] => Ok GpsNoData
  | d :: _ =>
    if negb (existsb (str_eqb (lit "len")) (map fd_name (ds_fields d)) && existsb (str_eqb (lit "data[0]")) (map fd_name (ds_fields d)))
    then Ok GpsBadFormat
    else
    let* _ := match sget (lit "len") (ds_data d) with Some _ => Ok tt | None => Err KeyError end in
    let* n := len_ts d in
    let* tf := foldM (gps_row d inst) (seq 0 n) ([], []) in
    Ok (GpsFiles (fst tf) (snd tf))
  end.

(** ** params.main (57-150); [vstr] is str() *)
(** --format (34-35). *)
Inductive pformat := FCsv | FOctave | FQgc.
(** --default (44-47). *)
Inductive pdefault := DefNone | DefSystem | DefSetup | DefOther.
(** get_defaults (12-18) and 57-63: the parameters and the effective --initial *)
Definition params_of (u : ulog) (df : pdefault) (initial : bool) : res (dict str value * bool) :=
  match df with
  | DefNone => Ok (u_params u, initial)
  | _ => if negb (has_default_parameters u) then Err AssertionError
         else match df with
              | DefSystem => Ok (get_default_parameters u 0, true)
              | DefSetup => Ok (get_default_parameters u 1, true)
              | _ => Err ValueError
              end
  end.
(** The changes of one parameter (74-77, 83-86, 93-96, 107-109). *)
Definition changes_of (u : ulog) (key : str) : list (Z * str * value) :=
  filter (fun c => str_eqb (snd (fst c)) key) (u_changed u).
(** One parameter as csv (69-97). *)
Definition params_csv (vstr : value -> str) (delim : str) (timestamps initial : bool) (u : ulog) (key : str) (v : value) : str :=
  if timestamps then
    key ++ delim ++ vstr v ++ concat (map (fun c => delim ++ vstr (snd c)) (changes_of u key)) ++ [10] ++
    lit "timestamp" ++ delim ++ lit "0" ++ concat (map (fun c => delim ++ str_of_Z (fst (fst c))) (changes_of u key)) ++ [10]
  else
    key ++ delim ++ vstr v ++ (if initial then [] else concat (map (fun c => delim ++ vstr (snd c)) (changes_of u key))) ++ [10].
(** One parameter for octave (101-123). *)
Definition params_octave (vstr : value -> str) (initial : bool) (u : ulog) (key : str) (v : value) : str :=
  let values := v :: (if initial then [] else map snd (changes_of u key)) in
  lit "# name " ++ key ++
  (if Nat.ltb 1 (length values) then
     [10] ++ lit "# type: matrix" ++ [10] ++ lit "# rows: 1" ++ [10] ++ lit "# columns: " ++
     str_of_Z (Z.of_nat (length values)) ++ [10] ++ concat (map (fun x => vstr x ++ lit " ") values)
   else [10] ++ lit "# type: scalar" ++ [10] ++ vstr v) ++ [10].
(** One parameter for QGroundControl (127-150). *)
Definition params_qgc (vstr : value -> str) (key : str) (v : value) : str :=
  lit "1" ++ [9] ++ lit "1" ++ [9] ++ key ++ [9] ++ vstr v ++ [9] ++
  (match v with VFloat _ => lit "9" | _ => lit "6" end) ++ [10].
(** main from 58 on (58-150). *)
Definition params_main (vstr : value -> str) (delim : str) (fmt : pformat) (df : pdefault) (timestamps initial : bool) (u : ulog) : res str :=
  let* pi := params_of u df initial in
  let params := fst pi in
  let one := fun key v => match fmt with
    | FCsv => params_csv vstr delim timestamps (snd pi) u key v
    | FOctave => params_octave vstr (snd pi) u key v
    | FQgc => params_qgc vstr key v
    end in
  let* ls := mapM (fun key => match sget key params with Some v => Ok (one key v) | None => Err KeyError end)
                  (ssort str_leb (dkeys params)) in
  Ok (concat ls).

(** ** messages.main (23-46) and PX4Events.get_logged_events (px4_events.py 64-130) *)
(** The names common to core.py 671-678, 699-706 and px4_events.py 71-78. *)
Definition level_names : list (Z * str) :=
  [(0, lit "EMERGENCY"); (1, lit "ALERT"); (2, lit "CRITICAL"); (3, lit "ERROR"); (4, lit "WARNING");
   (5, lit "NOTICE"); (6, lit "INFO"); (7, lit "DEBUG")].
(** MessageLogging.log_level_str (core.py 670-678) *)
Definition log_level_str (l : Z) : str := match zget (l - 48) level_names with Some s => s | None => lit "UNKNOWN" end.
(** event_log_level_str (70-80) for the levels that get there *)
Definition event_level_str (l : Z) : str := match zget l level_names with Some s => s | None => lit "UNKNOWN" end.

(** [parser] is what _get_event_parser returns or raises, as a function from the id and the
    argument bytes to the group and message, if known.  Simplifications: the argument columns
    are bytes (they are uint8), the id is an integer column, and an exception inside the
    parser is not modelled. event_parser.parse with event.group() and event.message()
    (px4_events.py 115, 121, 122). *)
Definition event_parser := Z -> bytes -> option (str * str).
(** The arguments (px4_events.py 102-110). *)
Fixpoint event_args (fuel : nat) (d : dataset) (k i : nat) : res bytes :=
  match fuel with
  | O => Ok []
  | S f =>
    match sget (lit "arguments[" ++ str_of_Z (Z.of_nat k) ++ lit "]") (ds_data d) with
    | None => Ok []
    | Some c => let* x := py_nth (c_raw c) i in let* r := event_args f d (S k) i in Ok (x :: r)
    end
  end.
(** events.data['id'][i], ['log_levels'][i], ['timestamp'][i] (px4_events.py 98, 99, 112). *)
Definition event_int (d : dataset) (key : str) (i : nat) : res Z :=
  let* x := elem d key i in match np_elem (fst x) (snd x) with VInt z => Ok z | _ => Err Unmodelled end.
(** One turn of the loop (px4_events.py 98-122). *)
Definition event_row (parser : option event_parser) (d : dataset) (ms : list (Z * str * str)) (i : nat) : res (list (Z * str * str)) :=
  let* id := event_int d (lit "id") i in
  let* lv := event_int d (lit "log_levels") i in
  let level := Z.land (Z.shiftr lv 4) 15 in
  if 8 <=? level then Ok ms
  else
  let* args := event_args (S (length (ds_data d))) d 0 i in
  let* t := event_int d (lit "timestamp") i in
  match match parser with Some p => p id args | None => None end with
  | None => Ok (ms ++ [(t, event_level_str level, lit "[Unknown event with ID " ++ str_of_Z id ++ lit "]")])
  | Some (group, message) =>
    Ok (if str_eqb group (lit "default") then ms ++ [(t, event_level_str level, message)] else ms)
  end.
(** KeyError, IndexError and ValueError end the loop and keep the messages so far. The loop
    (px4_events.py 98-128). *)
Fixpoint event_rows (parser : option event_parser) (d : dataset) (is : list nat) (ms : list (Z * str * str)) : res (list (Z * str * str)) :=
  match is with
  | [] => Ok ms
  | i :: r =>
    match event_row parser d ms i with
    | Ok ms' => event_rows parser d r ms'
    | Err (KeyError | IndexError | ValueError | UnicodeDecodeError | UnicodeEncodeError) => Ok ms
    | Err e => Err e
    end
  end.
(** The whole method (px4_events.py 82-130). *)
Definition get_logged_events (parser : res (option event_parser)) (u : ulog) : res (list (Z * str * str)) :=
  match get_dataset u (lit "event") 0 with
  | Err _ => Ok []
  | Ok d =>
    match sget (lit "id") (ds_data d) with
    | None => Ok []
    | Some ids =>
      match c_raw ids, parser with
      | [], _ => Ok []
      | _, Err _ => Ok []
      | _, Ok p => event_rows p d (seq 0 (length (c_raw ids))) []
      end
    end
  end.

(** round half to even of n / d. The rounding of t/1e6 (messages.py 44). *)
Definition round_div (n d : Z) : Z :=
  let q := n / d in let r := n mod d in
  if 2 * r <? d then q else if d <? 2 * r then q + 1 else if Z.even q then q else q + 1.
(** int(t / 1e6) for t in 0 .. 2^64: the float quotient has 53 significant bits *)
(** messages.py 44. *)
Definition seconds (t : Z) : Z :=
  let x := rnd t in
  if x <? 1000000 then 0
  else let s := 52 - Z.log2 (x / 1000000) in round_div (x * 2 ^ s) 1000000 / 2 ^ s.
(** {:02d} for a number that is not negative (messages.py 46). *)
Definition two_digits (n : Z) : str := if n <? 10 then lit "0" ++ str_of_Z n else str_of_Z n.
(** divmod twice, and the format string (43-46) *)
Definition clock (t : Z) : Z * Z * Z :=
  let m := seconds t / 60 in (m / 60, m mod 60, seconds t mod 60).
(** One line (messages.py 43-46). *)
Definition message_line (m : Z * str * str) : str :=
  let '(t, level, text) := m in
  let '(h, mi, s) := clock t in
  str_of_Z h ++ lit ":" ++ two_digits mi ++ lit ":" ++ two_digits s ++ lit " " ++ level ++ lit ": " ++ text.
(** message[-1] == '\t' (37): an empty message raises *)
Definition ends_tab (s : str) : res bool :=
  match rev s with [] => Err IndexError | c :: _ => Ok (c =? 9) end.
(** The list of messages (messages.py 27-41). *)
Definition messages_of (parser : res (option event_parser)) (u : ulog) : res (list (Z * str * str)) :=
  let logged := map (fun m => (lg_ts m, log_level_str (lg_level m), lg_msg m)) (u_logged u) in
  if match sget (lit "sys_name") (u_info u) with Some v => value_eqb v (VStr (lit "PX4")) | None => false end then
    let* events := get_logged_events parser u in
    let* all := foldM (fun es m => let* b := ends_tab (snd m) in Ok (if b then es else es ++ [m])) logged events in
    Ok (ssort (fun a b : Z * str * str => fst (fst a) <=? fst (fst b)) all)
  else Ok logged.
(** main from 27 on (messages.py 27-46). *)
Definition messages_main (parser : res (option event_parser)) (u : ulog) : res (list str) :=
  let* ms := messages_of parser u in Ok (map message_line ms).

(** ** ulog2kml._kml_add_position_data (194-231) *)
(** A sample that remains after the fix filter: time and position.  [min_us] is minimum_interval_s in
    microseconds (the code divides by 1e6 and compares floats).  Differences of numpy uint64 wrap. *)
(** create_linestring and addcoordinates (200-211, 221). *)
Definition line := (Z * list (Z * Z))%type.      (* flight mode, points with their times *)
(** The variables of the loop (194-195, 213-215): finished lines, the current one, last_t,
    current_flight_mode_idx. *)
Record kml := mkKml { kml_done : list line; kml_cur : line; kml_last : Z; kml_idx : nat }.
(** the inner loop: change to the modes that began up to now; 225-231. *)
Fixpoint next_modes (fuel : nat) (changes : list (Z * Z)) (p : Z * Z) (k : kml) : kml :=
  match fuel with
  | O => k
  | S f =>
    match nth_error changes (S (kml_idx k)) with
    | Some (t, mode) =>
      if t <=? fst p then
        next_modes f changes p (mkKml (kml_done k ++ [kml_cur k]) (mode, [p]) (kml_last k) (S (kml_idx k)))
      else k
    | None => k
    end
  end.
(** One turn of the loop (216-231). *)
Definition kml_point (min_us : Z) (changes : list (Z * Z)) (k : kml) (p : Z * Z) : kml :=
  if min_us <? (fst p - kml_last k) mod 18446744073709551616 then
    next_modes (length changes) changes p
      (mkKml (kml_done k) (fst (kml_cur k), snd (kml_cur k) ++ [p]) (fst p) (kml_idx k))
  else k.
(** The variables before the loop (194-197, 213-215). *)
Definition kml_start (changes : list (Z * Z)) : kml :=
  mkKml [] (match changes with (_, m) :: _ => m | [] => 0 end, []) 0 O.
(** The loop (213-231). *)
Definition kml_lines (min_us : Z) (changes : list (Z * Z)) (ps : list (Z * Z)) : list line :=
  let k := fold_left (kml_point min_us changes) ps (kml_start changes) in kml_done k ++ [kml_cur k].

(** convert_ulog2kml (105-111): the mode changes.  Simplification: nav_state and the timestamps are
    integer columns. *)
(** An element of an integer column (ulog2kml.py 108, 177, 180). *)
Definition int_of (t : nptype) (x : Z) : res Z := match np_elem t x with VInt z => Ok z | _ => Err Unmodelled end.
(** The type of a column (ulog2kml.py 107-108). *)
Definition col_type (d : dataset) (k : str) : nptype := match sget k (ds_data d) with Some c => c_type c | None => NI 1 false end.
(** ulog2kml.py 105-111. *)
Definition kml_changes (u : ulog) : res (list (Z * Z)) :=
  match (let* d := get_dataset u (lit "vehicle_status") 0 in
         let* l := list_value_changes d (lit "nav_state") in
         mapM (fun p => let* t := int_of (col_type d (lit "timestamp")) (fst p) in
                        let* m := int_of (col_type d (lit "nav_state")) (snd p) in Ok (t, m)) l) with
  | Ok l => Ok (l ++ [(u_last u, -1)])
  | Err (KeyError | IndexError) => Ok []
  | Err e => Err e
  end.
(** The samples used (162-184), as times and sample numbers: the position itself is not modelled. *)
(** A column under its new or its old name (ulog2kml.py 171-176). *)
Definition either (d : dataset) (a b : str) : res column :=
  match sget a (ds_data d) with
  | Some c => Ok c
  | None => match sget b (ds_data d) with Some c => Ok c | None => Err KeyError end
  end.
(** ulog2kml.py 162-184. *)
Definition kml_positions (u : ulog) (topic : str) : res (list (Z * Z)) :=
  let* d := match get_dataset u topic 0 with Ok d => Ok d | Err _ => Err KeyError end in
  let* _ := either d (lit "lon") (lit "longitude_deg") in
  let* _ := either d (lit "lat") (lit "latitude_deg") in
  let* _ := either d (lit "alt") (lit "altitude_msl_m") in
  match sget (lit "timestamp") (ds_data d) with
  | None => Err KeyError
  | Some c =>
    let* ts := mapM (int_of (c_type c)) (c_raw c) in
    let all := combine ts (map Z.of_nat (seq 0 (length ts))) in
    match sget (lit "fix_type") (ds_data d) with
    | None => Ok all
    | Some f =>
      let* fs := mapM (int_of (c_type f)) (c_raw f) in
      if negb (Nat.eqb (length fs) (length ts)) then Err IndexError
      else Ok (map fst (filter (fun p => 2 <? snd p) (combine all fs)))
    end
  end.
(** _kml_add_position_data (ulog2kml.py 153-231) with the changes of 105-111. *)
Definition kml_track (min_us : Z) (u : ulog) (topic : str) : res (list line) :=
  let* changes := kml_changes u in
  let* ps := kml_positions u topic in
  Ok (kml_lines min_us changes ps).

(** ** Topic names of ulog2ros2bag (132-134, 204-208) *)
(** ulog2ros2bag.py 132-134. *)
Definition multi_ids (u : ulog) (name : str) : list Z := map ds_multi (filter (fun d => str_eqb (ds_name d) name) (u_data u)).
(** ulog2ros2bag.py 204-208. *)
Definition ros2_topic (u : ulog) (d : dataset) : str :=
  if forallb (Z.eqb 0) (multi_ids u (ds_name d)) then lit "/px4/" ++ ds_name d
  else lit "/px4/" ++ ds_name d ++ lit "_" ++ str_of_Z (ds_multi d).

(** ** PX4ULog (px4.py) *)
(** The dictionary of get_mav_type (22-51). *)
Definition mav_types : list (Z * str) :=
  [(0, lit "Generic"); (1, lit "Fixed Wing"); (2, lit "Quadrotor"); (3, lit "Coaxial helicopter");
   (4, lit "Normal helicopter with tail rotor"); (5, lit "Ground installation"); (6, lit "Ground Control Station");
   (7, lit "Airship, controlled"); (8, lit "Free balloon, uncontrolled"); (9, lit "Rocket"); (10, lit "Ground Rover");
   (11, lit "Surface Vessel, Boat, Ship"); (12, lit "Submarine"); (13, lit "Hexarotor"); (14, lit "Octorotor");
   (15, lit "Tricopter"); (16, lit "Flapping wing"); (17, lit "Kite"); (18, lit "Onboard Companion Controller");
   (19, lit "Two-rotor VTOL (Tailsitter)"); (20, lit "Quad-rotor VTOL (Tailsitter)"); (21, lit "Tiltrotor VTOL");
   (22, lit "VTOL Standard"); (23, lit "VTOL Tailsitter"); (24, lit "VTOL reserved 4"); (25, lit "VTOL reserved 5");
   (26, lit "Onboard Gimbal"); (27, lit "Onboard ADSB Peripheral")].
(** {...}.get(v, default) with integer keys. Used in get_mav_type (22-51) and get_estimator
    (57-64). *)
Definition int_get {A} (v : value) (l : list (Z * A)) : option A :=
  match find (fun p => value_eqb v (VInt (fst p))) l with Some p => Some (snd p) | None => None end.
(** get_mav_type (20-51) *)
Definition get_mav_type (u : ulog) : str :=
  match sget (lit "MAV_TYPE") (u_params u) with
  | Some v => match int_get v mav_types with Some s => s | None => lit "unknown type" end
  | None => lit "unknown type"
  end.
(** get_estimator (53-64) *)
Definition get_estimator (vstr : value -> str) (u : ulog) : str :=
  let other :=
    let v := match sget (lit "SYS_MC_EST_GROUP") (u_params u) with Some v => v | None => VInt 2 end in
    match int_get v [(0, lit "INAV"); (1, lit "LPE"); (2, lit "EKF2"); (3, lit "Q")] with
    | Some s => s
    | None => lit "unknown (" ++ vstr v ++ lit ")"
    end in
  match sget (lit "MAV_TYPE") (u_params u) with
  | Some v => if value_eqb v (VInt 1) then lit "EKF2" else other
  | None => other
  end.
(** str.capitalize.  Simplification: only ASCII letters change. px4.py 115. *)
Definition upper (c : Z) : Z := if (97 <=? c) && (c <=? 122) then c - 32 else c.
(** px4.py 115. *)
Definition lower (c : Z) : Z := if (65 <=? c) && (c <=? 90) then c + 32 else c.
(** str.capitalize (px4.py 115). *)
Definition capitalize (s : str) : str := match s with [] => [] | c :: r => upper c :: map lower r end.
(** get_configured_rc_input_names (104-119) *)
Definition get_configured_rc_input_names (u : ulog) (channel : Z) : option (list str) :=
  match flat_map (fun kv => if starts_with (lit "RC_MAP_") (fst kv) && value_eqb (snd kv) (VInt (channel + 1))
                            then [capitalize (skipn 7 (fst kv))] else []) (u_params u) with
  | [] => None
  | l => Some l
  end.

(** ** The class attribute ULog._disable_str_exceptions (core.py 79-93, 135) *)
(** Loads that run at the same time.  A load is a machine whose steps depend on the attribute,
    which is shared; [Begin i b] is the assignment in the constructor of load [i] with
    disable_str_exceptions=b, [Move i] is a step of load [i].  A step that is None is the end
    of the load. The events of a history of loads (core.py 79-93, 135). *)
Inductive event := Begin (i : nat) (b : bool) | Move (i : nat).
(** The shared attribute (core.py 80) and the state of each load. *)
Record world (S : Type) := mkWorld { w_flag : bool; w_load : nat -> option S }.
Arguments mkWorld {S}. Arguments w_flag {S}. Arguments w_load {S}.
(** Load i gets a new state (core.py 135, 1045-1136). *)
Definition upd {S} (f : nat -> option S) (i : nat) (s : S) : nat -> option S := fun j => if Nat.eqb j i then Some s else f j.
(** One event of the history (core.py 135, 1045-1136). *)
Definition happen {S} (step : bool -> S -> option S) (start : nat -> S) (w : world S) (e : event) : world S :=
  match e with
  | Begin i b => mkWorld b (upd (w_load w) i (start i))
  | Move i => match w_load w i with
              | Some s => match step (w_flag w) s with Some s' => mkWorld (w_flag w) (upd (w_load w) i s') | None => w end
              | None => w
              end
  end.
(** A history, from the initial value of the attribute (core.py 80). *)
Definition run_events {S} (step : bool -> S -> option S) (start : nat -> S) (es : list event) : world S :=
  fold_left (happen step start) es (mkWorld false (fun _ => None)).
(** The steps of the data section (1045-1136): a step handles the next message.  Simplification: the
    messages are given as a list. *)
(** The attribute as the reader sees it (core.py 82-93). *)
Definition with_ign (b : bool) (cf : cfg) : cfg := mkCfg b (cf_filter cf) (cf_hdr cf) (cf_depth cf) (cf_kind cf).
(** One message of the data section (core.py 1045-1136). *)
Definition data_step (cf : cfg) (b : bool) (s : list (Z * bytes) * res ulog) : option (list (Z * bytes) * res ulog) :=
  match s with
  | ((ty, data) :: r, Ok u) =>
    Some (match data_effect (with_ign b cf) ty data u with
          | Some (u', None) => (r, Ok u')
          | Some (_, Some e) => ([], Err e)
          | None => (r, Ok u)
          end)
  | _ => None
  end.
