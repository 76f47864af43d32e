(** What the command line tools promise, in terms of the loaded log only. *)
From Verif Require Import Base Dict PyStr PyFloat Struct ModelTypes ModelApi ModelTools.
From Coq Require Import Permutation Sorted.

(** ** Datasets as tables *)
(** the value a user sees in field [k] of sample [i] *)
Definition cell (d : dataset) (k : str) (i : nat) : option value :=
  match sget k (ds_data d) with
  | Some c => match nth_error (c_raw c) i with Some x => Some (np_elem (c_type c) x) | None => None end
  | None => None
  end.
(** field [k] holds exactly these integers *)
Definition int_field (d : dataset) (k : str) (l : list Z) : Prop :=
  exists c size sg, sget k (ds_data d) = Some c /\ c_type c = NI size sg /\
                    map (np_elem (c_type c)) (c_raw c) = map VInt l.
(** every field has a column with one element for each of the [n] samples *)
Definition rectangular (d : dataset) (n : nat) : Prop :=
  forall f, In f (ds_fields d) -> exists c, sget (fd_name f) (ds_data d) = Some c /\ length (c_raw c) = n.
Definition names (d : dataset) : list str := map fd_name (ds_fields d).
(** a list of names with "timestamp" moved to the front *)
Definition time_first (l : list str) : list str :=
  lit "timestamp" :: filter (fun k => negb (str_eqb k (lit "timestamp"))) l.

(** ** Time windows, in seconds; the timestamps are microseconds *)
Definition in_window (s e : option Z) (t : Z) : bool :=
  match s with Some x => x * 1000000 <=? t | None => true end &&
  match e with Some x => t <? x * 1000000 | None => true end.
Definition window_samples (ts : list Z) (s e : option Z) : list nat :=
  filter (fun i => in_window s e (nth i ts 0)) (seq 0 (length ts)).
(** non-negative, non-decreasing, and exact as floats (285 years) *)
Definition proper_times (ts : list Z) : Prop :=
  StronglySorted Z.le ts /\ Forall (fun t => 0 <= t <= 2 ^ 53) ts.
(** some sample is at or after the limit, and the limit is exact as a float *)
Definition reached (ts : list Z) (b : option Z) : Prop :=
  match b with
  | None => True
  | Some x => x <> 0 /\ -2 ^ 53 <= x * 1000000 <= 2 ^ 53 /\ Exists (fun t => x * 1000000 <= t) ts
  end.

(** a limit of 0 counts as none *)
Definition limit (b : option Z) : option Z := match b with Some 0 => None | _ => b end.
Definition exact_limit (b : option Z) : Prop := match b with Some x => -2 ^ 53 <= x * 1000000 <= 2 ^ 53 | None => True end.
(** there is no limit, or some sample is at or after it *)
Definition met (ts : list Z) (b : option Z) : Prop := match limit b with Some x => Exists (fun t => x * 1000000 <= t) ts | None => True end.

(** a sample as a dictionary with these keys, in this order *)
Definition record (d : dataset) (keys : list str) (i : nat) (r : dict str value) : Prop :=
  Forall2 (fun k kv => fst kv = k /\ cell d k i = Some (snd kv)) keys r.

(** ** Tables of text *)
(** A field of a topic, as the user thinks of it: a value, a text (char array) of [n] bytes, padding *)
Inductive tfield := FValue (name : str) (ty : ctype) | FText (name : str) (n : nat) | FPadding (name : str) (ty : ctype).
(** "name[k]" *)
Definition item (name : str) (k : nat) : str := name ++ lit "[" ++ str_of_Z (Z.of_nat k) ++ lit "]".
Definition elements (f : tfield) : list fielddata :=
  match f with
  | FValue name ty => [mkFD name ty]
  | FText name n => map (fun k => mkFD (item name k) CChar) (seq 0 n)
  | FPadding name ty => [mkFD (lit "_padding" ++ name) ty]
  end.
Definition tname (f : tfield) : str := match f with FValue n _ | FText n _ | FPadding n _ => n end.
Definition shown (f : tfield) : bool := match f with FPadding _ _ => false | _ => true end.
Definition sane (f : tfield) : Prop :=
  match f with
  | FValue name ty => starts_with (lit "_padding") name = false /\ (ty = CChar -> forall a, name <> a ++ lit "]")
  | FText name n => starts_with (lit "_padding") name = false /\ ~ In 10 name /\ (0 < n)%nat
  | FPadding _ _ => True
  end.
(** what is printed for a field of sample [i]; [fstr] prints a floating point element *)
Definition chars (l : list Z) : option str :=      (* up to the first 0; a negative number is no character *)
  fold_right (fun c r => if c =? 0 then Some [] else if (c <? 0) || (1114111 <? c) then None
                         else match r with Some s => Some (c :: s) | None => None end) (Some []) l.
Inductive printed (fstr : nptype -> Z -> str) (d : dataset) (i : nat) : tfield -> str -> Prop :=
| printed_int name ty z : cell d name i = Some (VInt z) -> printed fstr d i (FValue name ty) (str_of_Z z)
| printed_float name ty c size x : sget name (ds_data d) = Some c -> c_type c = NF size -> nth_error (c_raw c) i = Some x ->
    printed fstr d i (FValue name ty) (fstr (NF size) x)
| printed_text name n l s : Forall2 (fun k c => cell d (item name k) i = Some (VInt c)) (seq 0 n) l -> chars l = Some s ->
    printed fstr d i (FText name n) s.
Definition separated (sep : str) (l : list str) : str :=
  match l with [] => [] | x :: r => x ++ concat (map (fun y => sep ++ y) r) end.
(** the columns of the table: the timestamp, then the other fields in the order of the log, no padding *)
Definition is_time (f : tfield) : bool := match f with FValue n _ => str_eqb n (lit "timestamp") | _ => false end.
Definition table_columns (fs : list tfield) : list tfield :=
  filter is_time fs ++ filter (fun f => shown f && negb (is_time f)) fs.
(** the file with these lines *)
Definition table_text (sep : str) (rows : list (list str)) : str :=
  concat (map (fun r => separated sep r ++ [10]) rows).
(** every text of the sample is made of characters *)
Definition texts_ok (d : dataset) (fs : list tfield) (i : nat) : Prop :=
  forall name n, In (FText name n) fs -> exists l s,
    Forall2 (fun k c => cell d (item name k) i = Some (VInt c)) (seq 0 n) l /\ chars l = Some s.

(** ** GPS dumps *)
(** field [k] of sample [i] is the byte [b] *)
Definition byte_field (d : dataset) (k : str) (i : nat) (b : Z) : Prop :=
  exists c, sget k (ds_data d) = Some c /\ c_type c = NI 1 false /\ nth_error (c_raw c) i = Some b /\ 0 <= b < 256.
Record gpsrow := mkGps { gps_inst : Z; gps_len : Z; gps_data : bytes }.
(** sample [i] is this row: the data are the first len & 0x7f bytes *)
Definition gps_sample (d : dataset) (i : nat) (r : gpsrow) : Prop :=
  match sget (lit "instance") (ds_data d) with
  | Some _ => cell d (lit "instance") i = Some (VInt (gps_inst r))
  | None => gps_inst r = 0
  end /\
  byte_field d (lit "len") i (gps_len r) /\
  Forall2 (fun k b => byte_field d (item (lit "data") k) i b) (seq 0 (Z.to_nat (gps_len r mod 128))) (gps_data r).
(** the rows of an instance in one direction *)
Definition gps_stream (inst : Z) (to_device : bool) (rows : list gpsrow) : bytes :=
  concat (map gps_data (filter (fun r => (gps_inst r =? inst) && Bool.eqb (128 <=? gps_len r) to_device) rows)).

(** ** Parameter listings *)
Definition later_changes (u : ulog) (key : str) : list (Z * value) :=      (* in log order *)
  flat_map (fun c => match c with (t, k, v) => if str_eqb k key then [(t, v)] else [] end) (u_changed u).
Definition line_of (sep : str) (l : list str) : str := separated sep l ++ [10].
(** name and values on a line; with [times] a second line with the times *)
Definition csv_entry (vstr : value -> str) (sep : str) (times all : bool) (u : ulog) (key : str) (v : value) : str :=
  line_of sep (key :: vstr v :: (if times || all then map (fun c => vstr (snd c)) (later_changes u key) else [])) ++
  (if times then line_of sep (lit "timestamp" :: lit "0" :: map (fun c => str_of_Z (fst c)) (later_changes u key)) else []).
(** octave text format: a scalar, or a row matrix *)
Definition octave_entry (vstr : value -> str) (all : bool) (u : ulog) (key : str) (v : value) : str :=
  match (if all then later_changes u key else []) with
  | [] => line_of [] [lit "# name "; key] ++ line_of [] [lit "# type: scalar"] ++ line_of [] [vstr v]
  | cs => line_of [] [lit "# name "; key] ++ line_of [] [lit "# type: matrix"] ++ line_of [] [lit "# rows: 1"] ++
          line_of [] [lit "# columns: "; str_of_Z (1 + Z.of_nat (length cs))] ++
          line_of [] (map (fun x => vstr x ++ lit " ") (v :: map snd cs))
  end.
(** QGroundControl: system, component, name, value, type (9 for floats, 6 for integers) *)
Definition qgc_entry (vstr : value -> str) (key : str) (v : value) : str :=
  line_of [9] [lit "1"; lit "1"; key; vstr v; match v with VFloat _ => lit "9" | _ => lit "6" end].

(** ** Message listings *)
Definition severity : list str :=
  [lit "EMERGENCY"; lit "ALERT"; lit "CRITICAL"; lit "ERROR"; lit "WARNING"; lit "NOTICE"; lit "INFO"; lit "DEBUG"].
(** severity names by number, 0 to 7 *)
Definition severity_name (l : Z) : str :=
  if (0 <=? l) && (l <? 8) then nth (Z.to_nat l) severity [] else lit "UNKNOWN".
(** a logged message: its level is an ASCII digit *)
Definition log_entry (m : logmsg) : Z * str * str := (lg_ts m, severity_name (lg_level m - 48), lg_msg m).
Definition tab_ended (s : str) : Prop := exists a, s = a ++ [9].
(** a sample of the event topic *)
Record evrow := mkEv { ev_time : Z; ev_id : Z; ev_levels : Z; ev_args : bytes }.
Definition event_sample (d : dataset) (i : nat) (r : evrow) : Prop :=
  cell d (lit "timestamp") i = Some (VInt (ev_time r)) /\ cell d (lit "id") i = Some (VInt (ev_id r)) /\
  cell d (lit "log_levels") i = Some (VInt (ev_levels r)) /\ 0 <= ev_levels r < 256 /\
  Forall2 (fun k b => byte_field d (item (lit "arguments") k) i b) (seq 0 (length (ev_args r))) (ev_args r) /\
  sget (item (lit "arguments") (length (ev_args r))) (ds_data d) = None.
(** what is listed for it: the internal level is in the upper four bits; levels from 8 on are not
    for the user; [parse] gives the group and the text of known events; only the default group is listed *)
Definition event_entry (parse : Z -> bytes -> option (str * str)) (r : evrow) : list (Z * str * str) :=
  if 128 <=? ev_levels r then []
  else match parse (ev_id r) (ev_args r) with
       | None => [(ev_time r, severity_name (ev_levels r / 16), lit "[Unknown event with ID " ++ str_of_Z (ev_id r) ++ lit "]")]
       | Some (group, text) => if str_eqb group (lit "default") then [(ev_time r, severity_name (ev_levels r / 16), text)] else []
       end.
Definition time_of (m : Z * str * str) : Z := fst (fst m).
(** two digits *)
Definition dd (n : Z) : str := [48 + n / 10; 48 + n mod 10].

(** ** Tracks; a point is a pair of a time and a position (an arbitrary number) *)
(** the points kept: those more than [min] after the last point kept before them *)
Inductive thinned (min : Z) : Z -> list (Z * Z) -> list (Z * Z) -> Prop :=
| thinned_nil last : thinned min last [] []
| thinned_keep last p r k : min < fst p - last -> thinned min (fst p) r k -> thinned min last (p :: r) (p :: k)
| thinned_drop last p r k : fst p - last <= min -> thinned min last r k -> thinned min last (p :: r) k.
(** [k] is obtained from [l] by leaving out elements *)
Inductive subsequence {A} : list A -> list A -> Prop :=
| sub_nil : subsequence [] []
| sub_take x k l : subsequence k l -> subsequence (x :: k) (x :: l)
| sub_skip x k l : subsequence k l -> subsequence k (x :: l).
(** consecutive elements are related *)
Definition consecutive {A} (R : A -> A -> Prop) (l : list A) : Prop :=
  forall a b x y, l = a ++ x :: y :: b -> R x y.
(** the mode in force: that of the last change up to now, or the first known one *)
Definition mode_at (changes : list (Z * Z)) (t : Z) : Z :=
  snd (last (filter (fun c => fst c <=? t) changes) (hd (0, 0) changes)).
(** a later line starts where the one before ends *)
Definition touches (l m : Z * list (Z * Z)) : Prop := exists a p b, snd l = a ++ [p] /\ snd m = p :: b.
(** the points of the lines in order, the common ones once *)
Definition path (lines : list (Z * list (Z * Z))) : list (Z * Z) :=
  match lines with [] => [] | l :: r => snd l ++ concat (map (fun m => tl (snd m)) r) end.
(** the piece of line that starts at a point has the colour of the mode in force there *)
Definition coloured (changes : list (Z * Z)) (l : Z * list (Z * Z)) : Prop :=
  consecutive (fun p q => fst l = mode_at changes (fst p)) (snd l).
(** the samples with a fix: times and sample numbers *)
Definition fix_samples (ts : list Z) (fixes : option (list Z)) : list (Z * Z) :=
  map (fun i => (nth i ts 0, Z.of_nat i))
      (filter (fun i => match fixes with Some f => 2 <? nth i f 0 | None => true end) (seq 0 (length ts))).
(** the modes over time: the samples with a time, and "unknown" from the end of the log on *)
Definition mode_samples (u : ulog) (ts ms : list Z) : list (Z * Z) :=
  filter (fun p => negb (fst p =? 0)) (combine ts ms) ++ [(u_last u, -1)].

(** ** A load on its own: [n] steps with its own setting *)
Fixpoint run_alone {S} (step : bool -> S -> option S) (b : bool) (n : nat) (s : S) : S :=
  match n with O => s | Datatypes.S m => match step b s with Some s' => run_alone step b m s' | None => s end end.
(** the number of steps of load [i] in a history *)
Fixpoint moves (i : nat) (es : list event) : nat :=
  match es with
  | [] => O
  | Move j :: r => if Nat.eqb j i then Datatypes.S (moves i r) else moves i r
  | _ :: r => moves i r
  end.
(** the setting in force at each step of load [i]: that of the load that began last *)
Fixpoint in_force (i : nat) (b : bool) (es : list event) : list bool :=
  match es with
  | [] => []
  | Begin _ b' :: r => in_force i b' r
  | Move j :: r => if Nat.eqb j i then b :: in_force i b r else in_force i b r
  end.
(** steps with given settings; a load that has ended stays as it is *)
Fixpoint run_settings {S} (step : bool -> S -> option S) (bs : list bool) (s : S) : S :=
  match bs with [] => s | b :: r => run_settings step r (match step b s with Some s' => s' | None => s end) end.

(** ** PX4 *)
(** MAV_TYPE 0, 1, 2, ... *)
Definition vehicle_kinds : list str := 
  [lit "Generic"; lit "Fixed Wing"; lit "Quadrotor"; lit "Coaxial helicopter"; lit "Normal helicopter with tail rotor"; lit "Ground installation"; lit "Ground Control Station";
   lit "Airship, controlled"; lit "Free balloon, uncontrolled"; lit "Rocket"; lit "Ground Rover"; lit "Surface Vessel, Boat, Ship"; lit "Submarine"; lit "Hexarotor"; lit "Octorotor";
   lit "Tricopter"; lit "Flapping wing"; lit "Kite"; lit "Onboard Companion Controller"; lit "Two-rotor VTOL (Tailsitter)"; lit "Quad-rotor VTOL (Tailsitter)"; lit "Tiltrotor VTOL";
   lit "VTOL Standard"; lit "VTOL Tailsitter"; lit "VTOL reserved 4"; lit "VTOL reserved 5"; lit "Onboard Gimbal"; lit "Onboard ADSB Peripheral"].
(** SYS_MC_EST_GROUP 0, 1, 2, 3 *)
Definition estimators : list str := [lit "INAV"; lit "LPE"; lit "EKF2"; lit "Q"].
(** the first letter is a capital, the others are not *)
Definition letter_upper (c : Z) : Z := if (97 <=? c) && (c <=? 122) then c - 32 else c.
Definition letter_lower (c : Z) : Z := if (65 <=? c) && (c <=? 90) then c + 32 else c.
Definition capital (s : str) : str := match s with [] => [] | c :: r => letter_upper c :: map letter_lower r end.
