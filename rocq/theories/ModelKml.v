(** The whole of ulog2kml.py: placed tracks, colours, camera triggers and the command line. *)
From Verif Require Import Base Dict PyStr PyFloat Struct ModelTypes ModelApi ModelTools.

(** ** Coordinates.  Simplification: arithmetic on numpy elements is kept as a term (the
    element, divided by a constant, plus the offset), the float it evaluates to and its text
    in the file are not modelled. ulog2kml.py 148, 189-191, 220. *)
Inductive number := NElem (t : nptype) (raw : Z) | NDiv (n : number) (k : Z) | NPlus (n : number) (o : value).
(** longitude, latitude, altitude (148, 220) *)
Definition coord := (number * number * number)%type.

(** ** The document: simplekml's line strings and points.  Simplification: nothing else of
    simplekml, and a colour is the name of simplekml's constant. kml.newlinestring and its
    attributes (203-210, 221, 231). *)
Record linestring := mkLS { ls_name : str; ls_extrude : bool; ls_color : str; ls_width : Z; ls_coords : list coord }.
(** kml.newpoint (147-148) *)
Record place := mkPlace { pl_name : str; pl_coord : coord }.
(** simplekml.Kml() (99) *)
Record kmldoc := mkDoc { k_lines : list linestring; k_points : list place }.

(** colors_arr (48-53) *)
Definition colors_arr : list str :=
  [lit "red"; lit "green"; lit "blue"; lit "violet"; lit "yellow"; lit "orange"; lit "burlywood"; lit "azure";
   lit "lightblue"; lit "lawngreen"; lit "indianred"; lit "hotpink"; lit "bisque"; lit "cyan"; lit "darksalmon";
   lit "deepskyblue"; lit "lime"; lit "orchid"].
(** _kml_default_colors (45-54): IndexError for a mode beyond the list *)
Definition default_colors (x : Z) : res str := py_nth colors_arr (Z.to_nat (Z.max x 0)).

(** the style (84-92).  Simplification: its values are ints (False is 0). *)
Definition style_of (style : option (dict str Z)) : dict str Z :=
  match style with
  | None => [(lit "extrude", 0); (lit "line_width", 3)]
  | Some s => fold_left (fun acc kv => sset (fst kv) (snd kv) acc) s [(lit "extrude", 0); (lit "line_width", 3)]
  end.
(** style[k] (206, 210) *)
Definition style_get (st : dict str Z) (k : str) : res Z := match sget k st with Some v => Ok v | None => Err KeyError end.

(** the columns of a position, by their old or new names (138-143, 171-176) *)
Definition col_name (d : dataset) (a b : str) : str := match sget a (ds_data d) with Some _ => a | None => b end.
(** [pos_lon[i], pos_lat[i], pos_alt[i]], scaled (187-191) when the first field called 'lon' is an int32_t *)
Definition scaled (d : dataset) : bool :=
  match filter (fun f => str_eqb (fd_name f) (lit "lon")) (ds_fields d) with
  | f :: _ => match fd_type f with I32 => true | _ => false end
  | [] => false
  end.
(** pos_data (220), and the coordinates of a camera trigger (148) *)
Definition coord_at (d : dataset) (scale : bool) (offset : value) (i : nat) : res coord :=
  let div := fun n k => if scale then NDiv n k else n in
  let* x := elem d (col_name d (lit "lon") (lit "longitude_deg")) i in
  let* y := elem d (col_name d (lit "lat") (lit "latitude_deg")) i in
  let* z := elem d (col_name d (lit "alt") (lit "altitude_msl_m")) i in
  Ok (div (NElem (fst x) (snd x)) 10000000, div (NElem (fst y) (snd y)) 10000000, NPlus (div (NElem (fst z) (snd z)) 1000) offset).

(** create_linestring (200-211) and the points added to it (219-231).  Which samples are drawn on which line is
    [kml_track]; a point that ends one line and starts the next is computed once (here twice, with the same result). *)
Definition draw (colors : Z -> res str) (st : dict str Z) (offset : value) (topic : str) (d : dataset) (l : line) : res linestring :=
  let* e := style_get st (lit "extrude") in
  let* c := colors (fst l) in
  let* w := style_get st (lit "line_width") in
  let* ps := mapM (fun p => coord_at d (scaled d) offset (Z.to_nat (snd p))) (snd l) in
  Ok (mkLS (topic ++ lit ":" ++ str_of_Z (fst l)) (negb (e =? 0)) c w ps).
(** _kml_add_position_data (153-231) *)
Definition add_position_data (min_us : Z) (u : ulog) (st : dict str Z) (offset : value) (kml : list linestring)
    (tc : str * (Z -> res str)) : res (list linestring) :=
  let* lines := kml_track min_us u (fst tc) in
  let* d := get_dataset u (fst tc) 0 in
  let* ls := mapM (draw (snd tc) st offset (fst tc) d) lines in
  Ok (kml ++ ls).
(** _kml_add_camera_triggers (124-148); a name that is not a str (None) equals no topic's name *)
Definition add_camera_triggers (fstr : nptype -> Z -> str) (u : ulog) (camera : option str) (offset : value) : res (list place) :=
  match camera with
  | None => Ok []
  | Some name =>
    match get_dataset u name 0 with
    | Err _ => Ok []
    | Ok d =>
      let* lon := either d (lit "lon") (lit "longitude_deg") in
      let* _ := either d (lit "lat") (lit "latitude_deg") in
      let* _ := either d (lit "alt") (lit "altitude_msl_m") in
      let* _ := match sget (lit "seq") (ds_data d) with Some c => Ok c | None => Err KeyError end in
      mapM (fun i => let* s := elem d (lit "seq") i in
                     let* p := coord_at d false offset i in
                     Ok (mkPlace (lit "Camera Trigger " ++ np_str fstr s) p)) (seq 0 (length (c_raw lon)))
    end
  end.

(** convert_ulog2kml (58-121), (kml.save is left out); [load] is the outcome of ULog(file, names, disable_str_exceptions).  A
    list of colours for one topic is called like a function; a function for a list of topics cannot be zipped. *)
Definition convert_ulog2kml (fstr : nptype -> Z -> str) (load : list str -> res ulog) (topics : str + list str)
    (colors : (Z -> res str) + list (Z -> res str)) (offset : value) (min_us : Z) (style : option (dict str Z))
    (camera : option str) : res kmldoc :=
  let names := match topics with inl t => [t] | inr l => l end in
  let cols := match topics, colors with
              | inl _, inl f => Ok [f]
              | inl _, inr _ => Ok [fun _ => Err TypeError]
              | inr _, inl _ => Err TypeError
              | inr _, inr l => Ok l
              end in
  let* u := load (names ++ [lit "vehicle_status"] ++ match camera with Some c => [c] | None => [] end) in
  let* _ := kml_changes u in
  let* cs := cols in
  let* ls := foldM (add_position_data min_us u (style_of style) offset) (combine names cs) [] in
  let* ps := add_camera_triggers fstr u camera offset in
  Ok (mkDoc ls ps).
(** main (18-38) *)
Definition kml_main (fstr : nptype -> Z -> str) (load : list str -> res ulog) (topic camera : option str) : res kmldoc :=
  convert_ulog2kml fstr load (inl (match topic with Some t => t | None => lit "vehicle_gps_position" end)) (inl default_colors)
                   (VInt 0) 100000 None camera.
