(** What a KML map of a log shows, independently of how it is drawn. *)
From Verif Require Import Base Dict PyStr PyFloat Struct ModelTypes ModelApi ModelTools SpecTools ModelKml.
From Coq Require Import Sorted QArith.
Open Scope Z_scope.

(** ** Numbers: the exact value of a term over integer elements *)
Inductive amount : number -> Q -> Prop :=
| AElem t raw z : np_elem t raw = VInt z -> amount (NElem t raw) (inject_Z z)
| ADiv n k q : amount n q -> amount (NDiv n k) (q / inject_Z k)
| APlus n o q : amount n q -> amount (NPlus n (VInt o)) (q + inject_Z o).

(** ** Positions *)
(** the column of a quantity: the old name goes first *)
Definition quantity (d : dataset) (old new : str) (c : column) : Prop :=
  sget old (ds_data d) = Some c \/ (sget old (ds_data d) = None /\ sget new (ds_data d) = Some c).
(** element [i] of it *)
Definition reads (d : dataset) (old new : str) (i : nat) (n : number) : Prop :=
  exists c raw, quantity d old new c /\ nth_error (c_raw c) i = Some raw /\ n = NElem (c_type c) raw.
(** the log stores 1e-7 degrees and millimetres: the first field named lon is an int32_t *)
Definition int_degrees (d : dataset) : Prop :=
  exists a b, ds_fields d = a ++ mkFD (lit "lon") I32 :: b /\ ~ In (lit "lon") (map fd_name a).
(** where a sample is drawn, for a track and for a camera trigger *)
Definition raw_position (d : dataset) (i : nat) (lon lat alt : number) : Prop :=
  reads d (lit "lon") (lit "longitude_deg") i lon /\ reads d (lit "lat") (lit "latitude_deg") i lat /\
  reads d (lit "alt") (lit "altitude_msl_m") i alt.
Definition placed (d : dataset) (offset : value) (i : nat) (p : coord) : Prop :=
  exists lon lat alt, raw_position d i lon lat alt /\
    (int_degrees d -> p = (NDiv lon 10000000, NDiv lat 10000000, NPlus (NDiv alt 1000) offset)) /\
    (~ int_degrees d -> p = (lon, lat, NPlus alt offset)).

(** ** What is given: a style, the flight modes, the tracks *)
(** an entry of the style dictionary: the last one given, or the default *)
Definition styled (style : option (dict str Z)) (k : str) (default v : Z) : Prop :=
  match style with
  | None => v = default
  | Some s => (exists a b, s = a ++ (k, v) :: b /\ ~ In k (map fst b)) \/ (~ In k (map fst s) /\ v = default)
  end.
(** the flight modes over time: unknown without the topic or its field *)
Inductive modes (u : ulog) : list (Z * Z) -> Prop :=
| MKnown vs ts ms c : get_dataset u (lit "vehicle_status") 0 = Ok vs ->
    int_field vs (lit "timestamp") ts -> sget (lit "timestamp") (ds_data vs) = Some c -> c_type c = NI 8 false ->
    int_field vs (lit "nav_state") ms -> length ts = length ms -> StronglySorted Z.le ts -> Forall (fun t => t <= u_last u) ts ->
    modes u (mode_samples u ts ms)
| MNoTopic : (forall vs, get_dataset u (lit "vehicle_status") 0 <> Ok vs) -> modes u []
| MNoField vs : get_dataset u (lit "vehicle_status") 0 = Ok vs ->
    sget (lit "timestamp") (ds_data vs) = None \/ sget (lit "nav_state") (ds_data vs) = None -> modes u [].
(** the modes that a line can have *)
Definition mode_of (ms : list (Z * Z)) (m : Z) : Prop := match ms with [] => m = 0 | _ => In m (map snd ms) end.
(** a topic that can be drawn: its samples' times (they do not decrease) and fixes *)
Record trackable (u : ulog) (topic : str) (d : dataset) (ts : list Z) (fixes : option (list Z)) : Prop := {
  tr_set : get_dataset u topic 0 = Ok d;
  tr_lon : exists c, quantity d (lit "lon") (lit "longitude_deg") c /\ length (c_raw c) = length ts;
  tr_lat : exists c, quantity d (lit "lat") (lit "latitude_deg") c /\ length (c_raw c) = length ts;
  tr_alt : exists c, quantity d (lit "alt") (lit "altitude_msl_m") c /\ length (c_raw c) = length ts;
  tr_time : int_field d (lit "timestamp") ts;
  tr_sorted : StronglySorted Z.le ts;
  tr_range : Forall (fun t => 0 <= t < 2 ^ 64) ts;
  tr_fix : match fixes with
           | Some fs => int_field d (lit "fix_type") fs /\ length fs = length ts
           | None => sget (lit "fix_type") (ds_data d) = None
           end }.

(** ** What is shown *)
(** a line in the file, for a piece of track: a mode and the points (time, sample number) *)
Definition drawn (colors : Z -> res str) (style : option (dict str Z)) (offset : value) (topic : str) (d : dataset)
    (l : Z * list (Z * Z)) (s : linestring) : Prop :=
  ls_name s = topic ++ lit ":" ++ str_of_Z (fst l) /\ colors (fst l) = Ok (ls_color s) /\
  (exists e, styled style (lit "extrude") 0 e /\ (ls_extrude s = true <-> e <> 0)) /\
  styled style (lit "line_width") 3 (ls_width s) /\
  Forall2 (fun p c => placed d offset (Z.to_nat (snd p)) c) (snd l) (ls_coords s).
(** the lines of a topic: the thinned path of the samples with a fix, cut where the flight mode changes *)
Definition shown (min : Z) (ms : list (Z * Z)) (style : option (dict str Z)) (offset : value)
    (topic : str) (colors : Z -> res str) (d : dataset) (ts : list Z) (fixes : option (list Z)) (lines : list linestring) : Prop :=
  exists pieces, thinned min 0 (fix_samples ts fixes) (path pieces) /\ consecutive touches pieces /\
    Forall (coloured ms) pieces /\ Forall2 (drawn colors style offset topic d) pieces lines.
(** the camera triggers: all samples of the topic, in order, each where its raw position says *)
Definition trigger_topic (u : ulog) (name : str) (d : dataset) (n : nat) : Prop :=
  get_dataset u name 0 = Ok d /\
  (exists c, quantity d (lit "lon") (lit "longitude_deg") c /\ length (c_raw c) = n) /\
  (exists c, quantity d (lit "lat") (lit "latitude_deg") c /\ length (c_raw c) = n) /\
  (exists c, quantity d (lit "alt") (lit "altitude_msl_m") c /\ length (c_raw c) = n) /\
  (exists c, sget (lit "seq") (ds_data d) = Some c /\ length (c_raw c) = n).
Definition trigger (fstr : nptype -> Z -> str) (offset : value) (d : dataset) (i : nat) (p : place) : Prop :=
  exists lon lat alt t s, raw_position d i lon lat alt /\ pl_coord p = (lon, lat, NPlus alt offset) /\
    elem d (lit "seq") i = Ok (t, s) /\ pl_name p = lit "Camera Trigger " ++ np_str fstr (t, s).
Inductive camera_in (u : ulog) : option str -> option (dataset * nat) -> Prop :=
| CNone : camera_in u None None
| CAbsent name : (forall d, get_dataset u name 0 <> Ok d) -> camera_in u (Some name) None
| CTopic name d n : trigger_topic u name d n -> camera_in u (Some name) (Some (d, n)).
Definition triggers (fstr : nptype -> Z -> str) (offset : value) (cam : option (dataset * nat)) (ps : list place) : Prop :=
  match cam with
  | None => ps = []
  | Some (d, n) => Forall2 (trigger fstr offset d) (seq 0 n) ps
  end.
