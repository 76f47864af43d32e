(** The command-line programs: main() of ulog2csv.py, extract_gps_dump.py, params.py, messages.py, info.py and
    ulog2kml.py on the files of a disk.  Simplifications: the arguments are parsed already; two paths are the same
    file if they are the same text (no links, no "./"); the directories of the files that are written exist and can
    be written to; progress lines are in [ModelScreen.v], what info prints before it raises in [ModelShown.v]. *)
From Verif Require Import Base Dict PyStr Utf8 PyFloat Struct ModelTypes ModelApi ModelTools ModelInfo ModelKml ModelPartial.

(** A file: bytes, a text written with encoding='utf-8' (ulog2csv.py 122, params.py 68), or the document
    saved by simplekml (ulog2kml.py 121). *)
Inductive content := Bytes (b : bytes) | Text (s : str) | Map (m : kmldoc).
(** The files and directories that the programs see (ulog2csv.py 46-48, extract_gps_dump.py 26). *)
Record disk := mkDisk { k_files : dict str content; k_dirs : list str }.
(** open(name, 'w') and all that is written (ulog2csv.py 122, params.py 68, extract_gps_dump.py 78-79) *)
Definition put (name : str) (c : content) (k : disk) : disk := mkDisk (sset name c (k_files k)) (k_dirs k).
(** os.path.isdir, false for the empty text (ulog2csv.py 46, extract_gps_dump.py 26) *)
Definition isdir (k : disk) (name : str) : bool := negb (str_eqb name []) && existsb (str_eqb name) (k_dirs k).

(** How a process ends: with a status, or with an exception (status 1) (extract_gps_dump.py 63, 71). *)
Inductive outcome := Exit (status : Z) | Raised (e : exn).
(** A run: the outcome, the printed text, the disk afterwards; ulog2csv.py 15-51. *)
Record run := mkRun { r_out : outcome; r_print : str; r_disk : disk }.

(** ULog(b, filter, disable_str_exceptions), core.py 95-138: an arbitrary function here; the theorems take the
    outcome of ModelRead. *)
Definition loader := bool -> (str -> bool) -> bytes -> res ulog.
(** ULog(name, filter, disable_str_exceptions): core.py 95-138, open at 854.  A document of simplekml
    starts with "<?xml" and is no log (core.py 886-889). *)
Definition open_log (ld : loader) (k : disk) (name : str) (ign : bool) (keep : str -> bool) : res ulog :=
  match sget name (k_files k) with
  | Some (Bytes b) => ld ign keep b
  | Some (Text s) => let* b := utf8_encode s in ld ign keep b
  | Some (Map _) => Err TypeError
  | None => if isdir k name then Err OSError else Err FileNotFoundError
  end.
(** message_name_filter_list: None or a list of names (core.py 1074) *)
Definition no_filter (n : str) : bool := true.
(** 'name in list' (core.py 1075) *)
Definition listed (names : list str) (n : str) : bool := existsb (str_eqb n) names.

(** ** Paths *)
(** os.path.basename: what follows the last '/' (ulog2csv.py 88, extract_gps_dump.py 49) *)
Fixpoint basename_from (acc s : str) : str :=
  match s with
  | [] => rev acc
  | c :: r => if c =? 47 then basename_from [] r else basename_from (c :: acc) r
  end.
(** os.path.basename (ulog2csv.py 88, extract_gps_dump.py 49) *)
Definition basename (s : str) : str := basename_from [] s.
(** os.path.join(a, b) for a b without '/' (ulog2csv.py 89, extract_gps_dump.py 56) *)
Definition join_path (a b : str) : str :=
  match rev a with
  | [] => b
  | c :: _ => if c =? 47 then a ++ b else a ++ [47] ++ b
  end.
(** strip '.ulg' (ulog2csv.py 81-84, extract_gps_dump.py 50-52); str.lower on the last four characters *)
Definition strip_ulg (s : str) : str :=
  let n := (length s - 4)%nat in
  if str_eqb (map lower (skipn n s)) (lit ".ulg") then firstn n s else s.

(** ** ulog2csv.main (18-51) *)
(** the arguments (22-44) *)
Record csv_args := mkCsvArgs { ca_file : str; ca_messages : option str; ca_delim : str; ca_output : option str; ca_ignore : bool; ca_start : option Z; ca_end : option Z }.
(** 'if args.output', 'if output': None and '' are no directory (46, 87) *)
Definition nonempty (s : option str) : option str := match s with Some [] | None => None | _ => s end.
(** msg_filter (76) *)
Definition csv_filter (m : option str) : str -> bool :=
  match nonempty m with Some m => listed (split1 44 m) | None => no_filter end.
(** output_file_prefix (81-89) *)
Definition csv_prefix (file : str) (output : option str) : str :=
  let p := strip_ulg file in
  match nonempty output with Some o => join_path o (basename p) | None => p end.
(** the output directory (46-48): a file of this name makes os.mkdir raise *)
Definition make_dir (o : option str) (k : disk) : res disk :=
  match nonempty o with
  | None => Ok k
  | Some o => if isdir k o then Ok k
              else match sget o (k_files k) with Some _ => Err FileExistsError | None => Ok (mkDisk (k_files k) (k_dirs k ++ [o])) end
  end.
(** the files with these texts written *)
Fixpoint put_texts (l : dict str str) (k : disk) : disk :=      (* 122 *)
  match l with [] => k | (n, t) :: r => put_texts r (put n (Text t) k) end.
(** main (18-51) and convert_ulog2csv (63-151) *)
Definition csv_command (fstr : nptype -> Z -> str) (ld : loader) (a : csv_args) (k : disk) : run :=
  match make_dir (ca_output a) k with
  | Err e => mkRun (Raised e) [] k
  | Ok k1 =>
    match open_log ld k1 (ca_file a) (ca_ignore a) (csv_filter (ca_messages a)) with
    | Err e => mkRun (Raised e) [] k1
    | Ok u =>
      let '(r, texts) := csv_files fstr (csv_prefix (ca_file a) (ca_output a)) (ca_delim a) (ca_start a) (ca_end a) (u_data u) [] in
      mkRun (match r with Ok _ => Exit 0 | Err e => Raised e end) [] (put_texts texts k1)
    end
  end.

(** ** extract_gps_dump.main (17-92) *)
(** the arguments (21-38) *)
Record gps_args := mkGpsArgs { ga_file : str; ga_output : option str; ga_ignore : bool; ga_instance : str }.
(** the names of the two files (49-59) *)
Definition gps_prefix (a : gps_args) : str :=
  let p := strip_ulg (basename (ga_file a)) in
  match ga_output a with Some o => join_path o p | None => p end.
(** main (17-92): argparse ends with status 2, sys.exit(-1) gives 255 *)
Definition gps_command (ld : loader) (a : gps_args) (k : disk) : run :=
  if match ga_output a with Some o => negb (isdir k o) | None => false end then mkRun (Exit 2) [] k
  else match py_int (ga_instance a) with
  | Err e => mkRun (Raised e) [] k
  | Ok inst =>
    match open_log ld k (ga_file a) (ga_ignore a) (listed [lit "gps_dump"]) with
    | Err e => mkRun (Raised e) [] k
    | Ok u =>
      match gps_files u inst with
      | None => mkRun (Exit (match u_data u with [] => 0 | _ => 255 end)) [] k
      | Some (r, (t, f)) =>
        let p := gps_prefix a ++ lit "_" ++ str_of_Z inst in
        mkRun (match r with Ok _ => Exit 0 | Err e => Raised e end) []
              (put (p ++ lit "_from_device.dat") (Bytes f) (put (p ++ lit "_to_device.dat") (Bytes t) k))
      end
    end
  end.

(** ** params.main (20-150) *)
(** the arguments (23-48) *)
Record params_args := mkParamsArgs { pa_file : str; pa_delim : str; pa_initial : bool; pa_times : bool; pa_format : str; pa_output : option str; pa_ignore : bool; pa_default : option str }.
(** get_defaults (12-18) *)
Definition default_of (d : option str) : pdefault :=
  match d with
  | None => DefNone
  | Some s => if str_eqb s (lit "system") then DefSystem else if str_eqb s (lit "current_setup") then DefSetup else DefOther
  end.
(** args.format (70, 101, 127) *)
Definition format_of (s : str) : option pformat :=
  if str_eqb s (lit "csv") then Some FCsv else if str_eqb s (lit "octave") then Some FOctave
  else if str_eqb s (lit "qgc") then Some FQgc else None.
(** main (20-150): with another format nothing is written (70, 101, 127); the output file is opened (67-68) after
    the parameters are chosen *)
Definition params_command (vstr : value -> str) (ld : loader) (a : params_args) (k : disk) : run :=
  match open_log ld k (pa_file a) (pa_ignore a) (if pa_initial a then listed [] else no_filter) with
  | Err e => mkRun (Raised e) [] k
  | Ok u =>
    match match format_of (pa_format a) with
          | Some fmt => params_main vstr (pa_delim a) fmt (default_of (pa_default a)) (pa_times a) (pa_initial a) u
          | None => let* _ := params_of u (default_of (pa_default a)) (pa_initial a) in Ok []
          end with
    | Err e => mkRun (Raised e) [] k
    | Ok text =>
      match pa_output a with
      | None => mkRun (Exit 0) text k
      | Some o => mkRun (Exit 0) [] (put o (Text text) k)
      end
    end
  end.

(** ** messages.main (13-46) and info.main (69-104) *)
(** print: every line with a newline (messages.py 46, info.py 17-67) *)
Definition lines_text (l : list str) : str := concat (map (fun x => x ++ [10]) l).
(** messages.main (13-46); [parser] is what PX4Events finds for the log *)
Definition messages_command (parser : ulog -> res (option event_parser)) (ld : loader) (file : str) (ign : bool) (k : disk) : run :=
  match open_log ld k file ign (listed [lit "event"]) with
  | Err e => mkRun (Raised e) [] k
  | Ok u => match messages_main (parser u) u with
            | Err e => mkRun (Raised e) [] k
            | Ok ls => mkRun (Exit 0) (lines_text ls) k
            end
  end.
(** info.main (69-104) *)
Definition info_command (vstr : value -> str) (lstr : list (list value) -> str) (ld : loader) (file : str) (ign verbose newline : bool)
    (message : option str) (k : disk) : run :=
  match open_log ld k file ign no_filter with
  | Err e => mkRun (Raised e) [] k
  | Ok u => match info_main vstr lstr verbose newline message u with
            | Err e => mkRun (Raised e) [] k
            | Ok ls => mkRun (Exit 0) (lines_text ls) k
            end
  end.

(** ** ulog2kml.main (18-38) *)
(** the arguments (22-33), and convert_ulog2kml (58-121): the file is written at the end *)
Definition kml_command (fstr : nptype -> Z -> str) (ld : loader) (file output : str) (topic camera : option str) (ign : bool) (k : disk) : run :=
  match kml_main fstr (fun names => open_log ld k file ign (listed names)) topic camera with
  | Err e => mkRun (Raised e) [] k
  | Ok m => mkRun (Exit 0) [] (put output (Map m) k)
  end.
