(** The lines that ulog2csv and extract_gps_dump print while they work: what is on the screen when they end or raise. *)
From Verif Require Import Base Dict PyStr PyFloat Struct ModelTypes ModelApi ModelTools ModelPartial ModelCommand.

(** ** ulog2csv *)
(** The loop (ulog2csv.py 117-151): the line is printed (121) after the timestamps are counted (120) and before the file is
    opened (122), so a file that fails has its line. *)
Fixpoint csv_lines (fstr : nptype -> Z -> str) (prefix delim : str) (time_s time_e : option Z) (ds : list dataset) : list str :=
  match ds with
  | [] => []
  | d :: r =>
    match len_ts d with
    | Err _ => []
    | Ok n => (lit "Writing " ++ csv_name prefix d ++ lit " (" ++ str_of_Z (Z.of_nat n) ++ lit " data points)") ::
      match fst (puts (csv_puts fstr delim time_s time_e d)) with
      | Err _ => []
      | Ok _ => csv_lines fstr prefix delim time_s time_e r
      end
    end
  end.
(** main (46-51) and convert_ulog2csv (63-151): the directory is announced (47) before it is made (48) *)
Definition csv_screen (fstr : nptype -> Z -> str) (ld : loader) (a : csv_args) (k : disk) : list str :=
  match nonempty (ca_output a) with
  | Some o => if isdir k o then [] else [lit "Creating output directory " ++ o]
  | None => []
  end ++
  match make_dir (ca_output a) k with
  | Err _ => []
  | Ok k1 =>
    match open_log ld k1 (ca_file a) (ca_ignore a) (csv_filter (ca_messages a)) with
    | Err _ => []
    | Ok u => csv_lines fstr (csv_prefix (ca_file a) (ca_output a)) (ca_delim a) (ca_start a) (ca_end a) (u_data u)
    end
  end.

(** ** extract_gps_dump *)
(** main (61-76); argparse's message for a missing directory goes to stderr *)
Definition gps_screen (ld : loader) (a : gps_args) (k : disk) : list str :=
  if match ga_output a with Some o => negb (isdir k o) | None => false end then []
  else match py_int (ga_instance a) with
  | Err _ => []
  | Ok inst =>
    match open_log ld k (ga_file a) (ga_ignore a) (listed [lit "gps_dump"]) with
    | Err _ => []
    | Ok u =>
      match u_data u with
      | [] => [lit "File " ++ ga_file a ++ lit " does not contain gps_dump messages!"]
      | d :: _ =>
        if negb (existsb (str_eqb (lit "len")) (map fd_name (ds_fields d))) || negb (existsb (str_eqb (lit "data[0]")) (map fd_name (ds_fields d)))
        then [lit "Error: gps_dump message has wrong format"]
        else
          let p := gps_prefix a ++ lit "_" ++ str_of_Z inst in
          (if 0 <? lenZ (u_dropouts u) then [lit "Warning: file contains " ++ str_of_Z (lenZ (u_dropouts u)) ++ lit " dropouts"] else []) ++
          [lit "Creating files " ++ p ++ lit "_to_device.dat" ++ lit " and " ++ p ++ lit "_from_device.dat"]
      end
    end
  end.
