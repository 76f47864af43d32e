(** ulog2csv.py and extract_gps_dump.py as sequences of writes: what the files hold when the tool ends or raises.
    [ModelTools.v] gives the files of a run that ends; that both agree is proved ([ProofsPartial.v]). *)
From Verif Require Import Base Dict PyStr PyFloat Struct ModelTypes ModelApi ModelTools.

(** Writes to one file, the first exception ends them; the with statement closes the file, so
    all of them reach it. csvfile.write (ulog2csv.py 131, 143-151). *)
Fixpoint puts (l : list (res str)) : res unit * str :=
  match l with
  | [] => (Ok tt, [])
  | Ok x :: r => let '(e, s) := puts r in (e, x ++ s)
  | Err e :: _ => (Err e, [])
  end.
(** the writes for a row (143-151) *)
Fixpoint row_puts (delim : str) (cells : list (res str)) : list (res str) :=
  match cells with
  | [] => [Ok [10]]
  | [x] => [x; Ok [10]]
  | x :: r => x :: Ok delim :: row_puts delim r
  end.
(** the body of the with statement (124-151) *)
Definition csv_puts (fstr : nptype -> Z -> str) (delim : str) (time_s time_e : option Z) (d : dataset) : list (res str) :=
  match get_fields d with
  | Err e => [Err e]
  | Ok ks => Ok (join delim (fst ks) ++ [10]) ::
    match window d time_s time_e with
    | Err e => [Err e]
    | Ok w => flat_map (fun i => row_puts delim (map (csv_cell fstr d (snd ks) i) (fst ks))) (seq (fst w) (snd w - fst w))
    end
  end.
(** one file (118-151): the timestamps are looked up before it is opened (120) *)
Definition csv_file (fstr : nptype -> Z -> str) (prefix delim : str) (time_s time_e : option Z) (d : dataset) (disk : dict str str) : res unit * dict str str :=
  match len_ts d with
  | Err e => (Err e, disk)
  | Ok _ => let '(r, text) := puts (csv_puts fstr delim time_s time_e d) in (r, sset (csv_name prefix d) text disk)
  end.
(** the loop (117); opening and writing succeed *)
Fixpoint csv_files (fstr : nptype -> Z -> str) (prefix delim : str) (time_s time_e : option Z) (ds : list dataset) (disk : dict str str) : res unit * dict str str :=
  match ds with
  | [] => (Ok tt, disk)
  | d :: r =>
    match csv_file fstr prefix delim time_s time_e d disk with
    | (Err e, disk') => (Err e, disk')
    | (Ok _, disk') => csv_files fstr prefix delim time_s time_e r disk'
    end
  end.

(** extract_gps_dump.main (61-92): both files are opened first (78-79) *)
Fixpoint gps_puts (d : dataset) (i : nat) (ks : list nat) : res unit * bytes :=
  match ks with
  | [] => (Ok tt, [])
  | k :: r =>
    match elem d (data_key k) i with
    | Err e => (Err e, [])
    | Ok x => let '(e, b) := gps_puts d i r in (e, le_enc (np_size (fst x)) (snd x) ++ b)
    end
  end.
(** one sample (83-92): the exception, if any, and what the two files have then *)
Definition gps_turn (d : dataset) (inst : Z) (tf : bytes * bytes) (i : nat) : res unit * (bytes * bytes) :=
  match gps_instance d i with
  | Err e => (Err e, tf)
  | Ok ins =>
    match elem d (lit "len") i with
    | Err e => (Err e, tf)
    | Ok l =>
      if negb (value_eqb ins (VInt inst)) then (Ok tt, tf)
      else if negb (nptype_eqb (fst l) (NI 1 false)) then (Err Unmodelled, tf)
      else
      let len := snd l in
      if Z.land len 128 =? 0 then let '(r, b) := gps_puts d i (seq 0 (Z.to_nat len)) in (r, (fst tf, snd tf ++ b))
      else let '(r, b) := gps_puts d i (seq 0 (Z.to_nat (Z.land len 127))) in (r, (fst tf ++ b, snd tf))
    end
  end.
(** the loop (82-92) *)
Fixpoint gps_turns (d : dataset) (inst : Z) (is : list nat) (tf : bytes * bytes) : res unit * (bytes * bytes) :=
  match is with
  | [] => (Ok tt, tf)
  | i :: r => match gps_turn d inst tf i with (Err e, tf') => (Err e, tf') | (Ok _, tf') => gps_turns d inst r tf' end
  end.
(** None: no files are made (the log has no such topic, or fields are missing);
    extract_gps_dump.main (61-92). *)
Definition gps_files (u : ulog) (inst : Z) : option (res unit * (bytes * bytes)) :=
  match u_data u with
  | [] => None
  | d :: _ =>
    if negb (existsb (str_eqb (lit "len")) (map fd_name (ds_fields d)) && existsb (str_eqb (lit "data[0]")) (map fd_name (ds_fields d))) then None
    else Some
      match sget (lit "len") (ds_data d) with
      | None => (Err KeyError, ([], []))
      | Some _ => match len_ts d with Err e => (Err e, ([], [])) | Ok n => gps_turns d inst (seq 0 n) ([], []) end
      end
  end.
