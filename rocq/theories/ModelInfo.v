(** The ulog_info tool, info.py, on a loaded log.  The result is the list of printed lines; the
    parsing of the command line is left out.  [vstr] is str() of an info value and [lstr] str() of
    the list of lists kept for a multi info key (the decimal text of floats is not modelled). *)
From Verif Require Import Base Dict PyStr PyFloat Struct PySort ModelTypes ModelRead ModelApi ModelTools.

(** ** Correctly rounded quotients of non-negative integers *)
(** floor(log2 (n / d)) for n, d > 0. Used for info.py 31, 33. *)
Definition quot_exp (n d : Z) : Z :=
  let e := Z.log2 n - Z.log2 d in
  if (if 0 <=? e then d * 2 ^ e <=? n else d <=? n * 2 ^ (- e)) then e else e - 1.
(** n / d as a float: (m, s) stands for m / 2^s, with 53 significant bits *)
(** info.py 31, 33 *)
Definition fquot (n d : Z) : Z * Z :=
  if n =? 0 then (0, 0)
  else let s := 52 - quot_exp n d in
       if 0 <=? s then (round_div (n * 2 ^ s) d, s) else (round_div n (d * 2 ^ (- s)), s).
(** int(n / d); info.py 33 *)
Definition int_quot (n d : Z) : Z :=
  let '(m, s) := fquot n d in if 0 <=? s then m / 2 ^ s else m * 2 ^ (- s).
(** '{:.1f}'.format(n / 1000.): the exact value of the float, rounded half to even *)
(** info.py 30-31 *)
Definition tenths (n : Z) : Z :=
  let '(m, s) := fquot n 1000 in if 0 <=? s then round_div (m * 10) (2 ^ s) else m * 2 ^ (- s) * 10.
(** the text of [tenths] (info.py 30-31) *)
Definition tenths_text (n : Z) : str := str_of_Z (tenths n / 10) ++ lit "." ++ str_of_Z (tenths n mod 10).

(** ** show_info (info.py 13-67) *)
(** int(t / 1e6) truncates toward zero (19, 21) *)
Definition whole_seconds (t : Z) : Z := if t <? 0 then - seconds (- t) else seconds t.
(** divmod twice and '{:d}:{:02d}:{:02d}' (19-24) *)
Definition hms_text (n : Z) : str :=
  str_of_Z (n / 60 / 60) ++ lit ":" ++ two_digits (n / 60 mod 60) ++ lit ":" ++ two_digits (n mod 60).
(** info.py 19-24 *)
Definition time_line (u : ulog) : str :=
  lit "Logging start time: " ++ hms_text (whole_seconds (u_start u)) ++
  lit ", duration: " ++ hms_text (whole_seconds (u_last u - u_start u)).
(** sum(), max() of the durations (26-33); max() is only called on a non-empty list *)
Definition sum_of (l : list Z) : Z := fold_left Z.add l 0.
(** max() of the durations (32) *)
Definition max_of (l : list Z) : Z := match l with [] => 0 | x :: r => fold_left Z.max r x end.
(** info.py 26-33 *)
Definition dropout_line (u : ulog) : str :=
  match map dr_dur (u_dropouts u) with
  | [] => lit "No Dropouts"
  | l => lit "Dropouts: count: " ++ str_of_Z (Z.of_nat (length l)) ++
         lit ", total duration: " ++ tenths_text (sum_of l) ++
         lit " s, max: " ++ str_of_Z (max_of l) ++
         lit " ms, mean: " ++ str_of_Z (int_quot (sum_of l) (Z.of_nat (length l))) ++ lit " ms"
  end.
(** SW Version (35-37) *)
Definition version_lines (u : ulog) : res (list str) :=
  let* v := get_version_info_str u (lit "ver_sw_release") in
  Ok (match v with Some t => [lit "SW Version: " ++ t] | None => [] end).
(** ulog.msg_info_dict[k], ulog.msg_info_multiple_dict[k], d.data[k] (42, 49, 52, 64) *)
Definition lookup {V} (k : str) (d : dict str V) : res V :=
  match sget k d with Some v => Ok v | None => Err KeyError end.
(** the info messages (39-42) *)
Definition info_lines (vstr : value -> str) (verbose : bool) (u : ulog) : res (list str) :=
  mapM (fun k => let* v := lookup k (u_info u) in Ok (lit " " ++ k ++ lit ": " ++ vstr v))
    (filter (fun k => negb (starts_with (lit "perf_") k) || verbose) (ssort str_leb (map fst (u_info u)))).
(** the multi info messages (45-53) *)
Definition multi_lines (lstr : list (list value) -> str) (verbose : bool) (u : ulog) : res (list str) :=
  let ks := ssort str_leb (map fst (u_multi u)) in
  if 0 <? Z.of_nat (length (u_multi u)) then
    if verbose then
      let* ls := mapM (fun k => let* v := lookup k (u_multi u) in Ok (lit " " ++ k ++ lit ": " ++ lstr v)) ks in
      Ok (lit "Info Multiple Messages:" :: ls)
    else
      let* ls := mapM (fun k => let* v := lookup k (u_multi u) in
                                Ok (lit "[" ++ k ++ lit ": " ++ str_of_Z (Z.of_nat (length v)) ++ lit "]")) ks in
      Ok [lit "Info Multiple Messages: " ++ join (lit ", ") ls]
  else Ok [].
(** '{:<w}' of a text (58, 66) *)
Definition ljust (w : nat) (s : str) : str := s ++ repeat 32 (w - length s).
(** '{:wd}' of a number (66-67) *)
Definition rjust (w : nat) (s : str) : str := repeat 32 (w - length s) ++ s.
(** the heading (58-59); '{:7}' and '{:10}' of a longer text *)
Definition title_line : str :=
  ljust 41 (lit "Name (multi id, message size in bytes)") ++ lit " " ++
  ljust 7 (lit "number of data points") ++ lit ", " ++ ljust 10 (lit "total bytes").
(** message_size (63) *)
Definition message_size (d : dataset) : Z := fold_left Z.add (map fd_size (ds_fields d)) 0.
(** one row (62-67) *)
Definition table_line (d : dataset) : res str :=
  let size := message_size d in
  let* c := lookup (lit "timestamp") (ds_data d) in
  let n := Z.of_nat (length (c_raw c)) in
  let name_id := ds_name d ++ lit " (" ++ str_of_Z (ds_multi d) ++ lit ", " ++ str_of_Z size ++ lit ")" in
  Ok (lit " " ++ ljust 40 name_id ++ lit " " ++ rjust 7 (str_of_Z n) ++ lit " " ++ rjust 10 (str_of_Z (size * n))).
(** the sort key (61) *)
Definition row_key (d : dataset) : str := ds_name d ++ str_of_Z (ds_multi d).
(** info.py 61-67 *)
Definition table_lines (u : ulog) : res (list str) :=
  mapM table_line (ssort (fun a b => str_leb (row_key a) (row_key b)) (u_data u)).
(** show_info (info.py 13-67) *)
Definition show_info (vstr : value -> str) (lstr : list (list value) -> str) (verbose : bool) (u : ulog)
  : res (list str) :=
  let* ver := version_lines u in
  let* infos := info_lines vstr verbose u in
  let* multis := multi_lines lstr verbose u in
  let* rows := table_lines u in
  Ok ((if u_corrupt u then [lit "Warning: file has data corruption(s)"] else []) ++
      [time_line u; dropout_line u] ++ ver ++ [lit "Info Messages:"] ++ infos ++ multis ++
      [[]; title_line] ++ rows).

(** ** Showing one multi info message (main, 87-102) *)
(** a digit of '{:02x}' (97) *)
Definition hex_digit (n : Z) : Z := if n <? 10 then 48 + n else 87 + n.
(** '{:02x}'.format(x) (97) of a byte *)
Definition hex_byte (b : Z) : str := [hex_digit (b / 16); hex_digit (b mod 16)].
(** len(item): numbers have none; info.py 96 *)
Definition item_len (v : value) : res Z :=
  match v with VStr s => Ok (lenZ s) | VBytes b => Ok (lenZ b) | _ => Err TypeError end.
(** ' '.join('{:02x}'.format(x) for x in item): the characters of a str do not format as numbers *)
(** info.py 97 *)
Definition item_hex (v : value) : res str :=
  match v with
  | VBytes b => Ok (join (lit " ") (map hex_byte b))
  | VStr [] => Ok []
  | VStr _ => Err ValueError
  | _ => Err TypeError
  end.
(** what separator.join(m) accepts; info.py 100 *)
Definition item_text (v : value) : res str := match v with VStr s => Ok s | _ => Err TypeError end.
(** one entry (info.py 95-100) *)
Definition entry_lines (name : str) (sep : str) (i : nat) (m : list value) : res (list str) :=
  match m with
  | VBytes _ :: _ =>
    let* ns := mapM item_len m in
    let* ts := mapM item_hex m in
    Ok [lit "# " ++ name ++ lit " " ++ str_of_Z (Z.of_nat i) ++ lit " (len: " ++ str_of_Z (sum_of ns) ++ lit "):"; join sep ts]
  | _ =>
    let* ts := mapM item_text m in
    Ok [lit "# " ++ name ++ lit " " ++ str_of_Z (Z.of_nat i) ++ lit ":"; join sep ts]
  end.
(** the loop (info.py 94-100) *)
Fixpoint entries_lines (name sep : str) (i : nat) (l : list (list value)) : res (list str) :=
  match l with
  | [] => Ok []
  | m :: r => let* a := entry_lines name sep i m in let* b := entries_lines name sep (S i) r in Ok (a ++ b)
  end.
(** info.py 90-102 *)
Definition show_message (name : str) (newline : bool) (u : ulog) : res (list str) :=
  match sget name (u_multi u) with
  | Some l => entries_lines name (if newline then [10] else []) 0 l
  | None => Ok [lit "message " ++ name ++ lit " not found"]
  end.
(** main (69-104); [message] is the argument of -m *)
Definition info_main (vstr : value -> str) (lstr : list (list value) -> str) (verbose newline : bool)
    (message : option str) (u : ulog) : res (list str) :=
  match message with
  | None | Some [] => show_info vstr lstr verbose u
  | Some m => show_message m newline u
  end.
