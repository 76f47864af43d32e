(** info.py as a sequence of calls of print: what is on the screen when ulog_info ends or raises.
    [ModelInfo.v] gives the lines of a run that ends; that both agree is proved ([PropsShown.v]). *)
From Verif Require Import Base Dict PyStr PySort PyFloat Struct ModelTypes ModelApi ModelTools ModelInfo ModelCommand.

(** Calls of print, each with the value or the exception of its argument; the first exception ends them (info.py 17-67, 94-102). *)
Fixpoint prints (l : list (res str)) : res unit * list str :=
  match l with
  | [] => (Ok tt, [])
  | Ok x :: r => let '(e, s) := prints r in (e, x :: s)
  | Err e :: _ => (Err e, [])
  end.
(** get_version_info_str() is called before the line is printed (35-37) *)
Definition version_prints (u : ulog) : list (res str) :=
  match get_version_info_str u (lit "ver_sw_release") with
  | Err e => [Err e]
  | Ok None => []
  | Ok (Some t) => [Ok (lit "SW Version: " ++ t)]
  end.
(** one line for each info message (39-42) *)
Definition info_prints (vstr : value -> str) (verbose : bool) (u : ulog) : list (res str) :=
  map (fun k => let* v := lookup k (u_info u) in Ok (lit " " ++ k ++ lit ": " ++ vstr v))
    (filter (fun k => negb (starts_with (lit "perf_") k) || verbose) (ssort str_leb (map fst (u_info u)))).
(** the multi info messages (45-53): verbose a line for each, otherwise one line *)
Definition multi_prints (lstr : list (list value) -> str) (verbose : bool) (u : ulog) : list (res str) :=
  let ks := ssort str_leb (map fst (u_multi u)) in
  if 0 <? Z.of_nat (length (u_multi u)) then
    if verbose then
      Ok (lit "Info Multiple Messages:") :: map (fun k => let* v := lookup k (u_multi u) in Ok (lit " " ++ k ++ lit ": " ++ lstr v)) ks
    else
      [let* ls := mapM (fun k => let* v := lookup k (u_multi u) in
                                 Ok (lit "[" ++ k ++ lit ": " ++ str_of_Z (Z.of_nat (length v)) ++ lit "]")) ks in
       Ok (lit "Info Multiple Messages: " ++ join (lit ", ") ls)]
  else [].
(** the rows of the table (61-67) *)
Definition table_prints (u : ulog) : list (res str) :=
  map table_line (ssort (fun a b => str_leb (row_key a) (row_key b)) (u_data u)).
(** show_info (13-67) *)
Definition report_prints (vstr : value -> str) (lstr : list (list value) -> str) (verbose : bool) (u : ulog) : list (res str) :=
  (if u_corrupt u then [Ok (lit "Warning: file has data corruption(s)")] else []) ++
  [Ok (time_line u); Ok (dropout_line u)] ++ version_prints u ++ [Ok (lit "Info Messages:")] ++
  info_prints vstr verbose u ++ multi_prints lstr verbose u ++ [Ok []; Ok title_line] ++ table_prints u.
(** one entry of a multi info message (95-100): two calls of print *)
Definition entry_prints (name sep : str) (i : nat) (m : list value) : list (res str) :=
  match m with
  | VBytes _ :: _ =>
    [let* ns := mapM item_len m in
     Ok (lit "# " ++ name ++ lit " " ++ str_of_Z (Z.of_nat i) ++ lit " (len: " ++ str_of_Z (sum_of ns) ++ lit "):");
     rmap (join sep) (mapM item_hex m)]
  | _ => [Ok (lit "# " ++ name ++ lit " " ++ str_of_Z (Z.of_nat i) ++ lit ":"); rmap (join sep) (mapM item_text m)]
  end.
(** the loop (94-100) *)
Fixpoint entries_prints (name sep : str) (i : nat) (l : list (list value)) : list (res str) :=
  match l with [] => [] | m :: r => entry_prints name sep i m ++ entries_prints name sep (S i) r end.
(** -m (90-102) *)
Definition message_prints (name : str) (newline : bool) (u : ulog) : list (res str) :=
  match sget name (u_multi u) with
  | Some l => entries_prints name (if newline then [10] else []) 0 l
  | None => [Ok (lit "message " ++ name ++ lit " not found")]
  end.
(** main (84-104) *)
Definition main_prints (vstr : value -> str) (lstr : list (list value) -> str) (verbose newline : bool) (message : option str) (u : ulog) : list (res str) :=
  match message with
  | None | Some [] => report_prints vstr lstr verbose u
  | Some m => message_prints m newline u
  end.
(** the program (69-104): outcome, screen and files *)
Definition info_program (vstr : value -> str) (lstr : list (list value) -> str) (ld : loader) (file : str) (ign verbose newline : bool)
    (message : option str) (k : disk) : run :=
  match open_log ld k file ign no_filter with
  | Err e => mkRun (Raised e) [] k
  | Ok u => let '(r, ls) := prints (main_prints vstr lstr verbose newline message u) in
            mkRun (match r with Ok _ => Exit 0 | Err e => Raised e end) (lines_text ls) k
  end.
