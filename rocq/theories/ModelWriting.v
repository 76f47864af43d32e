(** write_ulog as a sequence of writes to a file (core.py 240-495): what is in the file when the
    method returns or raises.  [ModelWrite.v] gives the result of a write that succeeds; that both
    agree is proved ([ProofsWriting.v], [write_messages]). *)
From Verif Require Import Base Dict Utf8 PyStr PyFloat Struct PySort ModelTypes ModelRead ModelWrite.

(** The messages in the order in which they are made and written.  Each is made completely
    before its first byte is written (e.g. 294-298), so it is written as a whole or raises.
    Simplification: header and data of a message are two calls of write(), here one. *)
Definition format_message (m : mformat) : res bytes :=           (* 371-390 *)
  let* n := utf8_encode (mf_name m ++ [58]) in
  let* fs := mapM write_field (mf_fields m) in
  put_msg T_FORMAT (n ++ concat fs).
Definition info_message (u : ulog) (kv : str * value) : res bytes :=       (* 290-298 *)
  let* ty := lookup (fst kv) (u_infot u) in
  let* d := info_data (ty ++ [32] ++ fst kv) (snd kv) ty None in
  put_msg T_INFO d.
Definition multi_message (key ty : str) (continued : Z) (v : value) : res bytes :=   (* 308-312 *)
  let* d := info_data key v ty (Some continued) in put_msg T_MULTI d.
Definition set_messages (key ty : str) (vs : list value) : list (res bytes) :=   (* 306-314 *)
  match vs with
  | [] => []
  | v :: r => multi_message key ty 0 v :: map (multi_message key ty 1) r
  end.
Definition multi_messages (u : ulog) (kv : str * list (list value)) : list (res bytes) :=  (* 301-314 *)
  match lookup (fst kv) (u_multit u) with
  | Err e => [Err e]
  | Ok ty => flat_map (set_messages (ty ++ [32] ++ fst kv) ty) (snd kv)
  end.
Definition param_message (kv : str * value) : res bytes :=        (* 317-322 *)
  let* d := parameter_data (fst kv) (snd kv) in put_msg T_PARAM d.
Definition default_messages (bd : Z * dict str value) : list (res bytes) :=   (* 325-335 *)
  if fst bd <? 0 then [Err ValueError]
  else map (fun kv =>
    let* b := pack_u 1 (2 ^ fst bd) in
    let* d := parameter_data (fst kv) (snd kv) in
    put_msg T_PDEF (b ++ d)) (snd bd).
Definition sub_message (ds : dataset) : res bytes :=               (* 395-403 *)
  let* m := pack_u 1 (ds_multi ds) in
  let* i := pack_u 2 (ds_id ds) in
  let* n := utf8_encode (ds_name ds) in
  put_msg T_ADD (m ++ i ++ n).
(** all items are made before the first of them is written (405-417) *)
Definition data_messages (u : ulog) : list (res bytes) :=
  match write_data u with Err e => [Err e] | Ok l => map Ok l end.
(** write_ulog (248-259) *)
Definition messages (u : ulog) : list (res bytes) :=
  [write_header u] ++ [write_flags u] ++
  map format_message (map snd (u_formats u)) ++ map (info_message u) (u_info u) ++
  flat_map (multi_messages u) (u_multi u) ++ map param_message (u_params u) ++
  flat_map default_messages (u_defaults u) ++ map sub_message (by_id u) ++ data_messages u.

(** Writing one after the other until one raises. write_ulog (248-259). *)
Fixpoint put_all (l : list (res bytes)) : bytes * option exn :=
  match l with
  | [] => ([], None)
  | Err e :: _ => ([], Some e)
  | Ok b :: r => let '(c, e) := put_all r in (b ++ c, e)
  end.

(** write_ulog(name) (242-247): open(name, 'wb') empties or creates the file, the with statement
    closes it, so all that was written is in it.  Simplification: opening and writing succeed. *)
Definition files := str -> option bytes.
(** The whole method (240-259). *)
Definition write_to (fs : files) (name : str) (u : ulog) : files * option exn :=
  let '(b, e) := put_all (messages u) in
  (fun n => if str_eqb n name then Some b else fs n, e).
