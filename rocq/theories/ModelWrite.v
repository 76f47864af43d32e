(** Writing a log back to a ULog file: write_ulog and its helpers (core.py 240-495).
    The result is what has been written to the file, or the first exception raised.
    Simplification: what is already in the file when an exception is raised is not part of
    the result. *)
From Verif Require Import Base Dict Utf8 PyStr PyFloat Struct PySort ModelTypes ModelRead.

(** header = struct.pack('<HB', len(data), type); file.write(header); file.write(data)
    (the last lines of each helper, e.g. 283-286) *)
Definition put_msg (ty : Z) (data : bytes) : res bytes :=
  let* h := pack_u 2 (lenZ data) in Ok (h ++ [ty] ++ data).

(** a key of a dict that must be there. E.g. self._msg_info_dict_types[key] (290, 302),
    data_set.data[name] (424, 426, 434). *)
Definition lookup {V} (k : str) (d : dict str V) : res V :=
  match sget k d with Some v => Ok v | None => Err KeyError end.

(** _write_file_header (261-269); the length check cannot fail *)
Definition write_header (u : ulog) : res bytes :=
  let* v := pack_u 1 (u_version u) in
  let* t := pack_u 8 (u_start u) in
  Ok (HEADER_BYTES ++ v ++ t).

(** struct.pack('<' + 'B' * 8, *l) (273, 278): exactly eight arguments *)
Definition pack_8 (l : list Z) : res bytes :=
  if Nat.eqb (length l) 8 then rmap (@concat Z) (mapM (pack_u 1) l) else Err StructError.

(** _write_flags (271-286) *)
Definition write_flags (u : ulog) : res bytes :=
  let* c := pack_8 (u_compat u) in
  match u_incompat u with
  | [] => Err IndexError
  | i0 :: r =>
    let* i := pack_8 (Z.land i0 254 :: r) in
    let* o := rmap (@concat Z) (mapM (pack_u 8) [0; 0; 0]) in
    put_msg T_FLAGS (c ++ i ++ o)
  end.

(** _make_info_message_data (349-368) *)
Definition write_value (value_type : str) (v : value) : res bytes :=
  if starts_with (lit "char[") value_type then
    match v with VStr s => utf8_encode s | _ => Err TypeError end
  else if starts_with (lit "uint8_t[") value_type then
    match v with VBytes b => Ok b | _ => Err TypeError end
  else
    match ctype_of value_type with
    | None => Err KeyError
    | Some c => pack_val c v
    end.
(** The whole of _make_info_message_data (349-368). *)
Definition info_data (key : str) (v : value) (value_type : str) (continued : option Z) : res bytes :=
  let* kb := utf8_encode key in
  let* c := match continued with Some c => pack_u 1 c | None => Ok [] end in
  let* l := pack_u 1 (lenZ kb) in
  let* d := write_value value_type v in
  Ok (c ++ l ++ kb ++ d).

(** _write_info_messages (288-298) *)
Definition write_info (u : ulog) : res (list bytes) :=
  mapM (fun kv =>
    let* ty := lookup (fst kv) (u_infot u) in
    let* d := info_data (ty ++ [32] ++ fst kv) (snd kv) ty None in
    put_msg T_INFO d) (u_info u).

(** _write_info_multiple_message (300-314) *)
Fixpoint write_set (key ty : str) (continued : Z) (vs : list value) : res (list bytes) :=
  match vs with
  | [] => Ok []
  | v :: r =>
    let* d := info_data key v ty (Some continued) in
    let* m := put_msg T_MULTI d in
    let* ms := write_set key ty 1 r in
    Ok (m :: ms)
  end.
(** The whole of _write_info_multiple_message (300-314). *)
Definition write_multi (u : ulog) : res (list bytes) :=
  rmap (@concat bytes) (mapM (fun kv =>
    let* ty := lookup (fst kv) (u_multit u) in
    rmap (@concat bytes) (mapM (write_set (ty ++ [32] ++ fst kv) ty 0) (snd kv))) (u_multi u)).

(** _make_parameter_data (337-347); a bool is an int *)
Definition parameter_data (name : str) (v : value) : res bytes :=
  let* ty := match v with
             | VInt _ | VBool _ => Ok (lit "int32_t")
             | VFloat _ => Ok (lit "float")
             | _ => Err TypeError
             end in
  info_data (ty ++ [32] ++ name) v ty None.

(** _write_initial_parameters (316-322) *)
Definition write_params (u : ulog) : res (list bytes) :=
  mapM (fun kv => let* d := parameter_data (fst kv) (snd kv) in put_msg T_PARAM d) (u_params u).

(** _write_default_parameters (324-335); 1 << bit raises ValueError for a negative bit *)
Definition write_defaults (u : ulog) : res (list bytes) :=
  rmap (@concat bytes) (mapM (fun bd =>
    if fst bd <? 0 then Err ValueError
    else mapM (fun kv =>
      let* b := pack_u 1 (2 ^ fst bd) in
      let* d := parameter_data (fst kv) (snd kv) in
      put_msg T_PDEF (b ++ d)) (snd bd)) (u_defaults u)).

(** _write_format_messages (370-390) *)
Definition write_field (f : str * Z * str) : res bytes :=
  let '(ty, size, name) := f in
  utf8_encode (if 0 <? size then ty ++ [91] ++ str_of_Z size ++ [93; 32] ++ name ++ [59]
               else ty ++ [32] ++ name ++ [59]).
(** The whole of _write_format_messages (370-390). *)
Definition write_formats (u : ulog) : res (list bytes) :=
  mapM (fun m =>
    let* n := utf8_encode (mf_name m ++ [58]) in
    let* fs := mapM write_field (mf_fields m) in
    put_msg T_FORMAT (n ++ concat fs)) (map snd (u_formats u)).

(** sorted(self._data_list, key=lambda x: x.msg_id) (393, 420) *)
Definition id_leb (a b : dataset) : bool := ds_id a <=? ds_id b.
(** The list sorted (393, 420). *)
Definition by_id (u : ulog) : list dataset := ssort id_leb (u_data u).

(** _write_logged_message_subscriptions (392-403) *)
Definition write_subscriptions (u : ulog) : res (list bytes) :=
  mapM (fun ds =>
    let* m := pack_u 1 (ds_multi ds) in
    let* i := pack_u 2 (ds_id ds) in
    let* n := utf8_encode (ds_name ds) in
    put_msg T_ADD (m ++ i ++ n)) (by_id u).

(** one field of one sample (430-441).  chr(x) raises ValueError outside 0..0x10ffff; its
    UTF-8 bytes are packed as one 'c'. *)
Definition write_elem (c : ctype) (x : value) : res bytes :=
  match c with
  | CChar =>
    match x with
    | VInt z => if (0 <=? z) && (z <? 1114112)
                then let* b := utf8_encode [z] in pack_val CChar (VBytes b) else Err ValueError
    | _ => Err TypeError
    end
  | _ => pack_val c x
  end.
(** data_set.data[field][i] (426, 434). *)
Definition element (name : str) (i : nat) (ds : dataset) : res value :=
  let* col := lookup name (ds_data ds) in
  match nth_error (c_raw col) i with
  | Some raw => Ok (np_elem (c_type col) raw)
  | None => Err IndexError
  end.

(** An item: sort key and bytes.  Simplification: a timestamp column with float elements is
    not modelled. (timestamp, bytes) (444, 457, 471, 483, 493). *)
Definition item := (Z * bytes)%type.

(** _make_data_items (419-446), one sample *)
Definition sample_item (ds : dataset) (i : nat) : res item :=
  let* t := element (lit "timestamp") i ds in
  let* id := pack_u 2 (ds_id ds) in
  let* fs := mapM (fun fd => let* x := element (fd_name fd) i ds in write_elem (fd_type fd) x) (ds_fields ds) in
  let* m := put_msg T_DATA (id ++ concat fs) in
  match t with
  | VInt z => Ok (z, m)
  | _ => Err Unmodelled
  end.
(** One dataset (424-444). *)
Definition dataset_items (ds : dataset) : res (list item) :=
  match ds_fields ds with
  | [] => Err IndexError
  | fd :: _ =>
    let* col := lookup (fd_name fd) (ds_data ds) in
    mapM (sample_item ds) (seq 0 (length (c_raw col)))
  end.
(** _make_data_items (419-446). *)
Definition data_items (u : ulog) : res (list item) :=
  rmap (@concat item) (mapM dataset_items (by_id u)).

(** _make_logged_message_items (448-459) *)
Definition logged_items (u : ulog) : res (list item) :=
  mapM (fun m =>
    let* l := pack_u 1 (lg_level m) in
    let* t := pack_u 8 (lg_ts m) in
    let* s := utf8_encode (lg_msg m) in
    let* b := put_msg T_LOG (l ++ t ++ s) in
    Ok (lg_ts m, b)) (u_logged u).

(** _make_tagged_logged_message_items (461-473) *)
Definition tagged_items (u : ulog) : res (list item) :=
  rmap (@concat item) (mapM (mapM (fun m =>
    let* l := pack_u 1 (tg_level m) in
    let* g := pack_u 2 (tg_tag m) in
    let* t := pack_u 8 (tg_ts m) in
    let* s := utf8_encode (tg_msg m) in
    let* b := put_msg T_LOGT (l ++ g ++ t ++ s) in
    Ok (tg_ts m, b))) (map snd (u_tagged u))).

(** _make_dropout_items (475-485) *)
Definition dropout_items (u : ulog) : res (list item) :=
  mapM (fun d =>
    let* x := pack_u 2 (dr_dur d) in
    let* b := put_msg T_DROP x in
    Ok (dr_ts d, b)) (u_dropouts u).

(** _make_changed_param_items (487-495) *)
Definition changed_items (u : ulog) : res (list item) :=
  mapM (fun c =>
    let* d := parameter_data (snd (fst c)) (snd c) in
    let* b := put_msg T_PARAM d in
    Ok (fst (fst c), b)) (u_changed u).

(** _write_data_section (405-417): list.sort is stable *)
Definition item_leb (a b : item) : bool := fst a <=? fst b.
(** The items and their order (405-417). *)
Definition write_data (u : ulog) : res (list bytes) :=
  let* a := data_items u in
  let* b := logged_items u in
  let* c := tagged_items u in
  let* d := dropout_items u in
  let* e := changed_items u in
  Ok (map snd (ssort item_leb (a ++ b ++ c ++ d ++ e))).

(** write_ulog (240-259) *)
Definition write (u : ulog) : res bytes :=
  let* h := write_header u in
  let* fl := write_flags u in
  let* fm := write_formats u in
  let* i := write_info u in
  let* mu := write_multi u in
  let* p := write_params u in
  let* q := write_defaults u in
  let* s := write_subscriptions u in
  let* d := write_data u in
  Ok (h ++ fl ++ concat (fm ++ i ++ mu ++ p ++ q) ++ concat s ++ concat d).
