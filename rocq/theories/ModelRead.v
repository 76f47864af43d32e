(** Reading a ULog file (core.py 565-1154), function by function.

    Not modelled: printing of warnings, [_debug] output, memory exhaustion. *)
From Verif Require Import Base Dict Utf8 PyStr PyFloat Struct PySort ModelTypes.

(** ULog.HEADER_BYTES (core.py 31) *)
Definition HEADER_BYTES : bytes := [85; 76; 111; 103; 1; 18; 53].
(** ULog.SYNC_BYTES (core.py 32) *)
Definition SYNC_BYTES : bytes := [47; 115; 19; 32; 37; 12; 187; 18].

(** message types (core.py 35-47) *)
Definition T_FORMAT := 70.   (* F: core.py 35 *)
Definition T_DATA := 68.     (* D: core.py 36 *)
Definition T_INFO := 73.     (* I: core.py 37 *)
Definition T_MULTI := 77.    (* M: core.py 38 *)
Definition T_PARAM := 80.    (* P: core.py 39 *)
Definition T_PDEF := 81.     (* Q: core.py 40 *)
Definition T_ADD := 65.      (* A: core.py 41 *)
Definition T_REMOVE := 82.   (* R: core.py 42 *)
Definition T_SYNC := 83.     (* S: core.py 43 *)
Definition T_DROP := 79.     (* O: core.py 44 *)
Definition T_LOG := 76.      (* L: core.py 45 *)
Definition T_LOGT := 67.     (* C: core.py 46 *)
Definition T_FLAGS := 66.    (* B: core.py 47 *)

(** The kind of file object: a file opened by the OS (relative seeks before the
    start raise OSError, absolute seeks beyond the file system's limit raise OSError,
    offsets >= 2^63 raise ValueError) or a BytesIO (negative targets are clamped to 0,
    offsets >= 2^63 raise OverflowError). *)
(** The file objects _load_file accepts (core.py 853-856). *)
Inductive filekind := OsFile (max_off : Z) | MemFile.

(** Arguments of the constructor (core.py 95-96): [cf_ign] is disable_str_exceptions,
    [cf_filter] is membership in message_name_filter_list (constantly true for None),
    [cf_hdr] is parse_header_only.  [cf_depth] bounds the recursion of
    _parse_nested_type as the interpreter's recursion limit does. *)
Record cfg := mkCfg {
  cf_ign : bool; cf_filter : str -> bool; cf_hdr : bool; cf_depth : nat; cf_kind : filekind }.

(** file.read(n) at position pos (n >= 0): fewer bytes at the end of the file;
    self._file_handle.read(n) (core.py 885, 900, 904, 986, 1005, 1042, 1045) *)
Definition rd (f : bytes) (pos n : Z) : bytes := takeZ n (dropZ pos f).

(** self._file_handle.seek(d, 1) at position pos (core.py 924, 959) *)
Definition seek_rel (k : filekind) (pos d : Z) : res Z :=
  let p := pos + d in
  if p <? 0 then match k with OsFile _ => Err OSError | MemFile => Ok 0 end else Ok p.

(** self._file_handle.seek(off) (core.py 876) *)
Definition seek_abs (k : filekind) (off : Z) : res Z :=
  match k with
  | OsFile m => if 9223372036854775808 <=? off then Err ValueError
                else if m <? off then Err OSError else Ok off
  | MemFile => if 9223372036854775808 <=? off then Err OverflowError else Ok off
  end.

(** ULog.parse_string (core.py 82-93) *)
Definition parse_string (ign : bool) (d : bytes) : res str := utf8_decode ign d.

(** _MessageInfo (core.py 575-593) without the leading is_continued byte *)
Record infomsg := mkInfo { im_type : str; im_key : str; im_value : value }.

(** _MessageInfo.__init__ (core.py 578-593) for is_info_multiple=False *)
Definition parse_info (ign : bool) (data : bytes) : res infomsg :=
  let* key_len := unpack_u 1 (slice 0 1 data) in
  let* type_key := parse_string ign (slice 1 (1 + key_len) data) in
  let sp := split1 32 type_key in
  let* ty := py_nth sp 0 in
  let* key := py_nth sp 1 in
  let rest := dropZ (1 + key_len) data in
  if starts_with (lit "char[") ty then
    let* s := parse_string ign rest in Ok (mkInfo ty key (VStr s))
  else match ctype_of ty with
       | Some c => let* v := unpack_val c rest in Ok (mkInfo ty key v)
       | None => Ok (mkInfo ty key (VBytes rest))
       end.

(** _MessageInfo with is_info_multiple=True (579-581) *)
Definition parse_info_multi (ign : bool) (data : bytes) : res (Z * infomsg) :=
  let* cont := unpack_u 1 (slice 0 1 data) in
  let* m := parse_info ign (dropZ 1 data) in
  Ok (cont, m).

(** _MessageParameterDefault (595-603) *)
Definition parse_pdef (ign : bool) (data : bytes) : res (Z * infomsg) :=
  let* bits := unpack_u 1 (slice 0 1 data) in
  let* m := parse_info ign (dropZ 1 data) in
  Ok (bits, m).

(** struct.unpack('<' + 'B' * 8, d) in _MessageFlagBits (613-614) *)
Definition unpack_bytes8 (d : bytes) : res (list Z) :=
  if Nat.eqb (length d) 8 then Ok d else Err StructError.
(** struct.unpack('<QQQ', d) in _MessageFlagBits (615): the three appended offsets *)
Definition unpack_u64x3 (d : bytes) : res (list Z) :=
  if Nat.eqb (length d) 24 then
    Ok [le_dec (slice 0 8 d); le_dec (slice 8 16 d); le_dec (slice 16 24 d)]
  else Err StructError.
(** while len(l) > 0 and l[-1] == 0: l.pop() (617-618) *)
Fixpoint drop_zeros (l : list Z) : list Z :=
  match l with 0 :: r => drop_zeros r | _ => l end.
(** the loop 617-618 on the list itself *)
Definition strip_trailing_zeros (l : list Z) : list Z := rev (drop_zeros (rev l)).
(** _MessageFlagBits.__init__ (605-618) *)
Definition parse_flags (data : bytes) : res (list Z * list Z * list Z) :=
  let* c := unpack_bytes8 (slice 0 8 data) in
  let* i := unpack_bytes8 (slice 8 16 data) in
  let* o := unpack_u64x3 (slice 16 40 data) in
  Ok (c, i, strip_trailing_zeros o).

(** MessageFormat._extract_type (639-652) *)
Definition extract_type (field_str : str) : res (str * Z * str) :=
  let sp := split1 32 field_str in
  let* type_str := py_nth sp 0 in
  let* name_str := py_nth sp 1 in
  let a_pos := find_char 91 type_str in
  if a_pos =? -1 then Ok (type_str, 0, name_str)
  else
    let b_pos := find_char 93 type_str in
    let* array_size := py_int (py_slice (a_pos + 1) b_pos type_str) in
    Ok (py_slice 0 a_pos type_str, array_size, name_str).

(** MessageFormat.__init__ (624-631) *)
Definition parse_format (ign : bool) (data : bytes) : res mformat :=
  let* s := parse_string ign data in
  let arr := split1 58 s in
  let* name := py_nth arr 0 in
  let* rest := py_nth arr 1 in
  let* fields := mapM extract_type (filter (fun t => negb (Nat.eqb (length t) 0)) (split1 59 rest)) in
  Ok (mkFmt name fields).

(** MessageLogging (657-660) *)
Definition parse_logging (ign : bool) (data : bytes) : res logmsg :=
  let* lvl := unpack_u 1 (slice 0 1 data) in
  let* ts := unpack_u 8 (slice 1 9 data) in
  let* m := parse_string ign (dropZ 9 data) in
  Ok (mkLog lvl ts m).

(** MessageLoggingTagged (683-687) *)
Definition parse_tagged (ign : bool) (data : bytes) : res tagmsg :=
  let* lvl := unpack_u 1 (slice 0 1 data) in
  let* tag := unpack_u 2 (slice 1 3 data) in
  let* ts := unpack_u 8 (slice 3 11 data) in
  let* m := parse_string ign (dropZ 11 data) in
  Ok (mkTag lvl tag ts m).

(** MessageDropout (710-712) *)
Definition parse_dropout (data : bytes) (ts : Z) : res dropout :=
  let* d := unpack_u 2 data in Ok (mkDrop d ts).

(** range(n); core.py 775, 785 *)
Definition zrange (n : Z) : list Z := map Z.of_nat (seq 0 (Z.to_nat n)).

(** '[' + str(i) + ']' (777, 786) *)
Definition idx_str (i : Z) : str := [91] ++ str_of_Z i ++ [93].

(** what _parse_nested_type (769-790) changes: (field_data, timestamp_idx) *)
Definition fd_state := (list fielddata * Z)%type.

(** _parse_nested_type (769-790); [depth] is the number of nested calls left before the
    interpreter raises RecursionError *)
Fixpoint parse_nested (depth : nat) (fmts : dict str mformat)
    (prefix type_name : str) (st : fd_state) : res fd_state :=
  match depth with
  | O => Err RecursionError
  | S d =>
    match sget type_name fmts with
    | None => Err KeyError
    | Some fmt =>
      foldM (fun st fld =>
        let '(tn, array_size, field_name) := fld in
        match ctype_of tn with
        | Some c =>
          let names :=
            if 0 <? array_size
            then map (fun i => prefix ++ field_name ++ idx_str i) (zrange array_size)
            else [prefix ++ field_name] in
          let fds := fst st ++ map (fun n => mkFD n c) names in
          Ok (fds, if str_eqb (prefix ++ field_name) (lit "timestamp")
                   then lenZ fds - 1 else snd st)
        | None =>
          if 0 <? array_size then
            foldM (fun st i =>
                     parse_nested d fmts (prefix ++ field_name ++ idx_str i ++ [46]) tn st)
                  (zrange array_size) st
          else parse_nested d fmts (prefix ++ field_name ++ [46]) tn st
        end) (mf_fields fmt) st
    end
  end.

(** field_name.startswith('_padding') (766) *)
Definition is_padding (fd : fielddata) : bool := starts_with (lit "_padding") (fd_name fd).
(** the loop 765-767 on the reversed list *)
Fixpoint drop_padding (l : list fielddata) : list fielddata :=
  match l with fd :: r => if is_padding fd then drop_padding r else l | [] => [] end.
(** _parse_format (764-767): trailing fields named _padding* are removed *)
Definition strip_padding (l : list fielddata) : list fielddata := rev (drop_padding (rev l)).

(** ULog._UNPACK_TYPES[field.type_str][1] (748, 756) *)
Definition fd_size (fd : fielddata) : Z := Z.of_nat (ctype_size (fd_type fd)).
(** max_data_size (740, 756) *)
Definition sum_sizes (l : list fielddata) : Z := fold_right (fun fd a => fd_size fd + a) 0 l.

(** timestamp_offset (744-748) *)
Fixpoint ts_offset (l : list fielddata) : Z :=
  match l with
  | [] => 0
  | fd :: r => if str_eqb (fd_name fd) (lit "timestamp") then 0 else fd_size fd + ts_offset r
  end.

(** np.dtype(dtype_list) (752-758): an empty name becomes f<i>, a repeated name
    raises ValueError *)
Fixpoint np_dtype_aux (i : Z) (seen : list str) (l : list fielddata) : res (list (str * nptype)) :=
  match l with
  | [] => Ok []
  | fd :: r =>
    let n := match fd_name fd with [] => lit "f" ++ str_of_Z i | n => n end in
    if existsb (str_eqb n) seen then Err ValueError
    else let* t := np_dtype_aux (i + 1) (n :: seen) r in Ok ((n, np_of (fd_type fd)) :: t)
  end.
(** dtype of a subscription (752-758) *)
Definition np_dtype (l : list fielddata) : res (list (str * nptype)) := np_dtype_aux 0 [] l.

(** subscription.dtype.itemsize (801) *)
Definition itemsize (d : list (str * nptype)) : Z :=
  fold_right (fun p a => Z.of_nat (np_size (snd p)) + a) 0 d.

(** _MessageAddLogged.__init__ (734-758) *)
Definition parse_add (cf : cfg) (fmts : dict str mformat) (data : bytes) : res subscr :=
  let* multi := unpack_u 1 (slice 0 1 data) in
  let* id := unpack_u 2 (slice 1 3 data) in
  let* name := parse_string (cf_ign cf) (dropZ 3 data) in
  let* st := parse_nested (cf_depth cf) fmts [] name ([], -1) in
  let fds := strip_padding (fst st) in
  let* dt := np_dtype fds in
  Ok (mkSub multi id name fds (snd st) (sum_sizes fds) (ts_offset fds) [] dt).

(** the body of the loop of _add_parameter_default (836-838) *)
Definition set_default (key : str) (v : value) (t : Z) (d : dict Z (dict str value)) :=
  let d' := if zmem t d then d else zset t [] d in
  match zget t d' with
  | Some m => zset t (sset key v m) d'
  | None => d'
  end.
(** the loop of _add_parameter_default (832-838): [def_type] is [lowest set bit - 1].  Each
    round clears one bit, so 8 rounds suffice for a byte. *)
Fixpoint add_default_bits (fuel : nat) (bits : Z) (key : str) (v : value)
    (d : dict Z (dict str value)) : dict Z (dict str value) :=
  match fuel with
  | O => d
  | S f =>
    if bits =? 0 then d
    else
      let def_type := Z.land bits (Z.lnot bits + 1) in
      let bits' := Z.lxor bits def_type in
      add_default_bits f bits' key v (set_default key v (def_type - 1) d)
  end.
(** _add_parameter_default (829-838) *)
Definition add_param_default (bits : Z) (m : infomsg) (u : ulog) : ulog :=
  set_defaults (add_default_bits 9 bits (im_key m) (im_value m) (u_defaults u)) u.

(** [l[-1].append(x)] (844) *)
Fixpoint append_last (l : list (list value)) (x : value) : res (list (list value)) :=
  match l with
  | [] => Err IndexError
  | [g] => Ok [g ++ [x]]
  | g :: r => let* r' := append_last r x in Ok (g :: r')
  end.

(** _add_message_info_multiple (840-849) *)
Definition add_info_multi (cont : Z) (m : infomsg) (u : ulog) : res ulog :=
  match sget (im_key m) (u_multi u) with
  | Some l =>
    if negb (cont =? 0) then
      let* l' := append_last l (im_value m) in
      Ok (set_multi (sset (im_key m) l' (u_multi u)) u)
    else Ok (set_multi (sset (im_key m) (l ++ [[im_value m]]) (u_multi u)) u)
  | None =>
    Ok (set_multit (sset (im_key m) (im_type m) (u_multit u))
         (set_multi (sset (im_key m) [[im_value m]] (u_multi u)) u))
  end.

(** info message: both dictionaries (907-909, 1058-1060) *)
Definition add_info (m : infomsg) (u : ulog) : ulog :=
  set_infot (sset (im_key m) (im_type m) (u_infot u))
    (set_info (sset (im_key m) (im_value m) (u_info u)) u).

(** _check_packet_corruption (1138-1154): whether the packet counts as corrupt *)
Definition packet_corrupt (ty size : Z) : bool := (ty =? 0) || (size =? 0) || (10000 <? size).

(** ------- definition section (897-964) ------- *)

(** Effect of one complete iteration for the message types that are stored. [None]: not one of
    them. core.py 906-921 and 926-947. *)
Definition def_effect (cf : cfg) (ty : Z) (data : bytes) (u : ulog) : option (res ulog) :=
  let ign := cf_ign cf in
  if ty =? T_INFO then
    Some (let* m := parse_info ign data in Ok (add_info m u))
  else if ty =? T_MULTI then
    Some (let* cm := parse_info_multi ign data in add_info_multi (fst cm) (snd cm) u)
  else if ty =? T_FORMAT then
    Some (let* m := parse_format ign data in
          Ok (set_formats (sset (mf_name m) m (u_formats u)) u))
  else if ty =? T_PARAM then
    Some (let* m := parse_info ign data in
          Ok (set_params (sset (im_key m) (im_value m) (u_params u)) u))
  else if ty =? T_PDEF then
    Some (let* bm := parse_pdef ign data in Ok (add_param_default (fst bm) (snd bm) u))
  else if ty =? T_FLAGS then
    Some (let* fl := parse_flags data in
          let '(c, i, o) := fl in
          let u' := set_offsets o (set_incompat i (set_compat c u)) in
          (* 943-947 *)
          if negb (Z.land (nth 0 i 0) (Z.lnot 1) =? 0) then Err ValueError
          else if existsb (fun x => negb (x =? 0)) (tl i) then Err NotImplementedError
          else Ok u')
  else None.

(** Result of one iteration of a reading loop. core.py 899-964; going on, leaving the loop,
    raising. *)
Inductive def_out := DNext (pos : Z) (u : ulog) | DStop (pos : Z) (u : ulog) | DRaise (e : exn).

(** one iteration of the loop of _read_file_definitions (899-964) *)
Definition def_step (cf : cfg) (f : bytes) (pos : Z) (u : ulog) : def_out :=
  let hd := rd f pos 3 in
  match hd with
  | [] => DStop pos u                                             (* 901-902 *)
  | [s0; s1; ty] =>
    let size := le_dec [s0; s1] in
    let data := rd f (pos + 3) size in
    let pos' := pos + 3 + lenZ data in
    match def_effect cf ty data u with
    | Some (Ok u') => DNext pos' u'
    | Some (Err IndexError) => DNext pos' (set_corrupt true u)    (* 961-964 *)
    | Some (Err e) => DRaise e
    | None =>
      if (ty =? T_ADD) || (ty =? T_LOG) || (ty =? T_LOGT) then    (* 922-925 *)
        match seek_rel (cf_kind cf) pos' (- (3 + size)) with
        | Ok p => DStop p u
        | Err e => DRaise e
        end
      else if packet_corrupt ty size then                         (* 956-959 *)
        match seek_rel (cf_kind cf) pos' (-2 - size) with
        | Ok p => DNext p (set_corrupt true u)
        | Err e => DRaise e
        end
      else DNext pos' u
    end
  | _ => DRaise StructError                                       (* 903 *)
  end.

(** The loop.  [None]: not finished within [fuel] iterations. core.py 897-964. *)
Fixpoint def_loop (fuel : nat) (cf : cfg) (f : bytes) (pos : Z) (u : ulog) : option (res (Z * ulog)) :=
  match fuel with
  | O => None
  | S k =>
    match def_step cf f pos u with
    | DNext p u' => def_loop k cf f p u'
    | DStop p u' => Some (Ok (p, u'))
    | DRaise e => Some (Err e)
    end
  end.

(** ------- searching for the sync sequence (966-1022) ------- *)

(** The loop 986-1005 of _find_sync(): [Some (Some p)] found, p just after it;
    [Some None] not found; [None] out of fuel. *)
Fixpoint find_sync_loop (fuel : nat) (f : bytes) (pos : Z) : option (option Z) :=
  match fuel with
  | O => None
  | S k =>
    let chunk := rd f pos 512 in
    if lenZ chunk <? 8 then Some None
    else
      let i := find_sub SYNC_BYTES chunk in
      if 0 <=? i then Some (Some (pos + i + 8))
      else find_sync_loop k f (pos + lenZ chunk - 7)
  end.

(** _find_sync() to the end of the file; core.py 966-1022 with last_n_bytes = -1, its default
    *)
Definition find_sync (fuel : nat) (f : bytes) (pos : Z) (u : ulog) : option (Z * ulog) :=
  match find_sync_loop fuel f pos with
  | None => None
  | Some (Some p) => Some (p, set_corrupt true u)
  | Some None => Some (pos, set_has_sync false u)
  end.

(** _find_sync(last_n_bytes=n); core.py 966-1022 with last_n_bytes given: one chunk, and the
    position is restored if nothing is found *)
Definition find_sync_last (f : bytes) (pos n : Z) (u : ulog) : Z * ulog :=
  let chunk := rd f (pos - n) n in
  if lenZ chunk <? 8 then (pos, u)
  else
    let i := find_sub SYNC_BYTES chunk in
    if 0 <=? i then (pos - n + i + 8, set_corrupt true u) else (pos, u).

(** ------- data section (1024-1136) ------- *)

(** The effect of a message: the new state, and the exception raised, if any (the state may
    have changed before the exception). core.py 1056-1100. *)
Definition eff := (ulog * option exn)%type.
(** the effect of a branch of 1056-1100 that changes the state last *)
Definition eff_of (u : ulog) (r : res ulog) : eff :=
  match r with Ok u' => (u', None) | Err e => (u, Some e) end.

(** set.add(x) of _missing_message_ids (820) and _filtered_message_ids (1078) *)
Definition set_add (x : Z) (l : list Z) : list Z := if existsb (Z.eqb x) l then l else l ++ [x].
(** assigning buffer of a _MessageAddLogged (812) *)
Definition set_buf (b : bytes) (s : subscr) : subscr :=
  mkSub (sb_multi s) (sb_id s) (sb_name s) (sb_fields s) (sb_tsidx s) (sb_max s) (sb_tsoff s)
        b (sb_dtype s).

(** _MessageData.initialize (796-827) followed by 1091-1094 *)
Definition data_msg (data : bytes) (u : ulog) : eff :=
  match unpack_u 2 (takeZ 2 data) with
  | Err e => (u, Some e)
  | Ok msg_id =>
    match zget msg_id (u_subs u) with
    | Some sub =>
      let min_size := itemsize (sb_dtype sub) in
      let data_size := lenZ data - 2 in
      if (data_size <? min_size) || (sb_max sub <? data_size) then
        (set_corrupt true u, None)
      else
        let data' := if min_size <? data_size then takeZ (2 + min_size) data else data in
        let sub' := set_buf (sb_buf sub ++ dropZ 2 data') sub in
        let u' := set_subs (zset msg_id sub' (u_subs u)) u in
        let t_off := sb_tsoff sub in
        match unpack_u 8 (slice (t_off + 2) (t_off + 10) data') with
        | Err e => (u', Some e)
        | Ok ts => (if u_last u <? ts then set_last ts u' else u', None)
        end
    | None =>
      if existsb (Z.eqb msg_id) (u_filtered u)
      then (u, None)          (* timestamp = 0, never greater than last_timestamp *)
      else (set_corrupt true (set_missing (set_add msg_id (u_missing u)) u), None)
    end
  end.

(** 1056-1100: the messages that are stored.  [None]: unknown type. *)
Definition data_effect (cf : cfg) (ty : Z) (data : bytes) (u : ulog) : option eff :=
  let ign := cf_ign cf in
  if ty =? T_INFO then
    Some (eff_of u (let* m := parse_info ign data in Ok (add_info m u)))
  else if ty =? T_MULTI then
    Some (eff_of u (let* cm := parse_info_multi ign data in add_info_multi (fst cm) (snd cm) u))
  else if ty =? T_PARAM then
    Some (eff_of u (let* m := parse_info ign data in
          Ok (set_changed (u_changed u ++ [(u_last u, im_key m, im_value m)]) u)))
  else if ty =? T_PDEF then
    Some (eff_of u (let* bm := parse_pdef ign data in
          Ok (add_param_default (fst bm) (snd bm) u)))
  else if ty =? T_ADD then
    Some (eff_of u (let* s := parse_add cf (u_formats u) data in
          Ok (if cf_filter cf (sb_name s)
              then set_subs (zset (sb_id s) s (u_subs u)) u
              else set_filtered (set_add (sb_id s) (u_filtered u)) u)))
  else if ty =? T_LOG then
    Some (eff_of u (let* m := parse_logging ign data in Ok (set_logged (u_logged u ++ [m]) u)))
  else if ty =? T_LOGT then
    Some (eff_of u (let* m := parse_tagged ign data in
          Ok (set_tagged (match zget (tg_tag m) (u_tagged u) with
                          | Some l => zset (tg_tag m) (l ++ [m]) (u_tagged u)
                          | None => zset (tg_tag m) [m] (u_tagged u)
                          end) u)))
  else if ty =? T_DATA then Some (data_msg data u)
  else if ty =? T_DROP then
    Some (eff_of u (let* d := parse_dropout data (u_last u) in
          Ok (set_dropouts (u_dropouts u ++ [d]) u)))
  else if ty =? T_SYNC then Some (set_sync_cnt (u_sync_cnt u + 1) u, None)
  else None.

(** [pos] is the position of the file object, [cfp] is curr_file_pos.  The seeks below
    cannot fail: the payload has been read completely (1047). *)
(** The result of one iteration of the loop of _read_file_data (core.py 1041-1127). *)
Inductive data_out :=
| SNext (pos cfp : Z) (u : ulog) | SStop (u : ulog) | SRaise (e : exn) | SNoFuel.

(** one iteration of the loop of _read_file_data (1041-1127) *)
Definition data_step (fuel : nat) (cf : cfg) (until : Z) (f : bytes) (pos cfp : Z) (u : ulog) : data_out :=
  let hd := rd f pos 3 in
  match hd with
  | [s0; s1; ty] =>
    let size := le_dec [s0; s1] in
    let data := rd f (pos + 3) size in
    if lenZ data <? size then SStop u                             (* 1047-1048 *)
    else
      let pos' := pos + 3 + size in
      let cfp' := cfp + 3 + size in
      if until <? cfp' then SStop u                               (* 1050-1054 *)
      else
        match data_effect cf ty data u with
        | Some (u', None) => SNext pos' cfp' u'
        | Some (u', Some IndexError) => SNext pos' cfp' (set_corrupt true u')   (* 1121-1124 *)
        | Some (u', Some StructError) => SStop u'                 (* 1126-1127 *)
        | Some (_, Some e) => SRaise e
        | None =>
          if packet_corrupt ty size then                          (* 1108-1115 *)
            let p := pos' + (-2 - size) in
            let u1 := set_corrupt true u in
            if u_has_sync u1 then
              match find_sync fuel f p u1 with
              | Some (q, u2) => SNext q p u2
              | None => SNoFuel
              end
            else SNext p p u1
          else                                                    (* 1116-1119 *)
            if u_has_sync u then
              let '(q, u2) := find_sync_last f pos' size u in SNext q cfp' u2
            else SNext pos' cfp' u
        end
  | _ => SStop u                                                  (* 1044, 1126 *)
  end.

(** the loop of _read_file_data (1041-1127); [None]: not finished within [fuel] iterations *)
Fixpoint data_loop (fuel : nat) (cf : cfg) (until : Z) (f : bytes) (pos cfp : Z) (u : ulog)
  : option (res ulog) :=
  match fuel with
  | O => None
  | S k =>
    match data_step fuel cf until f pos cfp u with
    | SNext p c u' => data_loop k cf until f p c u'
    | SStop u' => Some (Ok u')
    | SRaise e => Some (Err e)
    | SNoFuel => None
    end
  end.

(** np.frombuffer(buffer, dtype) (521-522): the buffer as records of n bytes.  One round
    per byte of the buffer suffices. *)
Fixpoint rows (fuel : nat) (n : Z) (b : bytes) : list bytes :=
  match fuel with
  | O => []
  | S k => match b with [] => [] | _ => takeZ n b :: rows k n (dropZ n b) end
  end.
(** np_array[name] for every name of the dtype, in order (524-526) *)
Fixpoint columns (off : Z) (dt : list (str * nptype)) (rs : list bytes) : list (str * column) :=
  match dt with
  | [] => []
  | (n, t) :: r =>
    let sz := Z.of_nat (np_size t) in
    (n, mkCol t (map (fun row => le_dec (slice off (off + sz) row)) rs)) :: columns (off + sz) r rs
  end.
(** Data.__init__ (513-526): np.frombuffer raises ValueError if the buffer is no whole number
    of records *)
Definition dataset_of (s : subscr) : res dataset :=
  let n := itemsize (sb_dtype s) in
  if (n =? 0) || negb (lenZ (sb_buf s) mod n =? 0) then Err ValueError
  else
    let rs := rows (length (sb_buf s)) n (sb_buf s) in
    Ok (mkDS (sb_multi s) (sb_id s) (sb_name s) (sb_fields s) (sb_tsidx s)
             (columns 0 (sb_dtype s) rs)).

(** sort key (name, multi_id) (1136) *)
Definition ds_leb (a b : dataset) : bool :=
  match str_cmp (ds_name a) (ds_name b) with
  | Lt => true
  | Gt => false
  | Eq => ds_multi a <=? ds_multi b
  end.

(** 1129-1136: subscriptions are popped last inserted first *)
Definition finalize (u : ulog) : res ulog :=
  let* ds := mapM dataset_of
               (filter (fun s => negb (Nat.eqb (length (sb_buf s)) 0)) (rev (map snd (u_subs u)))) in
  Ok (set_data (ssort ds_leb (u_data u ++ ds)) (set_subs [] u)).

(** _read_file_data (1024-1136) *)
Definition read_data (fuel : nat) (cf : cfg) (until : Z) (f : bytes) (pos : Z) (u : ulog)
  : option (res ulog) :=
  match data_loop fuel cf until f pos pos u with
  | Some (Ok u') => Some (finalize u')
  | r => r
  end.

(** 871-879: appended sections, then the rest of the file *)
Fixpoint read_sections (fuel : nat) (cf : cfg) (f : bytes) (offs : list Z) (pos : Z) (u : ulog)
  : option (res ulog) :=
  match offs with
  | [] => read_data fuel cf 1125899906842624 f pos u           (* 1 << 50 *)
  | o :: r =>
    match read_data fuel cf o f pos u with
    | Some (Ok u') =>
      match seek_abs (cf_kind cf) o with
      | Ok p => read_sections fuel cf f r p u'
      | Err e => Some (Err e)
      end
    | r => r
    end
  end.

(** _read_file_header (884-895): file version and start timestamp *)
Definition read_header (f : bytes) (pos : Z) : res (Z * Z) :=
  let h := rd f pos 16 in
  if negb (Nat.eqb (length h) 16) then Err TypeError
  else if negb (str_eqb (takeZ 7 h) HEADER_BYTES) then Err TypeError
  else
    let* v := unpack_u 1 (slice 7 8 h) in
    let* t := unpack_u 8 (dropZ 8 h) in
    Ok (v, t).

(** has_data_appended (209-212) *)
Definition has_appended (u : ulog) : bool := negb (Z.land (nth 0 (u_incompat u) 0) 1 =? 0).

(** _load_file (851-882) on a file object with contents [f] positioned at [pos] *)
Definition load_at (fuel : nat) (cf : cfg) (f : bytes) (pos : Z) (u : ulog) : option (res ulog) :=
  match read_header f pos with
  | Err e => Some (Err e)
  | Ok (v, t) =>
    let u1 := set_last t (set_start t (set_version v u)) in
    match def_loop fuel cf f (pos + 16) u1 with
    | None => None
    | Some (Err e) => Some (Err e)
    | Some (Ok (p, u2)) =>
      if cf_hdr cf then Some (Ok u2)
      else read_sections fuel cf f (if has_appended u2 then u_offsets u2 else []) p u2
    end
  end.

(** ULog(log_file, ...) (95-138); [None]: no result within [fuel] iterations per loop *)
Definition load (fuel : nat) (cf : cfg) (f : bytes) : option (res ulog) := load_at fuel cf f 0 ulog0.
