(** Accessors and helpers of a loaded log (core.py 140-238, 497-560, 1156-1184). *)
From Verif Require Import Base Dict Utf8 PyStr PyFloat Struct PySort ModelTypes ModelRead.

(** get_default_parameters (169-177) *)
Definition get_default_parameters (u : ulog) (t : Z) : dict str value :=
  match zget t (u_defaults u) with Some d => d | None => [] end.

(** has_default_parameters (220-222), as a truth value *)
Definition has_default_parameters (u : ulog) : bool := negb (Z.land (nth 0 (u_compat u) 0) 1 =? 0).

(** get_dataset (224-238): [0] of an empty list raises IndexError *)
Definition get_dataset (u : ulog) (name : str) (multi : Z) : res dataset :=
  py_nth (filter (fun d => str_eqb (ds_name d) name && (ds_multi d =? multi)) (u_data u)) 0.

(** ** Comparing values *)

(** the truth value of a == b for Python values that are not the same object: bool and int
    compare as integers, int and float compare exactly, str and bytes never equal. Used by
    ULog.__eq__ (core.py 506) on the values of the dictionaries. *)
Definition num_of (v : value) : option (Z + Z) :=      (* integer, or float bits *)
  match v with
  | VInt z => Some (inl z)
  | VBool b => Some (inl (if b then 1 else 0))
  | VFloat b => Some (inr b)
  | _ => None
  end.
(** == of two numbers (core.py 506) *)
Definition num_eqb (a b : Z + Z) : bool :=
  match a, b with
  | inl x, inl y => x =? y
  | inr x, inr y => f64_eqb x y
  | inl x, inr y | inr y, inl x => match f64_to_Z y with Some z => x =? z | None => false end
  end.
(** == of two values of info messages and parameters (core.py 506) *)
Definition value_eqb (a b : value) : bool :=
  match num_of a, num_of b with
  | Some x, Some y => num_eqb x y
  | None, None =>
    match a, b with
    | VStr x, VStr y => str_eqb x y
    | VBytes x, VBytes y => str_eqb x y
    | _, _ => false
    end
  | _, _ => false
  end.

(** list == list (core.py 506, 541): same length and equal elements *)
Fixpoint list_eqb {A} (eqb : A -> A -> bool) (l m : list A) : bool :=
  match l, m with
  | [], [] => true
  | x :: l', y :: m' => eqb x y && list_eqb eqb l' m'
  | _, _ => false
  end.
(** dict == dict: same size, and every key of the left one maps to an equal value in the right
    one; the order of the entries does not matter. Used in core.py 506. *)
Definition dict_eqb {K V} (keqb : K -> K -> bool) (veqb : V -> V -> bool) (d e : dict K V) : bool :=
  Nat.eqb (length d) (length e) &&
  forallb (fun kv => match dget keqb (fst kv) e with Some v => veqb (snd kv) v | None => false end) d.
(** set == set; core.py 506 on _filtered_message_ids and _missing_message_ids *)
Definition zset_eqb (a b : list Z) : bool :=
  Nat.eqb (length a) (length b) && forallb (fun x => existsb (Z.eqb x) b) a.

(** numpy x == y for two elements of the same type; core.py 536, 557 *)
Definition np_eqb (t : nptype) (x y : Z) : bool :=
  match np_elem t x, np_elem t y with
  | VFloat a, VFloat b => f64_eqb a b
  | _, _ => x =? y
  end.
(** np.isnan of an element, for equal_nan=True (core.py 536) *)
Definition np_isnan (t : nptype) (x : Z) : bool :=
  match np_elem t x with VFloat a => f64_is_nan a | _ => false end.
(** np.array_equal(l, r, equal_nan=True) (536).  Simplification: arrays of different element
    types count as different; then the field_data of the two datasets differ anyway. *)
Definition array_equal (a b : column) : bool :=
  nptype_eqb (c_type a) (c_type b) &&
  list_eqb (fun x y => np_eqb (c_type a) x y || (np_isnan (c_type a) x && np_isnan (c_type a) y))
           (c_raw a) (c_raw b).

(** self.type_str == other.type_str (core.py 730), for entries of the type table *)
Definition ctype_eqb (a b : ctype) : bool :=
  match a, b with
  | I8, I8 | U8, U8 | I16, I16 | U16, U16 | I32, I32 | U32, U32 | I64, I64 | U64, U64
  | F32, F32 | F64, F64 | CBool, CBool | CChar, CChar => true
  | _, _ => false
  end.
(** _FieldData.__eq__ (726-730) *)
Definition field_eqb (a b : fielddata) : bool :=
  str_eqb (fd_name a) (fd_name b) && ctype_eqb (fd_type a) (fd_type b).
(** MessageFormat.__eq__ (633-637) *)
Definition format_eqb (a b : mformat) : bool :=
  str_eqb (mf_name a) (mf_name b) &&
  list_eqb (fun x y => str_eqb (fst (fst x)) (fst (fst y)) && (snd (fst x) =? snd (fst y)) &&
                       str_eqb (snd x) (snd y)) (mf_fields a) (mf_fields b).
(** MessageLogging.__eq__ (662-668) *)
Definition log_eqb (a b : logmsg) : bool :=
  (lg_level a =? lg_level b) && (lg_ts a =? lg_ts b) && str_eqb (lg_msg a) (lg_msg b).
(** MessageLoggingTagged.__eq__ (689-696) *)
Definition tag_eqb (a b : tagmsg) : bool :=
  (tg_level a =? tg_level b) && (tg_tag a =? tg_tag b) && (tg_ts a =? tg_ts b) && str_eqb (tg_msg a) (tg_msg b).
(** MessageDropout.__eq__ (714-718) *)
Definition drop_eqb (a b : dropout) : bool := (dr_dur a =? dr_dur b) && (dr_ts a =? dr_ts b).

(** self.data.keys() == other.data.keys() (core.py 533): equal as sets *)
Definition keys_eqb (a b : list str) : bool :=
  Nat.eqb (length a) (length b) && forallb (fun x => existsb (str_eqb x) b) a.
(** Data.__eq__ (528-543) *)
Definition data_eqb (a b : dataset) : bool :=
  (ds_multi a =? ds_multi b) && (ds_id a =? ds_id b) && str_eqb (ds_name a) (ds_name b) &&
  list_eqb field_eqb (ds_fields a) (ds_fields b) && (ds_tsidx a =? ds_tsidx b) &&
  (keys_eqb (dkeys (ds_data a)) (dkeys (ds_data b)) &&
   list_eqb array_equal (map snd (ds_data a)) (map snd (ds_data b))).

(** ULog.__eq__ (497-508) of two different objects that share no values (comparing values
    stored in one object with themselves is always true in Python's containers).
    _subscriptions is empty in loaded logs; its objects have no __eq__, so non-empty ones
    compare different. *)
Definition ulog_eqb (a b : ulog) : bool :=
  eqb (u_corrupt a) (u_corrupt b) && (u_start a =? u_start b) && (u_last a =? u_last b) &&
  dict_eqb str_eqb value_eqb (u_info a) (u_info b) &&
  dict_eqb str_eqb str_eqb (u_infot a) (u_infot b) &&
  dict_eqb str_eqb (list_eqb (list_eqb value_eqb)) (u_multi a) (u_multi b) &&
  dict_eqb str_eqb str_eqb (u_multit a) (u_multit b) &&
  dict_eqb str_eqb value_eqb (u_params a) (u_params b) &&
  dict_eqb Z.eqb (dict_eqb str_eqb value_eqb) (u_defaults a) (u_defaults b) &&
  list_eqb (fun x y => (fst (fst x) =? fst (fst y)) && str_eqb (snd (fst x)) (snd (fst y)) &&
                       value_eqb (snd x) (snd y)) (u_changed a) (u_changed b) &&
  dict_eqb str_eqb format_eqb (u_formats a) (u_formats b) &&
  list_eqb log_eqb (u_logged a) (u_logged b) &&
  dict_eqb Z.eqb (list_eqb tag_eqb) (u_tagged a) (u_tagged b) &&
  list_eqb drop_eqb (u_dropouts a) (u_dropouts b) &&
  list_eqb data_eqb (u_data a) (u_data b) &&
  (match u_subs a, u_subs b with [], [] => true | _, _ => false end) &&
  zset_eqb (u_filtered a) (u_filtered b) && zset_eqb (u_missing a) (u_missing b) &&
  (u_version a =? u_version b) && str_eqb (u_compat a) (u_compat b) &&
  str_eqb (u_incompat a) (u_incompat b) && str_eqb (u_offsets a) (u_offsets b) &&
  eqb (u_has_sync a) (u_has_sync b) && (u_sync_cnt a =? u_sync_cnt b).

(** ** Data.list_value_changes (545-560) *)
Fixpoint changes_from (t : nptype) (prev : Z) (l : list (Z * Z)) : list (Z * Z) :=
  match l with
  | [] => []
  | (ts, x) :: r => (if np_eqb t prev x then [] else [(ts, x)]) ++ changes_from t x r
  end.
(** [t != 0] for a timestamp element *)
Definition np_nonzero (t : nptype) (x : Z) : bool :=
  match np_elem t x with VFloat a => negb (f64_is_zero a) | _ => negb (x =? 0) end.
(** Result: the raw elements of the two columns.  Both columns of a dataset have the same
    length (else the boolean index raises IndexError). Data.list_value_changes (core.py
    545-559) *)
Definition list_value_changes (ds : dataset) (field : str) : res (list (Z * Z)) :=
  match sget (lit "timestamp") (ds_data ds) with
  | None => Err KeyError
  | Some t =>
    match sget field (ds_data ds) with
    | None => Err KeyError
    | Some x =>
      if negb (Nat.eqb (length (c_raw t)) (length (c_raw x))) then Err IndexError
      else
        match filter (fun p => np_nonzero (c_type t) (fst p)) (combine (c_raw t) (c_raw x)) with
        | [] => Ok []
        | p :: r => Ok (p :: changes_from (c_type x) (snd p) r)
        end
    end
  end.

(** ** get_version_info, get_version_info_str (1156-1184) *)
(** val >> n raises TypeError for values that are not integers; core.py 1169 *)
Definition shift_of (v : value) : res Z :=
  match v with VInt z => Ok z | VBool b => Ok (if b then 1 else 0) | _ => Err TypeError end.
(** get_version_info (core.py 1156-1170) *)
Definition get_version_info (u : ulog) (key : str) : res (option (Z * Z * Z * Z)) :=
  match sget key (u_info u) with
  | None => Ok None
  | Some v =>
    let* z := shift_of v in
    Ok (Some (Z.land (Z.shiftr z 24) 255, Z.land (Z.shiftr z 16) 255, Z.land (Z.shiftr z 8) 255, Z.land z 255))
  end.
(** get_version_info_str (core.py 1172-1184) *)
Definition get_version_info_str (u : ulog) (key : str) : res (option str) :=
  let* v := get_version_info u key in
  match v with
  | Some (a, b, c, t) =>
    if 64 <=? t then
      let ty := if t <? 128 then lit " (alpha)" else if t <? 192 then lit " (beta)"
                else if t <? 255 then lit " (RC)" else [] in
      Ok (Some (lit "v" ++ str_of_Z a ++ lit "." ++ str_of_Z b ++ lit "." ++ str_of_Z c ++ ty))
    else Ok None
  | None => Ok None
  end.
