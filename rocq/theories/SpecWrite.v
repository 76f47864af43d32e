(** What writing a log means: the messages an object stands for, and which objects survive a
    round trip.  This file does not mention the writer. *)
From Coq Require Import Permutation Sorted.
From Verif Require Import Base Dict Utf8 PyStr PyFloat Struct ModelTypes ModelRead Spec SpecMsg SpecLog.

(** ** Ordering *)
(** [l'] is [l] sorted by [key], elements with the same key keeping their order. *)
Definition sorted_from {A} (key : A -> Z) (l l' : list A) : Prop :=
  Permutation l l' /\ StronglySorted (fun a b => key a <= key b) l' /\
  (forall k, filter (fun a => key a =? k) l' = filter (fun a => key a =? k) l).

(** ** The contents of the data section of a written log *)
Inductive source :=
| Sample (ds : dataset) (i : nat)
| Logged (m : logmsg)
| Tagged (m : tagmsg)
| Dropped (d : dropout)
| Changed (t : Z) (k : str) (v : value).

(** element [i] of a column of a dataset *)
Definition elem_at (ds : dataset) (name : str) (i : nat) (v : value) : Prop :=
  exists col raw, sget name (ds_data ds) = Some col /\ nth_error (c_raw col) i = Some raw /\
    v = np_elem (c_type col) raw.
(** the number of samples of a dataset *)
Definition samples_in (ds : dataset) : nat :=
  match ds_fields ds with
  | [] => 0
  | fd :: _ => match sget (fd_name fd) (ds_data ds) with Some c => length (c_raw c) | None => 0 end
  end.
(** the time of an item *)
Definition at_time (s : source) (t : Z) : Prop :=
  match s with
  | Sample ds i => elem_at ds (lit "timestamp") i (VInt t)
  | Logged m => t = lg_ts m
  | Tagged m => t = tg_ts m
  | Dropped d => t = dr_ts d
  | Changed t' _ _ => t = t'
  end.
(** The byte value written for the raw value of a field: exactly the raw value, except that a
    bool other than 0 becomes 1 and a signalling NaN becomes quiet (the top bit of its
    mantissa is set).  A char must be ASCII. *)
Definition written_raw (c : ctype) (raw : Z) : Z :=
  match c with
  | CBool => if raw =? 0 then 0 else 1
  | F32 => if f32_is_snan raw then raw + 4194304 else raw
  | _ => raw
  end.
(** [b] is what is written for sample [i] of field [fd]; the contents are described for
    columns of the type of the field, as all loaded columns are. *)
Definition value_written (ds : dataset) (i : nat) (fd : fielddata) (b : bytes) : Prop :=
  length b = ctype_size (fd_type fd) /\
  exists col raw, sget (fd_name fd) (ds_data ds) = Some col /\ nth_error (c_raw col) i = Some raw /\
    (c_type col = np_of (fd_type fd) -> 0 <= raw < 256 ^ Z.of_nat (ctype_size (fd_type fd)) ->
       b = le_enc (ctype_size (fd_type fd)) (written_raw (fd_type fd) raw) /\ (fd_type fd = CChar -> raw < 128)).
(** The type and the bytes of a parameter. *)
Definition param_written (v : value) (ty : str) (raw : bytes) : Prop :=
  match v with
  | VInt z => ty = lit "int32_t" /\ -2147483648 <= z < 2147483648 /\ raw = le_enc 4 (z mod 4294967296)
  | VBool b => ty = lit "int32_t" /\ raw = le_enc 4 (if b then 1 else 0)
  | VFloat d => ty = lit "float" /\ exists r, narrow d = Some r /\ raw = le_enc 4 r
  | _ => False
  end.
(** the message (type, payload) carries the item *)
Definition carries (s : source) (m : Z * bytes) : Prop :=
  match s with
  | Sample ds i => exists bs, u16 (ds_id ds) /\ m = wire (MData (ds_id ds) (concat bs)) /\
                   Forall2 (value_written ds i) (ds_fields ds) bs
  | Logged l => u8 (lg_level l) /\ u64 (lg_ts l) /\ str_ok (lg_msg l) /\
                m = wire (MLog (lg_level l) (lg_ts l) (lg_msg l))
  | Tagged l => u8 (tg_level l) /\ u16 (tg_tag l) /\ u64 (tg_ts l) /\ str_ok (tg_msg l) /\
                m = wire (MTag (tg_level l) (tg_tag l) (tg_ts l) (tg_msg l))
  | Dropped d => u16 (dr_dur d) /\ m = wire (MDrop (dr_dur d))
  | Changed _ k v => str_ok k /\ exists ty raw, m = wire (MParam ty k raw) /\ param_written v ty raw
  end.
(** all items of an object: samples by message id, then logged messages, tagged messages,
    dropouts and changed parameters *)
Definition all_sources (by_id : list dataset) (u : ulog) : list source :=
  flat_map (fun ds => map (Sample ds) (seq 0 (samples_in ds))) by_id ++
  map Logged (u_logged u) ++ map Tagged (concat (map snd (u_tagged u))) ++
  map Dropped (u_dropouts u) ++ map (fun c => Changed (fst (fst c)) (snd (fst c)) (snd c)) (u_changed u).

(** ** Objects that fit the format *)

(** the type names a value can be written with *)
Definition type_written (ty : str) : Prop :=
  (exists c, ty = ctype_name c) \/ (exists r, ty = lit "char[" ++ r) \/ (exists r, ty = lit "uint8_t[" ++ r).
(** the value [v] of type [ty] fits a message of type info *)
Definition kv_fits (ty key : str) (v : value) : Prop :=
  type_written ty /\ exists raw, kv_ok ty key raw /\ typed ty raw v /\ lenZ (kv_bytes ty key raw) < 65535.
(** parameters are 32-bit integers or single floats *)
Definition param_fits (key : str) (v : value) : Prop :=
  (exists z, v = VInt z /\ kv_fits (lit "int32_t") key v) \/
  (exists b, v = VFloat b /\ kv_fits (lit "float") key v).

(** Field values that are written exactly: bool bytes are 0 or 1, chars are ASCII, floats
    are not signalling NaNs. *)
Definition elem_fits (c : ctype) (raw : Z) : Prop :=
  0 <= raw < 256 ^ Z.of_nat (ctype_size c) /\
  match c with CBool => raw <= 1 | CChar => raw < 128 | F32 => f32_is_snan raw = false | _ => True end.

(** the raw values of a column *)
Definition raws (ds : dataset) (name : str) : list Z :=
  match sget name (ds_data ds) with Some c => c_raw c | None => [] end.

Definition non_decreasing (l : list Z) : Prop := StronglySorted Z.le l.

(** A dataset of a topic that is defined by the formats [fmts]: its columns are those of the
    format and have the same, positive number of values; its timestamps do not decrease. *)
Record dataset_fits (fmts : dict str mformat) (ds : dataset) : Prop := mkDF {
  df_ids : u8 (ds_multi ds) /\ u16 (ds_id ds) /\ str_ok (ds_name ds) /\
           lenZ (utf8 (ds_name ds)) + 3 < 65536 /\ total (ds_fields ds) + 2 < 65536;
  df_topic : topic fmts (ds_name ds) (ds_fields ds);
  df_plain : forall fmt ty n, sget (ds_name ds) fmts = Some fmt -> In (ty, n, lit "timestamp") (mf_fields fmt) -> n <= 0;
  df_stamp : 0 <= ds_tsidx ds /\
             nth_error (ds_fields ds) (Z.to_nat (ds_tsidx ds)) = Some (mkFD (lit "timestamp") U64);
  df_keys : map fst (ds_data ds) = map fd_name (ds_fields ds);
  df_columns : exists n, (0 < n)%nat /\ forall fd, In fd (ds_fields ds) -> exists l,
    sget (fd_name fd) (ds_data ds) = Some (mkCol (np_of (fd_type fd)) l) /\ length l = n /\
    Forall (elem_fits (fd_type fd)) l;
  df_times : non_decreasing (raws ds (lit "timestamp")) }.

(** all timestamps of samples *)
Definition sample_times (u : ulog) : list Z := flat_map (fun ds => raws ds (lit "timestamp")) (u_data u).
(** Times attached to dropouts and parameter changes: the start of the log or the time of a sample. *)
Definition anchored (u : ulog) (t : Z) : Prop := t = u_start u \/ (In t (sample_times u) /\ u_start u <= t).

(** An object whose contents fit the format. *)
Record fits_format (u : ulog) : Prop := mkFit {
  ff_header : header_fits (u_version u) (u_start u);
  ff_flags : lenZ (u_compat u) = 8 /\ bytes_ok (u_compat u) /\
             lenZ (u_incompat u) = 8 /\ bytes_ok (u_incompat u) /\ known_incompat (u_incompat u);
  ff_formats : NoDup (map fst (u_formats u)) /\
    (forall k m, In (k, m) (u_formats u) -> k = mf_name m /\ msg_ok (MFormat (mf_name m) (mf_fields m)));
  ff_info : NoDup (map fst (u_info u)) /\ map fst (u_infot u) = map fst (u_info u) /\
    (forall k v, In (k, v) (u_info u) -> exists ty, sget k (u_infot u) = Some ty /\ kv_fits ty k v);
  ff_multi : NoDup (map fst (u_multi u)) /\ map fst (u_multit u) = map fst (u_multi u) /\
    (forall k ls, In (k, ls) (u_multi u) -> ls <> [] /\ exists ty, sget k (u_multit u) = Some ty /\
       forall l, In l ls -> l <> [] /\ forall v, In v l -> kv_fits ty k v);
  ff_params : NoDup (map fst (u_params u)) /\ (forall k v, In (k, v) (u_params u) -> param_fits k v);
  ff_defaults : NoDup (map fst (u_defaults u)) /\
    (forall t d, In (t, d) (u_defaults u) -> (t = 0 \/ t = 1) /\ d <> [] /\ NoDup (map fst d) /\
       forall k v, In (k, v) d -> param_fits k v);
  ff_data : Forall (dataset_fits (u_formats u)) (u_data u) /\ NoDup (map ds_id (u_data u)) /\
    NoDup (map (fun ds => (ds_name ds, ds_multi ds)) (u_data u)) /\
    StronglySorted (fun a b => ds_leb a b = true) (u_data u);
  ff_logged : Forall (fun m => msg_ok (MLog (lg_level m) (lg_ts m) (lg_msg m))) (u_logged u) /\
    non_decreasing (map lg_ts (u_logged u));
  ff_tagged : NoDup (map fst (u_tagged u)) /\
    (forall t l, In (t, l) (u_tagged u) -> l <> [] /\ non_decreasing (map tg_ts l) /\
       Forall (fun m => tg_tag m = t /\ msg_ok (MTag (tg_level m) (tg_tag m) (tg_ts m) (tg_msg m))) l);
  ff_dropouts : Forall (fun d => u16 (dr_dur d) /\ anchored u (dr_ts d)) (u_dropouts u) /\
    non_decreasing (map dr_ts (u_dropouts u));
  ff_changed : (forall t k v, In (t, k, v) (u_changed u) -> param_fits k v /\ anchored u t) /\
    non_decreasing (map (fun c => fst (fst c)) (u_changed u));
  ff_start : u_data u = [] -> u_dropouts u = [] /\ u_changed u = [];
  ff_last : u_last u = fold_left Z.max (sample_times u) (u_start u);
  ff_rest : u_corrupt u = false /\ u_filtered u = [] /\ u_missing u = [] /\ u_subs u = [] /\ u_has_sync u = true }.

(** The tags of the tagged messages are listed by the time of their first message. *)
Definition tags_ordered (u : ulog) : Prop :=
  non_decreasing (flat_map (fun tl => match snd tl with m :: _ => [tg_ts m] | [] => [] end) (u_tagged u)).

(** [u'] has the contents of [u]: everything but the sync counter, the append offsets, the
    data-appended flag and the order of the tags. *)
Definition without_append (i : list Z) : list Z :=
  match i with [] => [] | x :: r => Z.land x 254 :: r end.
Record copy_of (u u' : ulog) : Prop := mkCopy {
  cp_header : u_version u' = u_version u /\ u_start u' = u_start u /\ u_last u' = u_last u;
  cp_flags : u_compat u' = u_compat u /\ u_incompat u' = without_append (u_incompat u) /\ u_offsets u' = [];
  cp_formats : u_formats u' = u_formats u;
  cp_info : u_info u' = u_info u /\ u_infot u' = u_infot u;
  cp_multi : u_multi u' = u_multi u /\ u_multit u' = u_multit u;
  cp_params : u_params u' = u_params u /\ u_defaults u' = u_defaults u /\ u_changed u' = u_changed u;
  cp_messages : u_logged u' = u_logged u /\ (forall t, zget t (u_tagged u') = zget t (u_tagged u));
  cp_dropouts : u_dropouts u' = u_dropouts u;
  cp_data : u_data u' = u_data u;
  cp_rest : u_corrupt u' = false /\ u_filtered u' = [] /\ u_missing u' = [] /\ u_sync_cnt u' = 0 /\ u_has_sync u' = true }.

(** ** What happens to the samples of a log that is loaded and written *)
(** the records of the message id that are loaded *)
Definition records (id : Z) (data : list msg) : list bytes :=
  match current id data with Some (_, _, recs) => recs | None => [] end.
(** [r'] is the record [r] of the topic with the field values written as described by [written_raw] *)
Definition rewritten (fields : list fielddata) (r r' : bytes) : Prop :=
  lenZ r' = lenZ r /\
  forall k fd, nth_error fields k = Some fd -> field_bytes fields k r' =
    le_enc (ctype_size (fd_type fd)) (written_raw (fd_type fd) (le_dec (field_bytes fields k r))).
(** field values that are kept *)
Definition kept (c : ctype) (raw : Z) : Prop :=
  match c with CBool => raw <= 1 | F32 => f32_is_snan raw = false | _ => True end.

(** Of two tags with messages of the same time, the one listed first had its first message not later. *)
Definition tags_agree (u : ulog) : Prop :=
  forall d1 a la d2 b lb d3 ma mb x y, u_tagged u = d1 ++ (a, la) :: d2 ++ (b, lb) :: d3 ->
    In ma la -> In mb lb -> tg_ts ma = tg_ts mb ->
    hd_error la = Some x -> hd_error lb = Some y -> tg_ts x <= tg_ts y.
