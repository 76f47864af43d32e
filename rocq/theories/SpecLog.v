(** What a log made of well-formed messages means, in terms of the messages alone. *)
From Coq Require Import Permutation.
From Verif Require Import Base Dict Utf8 PyStr PyFloat Struct ModelTypes ModelRead Spec SpecMsg.

(** ** Selecting messages *)
(** (type, key, value bytes) *)
Definition info_of (m : msg) : list (str * str * bytes) :=
  match m with MInfo ty k raw => [(ty, k, raw)] | _ => [] end.
Definition param_of (m : msg) : list (str * str * bytes) :=
  match m with MParam ty k raw => [(ty, k, raw)] | _ => [] end.
Definition multi_of (m : msg) : list (Z * (str * str * bytes)) :=
  match m with MMulti c ty k raw => [(c, (ty, k, raw))] | _ => [] end.
Definition default_of (m : msg) : list (Z * (str * str * bytes)) :=
  match m with MDefault b ty k raw => [(b, (ty, k, raw))] | _ => [] end.
Definition format_of (m : msg) : list mformat :=
  match m with MFormat name fields => [mkFmt name fields] | _ => [] end.
Definition log_of (m : msg) : list logmsg :=
  match m with MLog l t s => [mkLog l t s] | _ => [] end.
Definition tag_of (m : msg) : list tagmsg :=
  match m with MTag l g t s => [mkTag l g t s] | _ => [] end.
Definition drop_of (m : msg) : list Z := match m with MDrop d => [d] | _ => [] end.

Definition key_of (e : str * str * bytes) : str := snd (fst e).
Definition type_of (e : str * str * bytes) : str := fst (fst e).
(** the value of an entry is [v] *)
Definition means (e : str * str * bytes) (v : value) : Prop := typed (type_of e) (snd e) v.
(** the last entry with key [k] *)
Definition last_entry (k : str) (l : list (str * str * bytes)) : option (str * str * bytes) :=
  find (fun e => str_eqb k (key_of e)) (rev l).

(** the formats in force after the definitions [defs] *)
Definition formats_in (defs : list msg) : dict str mformat :=
  fold_left (fun d m => sset (mf_name m) m d) (flat_map format_of defs) [].

(** ** Topics *)
(** The format of topic [name] has the flattened fields [fields] (trailing padding removed).
    Field names are not empty and distinct, and there is a 64-bit timestamp. *)
Record topic (fmts : dict str mformat) (name : str) (fields : list fielddata) : Prop := mkTopic {
  tp_fields : exists fmt out, sget name fmts = Some fmt /\ expands fmts [] (mf_fields fmt) out /\
                              without_padding out fields;
  tp_names : NoDup (map fd_name fields) /\ ~ In [] (map fd_name fields);
  tp_stamp : In (mkFD (lit "timestamp") U64) fields }.

(** byte offset and size of the fields of a record *)
Definition size_of (fd : fielddata) : Z := Z.of_nat (ctype_size (fd_type fd)).
Definition total (fields : list fielddata) : Z := fold_right (fun fd a => size_of fd + a) 0 fields.
(** the bytes of field number [i] in a record *)
Definition field_bytes (fields : list fielddata) (i : nat) (r : bytes) : bytes :=
  match nth_error fields i with
  | Some fd => slice (total (firstn i fields)) (total (firstn i fields) + size_of fd) r
  | None => []
  end.
(** the record has the timestamp [t] *)
Definition stamped (fields : list fielddata) (r : bytes) (t : Z) : Prop :=
  exists i, nth_error fields i = Some (mkFD (lit "timestamp") U64) /\ le_dec (field_bytes fields i r) = t.

(** ** Subscriptions *)
(** the instance and topic a message id currently stands for, and its records since then *)
Definition cur_step (id : Z) (cur : option (Z * str * list bytes)) (m : msg) : option (Z * str * list bytes) :=
  match m with
  | MAdd multi i name => if i =? id then Some (multi, name, []) else cur
  | MData i r => if i =? id then option_map (fun c => (fst c, snd c ++ [r])) cur else cur
  | _ => cur
  end.
Definition current (id : Z) (ms : list msg) : option (Z * str * list bytes) := fold_left (cur_step id) ms None.

(** Every subscription names a topic with a usable format; every data message belongs to a
    subscription and has the size of its record. *)
Definition consistent (fmts : dict str mformat) (data : list msg) : Prop :=
  (forall multi id name, In (MAdd multi id name) data -> exists fields, topic fmts name fields) /\
  (forall pre id r post, data = pre ++ MData id r :: post ->
     exists multi name recs fields, current id pre = Some (multi, name, recs) /\
       topic fmts name fields /\ lenZ r = total fields).

(** ** Well-formed logs *)
Definition is_def (m : msg) : Prop :=
  match m with
  | MInfo _ _ _ | MMulti _ _ _ _ | MParam _ _ _ | MDefault _ _ _ _ | MFormat _ _ => True
  | MFlags c i _ _ _ => known_incompat i /\ Z.land (nth 0 i 0) 1 = 0
  | _ => False
  end.
Definition is_data (m : msg) : Prop :=
  match m with MFormat _ _ | MFlags _ _ _ _ _ => False | _ => True end.
Definition starts_section (m : msg) : Prop :=
  match m with MAdd _ _ _ | MLog _ _ _ | MTag _ _ _ _ => True | _ => False end.
Record typed_log (f : bytes) (v t : Z) (defs data : list msg) : Prop := mkTL {
  tl_file : f = file_header v t ++ frames (map wire defs) ++ frames (map wire data);
  tl_header : header_fits v t;
  tl_size : lenZ f <= BIG;
  tl_defs : Forall msg_ok defs /\ Forall is_def defs;
  tl_data : Forall msg_ok data /\ Forall is_data data;
  tl_start : match data with [] => True | m :: _ => starts_section m end;
  tl_topics : consistent (formats_in defs) data }.

(** ** Contents *)
(** A dictionary holds the last entry of each key. *)
Definition holds_last (l : list (str * str * bytes)) (d : dict str value) : Prop :=
  forall k, match last_entry k l with
            | None => sget k d = None
            | Some e => exists v, means e v /\ sget k d = Some v
            end.
Definition holds_types (l : list (str * str * bytes)) (d : dict str str) : Prop :=
  forall k, sget k d = option_map type_of (last_entry k l).

Definition default_value (ty : Z) (k : str) (d : dict Z (dict str value)) : option value :=
  match zget ty d with Some m => sget k m | None => None end.

(** Info-multiple entries of one key: consecutive messages form a list as long as they are
    marked as continued. *)
Inductive grouped_as {A} : list (Z * A) -> list (list (Z * A)) -> Prop :=
| ga_nil : grouped_as [] []
| ga_cons c e cont rest gs : Forall (fun x => fst x <> 0) cont ->
    match rest with [] => True | x :: _ => fst x = 0 end ->
    grouped_as rest gs -> grouped_as ((c, e) :: cont ++ rest) (((c, e) :: cont) :: gs).
Definition holds_multi (l : list (Z * (str * str * bytes))) (d : dict str (list (list value))) : Prop :=
  forall k, let lk := filter (fun x => str_eqb k (key_of (snd x))) l in
    (lk = [] /\ sget k d = None) \/
    (lk <> [] /\ exists gs vs, grouped_as lk gs /\ sget k d = Some vs /\
       Forall2 (Forall2 (fun x v => means (snd x) v)) gs vs).

(** last_timestamp after some data messages *)
Inductive latest (fmts : dict str mformat) (t0 : Z) : list msg -> Z -> Prop :=
| lt_nil : latest fmts t0 [] t0
| lt_data pre t id r multi name recs fields ts : latest fmts t0 pre t ->
    current id pre = Some (multi, name, recs) -> topic fmts name fields -> stamped fields r ts ->
    latest fmts t0 (pre ++ [MData id r]) (Z.max t ts)
| lt_other pre t m : latest fmts t0 pre t -> (forall id r, m <> MData id r) ->
    latest fmts t0 (pre ++ [m]) t.

(** The dataset of one message id holds exactly the records [recs]. *)
Definition is_dataset (fields : list fielddata) (multi id : Z) (name : str) (recs : list bytes) (ds : dataset) : Prop :=
  ds_multi ds = multi /\ ds_id ds = id /\ ds_name ds = name /\ ds_fields ds = fields /\
  map fst (ds_data ds) = map fd_name fields /\
  (forall i fd, nth_error fields i = Some fd ->
     sget (fd_name fd) (ds_data ds) =
       Some (mkCol (np_of (fd_type fd)) (map (fun r => le_dec (field_bytes fields i r)) recs))).

(** [u] holds the contents of the log. *)
Record contents (fmts : dict str mformat) (v t : Z) (defs data : list msg) (u : ulog) : Prop := mkContents {
  ct_version : u_version u = v /\ u_start u = t;
  ct_info : holds_last (flat_map info_of (defs ++ data)) (u_info u);
  ct_infot : holds_types (flat_map info_of (defs ++ data)) (u_infot u);
  ct_multi : holds_multi (flat_map multi_of (defs ++ data)) (u_multi u);
  ct_multit : forall k, sget k (u_multit u) =
    option_map (fun x => type_of (snd x)) (find (fun x => str_eqb k (key_of (snd x))) (flat_map multi_of (defs ++ data)));
  ct_defaults : (* default types 0 and 1 only, see C15 *)
    Forall (fun x => fst x < 4) (flat_map default_of (defs ++ data)) -> forall ty k, ty = 0 \/ ty = 1 ->
    match find (fun x => str_eqb k (key_of (snd x)) && Z.testbit (fst x) ty) (rev (flat_map default_of (defs ++ data))) with
    | None => default_value ty k (u_defaults u) = None
    | Some x => exists w, means (snd x) w /\ default_value ty k (u_defaults u) = Some w
    end;
  ct_params : holds_last (flat_map param_of defs) (u_params u);
  ct_formats : u_formats u = fmts;
  ct_logged : u_logged u = flat_map log_of data;
  ct_tagged : forall g, zget g (u_tagged u) =
    match filter (fun m => tg_tag m =? g) (flat_map tag_of data) with [] => None | l => Some l end;
  ct_last : latest fmts t data (u_last u);
  ct_dropouts : map dr_dur (u_dropouts u) = flat_map drop_of data;
  ct_drop_ts : forall pre d post, data = pre ++ MDrop d :: post -> exists ts, latest fmts t pre ts /\
    nth_error (u_dropouts u) (length (flat_map drop_of pre)) = Some (mkDrop d ts);
  ct_changed : Forall2 (fun e c => snd (fst c) = key_of e /\ means e (snd c))
    (flat_map param_of data) (u_changed u);
  ct_changed_ts : forall pre ty k raw post, data = pre ++ MParam ty k raw :: post -> exists ts v,
    latest fmts t pre ts /\
    nth_error (u_changed u) (length (flat_map param_of pre)) = Some (ts, k, v);
  ct_datasets : NoDup (map ds_id (u_data u)) /\
    (forall ds, In ds (u_data u) -> exists multi name recs fields,
       current (ds_id ds) data = Some (multi, name, recs) /\ recs <> [] /\ topic fmts name fields /\
       is_dataset fields multi (ds_id ds) name recs ds) /\
    (forall id multi name recs, current id data = Some (multi, name, recs) -> recs <> [] ->
       exists ds, In ds (u_data u) /\ ds_id ds = id) }.
