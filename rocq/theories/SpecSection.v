(** What a section of a log means, field by field, as a function of the sequence of events
    (processed messages) of the section.  No reader state is threaded here. *)
From Verif Require Import Base Dict Utf8 PyStr PyFloat Struct ModelTypes ModelRead Spec.

(** ** Decoded messages of each kind *)
Definition of_type {A} (t : Z) (parse : bytes -> res A) (e : event) : list A :=
  match e with
  | EMsg ty p => if ty =? t then match parse p with Ok m => [m] | Err _ => [] end else []
  | _ => []
  end.
Definition infos (ign : bool) (evs : list event) := flat_map (of_type 73 (parse_info ign)) evs.
Definition multis (ign : bool) (evs : list event) := flat_map (of_type 77 (parse_info_multi ign)) evs.
Definition pdefs (ign : bool) (evs : list event) := flat_map (of_type 81 (parse_pdef ign)) evs.
Definition params (ign : bool) (evs : list event) := flat_map (of_type 80 (parse_info ign)) evs.
Definition formats (ign : bool) (evs : list event) := flat_map (of_type 70 (parse_format ign)) evs.
Definition logs (ign : bool) (evs : list event) := flat_map (of_type 76 (parse_logging ign)) evs.
Definition tagged (ign : bool) (evs : list event) := flat_map (of_type 67 (parse_tagged ign)) evs.
Definition syncs (evs : list event) : Z :=
  lenZ (filter (fun e => match e with EMsg ty _ => ty =? 83 | _ => false end) evs).

(** Entries collected from left to right, each depending on what came before it. *)
Fixpoint collect {X} (g : list event -> event -> list X) (pre evs : list event) : list X :=
  match evs with
  | [] => []
  | e :: r => g pre e ++ collect g (pre ++ [e]) r
  end.

(** ** Subscriptions and samples *)

(** the two-byte message id a data message starts with *)
Definition msg_id (p : bytes) : option Z :=
  match p with a :: b :: _ => Some (a + 256 * b) | _ => None end.

(** the payload fits the subscription *)
Definition fits (s : subscr) (p : bytes) : bool :=
  (itemsize (sb_dtype s) <=? lenZ p - 2) && (lenZ p - 2 <=? sb_max s).
(** the record in it *)
Definition record (s : subscr) (p : bytes) : bytes := slice 2 (2 + itemsize (sb_dtype s)) p.

(** The current subscription of a message id and the records received for it since. *)
Definition sub_step (cf : cfg) (fmts : dict str mformat) (id : Z)
    (cur : option (subscr * list bytes)) (e : event) : option (subscr * list bytes) :=
  match e with
  | EMsg ty p =>
    if ty =? 65 then
      match parse_add cf fmts p with
      | Ok s => if (sb_id s =? id) && cf_filter cf (sb_name s) then Some (s, []) else cur
      | Err _ => cur
      end
    else if ty =? 68 then
      match msg_id p, cur with
      | Some i, Some (s, rows) =>
        if (i =? id) && fits s p then Some (s, rows ++ [record s p]) else cur
      | _, _ => cur
      end
    else cur
  | _ => cur
  end.
Definition subscription (cf : cfg) (fmts : dict str mformat) (evs : list event) (id : Z)
  : option (subscr * list bytes) := fold_left (sub_step cf fmts id) evs None.

(** ** Timestamps *)
(** the timestamp field of an accepted data message *)
Definition stamp (s : subscr) (p : bytes) : option Z :=
  let r := record s p in
  let o := sb_tsoff s in
  if o + 8 <=? lenZ r then Some (le_dec (slice o (o + 8) r)) else None.
Definition stamps (cf : cfg) (fmts : dict str mformat) (pre : list event) (e : event) : list Z :=
  match e with
  | EMsg ty p =>
    if ty =? 68 then
      match msg_id p with
      | Some id =>
        match subscription cf fmts pre id with
        | Some (s, _) => if fits s p then match stamp s p with Some t => [t] | None => [] end else []
        | None => []
        end
      | None => []
      end
    else []
  | _ => []
  end.
(** last_timestamp after the events [evs], when it was [t0] before *)
Definition last_stamp (cf : cfg) (fmts : dict str mformat) (t0 : Z) (evs : list event) : Z :=
  fold_left Z.max (collect (stamps cf fmts) [] evs) t0.

Definition dropouts_at (cf : cfg) (fmts : dict str mformat) (t0 : Z) (pre : list event) (e : event)
  : list dropout :=
  match e with
  | EMsg ty [a; b] => if ty =? 79 then [mkDrop (a + 256 * b) (last_stamp cf fmts t0 pre)] else []
  | _ => []
  end.
Definition changed_at (cf : cfg) (fmts : dict str mformat) (t0 : Z) (pre : list event) (e : event)
  : list (Z * str * value) :=
  map (fun m => (last_stamp cf fmts t0 pre, im_key m, im_value m)) (of_type 80 (parse_info (cf_ign cf)) e).

(** ** Info dictionaries: the last message with a key wins *)
Definition last_info (k : str) (l : list infomsg) : option infomsg :=
  find (fun m => str_eqb k (im_key m)) (rev l).

(** ** Info-multiple: a new list starts at each message that is not continued *)
Fixpoint group (acc : list (list value)) (l : list (Z * infomsg)) : list (list value) :=
  match l with
  | [] => acc
  | (c, m) :: r =>
    match acc, negb (c =? 0) with
    | g :: gs, true => group ((g ++ [im_value m]) :: gs) r     (* last list first *)
    | _, _ => group ([im_value m] :: acc) r
    end
  end.
Definition groups_of (k : str) (l : list (Z * infomsg)) : list (list value) :=
  rev (group [] (filter (fun cm => str_eqb k (im_key (snd cm))) l)).

(** ** Datasets *)
(** [ds] holds exactly the records [rows] of the subscription [s] *)
Definition column_of (s : subscr) (rows : list bytes) (i : nat) (nc : str * column) : Prop :=
  exists nt, nth_error (sb_dtype s) i = Some nt /\
    fst nc = fst nt /\ c_type (snd nc) = snd nt /\
    c_raw (snd nc) =
      map (fun row => let o := itemsize (firstn i (sb_dtype s)) in
                      le_dec (slice o (o + Z.of_nat (np_size (snd nt))) row)) rows.
Definition holds (s : subscr) (rows : list bytes) (ds : dataset) : Prop :=
  ds_multi ds = sb_multi s /\ ds_id ds = sb_id s /\ ds_name ds = sb_name s /\
  ds_fields ds = sb_fields s /\ ds_tsidx ds = sb_tsidx s /\
  length (ds_data ds) = length (sb_dtype s) /\
  (forall i nc, nth_error (ds_data ds) i = Some nc -> column_of s rows i nc).

(** ** A section *)

(** The events of a section up to its end: all processed, or up to a message whose
    payload makes the reader stop. *)
Inductive finishes (cf : cfg) : list event -> ulog -> ulog -> Prop :=
| fin_done evs u u' : run_events cf evs u = RDone u' -> finishes cf evs u u'
| fin_stop pre e u u1 u' : run_events cf pre u = RDone u1 -> data_event cf e u1 = RStop u' ->
    finishes cf (pre ++ [e]) u u'.

(** One event flags corruption. *)
Definition flags_at (cf : cfg) (fmts : dict str mformat) (filtered : list Z) (pre : list event) (e : event) : Prop :=
  match e with
  | ECorrupt => True
  | ENoSync => False
  | EMsg ty p =>
    (exists x, data_effect cf ty p (set_formats fmts ulog0) = Some (x, Some IndexError)) \/
    (ty = 68 /\ exists id, msg_id p = Some id /\
       match subscription cf fmts pre id with
       | Some (s, _) => fits s p = false
       | None => ~ In id filtered
       end)
  end.

(** ** A whole log *)

(** The sections one after another; at the end of each its datasets are built and added. *)
Inductive section_chain (cf : cfg) : list (list event) -> ulog -> ulog -> Prop :=
| sc_nil u : section_chain cf [] u u
| sc_cons evs secs u u1 u2 u3 : finishes cf evs u u1 -> finalize u1 = Ok u2 ->
    section_chain cf secs u2 u3 -> section_chain cf (evs :: secs) u u3.

(** [u] is the result of processing the definition events [defs] and then the data events
    of [secs] of a file with version [v] and start time [t]. *)
Definition read_as (cf : cfg) (v t : Z) (defs : list event) (secs : list (list event)) (u : ulog) : Prop :=
  exists u1, run_def_events cf defs (after_header v t) = Ok u1 /\ section_chain cf secs u1 u.

(** A file made of a header, complete definition messages, complete data messages and
    possibly the remains of a cut message. *)
Record well_framed (f : bytes) (v t : Z) (defs data : list (Z * bytes)) : Prop := mkWF {
  wf_file : exists tl, f = file_header v t ++ frames defs ++ frames data ++ tl /\
                       file_tail tl /\ (data = [] -> tl = []);
  wf_header : header_fits v t;
  wf_bytes : bytes_ok f;
  wf_size : lenZ f <= BIG;
  wf_defs : Forall plain_def defs;
  wf_data : Forall plain_data data;
  wf_start : starts_data data }.

Definition msgs (ms : list (Z * bytes)) : list event := map (fun m => EMsg (fst m) (snd m)) ms.

(** The data-section reader gives up ([struct.error]) at message [m] when the messages [pre]
    came before it: a data message without an id or whose record has no room for the
    timestamp, or another message whose payload is too short for its type. *)
Definition malformed (cf : cfg) (m : Z * bytes) : Prop :=
  exists u u', data_effect cf (fst m) (snd m) u = Some (u', Some StructError).
Definition stops (cf : cfg) (fmts : dict str mformat) (pre : list event) (m : Z * bytes) : Prop :=
  (fst m <> 68 /\ malformed cf m) \/
  (fst m = 68 /\ (msg_id (snd m) = None \/
     exists id s rs, msg_id (snd m) = Some id /\ subscription cf fmts pre id = Some (s, rs) /\
       fits s (snd m) = true /\ stamp s (snd m) = None)).

(** [evs] is everything that is processed of the messages [ms]: all of them, or those up to
    and including the first one at which the reader gives up. *)
Definition processed (cf : cfg) (fmts : dict str mformat) (ms : list (Z * bytes)) (evs : list event) : Prop :=
  evs = msgs ms \/ exists pre m post, ms = pre ++ m :: post /\ evs = msgs (pre ++ [m]) /\ stops cf fmts (msgs pre) m.

(** Quantities that run through all sections. *)
Fixpoint over_sections {X} (cf : cfg) (fmts : dict str mformat)
    (g : Z -> list event -> event -> list X) (t0 : Z) (secs : list (list event)) : list X :=
  match secs with
  | [] => []
  | s :: r => collect (g t0) [] s ++ over_sections cf fmts g (last_stamp cf fmts t0 s) r
  end.
Definition last_over (cf : cfg) (fmts : dict str mformat) (t0 : Z) (secs : list (list event)) : Z :=
  fold_left (last_stamp cf fmts) secs t0.

(** the last format definition with a name wins *)
Definition last_format (k : str) (l : list mformat) : option mformat :=
  find (fun m => str_eqb k (mf_name m)) (rev l).
(** the formats in force after the definition section *)
Definition format_dict (l : list mformat) : dict str mformat :=
  fold_left (fun d m => sset (mf_name m) m d) l [].

(** The datasets of one section: one for each message id whose current subscription has
    received data. *)
Definition new_data (cf : cfg) (fmts : dict str mformat) (evs : list event) (new : list dataset) : Prop :=
  NoDup (map ds_id new) /\
  (forall ds, In ds new -> exists s rs,
     subscription cf fmts evs (ds_id ds) = Some (s, rs) /\ concat rs <> [] /\ holds s rs ds) /\
  (forall id s rs, subscription cf fmts evs id = Some (s, rs) -> concat rs <> [] ->
     exists ds, In ds new /\ ds_id ds = id /\ holds s rs ds).
