(** px4_events.py: the choice of the event definitions, with one PX4Events object that is used for several logs. *)
From Verif Require Import Base Dict PyStr PyFloat Struct ModelTypes ModelApi ModelTools.

(** What is not part of pyulog: Parser of libevents_parse (an absent submodule), json, lzma
    and the letters and digits outside ASCII.  [lb_load] gives the state of the parser in any
    case: an exception leaves it as far as it got. The imports of px4_events.py 2-7. *)
Record lib (J P : Type) := mkLib {
  lb_new : P;                              (* Parser() *)
  lb_load : J -> P -> res unit * P;        (* load_definitions *)
  lb_profile : str -> P -> P;              (* set_profile *)
  lb_parse : P -> event_parser;            (* parse, group() and message() *)
  lb_json : bytes -> res J;                (* json.loads(lzma.decompress(...)) *)
  lb_alnum : Z -> bool }.                  (* str.isalnum for one character from 128 on *)
Arguments lb_new {J P}. Arguments lb_load {J P}. Arguments lb_profile {J P}. Arguments lb_parse {J P}. Arguments lb_json {J P}. Arguments lb_alnum {J P}.

(** A PX4Events object (17-20): _default_parser, and the arguments with which the callback was called so far.
    _events_profile is 'dev' in all objects. *)
Record px (P : Type) := mkPx { px_default : option P; px_calls : list bool }.
Arguments mkPx {P}. Arguments px_default {P}. Arguments px_calls {P}.
(** PX4Events() (17-20) *)
Definition px0 {P} : px P := mkPx None [].
(** _events_profile (18) *)
Definition profile : str := lit "dev".
(** the callback: what its k-th call returns or raises, for each argument (default_json_definitions_cb, 34-38) *)
Definition callback (J : Type) := nat -> bool -> res (option J).
(** _get_default_json_definitions (22-32); [download k]: what urlopen and decoding give when call k gets there.
    Simplification: it is not the JSON value null. *)
Definition default_cb {J} (download : nat -> res J) : callback J :=
  fun k already => if already then Ok None else rmap Some (download k).

(** file_hash.isalnum() (46) of one character: ASCII for bytes *)
Definition ascii_alnum (c : Z) : bool := ((48 <=? c) && (c <=? 57)) || ((65 <=? c) && (c <=? 90)) || ((97 <=? c) && (c <=? 122)).
(** file_hash.isalnum() (46) of one character of a str *)
Definition is_alnum {J P} (lb : lib J P) (c : Z) : bool := if c <? 128 then ascii_alnum c else lb_alnum lb c.
(** len(file_hash) <= 64 and file_hash.isalnum() (46): numbers have no length *)
Definition hash_ok {J P} (lb : lib J P) (h : value) : res bool :=
  match h with
  | VStr s => Ok ((lenZ s <=? 64) && negb (lenZ s =? 0) && forallb (is_alnum lb) s)
  | VBytes b => Ok ((lenZ b <=? 64) && negb (lenZ b =? 0) && forallb ascii_alnum b)
  | _ => Err TypeError
  end.
(** b''.join(events_metadata) (48) *)
Definition join_bytes (vs : list value) : res bytes :=
  let* l := mapM (fun v => match v with VBytes b => Ok b | _ => Err TypeError end) vs in Ok (concat l).
(** a new parser with definitions (49-51, 58-60) *)
Definition new_parser {J P} (lb : lib J P) (j : J) : res unit * P :=
  let '(r, p) := lb_load lb j (lb_new lb) in match r with Ok _ => (Ok tt, lb_profile lb profile p) | Err e => (Err e, p) end.

(** the definitions in the log (47-52) *)
Definition own_parser {J P} (lb : lib J P) (events : list (list value)) : res P :=
  let* first := py_nth events 0 in
  let* data := join_bytes first in
  let* j := lb_json lb data in
  let '(r, p) := new_parser lb j in let* _ := r in Ok p.
(** the second part of _get_event_parser (54-62), also for a hash that is not accepted *)
Definition default_parser {J P} (lb : lib J P) (cb : callback J) (s : px P) : res (option P) * px P :=
  let has := match px_default s with Some _ => true | None => false end in
  let calls := px_calls s ++ [has] in
  match cb (length (px_calls s)) has with
  | Err e => (Err e, mkPx (px_default s) calls)
  | Ok None => (Ok (px_default s), mkPx (px_default s) calls)
  | Ok (Some j) => let '(r, p) := new_parser lb j in
                   (match r with Ok _ => Ok (Some p) | Err e => Err e end, mkPx (Some p) calls)
  end.
(** _get_event_parser (40-62) *)
Definition get_event_parser {J P} (lb : lib J P) (cb : callback J) (u : ulog) (s : px P) : res (option P) * px P :=
  match sget (lit "metadata_events") (u_multi u), sget (lit "metadata_events_sha256") (u_info u) with
  | Some events, Some h =>
    match hash_ok lb h with
    | Err e => (Err e, s)
    | Ok true => (rmap Some (own_parser lb events), s)
    | Ok false => default_parser lb cb s
    end
  | _, _ => default_parser lb cb s
  end.

(** get_logged_events (84-88): the parser is looked for if the log has an event dataset with an id column that is not empty (84-95) *)
Definition has_events (u : ulog) : bool :=
  match get_dataset u (lit "event") 0 with
  | Ok d => match sget (lit "id") (ds_data d) with Some c => negb (lenZ (c_raw c) =? 0) | None => false end
  | Err _ => false
  end.
(** get_logged_events (64-130) of one object; what is left of the method is
    [get_logged_events] (ModelTools.v) *)
Definition logged_events {J P} (lb : lib J P) (cb : callback J) (u : ulog) (s : px P) : res (list (Z * str * str)) * px P :=
  if has_events u then
    let '(p, s') := get_event_parser lb cb u s in (get_logged_events (rmap (option_map (lb_parse lb)) p) u, s')
  else (Ok [], s).
(** one object for several logs, one after the other; calls of get_logged_events (64-130). *)
Fixpoint logs_events {J P} (lb : lib J P) (cb : callback J) (us : list ulog) (s : px P) : list (res (list (Z * str * str))) * px P :=
  match us with
  | [] => ([], s)
  | u :: r => let '(x, s1) := logged_events lb cb u s in let '(xs, s2) := logs_events lb cb r s1 in (x :: xs, s2)
  end.
(** messages.main (30-46): a new object, for PX4 logs only *)
Definition main_messages {J P} (lb : lib J P) (download : nat -> res J) (u : ulog) : res (list str) :=
  messages_main (rmap (option_map (lb_parse lb)) (fst (get_event_parser lb (default_cb download) u (@px0 P)))) u.
