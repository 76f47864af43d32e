(** Histories: objects in memory, a database file, and the operations of the API in any order. *)
From Verif Require Import Base Dict PyStr ModelTypes Sql Schema5 ModelDb SpecDb.

Record world := mkW { w_db : db; w_objs : list dbulog }.

(** [F] makes statements fail at will, [loaded] is the outcome of reading a log file, and the
    attributes of an object may be edited by the user. *)
Inductive op :=
| OFile (sha : str) (loaded : res ulog) (lazy : bool)        (* DatabaseULog(db, log_file=...) *)
| OKey (pk : Z) (lazy : bool)                                (* DatabaseULog(db, primary_key=...) *)
| OSave (i : nat) (F : fault) (json : bool)                  (* obj.save(append_json=...) *)
| ODelete (i : nat) (F : fault)                              (* obj.delete() *)
| OLoad (i : nat) (lazy : bool)                              (* obj.load(lazy=...) *)
| OGet (i : nat) (name : str) (multi : Z) (lazy caching : bool)
| OEdit (i : nat) (u : ulog).

(** What an operation did to the database, as the caller sees it. *)
Inductive event := Saved (pk : Z) (sha : str) (u : ulog) | Deleted (pk : Z) | Other.

Fixpoint put {A} (i : nat) (x : A) (l : list A) : list A :=
  match l, i with
  | [], _ => []
  | _ :: r, O => x :: r
  | y :: r, S j => y :: put j x r
  end.
Definition step (w : world) (o : op) : world * event :=
  let d := w_db w in
  let add r := (match r with Ok x => mkW d (w_objs w ++ [x]) | Err _ => w end, Other) in
  let on i (f : dbulog -> world * event) := match nth_error (w_objs w) i with Some x => f x | None => (w, Other) end in
  match o with
  | OFile sha loaded lazy => add (open_file d sha loaded lazy)
  | OKey pk lazy => add (open_key d pk lazy)
  | OSave i F json => on i (fun x =>
      let '(r, x', d') := save F json x d in
      (mkW d' (put i x' (w_objs w)), match r, o_pk x' with Ok _, Some pk => Saved pk (o_sha x) (o_log x) | _, _ => Other end))
  | ODelete i F => on i (fun x =>
      let '(r, x', d') := delete F x d in
      (mkW d' (put i x' (w_objs w)), match r, o_pk x with Ok _, Some pk => Deleted pk | _, _ => Other end))
  | OLoad i lazy => on i (fun x => (match load d x lazy with Ok x' => mkW d (put i x' (w_objs w)) | Err _ => w end, Other))
  | OGet i name multi lazy caching => on i (fun x =>
      (match get_dataset_db d x name multi lazy caching with Ok (_, x') => mkW d (put i x' (w_objs w)) | Err _ => w end, Other))
  | OEdit i u => on i (fun x => (mkW d (put i (set_log u x) (w_objs w)), Other))
  end.
Fixpoint run (w : world) (ops : list op) : world * list event :=
  match ops with
  | [] => (w, [])
  | o :: ops' => let '(w1, e) := step w o in let '(w2, es) := run w1 ops' in (w2, e :: es)
  end.

(** The map that the database should be: from keys to hash and log. *)
Definition note (m : dict Z (str * ulog)) (e : event) : dict Z (str * ulog) :=
  match e with
  | Saved pk sha u => m ++ [(pk, (sha, u))]
  | Deleted pk => filter (fun kv => negb (fst kv =? pk)) m
  | Other => m
  end.
Definition stored_logs (es : list event) : dict Z (str * ulog) := fold_left note es [].
Definition saved_keys (es : list event) : list Z := flat_map (fun e => match e with Saved pk _ _ => [pk] | _ => [] end) es.

(** A new database at schema version 5 (C37 shows that migrate_db makes one). *)
Record fresh (d : db) : Prop := {
  fr_defs : d_defs d = v5_defs; fr_version : d_version d = SCHEMA_VERSION;
  fr_rows : forall t, d_rows d t = []; fr_seq : forall t, d_seq d t = 0 }.

(** Databases that a history leads to, and the logs they hold. *)
Definition reached (d : db) (es : list event) : Prop :=
  exists d0 objs ops w, fresh d0 /\ run (mkW d0 objs) ops = (w, es) /\ w_db w = d.
Definition holds (d : db) (k : Z) (sha : str) (u : ulog) : Prop :=
  exists es, reached d es /\ In (k, (sha, u)) (stored_logs es).

(** Calls of get_dataset on one object, each at the database of that time; a call that raises
    leaves the object as it is. *)
Record call := mkCall { ca_db : db; ca_name : str; ca_multi : Z; ca_lazy : bool; ca_caching : bool }.
Definition get_call (o : dbulog) (c : call) : dbulog :=
  match get_dataset_db (ca_db c) o (ca_name c) (ca_multi c) (ca_lazy c) (ca_caching c) with Ok (_, o') => o' | Err _ => o end.
