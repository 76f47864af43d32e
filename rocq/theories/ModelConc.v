(** Opening a log while other connections write to the database (pyulog/db.py, load and get_dataset).
    Python's sqlite3 begins a transaction only before INSERT, UPDATE and DELETE (the default isolation_level), and
    a cursor ends its last SELECT when it executes the next one.  So each SELECT is on its own, and sees what is
    committed when it runs. *)
From Verif Require Import Base Dict PyStr PyFloat PySort Struct ModelTypes ModelApi Sql ModelSchema ModelDb.

(** A program that runs SELECT statements. Programs that only call cur.execute with SELECT, as
    db.py 220-409 and 447-469. *)
Inductive prog (A : Type) : Type :=
| Ret (r : res A)
| Ask (q : db -> res (list row)) (k : list row -> prog A).
Arguments Ret {A} r.
Arguments Ask {A} q k.
(** one program after the other (db.py 208-410); an exception ends both *)
Fixpoint pbind {A B} (p : prog A) (f : A -> prog B) : prog B :=
  match p with
  | Ret (Ok a) => f a
  | Ret (Err e) => Ret (Err e)
  | Ask q k => Ask q (fun rows => pbind (k rows) f)
  end.
(** cur.execute(q); cur.fetchall() (db.py 227-239, 250-256, ...) *)
Definition ask (q : db -> res (list row)) : prog (list row) := Ask q (fun rows => Ret (Ok rows)).
(** a for loop whose turns run statements (db.py 269-275, 362-378) *)
Fixpoint pmapM {A B} (f : A -> prog B) (l : list A) : prog (list B) :=
  match l with
  | [] => Ret (Ok [])
  | x :: r => pbind (f x) (fun y => pbind (pmapM f r) (fun ys => Ret (Ok (y :: ys))))
  end.

(** the statements of get_dataset (447-469), as [fetch_dataset] *)
Definition fetch_dataset_p (pk : option Z) (name : str) (multi : Z) (lazy : bool) : prog dataset :=
  pbind (ask (fun d => sql_select d (lit "ULogDataset") [lit "Id"; lit "TimestampIndex"; lit "MessageId"]
    [(lit "DatasetName", CText name); (lit "MultiId", CInt multi);
     (lit "ULogId", match pk with Some k => CInt k | None => CNull end)])) (fun rows =>
  match rows with
  | [id; ts; msg] :: _ =>
    pbind (Ret (as_int id)) (fun id => pbind (Ret (as_int ts)) (fun ts => pbind (Ret (as_int msg)) (fun msg =>
    if lazy then Ret (Ok (mkDS multi msg name [] ts []))
    else
      pbind (ask (fun d => sql_select d (lit "ULogField") [lit "TopicName"; lit "DataType"; lit "ValueArray"] [(lit "DatasetId", CInt id)])) (fun fs =>
      pbind (Ret (mapM read_field fs)) (fun fs =>
      Ret (Ok (mkDS multi msg name (map fst fs) ts (fold_left (fun acc kv => sset (fst kv) (snd kv) acc) (map snd fs) []))))))))
  | _ => Ret (Err KeyError)
  end).

(** all rows of a table that belong to the log, read by [f]; db.py 278-322, 347-354, 381-407.
    *)
Definition part_p {B} (t : str) (names : list str) (pk : Z) (f : row -> res B) : prog (list B) :=
  pbind (ask (fun d => of_log d t names pk)) (fun rows => Ret (mapM f rows)).
(** the lists of an info message with several values (365-378), as [fetch_lists] *)
Definition list_p (l : row) : prog (list value) :=
  match l with
  | [id] => pbind (ask (fun d => sql_select d (lit "ULogMessageInfoMultipleListElement") [lit "SeriesIndex"; lit "Value"] [(lit "ListId", id)])) (fun es =>
            pbind (Ret (by_index es)) (fun es => Ret (mapM (fun e => match e with [c] => as_value c | _ => Err Unmodelled end) es)))
  | _ => Ret (Err Unmodelled)
  end.
(** db.py 365-378: the lists of one message, in order *)
Definition fetch_lists_p (message : cell) : prog (list (list value)) :=
  pbind (ask (fun d => sql_select d (lit "ULogMessageInfoMultipleList") [lit "SeriesIndex"; lit "Id"] [(lit "MessageId", message)])) (fun ls =>
  pbind (Ret (by_index ls)) (fun ls => pmapM list_p ls)).
(** db.py 362-378: one message with several values *)
Definition multi_p (r : row) : prog (str * str * list (list value)) :=
  match r with
  | [i; k; t] => pbind (Ret (as_text k)) (fun k => pbind (Ret (as_text t)) (fun t => pbind (fetch_lists_p i) (fun ls => Ret (Ok (k, t, ls)))))
  | _ => Ret (Err Unmodelled)
  end.
(** dataset_name, multi_id (db.py 269) *)
Definition read_name (r : row) : res (str * Z) :=
  match r with [n; m] => let* n := as_text n in let* m := as_int m in Ok (n, m) | _ => Err Unmodelled end.
(** appended_offsets (db.py 249-258) *)
Definition offsets_p (pk : Z) : prog (list Z) :=
  pbind (ask (fun d => of_log d (lit "ULogAppendedOffsets") [lit "SeriesIndex"; lit "Offset"] pk)) (fun offs =>
  pbind (Ret (by_index offs)) (fun offs => Ret (mapM read_offset offs))).
(** data_list (db.py 260-275) *)
Definition data_p (pk : Z) (lazy : bool) : prog (list dataset) :=
  pbind (part_p (lit "ULogDataset") [lit "DatasetName"; lit "MultiId"] pk read_name) (fun names =>
  pmapM (fun nm => fetch_dataset_p (Some pk) (fst nm) (snd nm) lazy) (ssort name_leb names)).
(** the JOIN (325-334) is one statement *)
Definition formats_p (pk : Z) : prog (list (str * (str * Z * str))) :=
  pbind (ask (fun d => join_formats d pk)) (fun rows => Ret (mapM read_format rows)).
(** msg_info_multiple_dict (db.py 356-378) *)
Definition multis_p (pk : Z) : prog (list (str * str * list (list value))) :=
  pbind (ask (fun d => of_log d (lit "ULogMessageInfoMultiple") [lit "Id"; lit "Key"; lit "Typename"] pk)) (fun rows => pmapM multi_p rows).
(** the columns of the row of the log (240-247) *)
Definition read_top (r : row) : res (Z * Z * Z * str * str * Z * Z * str) :=
  match r with
  | [v; st; la; co; ic; sc; hs; sh] =>
    let* v := as_int v in let* st := as_int st in let* la := as_int la in let* co := as_text co in
    let* ic := as_text ic in let* sc := as_int sc in let* hs := as_int hs in let* sh := as_text sh in
    Ok (v, st, la, co, ic, sc, hs, sh)
  | _ => Err Unmodelled
  end.
(** ULog metadata (db.py 226-247); fetchone() gives None when the row is gone, and None[0]
    raises TypeError *)
Definition top_p (pk : Z) : prog (Z * Z * Z * str * str * Z * Z * str) :=
  pbind (ask (fun d => sql_select d (lit "ULog") [lit "FileVersion"; lit "StartTimestamp"; lit "LastTimestamp"; lit "CompatFlags";
        lit "IncompatFlags"; lit "SyncCount"; lit "HasSync"; lit "SHA256Sum"] [(lit "Id", CInt pk)])) (fun rows =>
  match rows with
  | r :: _ => Ret (read_top r)
  | [] => Ret (Err TypeError)
  end).

(** load (208-410), as [load] *)
Definition load_p (o : dbulog) (lazy : bool) : prog dbulog :=
  match o_pk o with
  | None => Ret (Err KeyError)
  | Some pk =>
    let u := o_log o in
    pbind (ask (fun d => sql_select d (lit "ULog") [lit "Id"] [(lit "Id", CInt pk)])) (fun rows =>
    if negb (Nat.eqb (length rows) 1) then Ret (Err KeyError)
    else
    pbind (top_p pk) (fun top =>
    pbind (offsets_p pk) (fun offs =>
    pbind (data_p pk lazy) (fun data =>
    pbind (part_p (lit "ULogMessageDropout") [lit "Timestamp"; lit "Duration"] pk read_dropout) (fun drops =>
    pbind (part_p (lit "ULogMessageLogging") [lit "LogLevel"; lit "Timestamp"; lit "Message"] pk read_logged) (fun logs =>
    pbind (part_p (lit "ULogMessageLoggingTagged") [lit "LogLevel"; lit "Tag"; lit "Timestamp"; lit "Message"] pk read_tagged) (fun tags =>
    pbind (formats_p pk) (fun fmts =>
    pbind (part_p (lit "ULogMessageInfo") [lit "Key"; lit "Typename"; lit "Value"] pk read_info) (fun infos =>
    pbind (multis_p pk) (fun multis =>
    pbind (part_p (lit "ULogInitialParameter") [lit "Key"; lit "Value"] pk read_entry) (fun pars =>
    pbind (part_p (lit "ULogDefaultParameter") [lit "DefaultType"; lit "Key"; lit "Value"] pk read_default) (fun defs =>
    pbind (part_p (lit "ULogChangedParameter") [lit "Timestamp"; lit "Key"; lit "Value"] pk read_default) (fun chgs =>
    let '(v, st, la, co, ic, sc, hs, sh) := top in
    Ret (Ok (mkObj (Some pk) sh lazy
        {| u_corrupt := u_corrupt u; u_start := st; u_last := la;
           u_info := fold_left (fun a x => sset (fst (fst x)) (snd x) a) infos (u_info u);
           u_infot := fold_left (fun a x => sset (fst (fst x)) (snd (fst x)) a) infos (u_infot u);
           u_multi := fold_left (fun a x => sset (fst (fst x)) (snd x) a) multis (u_multi u);
           u_multit := fold_left (fun a x => sset (fst (fst x)) (snd (fst x)) a) multis (u_multit u);
           u_params := fold_left (fun a x => sset (fst x) (snd x) a) pars (u_params u);
           u_defaults := fold_left add_default defs (u_defaults u);
           u_changed := u_changed u ++ chgs;
           u_formats := fold_left add_field fmts (u_formats u);
           u_logged := u_logged u ++ logs;
           u_tagged := fold_left add_tagged tags (u_tagged u);
           u_dropouts := u_dropouts u ++ drops;
           u_data := data;
           u_subs := u_subs u; u_filtered := u_filtered u; u_missing := u_missing u;
           u_version := v; u_compat := co; u_incompat := ic;
           u_offsets := u_offsets u ++ offs;
           u_has_sync := negb (hs =? 0);
           u_sync_cnt := sc |})))))))))))))))
  end.
(** __init__ (133-180) with a primary key: PRAGMA user_version is the first statement *)
Definition open_key_p (pk : Z) (lazy : bool) : prog dbulog :=
  pbind (ask (fun d => Ok [[CInt (d_version d)]])) (fun rows =>
  match rows with
  | [[CInt v]] => if v <? SCHEMA_VERSION then Ret (Err ValueError) else load_p (mkObj (Some pk) [] lazy ulog0) lazy
  | _ => Ret (Err Unmodelled)
  end).

(** the program with the database to itself; What load (db.py 208-410) gives when nobody else
    writes. *)
Fixpoint alone {A} (p : prog A) (d : db) : res A :=
  match p with
  | Ret r => r
  | Ask q k => match q d with Ok rows => alone (k rows) d | Err e => Err e end
  end.
