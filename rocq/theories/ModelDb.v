(** DatabaseULog (pyulog/db.py). *)
From Verif Require Import Base Dict PyStr PyFloat PySort Struct ModelTypes ModelApi Sql ModelSchema.
From Verif Require ModelRead ModelWrite.

(** SCHEMA_VERSION (52) *)
Definition SCHEMA_VERSION : Z := 5.

(** A DatabaseULog object (133-180): the attributes of a ULog and _pk, _sha256sum, _lazy_loaded.
    The database handle _db is an argument of the operations. *)
Record dbulog := mkObj { o_pk : option Z; o_sha : str; o_lazy : bool; o_log : ulog }.
(** self._pk = pk (507, 530, 746) *)
Definition set_pk (pk : option Z) (o : dbulog) : dbulog := mkObj pk (o_sha o) (o_lazy o) (o_log o).
(** assigning attributes of the ULog part of the object (475-479) *)
Definition set_log (u : ulog) (o : dbulog) : dbulog := mkObj (o_pk o) (o_sha o) (o_lazy o) u.

(** ** Reading cells.  The cells of a column that the program only fills with ints (texts,
    blobs) are read as such; a NULL value (a stored NaN) is outside the model. An int of
    fetchone() or fetchall(), as in 240-247. *)
Definition as_int (c : cell) : res Z := match c with CInt z => Ok z | _ => Err Unmodelled end.
(** a str of fetchone() or fetchall(), as in 243-247 *)
Definition as_text (c : cell) : res str := match c with CText s => Ok s | _ => Err Unmodelled end.
(** bytes of fetchall() (466) *)
Definition as_blob (c : cell) : res bytes := match c with CBlob b => Ok b | _ => Err Unmodelled end.
(** a value of an info message or parameter (352, 378, 386, 395, 406) *)
Definition as_value (c : cell) : res value :=
  match c with
  | CInt z => Ok (VInt z) | CReal b => Ok (VFloat b) | CText s => Ok (VStr s) | CBlob b => Ok (VBytes b)
  | CNull | CRealText _ => Err Unmodelled
  end.

(** ** exists_in_db (70-87).  Simplification: arguments
    beyond 64 bits (OverflowError) are left out, here and in get_dataset. *)
Definition exists_in_db (d : db) (pk : Z) : res bool :=
  let* rows := sql_select d (lit "ULog") [lit "Id"] [(lit "Id", CInt pk)] in
  Ok (Nat.eqb (length rows) 1).
(** primary_key_from_sha256sum (89-107) *)
Definition primary_key_from_sha256sum (d : db) (sha : str) : res (option Z) :=
  let* rows := sql_select d (lit "ULog") [lit "Id"] [(lit "SHA256Sum", CText sha)] in
  match rows with
  | (c :: _) :: _ => let* z := as_int c in Ok (Some z)
  | _ => Ok None
  end.

(** ** calc_sha256sum (109-130), the part that hashes an open file (123-130).  [H] is SHA-256 with hexdigest; update() with consecutive
    blocks is hashing their concatenation.  [fuel] bounds the number of blocks. *)
Fixpoint hash_blocks (fuel : nat) (H : bytes -> str) (seen rest : bytes) : option str :=
  match fuel with
  | O => None
  | S n => let block := takeZ 4096 rest in
           if str_eqb block [] then Some (H (seen ++ block)) else hash_blocks n H (seen ++ block) (dropZ 4096 rest)
  end.

(** ** get_dataset (412-489) *)
(** np.frombuffer (469) *)
Fixpoint frombuffer (fuel : nat) (size : nat) (b : bytes) : res (list Z) :=
  match b with
  | [] => Ok []
  | _ => match fuel with
         | O => Err Unmodelled
         | S n => if (length b <? size)%nat then Err ValueError
                  else let* r := frombuffer n size (skipn size b) in Ok (le_dec (firstn size b) :: r)
         end
  end.
(** one field (466-469) *)
Definition read_field (c : list cell) : res (fielddata * (str * column)) :=
  match c with
  | [n; t; v] =>
    let* name := as_text n in let* ty := as_text t in let* b := as_blob v in
    match ctype_of ty with
    | None => Err KeyError
    | Some ct => let* raws := frombuffer (length b) (np_size (np_of ct)) b in
                 Ok (mkFD name ct, (name, mkCol (np_of ct) raws))
    end
  | _ => Err Unmodelled
  end.
(** the queries (447-469) *)
Definition fetch_dataset (d : db) (pk : option Z) (name : str) (multi : Z) (lazy : bool) : res dataset :=
  let* rows := sql_select d (lit "ULogDataset") [lit "Id"; lit "TimestampIndex"; lit "MessageId"]
    [(lit "DatasetName", CText name); (lit "MultiId", CInt multi);
     (lit "ULogId", match pk with Some k => CInt k | None => CNull end)] in
  match rows with
  | [id; ts; msg] :: _ =>
    let* id := as_int id in let* ts := as_int ts in let* msg := as_int msg in
    if lazy then Ok (mkDS multi msg name [] ts [])
    else
      let* fs := sql_select d (lit "ULogField") [lit "TopicName"; lit "DataType"; lit "ValueArray"] [(lit "DatasetId", CInt id)] in
      let* fs := mapM read_field fs in
      Ok (mkDS multi msg name (map fst fs) ts (fold_left (fun acc kv => sset (fst kv) (snd kv) acc) (map snd fs) []))
  | _ => Err KeyError
  end.
(** (438) *)
Definition is_dataset (name : str) (multi : Z) (ds : dataset) : bool := str_eqb (ds_name ds) name && (ds_multi ds =? multi).
(** the first dataset of that name and instance replaced (436-440, 474-479) *)
Fixpoint replace_first (p : dataset -> bool) (x : dataset) (l : list dataset) : list dataset :=
  match l with
  | [] => []
  | y :: r => if p y then x :: r else y :: replace_first p x r
  end.
(** The cache (436-445, 471-489).  Result: the dataset, and the object with its cache.  An existing Data object is updated in
    place, its name and instance are those asked for. *)
Definition get_dataset_db (d : db) (o : dbulog) (name : str) (multi : Z) (lazy caching : bool) : res (dataset * dbulog) :=
  match find (is_dataset name multi) (u_data (o_log o)) with
  | Some ds =>
    if caching && (lazy || match ds_data ds with [] => false | _ => true end) then Ok (ds, o)
    else
      let* ds' := fetch_dataset d (o_pk o) name multi lazy in
      if caching then Ok (ds', set_log (set_data (replace_first (is_dataset name multi) ds' (u_data (o_log o))) (o_log o)) o)
      else Ok (ds', o)
  | None => let* ds' := fetch_dataset d (o_pk o) name multi lazy in Ok (ds', o)
  end.

(** ** load (208-410) *)
(** all rows of a table that belong to the log: SELECT names FROM t WHERE ULogId = pk; As in
    250-256, 278-283, .... *)
Definition of_log (d : db) (t : str) (names : list str) (pk : Z) : res (list row) :=
  sql_select d t names [(lit "ULogId", CInt pk)].
(** ORDER BY SeriesIndex; the first column of the rows is dropped; In 250-256, 365-377. *)
Definition by_index (rows : list row) : res (list row) :=
  let* l := mapM (fun r => match r with i :: r' => let* z := as_int i in Ok (z, r') | [] => Err Unmodelled end) rows in
  Ok (map snd (ssort (fun a b => fst a <=? fst b) l)).
(** offset, (257-258) *)
Definition read_offset (r : row) : res Z := match r with [c] => as_int c | _ => Err Unmodelled end.
(** a dropout (283-289) *)
Definition read_dropout (r : row) : res dropout :=
  match r with [t; n] => let* t := as_int t in let* n := as_int n in Ok (mkDrop n t) | _ => Err Unmodelled end.
(** a logged message (297-304) *)
Definition read_logged (r : row) : res logmsg :=
  match r with
  | [l; t; m] => let* l := as_int l in let* t := as_int t in let* m := as_text m in Ok (mkLog l t m)
  | _ => Err Unmodelled
  end.
(** a tagged message (312-322) *)
Definition read_tagged (r : row) : res tagmsg :=
  match r with
  | [l; g; t; m] => let* l := as_int l in let* g := as_int g in let* t := as_int t in let* m := as_text m in Ok (mkTag l g t m)
  | _ => Err Unmodelled
  end.
(** a row of the JOIN: the name of the message and the field (335-337) *)
Definition read_format (r : row) : res (str * (str * Z * str)) :=
  match r with
  | [m; t; a; n] => let* m := as_text m in let* t := as_text t in let* a := as_int a in let* n := as_text n in Ok (m, (t, a, n))
  | _ => Err Unmodelled
  end.
(** key, value of an initial parameter (386-387) *)
Definition read_entry (r : row) : res (str * value) :=
  match r with [k; v] => let* k := as_text k in let* v := as_value v in Ok (k, v) | _ => Err Unmodelled end.
(** key, typename, value of an info message (352-354) *)
Definition read_info (r : row) : res (str * str * value) :=
  match r with
  | [k; t; v] => let* k := as_text k in let* t := as_text t in let* v := as_value v in Ok (k, t, v)
  | _ => Err Unmodelled
  end.
(** default_type, key, value (395-398); also timestamp, key, value of a changed parameter
    (406-407) *)
Definition read_default (r : row) : res (Z * str * value) :=
  match r with
  | [t; k; v] => let* t := as_int t in let* k := as_text k in let* v := as_value v in Ok (t, k, v)
  | _ => Err Unmodelled
  end.
(** a tagged message is put with those of its tag (313-322) *)
Definition add_tagged (d : dict Z (list tagmsg)) (m : tagmsg) : dict Z (list tagmsg) :=
  zset (tg_tag m) (match zget (tg_tag m) d with Some l => l | None => [] end ++ [m]) d.
(** message formats: a field of a new message starts a format, others are appended (335-344) *)
Definition add_field (d : dict str mformat) (nf : str * (str * Z * str)) : dict str mformat :=
  match sget (fst nf) d with
  | Some m => sset (fst nf) (mkFmt (mf_name m) (mf_fields m ++ [snd nf])) d
  | None => sset (fst nf) (mkFmt (fst nf) [snd nf]) d
  end.
(** a default parameter is put with those of its type (396-398) *)
Definition add_default (d : dict Z (dict str value)) (x : Z * str * value) : dict Z (dict str value) :=
  let '(t, k, v) := x in zset t (sset k v (match zget t d with Some m => m | None => [] end)) d.
(** ULogMessageFormat msg JOIN ULogMessageFormatField field ON field.MessageId = msg.Id WHERE ULogId = pk
    (325-334).  Both loops go through their table in rowid order. *)
Definition join_formats (d : db) (pk : Z) : res (list row) :=
  let* ms := of_log d (lit "ULogMessageFormat") [lit "Id"; lit "Name"] pk in
  rmap (@concat row) (mapM (fun m =>
    match m with
    | [id; name] => let* fs := sql_select d (lit "ULogMessageFormatField") [lit "FieldType"; lit "ArraySize"; lit "Name"] [(lit "MessageId", id)] in
                    Ok (map (fun f => name :: f) fs)
    | _ => Err Unmodelled
    end) ms).
(** the lists of an info message with several values (365-378) *)
Definition fetch_lists (d : db) (message : cell) : res (list (list value)) :=
  let* ls := sql_select d (lit "ULogMessageInfoMultipleList") [lit "SeriesIndex"; lit "Id"] [(lit "MessageId", message)] in
  let* ls := by_index ls in
  mapM (fun l =>
    match l with
    | [id] => let* es := sql_select d (lit "ULogMessageInfoMultipleListElement") [lit "SeriesIndex"; lit "Value"] [(lit "ListId", id)] in
              let* es := by_index es in
              mapM (fun e => match e with [c] => as_value c | _ => Err Unmodelled end) es
    | _ => Err Unmodelled
    end) ls.
(** ORDER BY DatasetName, MultiId (262-268); text is compared by code points, as UTF-8 bytes are *)
Definition name_leb (a b : str * Z) : bool :=
  match str_cmp (fst a) (fst b) with Lt => true | Eq => snd a <=? snd b | Gt => false end.

(** load (208-410) *)
Definition load (d : db) (o : dbulog) (lazy : bool) : res dbulog :=
  match o_pk o with
  | None => Err KeyError                 (* WHERE Id = NULL finds nothing *)
  | Some pk =>
    let* e := exists_in_db d pk in
    if negb e then Err KeyError
    else
    let u := o_log o in
    let* top := sql_select d (lit "ULog") [lit "FileVersion"; lit "StartTimestamp"; lit "LastTimestamp"; lit "CompatFlags";
        lit "IncompatFlags"; lit "SyncCount"; lit "HasSync"; lit "SHA256Sum"] [(lit "Id", CInt pk)] in
    match top with
    | [v; st; la; co; ic; sc; hs; sh] :: _ =>
      let* v := as_int v in let* st := as_int st in let* la := as_int la in let* co := as_text co in
      let* ic := as_text ic in let* sc := as_int sc in let* hs := as_int hs in let* sh := as_text sh in
      let* offs := of_log d (lit "ULogAppendedOffsets") [lit "SeriesIndex"; lit "Offset"] pk in
      let* offs := by_index offs in
      let* offs := mapM read_offset offs in
      let* names := of_log d (lit "ULogDataset") [lit "DatasetName"; lit "MultiId"] pk in
      let* names := mapM (fun r => match r with [n; m] => let* n := as_text n in let* m := as_int m in Ok (n, m) | _ => Err Unmodelled end) names in
      let* data := mapM (fun nm => fetch_dataset d (Some pk) (fst nm) (snd nm) lazy) (ssort name_leb names) in
      let* drops := of_log d (lit "ULogMessageDropout") [lit "Timestamp"; lit "Duration"] pk in
      let* drops := mapM read_dropout drops in
      let* logs := of_log d (lit "ULogMessageLogging") [lit "LogLevel"; lit "Timestamp"; lit "Message"] pk in
      let* logs := mapM read_logged logs in
      let* tags := of_log d (lit "ULogMessageLoggingTagged") [lit "LogLevel"; lit "Tag"; lit "Timestamp"; lit "Message"] pk in
      let* tags := mapM read_tagged tags in
      let* fmts := join_formats d pk in
      let* fmts := mapM read_format fmts in
      let* infos := of_log d (lit "ULogMessageInfo") [lit "Key"; lit "Typename"; lit "Value"] pk in
      let* infos := mapM read_info infos in
      let* multis := of_log d (lit "ULogMessageInfoMultiple") [lit "Id"; lit "Key"; lit "Typename"] pk in
      let* multis := mapM (fun r => match r with
        | [i; k; t] => let* k := as_text k in let* t := as_text t in let* ls := fetch_lists d i in Ok (k, t, ls)
        | _ => Err Unmodelled end) multis in
      let* pars := of_log d (lit "ULogInitialParameter") [lit "Key"; lit "Value"] pk in
      let* pars := mapM read_entry pars in
      let* defs := of_log d (lit "ULogDefaultParameter") [lit "DefaultType"; lit "Key"; lit "Value"] pk in
      let* defs := mapM read_default defs in
      let* chgs := of_log d (lit "ULogChangedParameter") [lit "Timestamp"; lit "Key"; lit "Value"] pk in
      let* chgs := mapM read_default chgs in
      Ok (mkObj (Some pk) sh lazy
        {| u_corrupt := u_corrupt u; u_start := st; u_last := la;
           u_info := fold_left (fun a x => sset (fst (fst x)) (snd x) a) infos (u_info u);
           u_infot := fold_left (fun a x => sset (fst (fst x)) (snd (fst x)) a) infos (u_infot u);
           u_multi := fold_left (fun a x => sset (fst (fst x)) (snd x) a) multis (u_multi u);
           u_multit := fold_left (fun a x => sset (fst (fst x)) (snd (fst x)) a) multis (u_multit u);
           u_params := fold_left (fun a x => sset (fst x) (snd x) a) pars (u_params u);
           u_defaults := fold_left add_default defs (u_defaults u);
           u_changed := u_changed u ++ chgs;
           u_formats := fold_left add_field fmts (u_formats u);
           u_logged := u_logged u ++ logs;
           u_tagged := fold_left add_tagged tags (u_tagged u);
           u_dropouts := u_dropouts u ++ drops;
           u_data := data;
           u_subs := u_subs u; u_filtered := u_filtered u; u_missing := u_missing u;
           u_version := v; u_compat := co; u_incompat := ic;
           u_offsets := u_offsets u ++ offs;
           u_has_sync := negb (hs =? 0);   (* simplification: the int 0 or 1 that is read is kept as a bool *)
           u_sync_cnt := sc |})
    | [] => Err TypeError                (* fetchone() gave None: the row is gone by now *)
    | _ => Err Unmodelled
    end
  end.

(** ** __init__ (133-180) with a primary key *)
Definition open_key (d : db) (pk : Z) (lazy : bool) : res dbulog :=
  if d_version d <? SCHEMA_VERSION then Err ValueError
  else load d (mkObj (Some pk) [] lazy ulog0) lazy.
(** ... and with a log file, given the outcome of ULog.__init__ on it; db.py 156-178. *)
Definition open_file (d : db) (sha : str) (loaded : res ulog) (lazy : bool) : res dbulog :=
  if d_version d <? SCHEMA_VERSION then Err ValueError
  else let* u := loaded in Ok (mkObj None sha lazy u).

(** ... and with a log file of contents [f]: given by name (118-119, core.py 853-854), when it is opened once for
    the hash and once for ULog.__init__, or as an open file object (123, core.py 856) at position [p],
    which calc_sha256sum reads from there to the end and ULog.__init__ goes on with. *)
Definition init_file (fuel : nat) (H : bytes -> str) (cf : ModelRead.cfg) (d : db) (f : bytes) (handle : option Z) (lazy : bool) : option (res dbulog) :=
  if d_version d <? SCHEMA_VERSION then Some (Err ValueError)
  else match hash_blocks fuel H [] (match handle with None => f | Some p => dropZ p f end) with
  | None => None
  | Some sha =>
    match ModelRead.load_at fuel cf f (match handle with None => 0 | Some p => Z.max p (lenZ f) end) ulog0 with
    | None => None
    | Some loaded => Some (open_file d sha loaded lazy)
    end
  end.

(** ** save (491-729) *)
(** Statements may fail for reasons outside the model (disk full, database locked, ...): [F n]
    is the exception raised by statement number [n] of a save. Any cur.execute of 514-727. *)
Definition fault := nat -> option exn.
(** all statements of 514-727 run *)
Definition no_fault : fault := fun _ => None.
(** the number of the next statement and the database inside the transaction (510-729) *)
Definition sst := (nat * db)%type.
(** cur.execute of an INSERT (514-530): the new row id *)
Definition ins (F : fault) (s : sst) (t : str) (names : list str) (vals : list (res cell)) : res (Z * sst) :=
  let* v := mapM (fun x => x) vals in
  match F (fst s) with
  | Some e => Err e
  | None => let* r := sql_insert (snd s) t names v in Ok (fst r, (S (fst s), snd r))
  end.
(** executemany; As in 533-542, 594-616, .... *)
Definition ins_many (F : fault) (s : sst) (t : str) (names : list str) (rows : list (list (res cell))) : res sst :=
  foldM (fun s vals => let* r := ins F s t names vals in Ok (snd r)) rows s.

(** numpy tobytes; db.py 562 *)
Definition tobytes (c : column) : bytes := concat (map (le_enc (np_size (c_type c))) (c_raw c)).
(** str of a dict of the values, with nan and inf replaced by null: -inf becomes -null, which
    SQLite's json() rejects (563-574).  The JSON text itself is in ModelJson.v; PropsJson.v shows that this
    test is whether it is JSON. *)
Definition minus_inf (c : column) (x : Z) : bool :=
  match np_elem (c_type c) x with VFloat b => b =? 18442240474082181120 | _ => false end.
(** dict(zip(timestamps, values)); simplification: the keys are the timestamps, not their
    texts; db.py 570-573 *)
Definition json_values (ts c : column) : list Z :=
  map snd (fold_left (fun a kv => zset (fst kv) (snd kv) a) (combine (c_raw ts) (c_raw c)) []).
(** enumerate(l) (542, 671, 688) *)
Definition enumerate {A} (l : list A) : list (Z * A) := combine (map Z.of_nat (seq 0 (length l))) l.

(** one field of a dataset (560-591) *)
Definition save_field (F : fault) (json : bool) (ds : dataset) (id : Z) (s : sst) (fd : fielddata) : res sst :=
  match sget (fd_name fd) (ds_data ds) with
  | None => Err KeyError
  | Some col =>
    let* j := if json then
                match sget (lit "timestamp") (ds_data ds) with
                | None => Err KeyError
                | Some ts => if existsb (minus_inf col) (json_values ts col) then Err OperationalError else Ok (CText (lit "json"))
                end
              else Ok CNull in
    (* ValueJson has NUMERIC affinity; the JSON text of an object is no number and stays text.
       Simplification: it is not stored, as nothing reads it. *)
    let* r := ins F s (lit "ULogField") [lit "TopicName"; lit "DataType"; lit "ValueArray"; lit "DatasetId"]
                [bind_text (fd_name fd); Ok (CText (ctype_name (fd_type fd))); Ok (CBlob (tobytes col)); Ok (CInt id)] in
    Ok (snd r)
  end.
(** one dataset (546-591) *)
Definition save_dataset (F : fault) (json : bool) (pk : Z) (s : sst) (ds : dataset) : res sst :=
  let* r := ins F s (lit "ULogDataSet") [lit "DatasetName"; lit "MultiId"; lit "MessageId"; lit "TimestampIndex"; lit "ULogId"]
              [bind_text (ds_name ds); bind_int (ds_multi ds); bind_int (ds_id ds); bind_int (ds_tsidx ds); Ok (CInt pk)] in
  foldM (save_field F json ds (fst r)) (ds_fields ds) (snd r).
(** one message format (635-647) *)
Definition save_format (F : fault) (pk : Z) (s : sst) (nm : str * mformat) : res sst :=
  let* r := ins F s (lit "ULogMessageFormat") [lit "Name"; lit "ULogId"] [bind_text (fst nm); Ok (CInt pk)] in
  ins_many F (snd r) (lit "ULogMessageFormatField") [lit "FieldType"; lit "ArraySize"; lit "Name"; lit "MessageId"]
    (map (fun f => [bind_text (fst (fst f)); bind_int (snd (fst f)); bind_text (snd f); Ok (CInt (fst r))]) (mf_fields (snd nm))).
(** one list of an info message with several values (672-688) *)
Definition save_list (F : fault) (message : Z) (s : sst) (il : Z * list value) : res sst :=
  let* r := ins F s (lit "ULogMessageInfoMultipleList") [lit "SeriesIndex"; lit "MessageId"] [bind_int (fst il); Ok (CInt message)] in
  ins_many F (snd r) (lit "ULogMessageInfoMultipleListElement") [lit "SeriesIndex"; lit "Value"; lit "ListId"]
    (map (fun iv => [bind_int (fst iv); bind_value (snd iv); Ok (CInt (fst r))]) (enumerate (snd il))).
(** one info message with several values (664-688) *)
Definition save_multi (F : fault) (pk : Z) (types : dict str str) (s : sst) (kl : str * list (list value)) : res sst :=
  match sget (fst kl) types with
  | None => Err KeyError
  | Some ty =>
    let* r := ins F s (lit "ULogMessageInfoMultiple") [lit "Key"; lit "Typename"; lit "ULogId"] [bind_text (fst kl); bind_text ty; Ok (CInt pk)] in
    foldM (save_list F (fst r)) (enumerate (snd kl)) (snd r)
  end.

(** the statements after the first one (532-727) *)
Definition save_rest (F : fault) (json : bool) (pk : Z) (u : ulog) (s : sst) : res sst :=
  let* s := ins_many F s (lit "ULogAppendedOffsets") [lit "SeriesIndex"; lit "Offset"; lit "ULogId"]
              (map (fun io => [bind_int (fst io); bind_int (snd io); Ok (CInt pk)]) (enumerate (u_offsets u))) in
  let* s := foldM (save_dataset F json pk) (u_data u) s in
  let* s := ins_many F s (lit "ULogMessageDropout") [lit "Timestamp"; lit "Duration"; lit "ULogId"]
              (map (fun x => [bind_int (dr_ts x); bind_int (dr_dur x); Ok (CInt pk)]) (u_dropouts u)) in
  let* s := ins_many F s (lit "ULogMessageLogging") [lit "LogLevel"; lit "Timestamp"; lit "Message"; lit "ULogId"]
              (map (fun x => [bind_int (lg_level x); bind_int (lg_ts x); bind_text (lg_msg x); Ok (CInt pk)]) (u_logged u)) in
  let* s := foldM (fun s tl => ins_many F s (lit "ULogMessageLoggingTagged") [lit "LogLevel"; lit "Timestamp"; lit "Tag"; lit "Message"; lit "ULogId"]
              (map (fun x => [bind_int (tg_level x); bind_int (tg_ts x); bind_int (fst tl); bind_text (tg_msg x); Ok (CInt pk)]) (snd tl)))
              (u_tagged u) s in
  let* s := foldM (save_format F pk) (u_formats u) s in
  let* infos := mapM (fun kv => match sget (fst kv) (u_infot u) with
                                | None => Err KeyError
                                | Some ty => Ok [bind_text (fst kv); bind_value (snd kv); bind_text ty; Ok (CInt pk)]
                                end) (u_info u) in
  let* s := ins_many F s (lit "ULogMessageInfo") [lit "Key"; lit "Value"; lit "Typename"; lit "ULogId"] infos in
  let* s := foldM (save_multi F pk (u_multit u)) (u_multi u) s in
  let* s := ins_many F s (lit "ULogInitialParameter") [lit "Key"; lit "Value"; lit "ULogId"]
              (map (fun kv => [bind_text (fst kv); bind_value (snd kv); Ok (CInt pk)]) (u_params u)) in
  let* s := foldM (fun s td => ins_many F s (lit "ULogDefaultParameter") [lit "DefaultType"; lit "Key"; lit "Value"; lit "ULogId"]
              (map (fun kv => [bind_int (fst td); bind_text (fst kv); bind_value (snd kv); Ok (CInt pk)]) (snd td)))
              (u_defaults u) s in
  ins_many F s (lit "ULogChangedParameter") [lit "Timestamp"; lit "Key"; lit "Value"; lit "ULogId"]
    (map (fun c => [bind_int (fst (fst c)); bind_text (snd (fst c)); bind_value (snd c); Ok (CInt pk)]) (u_changed u)).
(** The transaction (510-729): the first statement sets _pk, an exception rolls the database
    back, leaving the with statement commits (which may fail, too). *)
Definition save_tx (F : fault) (json : bool) (o : dbulog) (d : db) : res unit * dbulog * db :=
  let u := o_log o in
  match ins F (O, d) (lit "ULog") [lit "FileVersion"; lit "StartTimestamp"; lit "LastTimestamp"; lit "CompatFlags"; lit "IncompatFlags";
               lit "SyncCount"; lit "HasSync"; lit "SHA256Sum"]
              [bind_int (u_version u); bind_int (u_start u); bind_int (u_last u); bind_text (u_compat u); bind_text (u_incompat u);
               bind_int (u_sync_cnt u); Ok (CInt (if u_has_sync u then 1 else 0)); bind_text (o_sha o)] with
  | Err e => (Err e, o, d)
  | Ok (pk, s) =>
    match save_rest F json pk u s with
    | Err e => (Err e, set_pk (Some pk) o, d)
    | Ok s' => match F (fst s') with
               | Some e => (Err e, set_pk (Some pk) o, d)
               | None => (Ok tt, set_pk (Some pk) o, snd s')
               end
    end
  end.
(** save (491-729) *)
Definition save (F : fault) (json : bool) (o : dbulog) (d : db) : res unit * dbulog * db :=
  match o_pk o with
  | Some _ => (Err KeyError, o, d)
  | None =>
    match primary_key_from_sha256sum d (o_sha o) with
    | Err e => (Err e, o, d)
    | Ok (Some k) => (Err KeyError, set_pk (Some k) o, d)
    | Ok None => save_tx F json o d
    end
  end.

(** ** delete (731-746).  [F] as in save. *)
Definition delete (F : fault) (o : dbulog) (d : db) : res unit * dbulog * db :=
  match o_pk o with
  | None => (Err KeyError, o, d)
  | Some pk =>
    match F O with
    | Some e => (Err e, o, d)
    | None =>
      match sql_delete d (lit "ULog") [(lit "Id", CInt pk)] with
      | Err e => (Err e, o, d)
      | Ok d' => match F 1%nat with Some e => (Err e, o, d) | None => (Ok tt, set_pk None o, d') end
      end
    end
  end.

(** ** write_ulog (192-195): refused after a lazy load; the bytes written *)
Definition db_write (o : dbulog) : res bytes := if o_lazy o then Err ValueError else ModelWrite.write (o_log o).
