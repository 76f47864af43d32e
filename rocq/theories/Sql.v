(** The part of SQLite (3.x, through Python's sqlite3 module) that pyulog uses: typed cells and
    column affinities, tables with AUTOINCREMENT keys, UNIQUE constraints and foreign keys with
    ON DELETE CASCADE, the DDL of the migration scripts, and transactions.

    This file models SQLite, not pyulog; it is part of the trusted base.  Simplifications:
    rows are kept and returned in rowid order (which is insertion order, because new rowids
    are larger than all existing ones); the limits on row and database size and on key values
    (2^63 - 1) are left out; statements of one connection are not interleaved with those of
    another one inside a transaction. *)
From Verif Require Import Base Dict PyStr PyFloat PySort Struct.

(** ** Cells and affinities *)
(** [CRealText b] is the decimal text that SQLite stores for the float [b] in a TEXT column.
    (columns of pyulog.1.sql 2-116) *)
Inductive cell := CNull | CInt (z : Z) | CReal (b : Z) | CText (s : str) | CRealText (b : Z) | CBlob (b : bytes).
(** Affinities of the declared types of columns (pyulog.1.sql 2-116, pyulog.3.sql 2) *)
Inductive affinity := AInt | AReal | ANum | AText | ABlob.

(** A Python value as a parameter of a statement: bool is an int, ints beyond 64 bits raise
    OverflowError, NaN becomes NULL, surrogates cannot be encoded (db.py 514-730). *)
Definition bind_int (z : Z) : res cell :=
  if (-9223372036854775808 <=? z) && (z <? 9223372036854775808) then Ok (CInt z) else Err OverflowError.
(** A str as a parameter (db.py 514-730) *)
Definition bind_text (s : str) : res cell :=
  if forallb (fun c => negb ((55296 <=? c) && (c <=? 57343))) s then Ok (CText s) else Err UnicodeEncodeError.
(** A value of a log as a parameter (db.py 514-730) *)
Definition bind_value (v : value) : res cell :=
  match v with
  | VInt z => bind_int z
  | VBool b => Ok (CInt (if b then 1 else 0))
  | VFloat b => Ok (if f64_is_nan b then CNull else CReal b)
  | VStr s => bind_text s
  | VBytes b => Ok (CBlob b)
  end.

(** The conversion made when a value is stored in a column.  Text in numeric columns does not occur.
    (db.py 514-730) *)
Definition apply_aff (a : affinity) (c : cell) : res cell :=
  match a, c with
  | (AInt | ANum), CReal b => match f64_to_Z b with
                              | Some z => if (-9223372036854775808 <=? z) && (z <? 9223372036854775808)
                                          then Ok (CInt z) else Ok c
                              | None => Ok c end
  | AReal, CInt z => Ok (CReal (f64_of_Z z))
  | (AInt | ANum | AReal), (CText _ | CRealText _) => Err Unmodelled
  | AText, CInt z => Ok (CText (str_of_Z z))
  | AText, CReal b => Ok (CRealText b)
  | _, _ => Ok c
  end.

(** [=] of SQL on two cells of the same kind; NULL equals nothing
    (db.py 79-104, UNIQUE of pyulog.2.sql 6 and 32) *)
Definition cell_eqb (a b : cell) : bool :=
  match a, b with
  | CInt x, CInt y => x =? y
  | CReal x, CReal y => f64_eqb x y
  | CText x, CText y => str_eqb x y
  | CRealText x, CRealText y => x =? y
  | CBlob x, CBlob y => str_eqb x y
  | _, _ => false
  end.
(** a stored cell compared with a parameter: the affinity of the column is applied to the parameter
    (db.py 79-104, 227-406, 740) *)
Definition cell_is (a : affinity) (stored param : cell) : bool :=
  match apply_aff a param with Ok c => cell_eqb stored c | Err _ => false end.

(** ** Schemas and databases *)
(** A column: name, affinity, REFERENCES parent (Id) with or without ON DELETE CASCADE,
    INTEGER PRIMARY KEY AUTOINCREMENT. (pyulog.2.sql 4-137) *)
Record coldef := mkCD { k_name : str; k_aff : affinity; k_ref : option (str * bool); k_key : bool }.
(** A table: columns and UNIQUE constraints. (pyulog.2.sql 4-137) *)
Record tabledef := mkTD { t_cols : list coldef; t_uniq : list (list str) }.
(** A stored row (pyulog.2.sql 4-137) *)
Definition row := list cell.
(** [d_seq] is sqlite_sequence, [d_idx] the indexes with their tables, [d_version] user_version.
    (the file at db_path, db.py 60-67) *)
Record db := mkDb { d_defs : dict str tabledef; d_rows : str -> list row; d_seq : str -> Z;
                    d_idx : dict str str; d_version : Z }.
(** A file that sqlite3.connect has just created (db.py 60-63) *)
Definition db0 : db := mkDb [] (fun _ => []) (fun _ => 0) [] 0.

(** Update of a function at one table; used for every statement of db.py 514-745 *)
Definition upd {A} (f : str -> A) (t : str) (x : A) : str -> A := fun t' => if str_eqb t' t then x else f t'.
(** Replace the table definitions (pyulog.1.sql 2 and the like) *)
Definition set_defs (x : dict str tabledef) (d : db) : db := mkDb x (d_rows d) (d_seq d) (d_idx d) (d_version d).
(** Replace the rows of one table (db.py 514-745) *)
Definition set_rows (t : str) (x : list row) (d : db) : db := mkDb (d_defs d) (upd (d_rows d) t x) (d_seq d) (d_idx d) (d_version d).
(** Set the last AUTOINCREMENT key of one table (db.py 530, 559, 641, 670, 678) *)
Definition set_seq (t : str) (x : Z) (d : db) : db := mkDb (d_defs d) (d_rows d) (upd (d_seq d) t x) (d_idx d) (d_version d).
(** Replace the indexes (pyulog.5.sql 2-16) *)
Definition set_idx (x : dict str str) (d : db) : db := mkDb (d_defs d) (d_rows d) (d_seq d) x (d_version d).
(** PRAGMA user_version = (migrate_db.py 90) *)
Definition set_ver (x : Z) (d : db) : db := mkDb (d_defs d) (d_rows d) (d_seq d) (d_idx d) x.

(** identifiers are not case sensitive (db.py spells table names as the scripts do) *)
Definition ident (s : str) : str := map (fun c => if (65 <=? c) && (c <=? 90) then c + 32 else c) s.
(** The table of a statement; sqlite3.OperationalError if there is none (db.py 79-745) *)
Definition table (d : db) (t : str) : res tabledef :=
  match sget t (d_defs d) with Some x => Ok x | None => Err OperationalError end.

(** The cell of a row under a column name (db.py 227-406) *)
Fixpoint cell_at (cols : list coldef) (r : row) (name : str) : cell :=
  match cols, r with
  | c :: cols', x :: r' => if str_eqb (k_name c) name then x else cell_at cols' r' name
  | _, _ => CNull
  end.
(** The affinity of a column (pyulog.2.sql 4-137) *)
Fixpoint aff_of (cols : list coldef) (name : str) : affinity :=
  match cols with [] => ABlob | c :: cols' => if str_eqb (k_name c) name then k_aff c else aff_of cols' name end.
(** The table has that column (db.py 227-745) *)
Definition has_col (cols : list coldef) (name : str) : bool := existsb (fun c => str_eqb (k_name c) name) cols.
(** the key of a row: the value of the INTEGER PRIMARY KEY column (pyulog.2.sql 5 and the like) *)
Fixpoint row_id (cols : list coldef) (r : row) : option Z :=
  match cols, r with
  | c :: cols', x :: r' => if k_key c then match x with CInt z => Some z | _ => None end else row_id cols' r'
  | _, _ => None
  end.
(** The keys of rows, which references name (pyulog.2.sql 21 and the like) *)
Definition row_ids (cols : list coldef) (rs : list row) : list Z :=
  flat_map (fun r => match row_id cols r with Some z => [z] | None => [] end) rs.
(** The table has an AUTOINCREMENT key (pyulog.2.sql 5 and the like) *)
Definition has_key (cols : list coldef) : bool := existsb k_key cols.

(** WHERE a = ? AND b = ? ... (db.py 79-104, 227-406, 740) *)
Definition where_ (cols : list coldef) (conds : list (str * cell)) (r : row) : bool :=
  forallb (fun c => cell_is (aff_of cols (fst c)) (cell_at cols r (fst c)) (snd c)) conds.

(** SELECT names FROM t WHERE conds (db.py 79-104, 227-406, 448-465) *)
Definition sql_select (d : db) (t : str) (names : list str) (conds : list (str * cell)) : res (list row) :=
  let* df := table d (ident t) in
  if forallb (has_col (t_cols df)) (names ++ map fst conds) then
    Ok (map (fun r => map (cell_at (t_cols df) r) names) (filter (where_ (t_cols df) conds) (d_rows d (ident t))))
  else Err OperationalError.

(** ** INSERT *)
(** A foreign key constraint on a new cell, enforced by db.py 66 (pyulog.2.sql 21 and the like) *)
Definition fk_ok (d : db) (c : coldef) (x : cell) : res unit :=
  match k_ref c, x with
  | None, _ | _, CNull => Ok tt
  | Some (p, _), _ =>
    let* pdf := table d p in
    if existsb (fun i => cell_is (k_aff c) x (CInt i)) (row_ids (t_cols pdf) (d_rows d p)) then Ok tt
    else Err IntegrityError
  end.
(** The foreign keys of a new row (db.py 66) *)
Definition fks_ok (d : db) (cols : list coldef) (r : row) : res unit :=
  let* _ := mapM (fun p => fk_ok d (fst p) (snd p)) (combine cols r) in Ok tt.
(** Two rows agree on the columns of a UNIQUE constraint; NULL never agrees (pyulog.2.sql 6, 32) *)
Definition clash (df : tabledef) (r r' : row) : bool :=
  existsb (fun u => forallb (fun n => cell_eqb (cell_at (t_cols df) r n) (cell_at (t_cols df) r' n)) u) (t_uniq df).
(** the row for the given columns and values; the key is the next of the sequence (db.py 514-730) *)
Fixpoint value_for (names : list str) (vals : row) (n : str) : cell :=
  match names, vals with
  | m :: names', x :: vals' => if str_eqb m n then x else value_for names' vals' n
  | _, _ => CNull
  end.
(** The row that INSERT builds: key, given values with affinity applied, NULL elsewhere (db.py 514-730) *)
Definition new_row (key : Z) (cols : list coldef) (names : list str) (vals : row) : res row :=
  mapM (fun c => if k_key c then Ok (CInt key) else apply_aff (k_aff c) (value_for names vals (k_name c))) cols.
(** INSERT INTO t (names) VALUES (vals): the database and the key (lastrowid) of a keyed table
    (db.py 514-730) *)
Definition sql_insert (d : db) (t : str) (names : list str) (vals : row) : res (Z * db) :=
  let t := ident t in
  let* df := table d t in
  if negb (forallb (has_col (t_cols df)) names && Nat.eqb (length names) (length vals)) then Err OperationalError
  else
  let key := d_seq d t + 1 in
  let* r := new_row key (t_cols df) names vals in
  if existsb (clash df r) (d_rows d t) then Err IntegrityError
  else
  let* _ := fks_ok d (t_cols df) r in
  let d' := set_rows t (d_rows d t ++ [r]) d in
  Ok (if has_key (t_cols df) then (key, set_seq t key d') else (0, d')).

(** ** DELETE *)
(** Deleting the rows of [t] that satisfy [p], and the rows that refer to them.  A reference
    without ON DELETE CASCADE makes the statement fail.  [fuel] bounds the depth of references.
    (ON DELETE CASCADE of pyulog.2.sql 21 and the like) *)
Fixpoint delete_where (fuel : nat) (d : db) (t : str) (p : row -> bool) : res db :=
  match fuel with
  | O => Err Unmodelled
  | S fuel' =>
    let* df := table d t in
    let ids := row_ids (t_cols df) (filter p (d_rows d t)) in
    let d1 := set_rows t (filter (fun r => negb (p r)) (d_rows d t)) d in
    foldM (fun d' ct =>
      foldM (fun d'' c =>
        match k_ref c with
        | Some (par, cascade) =>
          if str_eqb par t then
            let q := fun r => existsb (fun i => cell_is (k_aff c) (cell_at (t_cols (snd ct)) r (k_name c)) (CInt i)) ids in
            if cascade then delete_where fuel' d'' (fst ct) q
            else if existsb q (d_rows d'' (fst ct)) then Err IntegrityError else Ok d''
          else Ok d''
        | None => Ok d''
        end) (t_cols (snd ct)) d') (d_defs d) d1
  end.
(** DELETE FROM t WHERE conds (db.py 740-742) *)
Definition sql_delete (d : db) (t : str) (conds : list (str * cell)) : res db :=
  let t := ident t in
  let* df := table d t in
  delete_where (S (length (d_defs d))) d t (where_ (t_cols df) conds).

(** ** Schema changes *)
(** Statements of pyulog.1.sql to pyulog.5.sql, run by migrate_db.py 127 *)
Inductive stmt :=
| SCreate (t : str) (df : tabledef)                        (* CREATE TABLE IF NOT EXISTS *)
| SCopy (dst src : str) (names : option (list str))        (* INSERT OR IGNORE INTO dst [(names)] SELECT names|* FROM src *)
| SDrop (t : str)                                          (* DROP TABLE IF EXISTS *)
| SRename (old new : str)                                  (* ALTER TABLE old RENAME TO new *)
| SRenameCol (t old new : str)                             (* ALTER TABLE t RENAME COLUMN old TO new *)
| SAddCol (t : str) (c : coldef)                           (* ALTER TABLE t ADD COLUMN c *)
| SCast (t dst src : str)                                  (* UPDATE t SET dst = CAST(src AS INT) *)
| SIndex (i t c : str)                                     (* CREATE INDEX IF NOT EXISTS i ON t(c) *)
| SForeignKeys (on : bool)                                 (* PRAGMA foreign_keys = *)
| SVersion (v : Z)                                         (* PRAGMA user_version = *)
| SBegin | SCommit.

(** A table renamed in a dictionary (pyulog.2.sql 156-171) *)
Definition rename_key {A} (old new : str) (d : dict str A) : dict str A :=
  map (fun kv => (if str_eqb (fst kv) old then new else fst kv, snd kv)) d.
(** RENAME TO also changes the references to the table (pyulog.2.sql 156-171) *)
Definition rename_ref (old new : str) (c : coldef) : coldef :=
  match k_ref c with
  | Some (p, b) => if str_eqb p old then mkCD (k_name c) (k_aff c) (Some (new, b)) (k_key c) else c
  | None => c
  end.
(** A table removed from a dictionary (pyulog.2.sql 139-154) *)
Definition remove_key {A} (k : str) (d : dict str A) : dict str A := filter (fun kv => negb (str_eqb (fst kv) k)) d.
(** Change every column of a table (pyulog.2.sql 156-171, pyulog.4.sql 8-32) *)
Definition map_cols (f : coldef -> coldef) (df : tabledef) : tabledef := mkTD (map f (t_cols df)) (t_uniq df).

(** one row of INSERT OR IGNORE ... SELECT: keys are copied, a clash skips the row (pyulog.2.sql 15-137) *)
Definition copy_row (df : tabledef) (t : str) (names : list str) (d : db) (vals : row) : res db :=
  let* r := mapM (fun c => apply_aff (k_aff c) (value_for names vals (k_name c))) (t_cols df) in
  let dup := match row_id (t_cols df) r with
             | Some z => existsb (Z.eqb z) (row_ids (t_cols df) (d_rows d t))
             | None => false end in
  if dup || existsb (clash df r) (d_rows d t) then Ok d
  else
  let* _ := fks_ok d (t_cols df) r in
  let d' := set_rows t (d_rows d t ++ [r]) d in
  Ok (match row_id (t_cols df) r with Some z => set_seq t (Z.max z (d_seq d t)) d' | None => d' end).

(** CAST(x AS INT) (pyulog.4.sql 10-34) *)
Definition cast_int (c : cell) : res cell :=
  match c with
  | CNull | CInt _ => Ok c
  | CReal b => match f64_to_Z b with
               | Some z => Ok (CInt (Z.max (-9223372036854775808) (Z.min z 9223372036854775807)))
               | None => Err Unmodelled end
  | _ => Err Unmodelled
  end.
(** Replace one cell of a row (pyulog.4.sql 10-34) *)
Fixpoint set_cell (cols : list coldef) (r : row) (name : str) (x : cell) : row :=
  match cols, r with
  | c :: cols', y :: r' => if str_eqb (k_name c) name then x :: r' else y :: set_cell cols' r' name x
  | _, _ => r
  end.

(** statements other than those about transactions and pragmas; [fk]: foreign keys are enforced
    (pyulog.1.sql to pyulog.5.sql, migrate_db.py 127) *)
Definition exec (fk : bool) (d : db) (s : stmt) : res db :=
  match s with
  | SCreate t df =>
    match sget (ident t) (d_defs d) with
    | Some _ => Ok d
    | None => Ok (set_seq (ident t) 0 (set_rows (ident t) [] (set_defs (d_defs d ++ [(ident t, df)]) d)))
    end
  | SCopy dst src names =>
    let* ddf := table d (ident dst) in
    let* sdf := table d (ident src) in
    let cols := match names with Some l => l | None => map k_name (t_cols ddf) end in
    let* rows := match names with
                 | Some l => Ok (map (fun r => map (cell_at (t_cols sdf) r) l) (d_rows d (ident src)))
                 | None => if Nat.eqb (length (t_cols ddf)) (length (t_cols sdf)) then Ok (d_rows d (ident src))
                           else Err OperationalError
                 end in
    foldM (copy_row ddf (ident dst) cols) rows d
  | SDrop t =>
    let t := ident t in
    match sget t (d_defs d) with
    | None => Ok d
    | Some _ =>
      (* with foreign keys on, DROP TABLE first deletes all rows, which invokes the foreign key actions *)
      let* d1 := if fk then delete_where (S (length (d_defs d))) d t (fun _ => true) else Ok d in
      Ok (set_idx (filter (fun kv => negb (str_eqb (snd kv) t)) (d_idx d1))
           (set_seq t 0 (set_rows t [] (set_defs (remove_key t (d_defs d1)) d1))))
    end
  | SRename old new =>
    let old := ident old in let new := ident new in
    let* _ := table d old in
    match sget new (d_defs d) with
    | Some _ => Err OperationalError
    | None =>
      Ok (mkDb (map (fun kv => (fst kv, map_cols (rename_ref old new) (snd kv))) (rename_key old new (d_defs d)))
           (upd (upd (d_rows d) new (d_rows d old)) old []) (upd (upd (d_seq d) new (d_seq d old)) old 0)
           (map (fun kv => (fst kv, if str_eqb (snd kv) old then new else snd kv)) (d_idx d)) (d_version d))
    end
  | SRenameCol t old new =>
    let t := ident t in
    let* df := table d t in
    if has_col (t_cols df) old && negb (has_col (t_cols df) new) then
      Ok (set_defs (sset t (map_cols (fun c => if str_eqb (k_name c) old then mkCD new (k_aff c) (k_ref c) (k_key c) else c) df) (d_defs d)) d)
    else Err OperationalError
  | SAddCol t c =>
    let t := ident t in
    let* df := table d t in
    if has_col (t_cols df) (k_name c) then Err OperationalError
    else Ok (set_rows t (map (fun r => r ++ [CNull]) (d_rows d t))
              (set_defs (sset t (mkTD (t_cols df ++ [c]) (t_uniq df)) (d_defs d)) d))
  | SCast t dst src =>
    let t := ident t in
    let* df := table d t in
    if has_col (t_cols df) dst && has_col (t_cols df) src then
      let* rows := mapM (fun r => let* x := cast_int (cell_at (t_cols df) r src) in
                                  let* y := apply_aff (aff_of (t_cols df) dst) x in
                                  Ok (set_cell (t_cols df) r dst y)) (d_rows d t) in
      Ok (set_rows t rows d)
    else Err OperationalError
  | SIndex i t c =>
    match sget (ident i) (d_idx d) with
    | Some _ => Ok d
    | None =>
      let* df := table d (ident t) in
      if has_col (t_cols df) c then Ok (set_idx (d_idx d ++ [(ident i, ident t)]) d) else Err OperationalError
    end
  | SForeignKeys _ | SVersion _ | SBegin | SCommit => Ok d
  end.

(** ** Connections and transactions *)
(** [s_open] is the durable database while a transaction is open. (db.py 60-67) *)
Record sess := mkSess { s_db : db; s_open : option db; s_fk : bool }.
(** What another connection sees, and what a crash leaves (db.py 510, 738) *)
Definition durable (s : sess) : db := match s_open s with Some d => d | None => s_db s end.
(** A connection to the database with foreign keys on (db.py 60-67), nothing pending. *)
Definition connect (d : db) : sess := mkSess d None true.
(** Roll back what is open: the exit of [with con] on an exception (db.py 510, 738) *)
Definition rollback (s : sess) : sess := mkSess (durable s) None (s_fk s).
(** Commit what is open: the normal exit of [with con] (db.py 510, 738) *)
Definition commit (s : sess) : sess := mkSess (s_db s) None (s_fk s).
(** One statement of a script on a connection (migrate_db.py 127) *)
Definition run_stmt (s : sess) (x : stmt) : res sess :=
  match x with
  | SBegin => match s_open s with Some _ => Err OperationalError | None => Ok (mkSess (s_db s) (Some (s_db s)) (s_fk s)) end
  | SCommit => match s_open s with None => Err OperationalError | Some _ => Ok (commit s) end
  | SForeignKeys b =>      (* no effect inside a transaction *)
    match s_open s with Some _ => Ok s | None => Ok (mkSess (s_db s) None b) end
  | SVersion v => Ok (mkSess (set_ver v (s_db s)) (s_open s) (s_fk s))
  | _ => let* d := exec (s_fk s) (s_db s) x in Ok (mkSess d (s_open s) (s_fk s))
  end.
