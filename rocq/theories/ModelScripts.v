(** ulog_migratedb with its directory of scripts: main() and migrate_db() of migrate_db.py on the files of a disk, and
    what is printed.  Simplifications: the arguments are parsed already; the database path is an ordinary file name in an
    existing directory (not ":memory:"), and the file there is a database or missing; [sql] is the splitting of a text
    into statements by SQLite, an arbitrary function. *)
From Verif Require Import Base Dict PyStr Utf8 Sql ModelDb ModelMigrate ModelTypes ModelCommand.

(** str.isspace, for str.strip (migrate_db.py 85, 87) *)
Definition py_space (c : Z) : bool :=
  ((9 <=? c) && (c <=? 13)) || ((28 <=? c) && (c <=? 32)) || (c =? 133) || (c =? 160) || (c =? 5760) ||
  ((8192 <=? c) && (c <=? 8202)) || (c =? 8232) || (c =? 8233) || (c =? 8239) || (c =? 8287) || (c =? 12288).
(** one side of str.strip (85, 87) *)
Fixpoint drop_spaces (s : str) : str :=
  match s with c :: r => if py_space c then drop_spaces r else s | [] => [] end.
(** str.strip (85, 87) *)
Definition py_strip (s : str) : str := rev (drop_spaces (rev (drop_spaces s))).
(** str.endswith (87) *)
Definition ends_with (p s : str) : bool := starts_with (rev p) (rev s).

(** a replacement field of str.format(migration_id=...) (migrate_db.py 78): fields with an attribute, an index, a
    conversion or a format are left out *)
Definition format_field (arg name : str) : res str :=
  if str_eqb name (lit "migration_id") then Ok arg
  else if existsb (fun c => existsb (Z.eqb c) [33; 46; 58; 91]) name then Err Unmodelled
  else if forallb is_digit name then Err IndexError
  else Err KeyError.
(** str.format (78): [inside] is the field name so far, reversed; doubled braces stand for one.  A brace opened in a
    field name is refused; behind a bracket, a conversion or a format it is left out. *)
Fixpoint py_format (inside : option str) (arg s : str) : res str :=
  match inside, s with
  | None, [] => Ok []
  | None, c :: r =>
    if c =? 123 then
      match r with
      | d :: r' => if d =? 123 then let* x := py_format None arg r' in Ok (123 :: x) else py_format (Some []) arg r
      | [] => Err ValueError
      end
    else if c =? 125 then
      match r with
      | d :: r' => if d =? 125 then let* x := py_format None arg r' in Ok (125 :: x) else Err ValueError
      | [] => Err ValueError
      end
    else let* x := py_format None arg r in Ok (c :: x)
  | Some _, [] => Err ValueError
  | Some acc, c :: r =>
    if c =? 125 then let* v := format_field arg (rev acc) in let* x := py_format None arg r in Ok (v ++ x)
    else if c =? 123 then if existsb (fun c => existsb (Z.eqb c) [33; 58; 91]) acc then Err Unmodelled else Err ValueError
    else py_format (Some (c :: acc)) arg r
  end.
(** the name of a migration file (77-78) *)
Definition migration_filename (dir : str) (id : Z) : res str :=
  py_format None (str_of_Z id) (join_path dir (lit "pyulog.{migration_id}.sql")).

(** reading a text file turns every kind of line end into a newline (83-84) *)
Fixpoint newlines (s : str) : str :=
  match s with
  | [] => []
  | c :: r => if c =? 13 then 10 :: match r with d :: r' => if d =? 10 then newlines r' else newlines r | [] => [] end
              else c :: newlines r
  end.
(** open(...).read() (83-84); a map of ulog2kml starts with "<?xml", whatever follows (85) *)
Definition read_text (k : disk) (path : str) : res str :=
  match sget path (k_files k) with
  | Some (Bytes b) => let* t := utf8_decode false b in Ok (newlines t)
  | Some (Text t) => Ok (newlines t)
  | Some (Map _) => Ok (lit "<?xml")
  | None => if isdir k path then Err OSError else Err FileNotFoundError
  end.
(** _read_migration_file (72-91) *)
Definition read_migration_text (k : disk) (dir : str) (id : Z) : res (str * str) :=
  let* path := migration_filename dir id in
  let* t := read_text k path in
  if negb (starts_with (lit "BEGIN;") (py_strip t)) then Err ValueError
  else if negb (ends_with (lit "COMMIT;") (py_strip t)) then Err ValueError
  else Ok (path, t ++ [10] ++ lit "PRAGMA user_version = " ++ str_of_Z id ++ lit ";").

(** the loop (120-127) over the [n] migrations from [id] on, and the printed lines *)
Fixpoint scripts_loop (sql : str -> list stmt) (k : disk) (dir : str) (noop : bool) (n : nat) (id : Z) (s : sess) : sess * res unit * list str :=
  match n with
  | O => (s, Ok tt, [])
  | S n' =>
    match read_migration_text k dir id with
    | Err e => (s, Err e, [])
    | Ok (path, t) =>
      let line := lit "Executing " ++ path ++ lit "." in
      if noop then let '(s', r, ls) := scripts_loop sql k dir noop n' (id + 1) s in (s', r, line :: t :: ls)
      else match executescript (sql t) s with
           | (s', Ok _) => let '(s'', r, ls) := scripts_loop sql k dir noop n' (id + 1) s' in (s'', r, line :: ls)
           | (s', Err e) => (s', Err e, [line])
           end
    end
  end.

(** A run: outcome, what is printed (also before an exception), and the database file (migrate_db.py 93-131). *)
Record migration := mkMigration { mg_out : res unit; mg_lines : list str; mg_file : option db }.
(** main (17-39) and migrate_db (93-131); [md] is the directory of the module (104-105).  NotADirectoryError (107) is
    an OSError. *)
Definition migrate_command (sql : str -> list stmt) (k : disk) (md : str) (db_path : str) (sql_dir : option str) (noop force : bool) (file : option db) : migration :=
  let dir := match sql_dir with Some d => d | None => join_path md (lit "sql") end in
  if negb (isdir k dir) then mkMigration (Err OSError) [] file
  else
    let l1 := lit "Using migration files in " ++ dir ++ lit "." in
    let l2 := match file with
              | None => lit "Database file " ++ db_path ++ lit " not found, creating it from scratch."
              | Some _ => lit "Found database file " ++ db_path ++ lit "."
              end in
    match read_db_schema_version force file with
    | Err e => mkMigration (Err e) [l1; l2] file
    | Ok v =>
      let l3 := lit "Current schema version: " ++ str_of_Z v ++ lit " (database) and " ++ str_of_Z SCHEMA_VERSION ++ lit " (code)." in
      let d := match file with Some d => d | None => db0 end in
      match scripts_loop sql k dir noop (Z.to_nat (SCHEMA_VERSION - v)) (v + 1) (connect d) with
      | (s, Ok _, ls) => mkMigration (Ok tt) ([l1; l2; l3] ++ ls ++ [lit "Migration done."]) (Some (s_db (commit s)))
      | (s, Err e, ls) => mkMigration (Err e) ([l1; l2; l3] ++ ls) (Some (s_db (rollback s)))
      end
    end.
