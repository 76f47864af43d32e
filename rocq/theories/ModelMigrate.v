(** ulog_migratedb (pyulog/migrate_db.py). *)
From Verif Require Import Base Dict PyStr Sql ModelSchema ModelDb.

(** A migration file is the list of its statements.  [files n] is pyulog.n.sql in sql_dir,
    [None] if it does not exist.  Simplification: the checks on the text that it starts with
    BEGIN; and ends with COMMIT; are checks on the first and last statement, so a comment that
    ends with the text COMMIT; is not accepted here but is in Python.
    migration_lines.strip().startswith('BEGIN;') (85) *)
Definition starts_begin (l : list stmt) : bool := match l with SBegin :: _ => true | _ => false end.
(** migration_lines.strip().endswith('COMMIT;') (87) *)
Definition ends_commit (l : list stmt) : bool := match rev l with SCommit :: _ => true | _ => false end.

(** _read_migration_file (72-91) *)
Definition read_migration_file (files : Z -> option (list stmt)) (id : Z) : res (list stmt) :=
  match files id with
  | None => Err FileNotFoundError
  | Some l => if negb (starts_begin l) then Err ValueError
              else if negb (ends_commit l) then Err ValueError
              else Ok (l ++ [SVersion id])
  end.

(** _read_db_schema_version (41-70); [None]: there is no such file *)
Definition read_db_schema_version (force : bool) (file : option db) : res Z :=
  match file with
  | None => Ok 0
  | Some d => if (d_version d =? 0) && negb force then Err FileExistsError
              else if d_version d <? 0 then Err ValueError
              else Ok (d_version d)
  end.

(** executescript (127): the statements until the first that fails; a pending transaction is
    committed first *)
Fixpoint run_stmts (l : list stmt) (s : sess) : sess * res unit :=
  match l with
  | [] => (s, Ok tt)
  | x :: r => match run_stmt s x with Err e => (s, Err e) | Ok s' => run_stmts r s' end
  end.
(** cur.executescript(migration_lines) (127) on an open connection *)
Definition executescript (l : list stmt) (s : sess) : sess * res unit := run_stmts l (commit s).

(** the loop (120-127) over the [n] migrations from [id] on; also the ids whose scripts were
    started, in order *)
Fixpoint migrate_loop (files : Z -> option (list stmt)) (noop : bool) (n : nat) (id : Z) (s : sess) : sess * res unit * list Z :=
  match n with
  | O => (s, Ok tt, [])
  | S n' =>
    match read_migration_file files id with
    | Err e => (s, Err e, [])
    | Ok l =>
      if noop then migrate_loop files noop n' (id + 1) s
      else match executescript l s with
           | (s', Ok _) => let '(s'', r, ids) := migrate_loop files noop n' (id + 1) s' in (s'', r, id :: ids)
           | (s', Err e) => (s', Err e, [id])
           end
    end
  end.

(** migrate_db (93-131) for an existing sql_dir: outcome, database file afterwards (an exception
    rolls back, otherwise the with statement commits), scripts run. Connecting creates a missing file. *)
Definition migrate_db (files : Z -> option (list stmt)) (target : Z) (noop force : bool) (file : option db) : res unit * option db * list Z :=
  match read_db_schema_version force file with
  | Err e => (Err e, file, [])
  | Ok v =>
    let d := match file with Some d => d | None => db0 end in
    match migrate_loop files noop (Z.to_nat (target - v)) (v + 1) (connect d) with
    | (s, Ok _, ids) => (Ok tt, Some (s_db (commit s)), ids)
    | (s, Err e, ids) => (Err e, Some (s_db (rollback s)), ids)
    end
  end.

(** The same with the process killed after [k] statements: what is left in the file. The
    statements are those of the scripts up to the first that cannot be read. The statements of
    122 and 127. *)
Fixpoint all_stmts (files : Z -> option (list stmt)) (n : nat) (id : Z) : list stmt :=
  match n with
  | O => []
  | S n' => match read_migration_file files id with Ok l => l ++ all_stmts files n' (id + 1) | Err _ => [] end
  end.
(** migrate_db (93-131) killed after [k] statements of 127 *)
Definition killed_after (k : nat) (files : Z -> option (list stmt)) (target : Z) (d : db) : db :=
  durable (fst (run_stmts (firstn k (all_stmts files (Z.to_nat (target - d_version d)) (d_version d + 1))) (connect d))).

(** the files in pyulog/sql; Read in 83-84. *)
Definition pyulog_files (id : Z) : option (list stmt) :=
  if id =? 1 then Some script1 else if id =? 2 then Some script2 else if id =? 3 then Some script3
  else if id =? 4 then Some script4 else if id =? 5 then Some script5 else None.
