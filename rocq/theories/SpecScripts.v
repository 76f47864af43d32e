(** What ulog_migratedb reads and prints, by the names and texts of its scripts. *)
From Verif Require Import Base Dict PyStr Utf8 Sql ModelTypes ModelCommand SpecCommand.

(** the directory of the scripts: the given one, or sql beside the module *)
Definition script_dir (md : str) (sql_dir : option str) (dir : str) : Prop :=
  match sql_dir with Some d => dir = d | None => md <> [] /\ within md (lit "sql") dir end.
(** the name of a script in it *)
Definition script_path (dir : str) (id : Z) (path : str) : Prop := within dir (lit "pyulog." ++ str_of_Z id ++ lit ".sql") path.
(** a name without braces *)
Definition braceless (s : str) : Prop := ~ In 123 s /\ ~ In 125 s.

(** The directory in which script [id] is looked for when [dir] is given: doubled braces stand for one, the field
    {migration_id} for the number. *)
Inductive named (id : Z) : str -> str -> Prop :=
| nm_end : named id [] []
| nm_char c s t : c <> 123 -> c <> 125 -> named id s t -> named id (c :: s) (c :: t)
| nm_double c s t : c = 123 \/ c = 125 -> named id s t -> named id (c :: c :: s) (c :: t)
| nm_number s t : named id s t -> named id (lit "{migration_id}" ++ s) (str_of_Z id ++ t).
(** a brace that is not closed, or closes nothing *)
Definition stray (s : str) : Prop :=
  (exists b, s = 123 :: b /\ braceless b /\ ~ Exists (fun c => In c [33; 58; 91]) b) \/
  (exists b, s = 125 :: b /\ (forall c r, b = c :: r -> c <> 125)).

(** white space *)
Definition space (c : Z) : Prop :=
  9 <= c <= 13 \/ 28 <= c <= 32 \/ 8192 <= c <= 8202 \/ In c [133; 160; 5760; 8232; 8233; 8239; 8287; 12288].
(** a text that begins with BEGIN; and ends with COMMIT; apart from white space *)
Definition delimited (t : str) : Prop :=
  exists a b c, t = a ++ b ++ c /\ Forall space a /\ Forall space c /\ (exists x, b = lit "BEGIN;" ++ x) /\ (exists y, b = y ++ lit "COMMIT;").
(** all line ends are newlines *)
Inductive unified : str -> str -> Prop :=
| un_nil : unified [] []
| un_crlf s t : unified s t -> unified (13 :: 10 :: s) (10 :: t)
| un_cr s t : (forall r, s <> 10 :: r) -> unified s t -> unified (13 :: s) (10 :: t)
| un_other c s t : c <> 13 -> unified s t -> unified (c :: s) (c :: t).
(** the text of a file of UTF-8 text *)
Definition text_of (k : disk) (path t : str) : Prop :=
  exists s, unified s t /\ (file_of k path = Some (Text s) \/ exists b, file_of k path = Some (Bytes b) /\ utf8_decode false b = Ok s).
(** what is executed for a script with the text [t] *)
Definition with_version (t : str) (id : Z) : str := t ++ [10] ++ lit "PRAGMA user_version = " ++ str_of_Z id ++ lit ";".

(** What lies under the name of script [id]: nothing, or a text that is not delimited, or a delimited one whose
    statements are [l], between BEGIN and COMMIT. *)
Inductive script_at (sql : str -> list stmt) (k : disk) (dir : str) (id : Z) : option (list stmt) -> Prop :=
| sa_none path : script_path dir id path -> file_of k path = None -> isdir k path = false -> script_at sql k dir id None
| sa_bad path t : script_path dir id path -> text_of k path t -> ~ delimited t -> script_at sql k dir id (Some [])
| sa_good path t b : script_path dir id path -> text_of k path t -> delimited t ->
    sql (with_version t id) = SBegin :: b ++ [SCommit; SVersion id] ->
    script_at sql k dir id (Some (SBegin :: b ++ [SCommit])).

(** the lines before the scripts *)
Definition head_lines (dir db_path : str) (found : bool) (v : Z) : list str :=
  [lit "Using migration files in " ++ dir ++ lit ".";
   if found then lit "Found database file " ++ db_path ++ lit "." else lit "Database file " ++ db_path ++ lit " not found, creating it from scratch.";
   lit "Current schema version: " ++ str_of_Z v ++ lit " (database) and 5 (code)."].
(** the scripts from [id] to [last], all there and delimited: their names and what is executed *)
Inductive scripts_from (k : disk) (dir : str) (last : Z) : Z -> list (str * str) -> Prop :=
| sf_end id : last < id -> scripts_from k dir last id []
| sf_next id path t r : id <= last -> script_path dir id path -> text_of k path t -> delimited t ->
    scripts_from k dir last (id + 1) r -> scripts_from k dir last id ((path, with_version t id) :: r).
(** the line printed for a script *)
Definition executing (path : str) : str := lit "Executing " ++ path ++ lit ".".
