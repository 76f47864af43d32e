(** What migrations should do, independently of sessions and transactions. *)
From Verif Require Import Base Dict PyStr PyFloat Sql.

(** Statements that belong in a migration script: not those that open or close a transaction or
    set the version. *)
Definition plain (x : stmt) : bool := match x with SBegin | SCommit | SVersion _ => false | _ => true end.

(** The statements between BEGIN; and COMMIT;, if the script is delimited by them. *)
Definition body (l : list stmt) : option (list stmt) :=
  match l with
  | SBegin :: r => match rev r with SCommit :: b => Some (rev b) | _ => None end
  | _ => None
  end.
Definition tidy (l : list stmt) : Prop := forall b, body l = Some b -> forallb plain b = true.

(** Script [k] as a whole, applied to a database: a missing or badly delimited file and a failing
    statement are errors, otherwise the database is at version [k]. *)
Definition apply_body (b : list stmt) (d : db) : res db := foldM (exec true) b d.
Definition apply_script (files : Z -> option (list stmt)) (k : Z) (d : db) : res db :=
  match files k with
  | None => Err FileNotFoundError
  | Some l => match body l with
              | None => Err ValueError
              | Some b => let* d' := apply_body b d in Ok (set_ver k d')
              end
  end.
(** Scripts [v+1] to [v+n], in order. *)
Fixpoint apply_scripts (files : Z -> option (list stmt)) (v : Z) (n : nat) (d : db) : res db :=
  match n with
  | O => Ok d
  | S n' => let* d' := apply_scripts files v n' d in apply_script files (v + Z.of_nat n) d'
  end.
(** v+1, ..., v+n *)
Definition up_from (v : Z) (n : nat) : list Z := map (fun i => v + 1 + Z.of_nat i) (seq 0 n).

(** The version of a file; a missing one counts as empty. *)
Definition contents (file : option db) : db := match file with Some d => d | None => db0 end.
(** migrate_db agrees to work on the file: it is missing, or at a positive version, or forced. *)
Definition accepted (force : bool) (file : option db) : Prop :=
  match file with None => True | Some d => 0 < d_version d \/ d_version d = 0 /\ force = true end.

(** ** Keeping what is stored *)
(** the tables that a chain of scripts makes from nothing *)
Definition defs_at (files : Z -> option (list stmt)) (v : Z) : dict str tabledef :=
  match apply_scripts files 0 (Z.to_nat v) db0 with Ok d => d_defs d | Err _ => [] end.
(** every row has a cell for every column *)
Definition full_rows (d : db) : Prop :=
  forall t df r, sget t (d_defs d) = Some df -> In r (d_rows d t) -> length r = length (t_cols df).
(** a number without fraction (or NULL), and the integer that it is; beyond 64 bits it is cut off *)
Definition whole (c : cell) : bool :=
  match c with CNull | CInt _ => true | CReal b => match f64_to_Z b with Some _ => true | None => false end | _ => false end.
Definition as_int (c : cell) : cell :=
  match c with
  | CReal b => match f64_to_Z b with Some z => CInt (Z.max (-9223372036854775808) (Z.min z 9223372036854775807)) | None => c end
  | _ => c
  end.
Definition has_time (l : list (str * str)) (t c : str) : bool := existsb (fun p => str_eqb (fst p) t && str_eqb (snd p) c) l.
(** Each row of [d] is still there in [d'], in the same place, with the same cells in the columns it
    had; except that the columns [l] have become integers. *)
Definition rows_kept (l : list (str * str)) (d d' : db) : Prop :=
  forall t df, sget t (d_defs d) = Some df -> exists df', sget t (d_defs d') = Some df' /\
    (forall c, has_col (t_cols df) c = true -> has_col (t_cols df') c = true) /\
    Forall2 (fun r r' => length r' = length (t_cols df') /\
      forall c, has_col (t_cols df) c = true ->
        cell_at (t_cols df') r' c = if has_time l t c then as_int (cell_at (t_cols df) r c) else cell_at (t_cols df) r c)
      (d_rows d t) (d_rows d' t).
(** The columns of times and durations, which were REAL before version 4. *)
Definition times : list (str * str) :=
  [(lit "ulog", lit "StartTimestamp"); (lit "ulog", lit "LastTimestamp");
   (lit "ulogmessagedropout", lit "Timestamp"); (lit "ulogmessagedropout", lit "Duration");
   (lit "ulogmessagelogging", lit "Timestamp"); (lit "ulogmessageloggingtagged", lit "Timestamp");
   (lit "ulogchangedparameter", lit "Timestamp")].

(** An index per column that refers to another table: its name and table. *)
Definition reference_indexes (defs : dict str tabledef) : dict str str :=
  flat_map (fun td => flat_map (fun c => match k_ref c with Some _ => [(ident (lit "btree_" ++ fst td ++ lit "_" ++ k_name c), fst td)] | None => [] end) (t_cols (snd td))) defs.
