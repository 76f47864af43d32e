(** What the database properties speak about: which rows belong to a log, and in which form a
    log comes back from the database. *)
From Coq Require Import Sorted.
From Verif Require Import Base Dict PyStr PyFloat PySort Struct ModelTypes Sql Schema5.

(** ** References between the tables *)
(** child table, column, affinity of the column, parent table: every REFERENCES of the schema *)
Definition links : list (str * (str * affinity * str)) :=
  [(lit "ulogappendedoffsets", (lit "ULogId", AInt, lit "ulog"));
   (lit "ulogdataset", (lit "ULogId", AInt, lit "ulog"));
   (lit "ulogfield", (lit "DatasetId", AInt, lit "ulogdataset"));
   (lit "ulogmessagedropout", (lit "ULogId", AInt, lit "ulog"));
   (lit "ulogmessageformat", (lit "ULogId", AInt, lit "ulog"));
   (lit "ulogmessageformatfield", (lit "MessageId", AInt, lit "ulogmessageformat"));
   (lit "ulogmessagelogging", (lit "ULogId", AInt, lit "ulog"));
   (lit "ulogmessageloggingtagged", (lit "ULogId", AInt, lit "ulog"));
   (lit "ulogmessageinfo", (lit "ULogId", AInt, lit "ulog"));
   (lit "ulogmessageinfomultiple", (lit "ULogId", AInt, lit "ulog"));
   (lit "ulogmessageinfomultiplelist", (lit "MessageId", AText, lit "ulogmessageinfomultiple"));
   (lit "ulogmessageinfomultiplelistelement", (lit "ListId", AText, lit "ulogmessageinfomultiplelist"));
   (lit "uloginitialparameter", (lit "ULogId", AInt, lit "ulog"));
   (lit "ulogchangedparameter", (lit "ULogId", AInt, lit "ulog"));
   (lit "ulogdefaultparameter", (lit "ULogId", AInt, lit "ulog"))].

(** the columns of a table of the schema *)
Definition cols (t : str) : list coldef := match sget t v5_defs with Some df => t_cols df | None => [] end.
(** what a reference to the row with key [i] looks like in a column *)
Definition ref_cell (a : affinity) (i : Z) : cell := match a with AText => CText (str_of_Z i) | _ => CInt i end.
Definition refers (t c : str) (a : affinity) (r : row) (i : Z) : Prop := cell_at (cols t) r c = ref_cell a i.

(** [owns d pk t i]: the row with key [i] of table [t] is the log [pk] or depends on it. *)
Inductive owns (d : db) (pk : Z) : str -> Z -> Prop :=
| owns_log : owns d pk (lit "ulog") pk
| owns_child t c a p i r j :
    owns d pk p i -> In (t, (c, a, p)) links -> In r (d_rows d t) -> refers t c a r i ->
    row_id (cols t) r = Some j -> owns d pk t j.
(** [belongs d pk t r]: the row is the row of the log or depends on it, directly or through other rows. *)
Definition belongs (d : db) (pk : Z) (t : str) (r : row) : Prop :=
  (t = lit "ulog" /\ row_id (cols t) r = Some pk) \/
  exists c a p i, In (t, (c, a, p)) links /\ owns d pk p i /\ refers t c a r i.

(** ** Databases that respect their constraints *)
(** the tables whose rows have keys *)
Definition parents : list str := [lit "ulog"; lit "ulogdataset"; lit "ulogmessageformat"; lit "ulogmessageinfomultiple";
  lit "ulogmessageinfomultiplelist"; lit "ulogfield"; lit "ulogmessageinfomultiplelistelement"].
(** What SQLite ensures for a database that only sees statements with foreign keys on: keys are
    distinct and taken from the sequence, every reference is to an existing row, the UNIQUE
    constraints hold.  The databases of every history of operations are such (PropsDb.v). *)
Record good (d : db) : Prop := {
  gd_defs : d_defs d = v5_defs;
  gd_seq : forall t, 0 <= d_seq d t;
  gd_ids : forall t, In t parents -> Forall (fun r => exists z, row_id (cols t) r = Some z /\ 0 < z <= d_seq d t) (d_rows d t);
  gd_nodup : forall t, In t parents -> NoDup (row_ids (cols t) (d_rows d t));
  gd_fk : forall t c a p, In (t, (c, a, p)) links ->
    Forall (fun r => exists i, In i (row_ids (cols p) (d_rows d p)) /\ refers t c a r i) (d_rows d t);
  gd_uniq : forall t df, sget t v5_defs = Some df -> ForallOrdPairs (fun r r' => clash df r' r = false) (d_rows d t) }.

(** ** The form in which a log comes back *)
(** bool values come back as the ints 0 and 1 *)
Definition stored_value (v : value) : value := match v with VBool b => VInt (if b then 1 else 0) | _ => v end.
Definition stored_dict {K} (d : dict K value) : dict K value := map (fun kv => (fst kv, stored_value (snd kv))) d.
(** the flag of a damaged file and the sets of filtered and missing ids are not in the database *)
Definition stored (u : ulog) : ulog :=
  {| u_corrupt := false; u_start := u_start u; u_last := u_last u;
     u_info := stored_dict (u_info u); u_infot := u_infot u; u_multi := u_multi u; u_multit := u_multit u;
     u_params := stored_dict (u_params u); u_defaults := map (fun kv => (fst kv, stored_dict (snd kv))) (u_defaults u);
     u_changed := map (fun c => (fst c, stored_value (snd c))) (u_changed u); u_formats := u_formats u; u_logged := u_logged u;
     u_tagged := u_tagged u; u_dropouts := u_dropouts u; u_data := u_data u; u_subs := []; u_filtered := []; u_missing := [];
     u_version := u_version u; u_compat := u_compat u; u_incompat := u_incompat u; u_offsets := u_offsets u;
     u_has_sync := u_has_sync u; u_sync_cnt := u_sync_cnt u |}.

(** Values that a BLOB column (as int, real, text or blob) and a TEXT column give back. *)
Definition int64 (z : Z) : Prop := - 2 ^ 63 <= z < 2 ^ 63.
Definition no_surrogate (s : str) : Prop := Forall (fun c => ~ (55296 <= c <= 57343)) s.
Definition fits_value (v : value) : Prop :=
  match v with VInt z => int64 z | VStr s => no_surrogate s | VFloat b => f64_is_nan b = false | _ => True end.
Definition fits_text (v : value) : Prop := match v with VStr s => no_surrogate s | VBytes _ => True | _ => False end.
(** A dataset whose columns are those of its fields. *)
Record fits_dataset (ds : dataset) : Prop := {
  fd_ints : int64 (ds_multi ds) /\ int64 (ds_id ds) /\ int64 (ds_tsidx ds);
  fd_named : no_surrogate (ds_name ds) /\ Forall (fun f => no_surrogate (fd_name f)) (ds_fields ds);
  fd_cols : map fst (ds_data ds) = map fd_name (ds_fields ds);
  fd_once : NoDup (map fd_name (ds_fields ds));
  fd_types : Forall (fun f => exists c, sget (fd_name f) (ds_data ds) = Some c /\ c_type c = np_of (fd_type f) /\ c_raw c <> [] /\
    Forall (fun x => 0 <= x < 256 ^ Z.of_nat (np_size (c_type c))) (c_raw c)) (ds_fields ds) }.
(** A log that fits the schema. *)
Record fits_db (u : ulog) : Prop := {
  ft_head : int64 (u_version u) /\ int64 (u_start u) /\ int64 (u_last u) /\ int64 (u_sync_cnt u) /\
    no_surrogate (u_compat u) /\ no_surrogate (u_incompat u);
  ft_offsets : Forall int64 (u_offsets u) /\ lenZ (u_offsets u) < 2 ^ 63;
  ft_info : map fst (u_info u) = map fst (u_infot u) /\ NoDup (map fst (u_info u)) /\
    Forall (fun kv => no_surrogate (fst kv) /\ fits_value (snd kv)) (u_info u) /\ Forall (fun kv => no_surrogate (snd kv)) (u_infot u);
  ft_multi : map fst (u_multi u) = map fst (u_multit u) /\ NoDup (map fst (u_multi u)) /\
    Forall (fun kv => no_surrogate (fst kv) /\ lenZ (snd kv) < 2 ^ 63 /\ Forall (fun l => lenZ l < 2 ^ 63 /\ Forall fits_text l) (snd kv)) (u_multi u) /\
    Forall (fun kv => no_surrogate (snd kv)) (u_multit u);
  ft_params : NoDup (map fst (u_params u)) /\ Forall (fun kv => no_surrogate (fst kv) /\ fits_value (snd kv)) (u_params u);
  ft_defaults : NoDup (map fst (u_defaults u)) /\
    Forall (fun td => int64 (fst td) /\ snd td <> [] /\ NoDup (map fst (snd td)) /\ Forall (fun kv => no_surrogate (fst kv) /\ fits_value (snd kv)) (snd td)) (u_defaults u);
  ft_changed : Forall (fun c => int64 (fst (fst c)) /\ no_surrogate (snd (fst c)) /\ fits_value (snd c)) (u_changed u);
  ft_formats : NoDup (map fst (u_formats u)) /\
    Forall (fun nm => no_surrogate (fst nm) /\ mf_name (snd nm) = fst nm /\ mf_fields (snd nm) <> [] /\
      Forall (fun f => no_surrogate (fst (fst f)) /\ int64 (snd (fst f)) /\ no_surrogate (snd f)) (mf_fields (snd nm))) (u_formats u);
  ft_logged : Forall (fun m => int64 (lg_level m) /\ int64 (lg_ts m) /\ no_surrogate (lg_msg m)) (u_logged u);
  ft_tagged : NoDup (map fst (u_tagged u)) /\
    Forall (fun tl => int64 (fst tl) /\ snd tl <> [] /\
      Forall (fun m => tg_tag m = fst tl /\ int64 (tg_level m) /\ int64 (tg_ts m) /\ no_surrogate (tg_msg m)) (snd tl)) (u_tagged u);
  ft_dropouts : Forall (fun x => int64 (dr_dur x) /\ int64 (dr_ts x)) (u_dropouts u);
  ft_data : Forall fits_dataset (u_data u);
  (* in the order of name and instance, each once *)
  ft_sorted : StronglySorted (fun a b => str_cmp (ds_name a) (ds_name b) = Lt \/ (ds_name a = ds_name b /\ ds_multi a < ds_multi b)) (u_data u) }.

(** The JSON copies of the values (append_json): the times of a dataset label them, and they
    have no text for minus infinity.  Of several samples of one time a copy has the last, so only
    that one counts. *)
Definition json_dataset (ds : dataset) : Prop :=
  Forall (fun f => exists ts, sget (lit "timestamp") (ds_data ds) = Some ts /\
    forall c, sget (fd_name f) (ds_data ds) = Some c ->
    forall before t x after, combine (c_raw ts) (c_raw c) = before ++ (t, x) :: after -> ~ In t (map fst after) ->
    np_elem (c_type c) x <> VFloat 18442240474082181120) (ds_fields ds).

(** What an object holds after it is opened by key: lazily, the datasets have no columns yet. *)
Definition shell (ds : dataset) : dataset := mkDS (ds_multi ds) (ds_id ds) (ds_name ds) [] (ds_tsidx ds) [].
Definition loaded_as (u : ulog) (lazy : bool) : ulog := set_data (if lazy then map shell (u_data u) else u_data u) (stored u).

(** A log with this file hash is in the database. *)
Definition has_hash (d : db) (sha : str) : Prop :=
  exists r, In r (d_rows d (lit "ulog")) /\ cell_at (cols (lit "ulog")) r (lit "SHA256Sum") = CText sha.
