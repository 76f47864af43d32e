(** C69: ulog_migratedb runs the scripts of its directory and says so. *)
From Verif Require Import Base Dict PyStr Utf8 Sql ModelDb ModelMigrate ModelTypes ModelCommand SpecCommand SpecMigrate ModelScripts SpecScripts ProofsCommand ProofsScripts PropsMigrate.

(** ** C69: which scripts run *)
(** In a directory whose name has no braces, the scripts that run are pyulog.1.sql to pyulog.5.sql of it: the run is that
    of C37, C38 and C40 on these files, where a text that is not delimited by BEGIN; and COMMIT; counts as no script. *)
Theorem C69_scripts : forall sql k md db_path sd dir noop force file files,
  script_dir md sd dir -> isdir k dir = true -> braceless dir -> (forall i, 1 <= i <= 5 -> script_at sql k dir i (files i)) ->
  let m := migrate_command sql k md db_path sd noop force file in
  (mg_out m, mg_file m) = fst (migrate_db files 5 noop force file).
Proof.
  intros sql k md db_path sd dir noop force file files Hs Hd Hb Hf. cbv zeta. unfold migrate_command, migrate_db. rewrite (script_dir_is _ _ _ Hs), Hd. cbn [negb].
  destruct (read_db_schema_version force file) as [v|e] eqn:V; [|reflexivity].
  assert (0 <= v) by (destruct file as [d|]; cbn [read_db_schema_version] in V; [destruct (_ && _); [discriminate|]; destruct (Z.ltb_spec (d_version d) 0); [discriminate|injection V as <-; lia]|injection V as <-; lia]).
  pose proof (loop_same sql k dir (fun _ => dir) noop files (Z.to_nat (SCHEMA_VERSION - v)) (v + 1) (connect match file with Some d => d | None => db0 end)) as L.
  change SCHEMA_VERSION with 5 in *. specialize (L ltac:(intros; split; [apply filename_braceless; [exact (isdir_nonempty _ _ Hd)|exact Hb]|apply Hf; lia])).
  destruct (scripts_loop _ _ _ _ _ _ _) as [[s r] ls]. destruct (migrate_loop _ _ _ _ _) as [[s2 r2] ids]. cbn [fst] in L. injection L as -> ->.
  destruct r2 as [[]|e]; reflexivity.
Qed.
(** Without the directory nothing happens. *)
Theorem C69_not_dir : forall sql k md db_path sd dir noop force file, script_dir md sd dir -> isdir k dir = false ->
  migrate_command sql k md db_path sd noop force file = mkMigration (Err OSError) [] file.
Proof. intros sql k md db_path sd dir noop force file Hs Hd. unfold migrate_command. rewrite (script_dir_is _ _ _ Hs), Hd. reflexivity. Qed.
(** A first script that is not delimited is refused: nothing of it is executed. *)
Theorem C69_refused : forall sql k md db_path sd dir noop force d path t,
  script_dir md sd dir -> isdir k dir = true -> braceless dir -> accepted force (Some d) -> d_version d < 5 ->
  script_path dir (d_version d + 1) path -> text_of k path t -> ~ delimited t ->
  migrate_command sql k md db_path sd noop force (Some d) = mkMigration (Err ValueError) (head_lines dir db_path true (d_version d)) (Some d).
Proof.
  intros sql k md db_path sd dir noop force d path t Hs Hd Hb Ha Hv Hp Ht Hn. unfold migrate_command. rewrite (script_dir_is _ _ _ Hs), Hd. cbn [negb].
  replace (read_db_schema_version force (Some d)) with (Ok (d_version d)).
  - replace (Z.to_nat (SCHEMA_VERSION - d_version d)) with (S (Z.to_nat (4 - d_version d))) by (change SCHEMA_VERSION with 5; lia). cbn [scripts_loop].
    destruct (script_text sql k dir dir (d_version d + 1) [] (filename_braceless _ _ (isdir_nonempty _ _ Hd) Hb)) as [(_ & ->)|(p & u & b & E & _)]; [eapply sa_bad; eassumption|reflexivity|discriminate].
  - symmetry. exact (ProofsMigrate.version_read force (Some d) Ha).
Qed.
(** ** C69: what is printed *)
(** With -n the scripts of a run are printed, nothing more, and the database is left as it is. *)
Theorem C69_noop : forall sql k md db_path sd dir force d l,
  script_dir md sd dir -> isdir k dir = true -> braceless dir -> accepted force (Some d) -> scripts_from k dir 5 (d_version d + 1) l ->
  migrate_command sql k md db_path sd true force (Some d) =
  mkMigration (Ok tt) (head_lines dir db_path true (d_version d) ++ flat_map (fun '(p, t) => [executing p; t]) l ++ [lit "Migration done."]) (Some d).
Proof.
  intros sql k md db_path sd dir force d l Hs Hd Hb Ha Hl. unfold migrate_command. rewrite (script_dir_is _ _ _ Hs), Hd. cbn [negb].
  rewrite (ProofsMigrate.version_read force (Some d) Ha). change (d_version (SpecMigrate.contents (Some d))) with (d_version d). change SCHEMA_VERSION with 5.
  destruct (Z.ltb_spec (d_version d) 5).
  - rewrite (loop_noop sql k dir (isdir_nonempty _ _ Hd) Hb _ _ _ l) by (replace (d_version d + 1 + Z.of_nat (Z.to_nat (5 - d_version d)) - 1) with 5 by lia; exact Hl). reflexivity.
  - replace (Z.to_nat (5 - d_version d)) with O by lia. inversion Hl; [subst|lia]. reflexivity.
Qed.
(** A run names the scripts that -n prints, in that order, up to the one that fails. *)
Theorem C69_run : forall sql k md db_path sd dir force d l,
  script_dir md sd dir -> isdir k dir = true -> braceless dir -> accepted force (Some d) -> scripts_from k dir 5 (d_version d + 1) l ->
  let m := migrate_command sql k md db_path sd false force (Some d) in
  exists a b, l = a ++ b /\
    mg_lines m = head_lines dir db_path true (d_version d) ++ map (fun x => executing (fst x)) a ++ match mg_out m with Ok _ => [lit "Migration done."] | Err _ => [] end /\
    (mg_out m = Ok tt -> b = []).
Proof.
  intros sql k md db_path sd dir force d l Hs Hd Hb Ha Hl. cbv zeta. unfold migrate_command. rewrite (script_dir_is _ _ _ Hs), Hd. cbn [negb].
  rewrite (ProofsMigrate.version_read force (Some d) Ha). change (d_version (SpecMigrate.contents (Some d))) with (d_version d). change SCHEMA_VERSION with 5.
  destruct (Z.ltb_spec (d_version d) 5).
  - pose proof (loop_run sql k dir (isdir_nonempty _ _ Hd) Hb (Z.to_nat (5 - d_version d)) (d_version d + 1) (connect d) l) as L.
    replace (d_version d + 1 + Z.of_nat (Z.to_nat (5 - d_version d)) - 1) with 5 in L by lia. specialize (L Hl).
    destruct (scripts_loop _ _ _ _ _ _ _) as [[s r] ls]. destruct L as (a & b & E & -> & F). exists a, b. split; [exact E|].
    destruct r as [[]|e]; cbn [mg_lines mg_out]; (split; [|exact F || (intros; discriminate)]); [reflexivity|now rewrite app_nil_r].
  - replace (Z.to_nat (5 - d_version d)) with O by lia. inversion Hl; [subst|lia]. exists [], []. repeat split.
Qed.

(** ** C69: names with braces *)
(** A directory with a field in braces: the name of the script is formatted together with that of the directory, so its
    scripts are not found, wherever they are. *)
Theorem C69_field : forall sql k md db_path noop force d a name b,
  let dir := a ++ [123] ++ name ++ [125] ++ b in
  isdir k dir = true -> braceless a -> braceless name -> name <> lit "migration_id" -> ~ Exists (fun c => In c [33; 46; 58; 91]) name ->
  accepted force (Some d) -> d_version d < 5 ->
  exists e, (e = KeyError \/ e = IndexError) /\
  migrate_command sql k md db_path (Some dir) noop force (Some d) = mkMigration (Err e) (head_lines dir db_path true (d_version d)) (Some d).
Proof.
  intros sql k md db_path noop force d a name b dir Hd Ha Hn Hm Hx Hacc Hv. exists (if forallb is_digit name then IndexError else KeyError).
  split; [destruct (forallb is_digit name); auto|]. unfold migrate_command. rewrite Hd. cbn [negb].
  rewrite (ProofsMigrate.version_read force (Some d) Hacc). change (d_version (SpecMigrate.contents (Some d))) with (d_version d).
  replace (Z.to_nat (SCHEMA_VERSION - d_version d)) with (S (Z.to_nat (4 - d_version d))) by (change SCHEMA_VERSION with 5; lia). cbn [scripts_loop].
  unfold read_migration_text. replace (migration_filename dir (d_version d + 1)) with (@Err str (if forallb is_digit name then IndexError else KeyError)) by (symmetry; apply filename_field; assumption). reflexivity.
Qed.
(** In general: doubled braces stand for one, {migration_id} for the number of the script, and the scripts are looked
    for under the name this gives, not under that of the directory. *)
Theorem C69_names : forall sql k md db_path noop force file files dir dirs,
  isdir k dir = true -> (forall i, 1 <= i <= 5 -> named i dir (dirs i) /\ script_at sql k (dirs i) i (files i)) ->
  let m := migrate_command sql k md db_path (Some dir) noop force file in
  (mg_out m, mg_file m) = fst (migrate_db files 5 noop force file).
Proof.
  intros sql k md db_path noop force file files dir dirs Hd Hf. cbv zeta. unfold migrate_command, migrate_db. rewrite Hd. cbn [negb].
  destruct (read_db_schema_version force file) as [v|e] eqn:V; [|reflexivity].
  apply ProofsMigrate.version_read_inv in V. destruct V as (A & ->). assert (0 <= d_version (SpecMigrate.contents file)) by (destruct file as [d|]; cbn in *; lia).
  pose proof (loop_same sql k dir dirs noop files (Z.to_nat (SCHEMA_VERSION - d_version (SpecMigrate.contents file))) (d_version (SpecMigrate.contents file) + 1) (connect match file with Some d => d | None => db0 end)) as L.
  change SCHEMA_VERSION with 5 in *. specialize (L ltac:(intros; split; [apply filename_named; [exact (isdir_nonempty _ _ Hd)|apply Hf; lia|lia]|apply Hf; lia])).
  destruct (scripts_loop _ _ _ _ _ _ _) as [[s r] ls]. destruct (migrate_loop _ _ _ _ _) as [[s2 r2] ids]. cbn [fst] in L. injection L as -> ->.
  destruct r2 as [[]|e]; reflexivity.
Qed.
(** A directory with {migration_id} in its name: every script is looked for in the directory with its number instead,
    and those of the given directory never run. *)
Lemma named_braceless i a s t : braceless a -> named i s t -> named i (a ++ s) (a ++ t).
Proof.
  intros (A & B) H. induction a as [|c a IH]; [exact H|]. cbn [app]. constructor; [intros ->; apply A; now left|intros ->; apply B; now left|].
  apply IH; intros I; [apply A|apply B]; now right.
Qed.
Theorem C69_template : forall sql k md db_path noop force file files a b,
  let dir := a ++ lit "{migration_id}" ++ b in
  isdir k dir = true -> braceless a -> braceless b -> (forall i, 1 <= i <= 5 -> script_at sql k (a ++ str_of_Z i ++ b) i (files i)) ->
  let m := migrate_command sql k md db_path (Some dir) noop force file in
  (mg_out m, mg_file m) = fst (migrate_db files 5 noop force file).
Proof.
  intros sql k md db_path noop force file files a b dir Hd Ha Hb Hf. apply (C69_names sql k md db_path noop force file files dir (fun i => a ++ str_of_Z i ++ b) Hd).
  intros i Hi. split; [|apply Hf; exact Hi]. apply named_braceless; [exact Ha|]. apply nm_number. rewrite <- (app_nil_r b). apply named_braceless; [exact Hb|constructor].
Qed.
(** A brace that is not closed, or that closes nothing, in the name of the directory: ValueError. *)
Theorem C69_stray : forall sql k md db_path noop force d a a' b,
  isdir k (a ++ b) = true -> named (d_version d + 1) a a' -> stray b -> accepted force (Some d) -> d_version d < 5 ->
  migrate_command sql k md db_path (Some (a ++ b)) noop force (Some d) = mkMigration (Err ValueError) (head_lines (a ++ b) db_path true (d_version d)) (Some d).
Proof.
  intros sql k md db_path noop force d a a' b Hd Ha Hb Hacc Hv. unfold migrate_command. rewrite Hd. cbn [negb].
  rewrite (ProofsMigrate.version_read force (Some d) Hacc). change (d_version (SpecMigrate.contents (Some d))) with (d_version d).
  replace (Z.to_nat (SCHEMA_VERSION - d_version d)) with (S (Z.to_nat (4 - d_version d))) by (change SCHEMA_VERSION with 5; lia). cbn [scripts_loop].
  unfold read_migration_text. rewrite (filename_stray a a' b (d_version d + 1) Ha Hb). reflexivity.
Qed.

(** ** Cases *)
(** five scripts that make a table, one of them with other line ends and white space around it *)
Definition sql_ex (t : str) : list stmt :=
  match rev t with _ :: c :: _ => [SBegin; SCreate (lit "t") a_table; SCommit; SVersion (c - 48)] | _ => [] end.
Definition text_ex : str := lit "BEGIN;CREATE TABLE t;COMMIT;".
Definition scripts_ex (dir : str) : list (str * content) :=
  map (fun i => (dir ++ lit "/pyulog." ++ str_of_Z i ++ lit ".sql", if i =? 2 then Bytes ([32; 13; 10] ++ text_ex ++ [13]) else Text text_ex)) [1; 2; 3; 4; 5].
Definition disk_ex (dirs : list str) (dir : str) : disk := mkDisk (scripts_ex dir) dirs.
Definition text_ex_of (i : Z) : str := if i =? 2 then [32; 10] ++ text_ex ++ [10] else text_ex.
Definition version_ex (v : Z) : db := mkDb [] (fun _ => []) (fun _ => 0) [] v.

Lemma braceless_b s : existsb (fun c => (c =? 123) || (c =? 125)) s = false -> braceless s.
Proof. intros H. split; intros I; apply Bool.not_true_iff_false in H; apply H; apply existsb_exists; [exists 123|exists 125]; auto. Qed.
Lemma one_to_five (P : Z -> Prop) : P 1 -> P 2 -> P 3 -> P 4 -> P 5 -> forall i, 1 <= i <= 5 -> P i.
Proof. intros P1 P2 P3 P4 P5 i H. assert (i = 1 \/ i = 2 \/ i = 3 \/ i = 4 \/ i = 5) as [->|[->|[->|[->| ->]]]] by lia; assumption. Qed.
Lemma delimited_ex i : delimited (text_ex_of i).
Proof.
  unfold text_ex_of. destruct (i =? 2); (eexists _, text_ex, _; split; [|split; [|split; [|split; [exists (lit "CREATE TABLE t;COMMIT;"); reflexivity|exists (lit "BEGIN;CREATE TABLE t;"); reflexivity]]]]).
  - reflexivity.
  - repeat (apply Forall_cons || apply Forall_nil); unfold space; lia.
  - repeat (apply Forall_cons || apply Forall_nil); unfold space; lia.
  - instantiate (1 := []). instantiate (1 := []). rewrite app_nil_r. reflexivity.
  - constructor.
  - constructor.
Qed.
Lemma text_ex_at i : 1 <= i <= 5 -> text_of (disk_ex [lit "s"] (lit "s")) (lit "s/pyulog." ++ str_of_Z i ++ lit ".sql") (text_ex_of i).
Proof.
  revert i. apply one_to_five;
    [exists text_ex|exists ([32; 13; 10] ++ text_ex ++ [13])|exists text_ex|exists text_ex|exists text_ex]; (split; [apply newlines_unified; vm_compute; reflexivity|]).
  1,3,4,5: left; vm_compute; reflexivity.
  right. exists ([32; 13; 10] ++ text_ex ++ [13]). split; vm_compute; reflexivity.
Qed.
Lemma path_ex i : script_path (lit "s") i (lit "s/pyulog." ++ str_of_Z i ++ lit ".sql").
Proof. right. split; [|reflexivity]. intros d E. destruct d as [|c d]; [discriminate|]. destruct d; discriminate. Qed.
Example C69_case_scripts : script_dir (lit "m") (Some (lit "s")) (lit "s") /\ isdir (disk_ex [lit "s"] (lit "s")) (lit "s") = true /\ braceless (lit "s") /\
  (forall i, 1 <= i <= 5 -> script_at sql_ex (disk_ex [lit "s"] (lit "s")) (lit "s") i (Some [SBegin; SCreate (lit "t") a_table; SCommit])) /\
  let m := migrate_command sql_ex (disk_ex [lit "s"] (lit "s")) (lit "m") (lit "f.db") (Some (lit "s")) false false None in
  mg_out m = Ok tt /\ option_map d_version (mg_file m) = Some 5 /\ option_map (fun d => dkeys (d_defs d)) (mg_file m) = Some [lit "t"].
Proof.
  split; [reflexivity|]. split; [reflexivity|]. split; [apply braceless_b; reflexivity|]. split.
  - intros i Hi. apply (sa_good _ _ _ _ _ (text_ex_of i) [SCreate (lit "t") a_table] (path_ex i) (text_ex_at i Hi) (delimited_ex i)).
    revert i Hi. apply one_to_five; reflexivity.
  - cbv zeta. split; [|split]; vm_compute; reflexivity.
Qed.
(** with -n, from version 3 on *)
Example C69_case_noop : accepted false (Some (version_ex 3)) /\
  scripts_from (disk_ex [lit "s"] (lit "s")) (lit "s") 5 4 [(lit "s/pyulog.4.sql", with_version text_ex 4); (lit "s/pyulog.5.sql", with_version text_ex 5)] /\
  mg_lines (migrate_command sql_ex (disk_ex [lit "s"] (lit "s")) (lit "m") (lit "f.db") (Some (lit "s")) true false (Some (version_ex 3))) =
    [lit "Using migration files in s."; lit "Found database file f.db."; lit "Current schema version: 3 (database) and 5 (code).";
     lit "Executing s/pyulog.4.sql."; text_ex ++ [10] ++ lit "PRAGMA user_version = 4;"; lit "Executing s/pyulog.5.sql."; text_ex ++ [10] ++ lit "PRAGMA user_version = 5;";
     lit "Migration done."].
Proof.
  split; [left; reflexivity|]. split.
  - apply (sf_next _ _ _ 4 _ text_ex); [lia|exact (path_ex 4)|exact (text_ex_at 4 ltac:(lia))|exact (delimited_ex 4)|].
    apply (sf_next _ _ _ 5 _ text_ex); [lia|exact (path_ex 5)|exact (text_ex_at 5 ltac:(lia))|exact (delimited_ex 5)|]. apply sf_end. reflexivity.
  - vm_compute. reflexivity.
Qed.
(** With -n and a missing database, an empty one is made, which a run without -n then refuses. *)
Theorem C69_noop_refuted : forall sql k md db_path sd dir, script_dir md sd dir -> isdir k dir = true ->
  mg_file (migrate_command sql k md db_path sd true false None) = Some db0 /\
  mg_out (migrate_command sql k md db_path sd false false (Some db0)) = Err FileExistsError.
Proof.
  intros sql k md db_path sd dir Hs Hd. unfold migrate_command. rewrite (script_dir_is _ _ _ Hs), Hd. cbn [negb read_db_schema_version]. split; [|reflexivity].
  assert (L : forall n id s, fst (fst (scripts_loop sql k dir true n id s)) = s).
  { induction n as [|n IH]; intros id s; [reflexivity|]. cbn [scripts_loop]. destruct (read_migration_text k dir id) as [[p t]|e]; [|reflexivity].
    specialize (IH (id + 1) s). destruct (scripts_loop sql k dir true n (id + 1) s) as [[s1 r1] l1]. exact IH. }
  specialize (L (Z.to_nat (SCHEMA_VERSION - 0)) (0 + 1) (connect db0)). destruct (scripts_loop _ _ _ _ _ _ _) as [[s r] ls]. cbn [fst] in L. subst s. destruct r as [[]|e]; reflexivity.
Qed.
(** A name with braces: the scripts are there, and the error is a KeyError. *)
Theorem C69_braces_refuted : let k := disk_ex [lit "s{x}"] (lit "s{x}") in
  isdir k (lit "s{x}") = true /\ (forall i, 1 <= i <= 5 -> exists path, script_path (lit "s{x}") i path /\ exists c, file_of k path = Some c) /\
  mg_out (migrate_command sql_ex k (lit "m") (lit "f.db") (Some (lit "s{x}")) false false None) = Err KeyError.
Proof.
  cbv zeta. split; [reflexivity|]. split; [|vm_compute; reflexivity].
  intros i Hi. exists (lit "s{x}/pyulog." ++ str_of_Z i ++ lit ".sql"). split.
  - right. split; [|reflexivity]. intros d E. apply (f_equal (@rev Z)) in E. rewrite rev_app_distr in E. discriminate.
  - revert i Hi. apply one_to_five; eexists; vm_compute; reflexivity.
Qed.
(** A name with the field of the number: the scripts of s1, s2, ... would run instead. *)
Theorem C69_template_refuted : let k := disk_ex [lit "s{migration_id}"] (lit "s{migration_id}") in
  isdir k (lit "s{migration_id}") = true /\ (forall i, 1 <= i <= 5 -> exists path, script_path (lit "s{migration_id}") i path /\ exists c, file_of k path = Some c) /\
  mg_out (migrate_command sql_ex k (lit "m") (lit "f.db") (Some (lit "s{migration_id}")) false false None) = Err FileNotFoundError.
Proof.
  cbv zeta. split; [reflexivity|]. split; [|vm_compute; reflexivity].
  intros i Hi. exists (lit "s{migration_id}/pyulog." ++ str_of_Z i ++ lit ".sql"). split.
  - right. split; [|reflexivity]. intros d E. apply (f_equal (@rev Z)) in E. rewrite rev_app_distr in E. discriminate.
  - revert i Hi. apply one_to_five; eexists; vm_compute; reflexivity.
Qed.
(** a text with a last COMMIT without its semicolon is refused *)
Example C69_case_refused : ~ delimited (lit "BEGIN;COMMIT") /\ ~ delimited (lit "--" ++ text_ex) /\ delimited (lit "BEGIN; x -- COMMIT;").
Proof. rewrite !delimited_iff. split; [|split]; [intros (_ & H); discriminate H|intros (H & _); discriminate H|split; reflexivity]. Qed.
(** doubled braces, the number, and a stray brace *)
Example C69_ex_names : named 3 (lit "{{x}}/{migration_id}") (lit "{x}/3") /\ stray (lit "}") /\ stray (lit "{y").
Proof.
  split; [|split].
  - apply (nm_double 3 123); [now left|]. apply nm_char; [discriminate..|]. apply (nm_double 3 125); [now right|]. apply nm_char; [discriminate..|].
    exact (nm_number 3 [] [] (nm_end 3)).
  - right. exists []. split; [reflexivity|]. discriminate.
  - left. exists (lit "y"). split; [reflexivity|]. split; [split; intros [E|[]]; discriminate|]. intros E. apply Exists_exists in E. destruct E as (c & [<-|[]] & [E|[E|[E|[]]]]); discriminate.
Qed.
