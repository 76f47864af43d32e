(** Property C68: what ulog2csv and extract_gps_dump print, against the files they leave. *)
From Verif Require Import Base Dict PyStr Utf8 PyFloat Struct PySort ModelTypes ModelApi ModelTools ModelPartial SpecTools SpecPartial ModelRead Spec SpecMsg SpecLog Samples ModelCommand SpecCommand
  ModelScreen ProofsPartial ProofsCommand PropsRead PropsTools PropsCommand.

(** ** ulog2csv *)
(** the line for a topic: its file and the number of its samples *)
Definition csv_line (p : str) (d : dataset) (l : str) : Prop := exists name c, csv_file_of p d name /\ sget (lit "timestamp") (ds_data d) = Some c /\
  l = lit "Writing " ++ name ++ lit " (" ++ str_of_Z (lenZ (c_raw c)) ++ lit " data points)".

Lemma csv_lines_run fstr p delim s e ds : forall cur r cur', csv_files fstr p delim s e ds cur = (r, cur') -> exists begun rest, ds = begun ++ rest /\
  Forall2 (csv_line p) begun (csv_lines fstr p delim s e ds) /\
  (forall n, sget n cur' <> None <-> sget n cur <> None \/ exists d, In d begun /\ n = csv_name p d) /\
  match r with
  | Ok _ => rest = []
  | Err x => (exists d post, rest = d :: post /\ sget (lit "timestamp") (ds_data d) = None /\ x = KeyError) \/
             (exists pre d, begun = pre ++ [d] /\ csv_text fstr delim s e d = Err x)
  end.
Proof.
  induction ds as [|d ds IH]; intros cur r cur' H; cbn [csv_files csv_lines] in *.
  - injection H as <- <-. exists [], []. split; [reflexivity|]. split; [constructor|]. split; [|reflexivity]. intros n. split; [auto|intros [Q|(d & [] & _)]; exact Q].
  - unfold csv_file in H. destruct (len_ts d) as [n|x] eqn:L.
    2:{ injection H as <- <-. exists [], (d :: ds). split; [reflexivity|]. split; [constructor|]. split.
        { intros m. split; [auto|intros [Q|(d' & [] & _)]; exact Q]. }
        left. exists d, ds. split; [reflexivity|]. unfold len_ts in L. destruct (sget (lit "timestamp") (ds_data d)); [discriminate|]. injection L as <-. auto. }
    assert (Hl : csv_line p d (lit "Writing " ++ csv_name p d ++ lit " (" ++ str_of_Z (Z.of_nat n) ++ lit " data points)")).
    { unfold len_ts in L. destruct (sget (lit "timestamp") (ds_data d)) as [c|] eqn:Ec; [|discriminate]. injection L as <-.
      exists (csv_name p d), c. split; [apply csv_file_name; reflexivity|]. split; [exact Ec|reflexivity]. }
    pose proof (csv_agree fstr delim s e d (ex_intro _ n L)) as R. destruct (puts (csv_puts fstr delim s e d)) as [r1 t] eqn:P. cbn [fst].
    assert (K : forall m, sget m (sset (csv_name p d) t cur) <> None <-> sget m cur <> None \/ m = csv_name p d).
    { intros m. destruct (str_eqb_spec m (csv_name p d)) as [->|N].
      - rewrite (dget_dset_eq str_eqb str_eqb_spec). split; [auto|discriminate].
      - rewrite (dget_dset_neq str_eqb str_eqb_spec) by exact N. split; [auto|intros [Q|Q]; [exact Q|contradiction]]. }
    destruct r1 as [[]|x].
    + destruct (IH _ _ _ H) as (begun & rest & -> & F & G & O). exists (d :: begun), rest. split; [reflexivity|]. split; [constructor; assumption|]. split.
      * intros m. rewrite G, K. split.
        -- intros [[Q|Q]|(d' & Hd & Q)]; [left; exact Q|right; exists d; split; [left; reflexivity|exact Q]|right; exists d'; split; [right; exact Hd|exact Q]].
        -- intros [Q|(d' & [<-|Hd] & Q)]; [left; left; exact Q|left; right; exact Q|right; exists d'; auto].
      * destruct r as [|x]; [exact O|]. destruct O as [O|(pre & d' & -> & T)]; [left; exact O|right]. exists (d :: pre), d'. auto.
    + injection H as <- <-. exists [d], ds. split; [reflexivity|]. split; [constructor; [exact Hl|constructor]|]. split.
      * intros m. rewrite K. split; [intros [Q|Q]; [left; exact Q|right; exists d; split; [left; reflexivity|exact Q]]|].
        intros [Q|(d' & [<-|[]] & Q)]; auto.
      * right. exists [], d. split; [reflexivity|]. destruct (csv_text fstr delim s e d) as [t'|x']; [discriminate|]. cbn [fst] in R. congruence.
Qed.

(** The screen of ulog2csv, for every log, disk and arguments.  First the directory, if one is named that does not exist.  Then,
    if the log is loaded, a line for each topic whose file was begun, in order: exactly these files are written, all others are as
    before.  If it ends with status 0 every topic has its line; if it raises, the topic with the last line failed or the next one has no
    timestamps. *)
Theorem C68_csv_screen : forall fstr ld a k, let r := csv_command fstr ld a k in
  exists p made ls, csv_place (ca_file a) (ca_output a) p /\ csv_screen fstr ld a k = made ++ ls /\
  ((exists o, ca_output a = Some o /\ o <> [] /\ isdir k o = false /\ made = [lit "Creating output directory " ++ o]) \/
   ((forall o, ca_output a = Some o -> o = [] \/ isdir k o = true) /\ made = [])) /\
  ((ls = [] /\ (forall name, file_of (r_disk r) name = file_of k name) /\ exists e, r_out r = Raised e /\
     ((forall u, open_log ld k (ca_file a) (ca_ignore a) (csv_filter (ca_messages a)) <> Ok u) \/
      exists o, ca_output a = Some o /\ file_of k o <> None /\ e = FileExistsError)) \/
   exists u begun rest, open_log ld k (ca_file a) (ca_ignore a) (csv_filter (ca_messages a)) = Ok u /\ u_data u = begun ++ rest /\
     Forall2 (csv_line p) begun ls /\
     (forall d name, In d begun -> csv_file_of p d name -> exists t, file_of (r_disk r) name = Some (Text t)) /\
     (forall name, (forall d, In d begun -> ~ csv_file_of p d name) -> file_of (r_disk r) name = file_of k name) /\
     ((r_out r = Exit 0 /\ rest = []) \/
      exists e, r_out r = Raised e /\
        ((exists d post, rest = d :: post /\ sget (lit "timestamp") (ds_data d) = None /\ e = KeyError) \/
         (exists pre d, begun = pre ++ [d] /\ csv_text fstr (ca_delim a) (ca_start a) (ca_end a) d = Err e)))).
Proof.
  intros fstr ld a k r. exists (csv_prefix (ca_file a) (ca_output a)).
  eexists. eexists. split; [apply csv_prefix_spec|]. split; [reflexivity|]. split.
  { destruct (ca_output a) as [[|c o]|]; cbn [nonempty]; [right|destruct (isdir k (c :: o)) eqn:Ed; [right|left]|right].
    - split; [intros o E; injection E as <-; auto|reflexivity].
    - split; [intros o' E; injection E as <-; auto|reflexivity].
    - exists (c :: o). repeat split; [discriminate|exact Ed].
    - split; [intros o E; discriminate|reflexivity]. }
  unfold r, csv_command. destruct (make_dir (ca_output a) k) as [k1|x] eqn:Ek.
  2:{ left. split; [reflexivity|]. split; [reflexivity|]. exists x. split; [reflexivity|right]. unfold make_dir in Ek.
      destruct (ca_output a) as [[|c o]|]; cbn [nonempty] in Ek; try discriminate. destruct (isdir k (c :: o)); [discriminate|].
      exists (c :: o). split; [reflexivity|]. unfold file_of. destruct (sget (c :: o) (k_files k)); [|discriminate]. injection Ek as <-. split; [discriminate|reflexivity]. }
  apply make_dir_files in Ek. assert (F : forall n, file_of k1 n = file_of k n) by (intros n; unfold file_of; rewrite Ek; reflexivity).
  destruct (open_log ld k1 _ _ _) as [u|x] eqn:Eo.
  2:{ left. split; [reflexivity|]. split; [exact F|]. exists x. split; [reflexivity|left]. intros u Q.
      apply (open_log_files ld k1) in Q; [|symmetry; exact Ek]. rewrite Q in Eo. discriminate. }
  right. apply (open_log_files ld k) in Eo; [|exact Ek]. destruct (csv_files _ _ _ _ _ _ _) as [r0 texts] eqn:Ec. cbn [r_out r_disk].
  destruct (csv_files_names _ _ _ _ _ _ _ _ _ Ec (NoDup_nil _)) as (N & _).
  destruct (csv_lines_run _ _ _ _ _ _ _ _ _ Ec) as (begun & rest & Eu & L & G & O). exists u, begun, rest. split; [exact Eo|]. split; [exact Eu|]. split; [exact L|]. split; [|split].
  - intros d name Hd Hn. apply csv_file_name in Hn. rewrite (put_texts_file _ N). assert (Q : sget name texts <> None) by (apply G; right; exists d; auto).
    destruct (sget name texts) as [t|]; [exists t; reflexivity|congruence].
  - intros name Hn. rewrite (put_texts_file _ N). destruct (sget name texts) as [t|] eqn:E; [|apply F].
    exfalso. assert (Q : sget name texts <> None) by congruence. apply G in Q. destruct Q as [Q|(d & Hd & Q)]; [apply Q; reflexivity|]. apply (Hn d Hd). apply csv_file_name. exact Q.
  - destruct r0 as [|x]; [left; split; [reflexivity|exact O]|right]. exists x. split; [reflexivity|exact O].
Qed.

(** ** extract_gps_dump *)
(** The screen of extract_gps_dump once the log is loaded: why there are no files, or the two files it has written, after a warning
    exactly if the log has dropouts. *)
Theorem C68_gps_screen : forall ld a k inst u, let r := gps_command ld a k in
  (forall o, ga_output a = Some o -> isdir k o = true) -> py_int (ga_instance a) = Ok inst ->
  open_log ld k (ga_file a) (ga_ignore a) (listed [lit "gps_dump"]) = Ok u ->
  (u_data u = [] -> gps_screen ld a k = [lit "File " ++ ga_file a ++ lit " does not contain gps_dump messages!"]) /\
  (forall d rest, u_data u = d :: rest -> ~ (In (lit "len") (names d) /\ In (lit "data[0]") (names d)) ->
     gps_screen ld a k = [lit "Error: gps_dump message has wrong format"]) /\
  (forall d rest, u_data u = d :: rest -> In (lit "len") (names d) -> In (lit "data[0]") (names d) ->
     exists warning p to from, gps_place (ga_file a) (ga_output a) p /\
       to = p ++ lit "_" ++ str_of_Z inst ++ lit "_to_device.dat" /\ from = p ++ lit "_" ++ str_of_Z inst ++ lit "_from_device.dat" /\
       gps_screen ld a k = warning ++ [lit "Creating files " ++ to ++ lit " and " ++ from] /\
       ((u_dropouts u = [] /\ warning = []) \/
        (u_dropouts u <> [] /\ warning = [lit "Warning: file contains " ++ str_of_Z (lenZ (u_dropouts u)) ++ lit " dropouts"])) /\
       (exists t, file_of (r_disk r) to = Some (Bytes t)) /\ (exists f, file_of (r_disk r) from = Some (Bytes f)) /\
       (forall name, name <> to -> name <> from -> file_of (r_disk r) name = file_of k name)).
Proof.
  intros ld a k inst u r Hd Hi Ho. unfold gps_screen.
  assert (Ed : match ga_output a with Some o => negb (isdir k o) | None => false end = false).
  { destruct (ga_output a) as [o|]; [rewrite (Hd o eq_refl)|]; reflexivity. }
  assert (X : forall n l, existsb (str_eqb n) l = true <-> In n l).
  { intros n l. rewrite existsb_exists. split; [intros (y & Hy & E); destruct (str_eqb_spec n y) as [->|]; [exact Hy|discriminate]|intros H; exists n; split; [exact H|]].
    destruct (str_eqb_spec n n); congruence. }
  rewrite Ed, Hi, Ho. split; [|split].
  - intros ->. reflexivity.
  - intros d rest -> H. pose proof (X (lit "len") (names d)) as A. pose proof (X (lit "data[0]") (names d)) as B. unfold names in *.
    destruct (existsb (str_eqb (lit "len")) _); destruct (existsb (str_eqb (lit "data[0]")) _); cbn [negb orb]; try reflexivity.
    exfalso. apply H. split; [apply A|apply B]; reflexivity.
  - intros d rest Eu A B. rewrite Eu. apply X in A, B. unfold names in *. rewrite A, B. cbn [negb orb].
    assert (P : gps_place (ga_file a) (ga_output a) (gps_prefix a)).
    { apply gps_prefix_spec. intros o Eo. apply (isdir_some k). apply Hd. exact Eo. }
    eexists. exists (gps_prefix a). eexists. eexists. split; [exact P|]. split; [reflexivity|]. split; [reflexivity|]. split.
    { f_equal. rewrite <- !app_assoc. reflexivity. }
    split.
    { destruct (u_dropouts u) as [|x l]; [left; split; reflexivity|right]. split; [discriminate|].
      assert (E : (0 <? lenZ (x :: l)) = true) by (unfold lenZ; cbn [length]; lia). rewrite E. reflexivity. }
    unfold r, gps_command. rewrite Ed, Hi, Ho. unfold gps_files. rewrite Eu, A, B. cbn [andb negb].
    match goal with |- context [match ?x with (_, _) => _ end] => destruct x as [r0 [t f]] end. cbn [r_disk].
    set (tn := gps_prefix a ++ lit "_" ++ str_of_Z inst ++ lit "_to_device.dat"). set (fn := gps_prefix a ++ lit "_" ++ str_of_Z inst ++ lit "_from_device.dat").
    replace ((gps_prefix a ++ lit "_" ++ str_of_Z inst) ++ lit "_to_device.dat") with tn by (unfold tn; rewrite <- !app_assoc; reflexivity).
    replace ((gps_prefix a ++ lit "_" ++ str_of_Z inst) ++ lit "_from_device.dat") with fn by (unfold fn; rewrite <- !app_assoc; reflexivity).
    split; [|split].
    + rewrite !file_put. destruct (str_eqb_spec fn tn); [eexists; reflexivity|]. destruct (str_eqb_spec tn tn); [eexists; reflexivity|congruence].
    + rewrite !file_put. destruct (str_eqb_spec fn fn); [eexists; reflexivity|congruence].
    + intros name N1 N2. rewrite !file_put. destruct (str_eqb_spec fn name); [congruence|]. destruct (str_eqb_spec tn name); [congruence|reflexivity].
Qed.
(** before that nothing is printed: a missing directory, an instance that is no number, a log that cannot be loaded *)
Theorem C68_gps_quiet : forall ld a k,
  ((exists o, ga_output a = Some o /\ isdir k o = false) \/ (exists e, py_int (ga_instance a) = Err e) \/
   (exists e, open_log ld k (ga_file a) (ga_ignore a) (listed [lit "gps_dump"]) = Err e)) -> gps_screen ld a k = [].
Proof.
  intros ld a k H. unfold gps_screen. destruct (match ga_output a with Some o => negb (isdir k o) | None => false end) eqn:Ed; [reflexivity|].
  destruct H as [(o & Eo & E)|[(e & E)|(e & E)]].
  - rewrite Eo, E in Ed. discriminate.
  - rewrite E. reflexivity.
  - destruct (py_int (ga_instance a)); [|reflexivity]. rewrite E. reflexivity.
Qed.

(** a log with two topics, converted into a new directory, and its GPS communication *)
Example C68_ex_screen :
  csv_screen ints_only read9 (mkCsvArgs (lit "d/f.ULG") None (lit ",") (Some (lit "new")) false None None) cmd_disk =
    [lit "Creating output directory new"; lit "Writing new/f_a_0.csv (1 data points)"; lit "Writing new/f_gps_dump_0.csv (2 data points)"] /\
  csv_screen ints_only read9 (mkCsvArgs (lit "d/f.ULG") None (lit ",") (Some (lit "out")) false None (Some 1)) cmd_disk =
    [lit "Writing out/f_a_0.csv (1 data points)"] /\
  gps_screen read9 (mkGpsArgs (lit "d/f.ULG") (Some (lit "out")) false (lit "0")) cmd_disk =
    [lit "Creating files out/f_0_to_device.dat and out/f_0_from_device.dat"] /\
  gps_screen (fun ign keep b => let* u := read9 ign keep b in Ok (set_dropouts [mkDrop 3 25; mkDrop 4 35] u)) (mkGpsArgs (lit "d/f.ULG") None false (lit "1")) cmd_disk =
    [lit "Warning: file contains 2 dropouts"; lit "Creating files f_1_to_device.dat and f_1_from_device.dat"].
Proof. repeat split; vm_compute; reflexivity. Qed.
