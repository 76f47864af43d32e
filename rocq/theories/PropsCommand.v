(** Property C68: the command-line programs, their exit status and their files. *)
From Verif Require Import Base Dict PyStr Utf8 PyFloat Struct PySort ModelTypes ModelApi ModelTools ModelInfo ModelKml ModelPartial SpecTools SpecPartial ModelRead Spec SpecSection SpecMsg SpecLog SpecFilter Samples ModelCommand SpecCommand
  ProofsText ProofsWindow ProofsPartial ProofsFilter ProofsCommand PropsRead PropsTools PropsFilter.

(** ** The log is not changed, and nothing but the outputs is *)
(** ulog2csv: a file that is another one afterwards is the CSV file of a topic that was asked for *)
Theorem C68_csv_files : forall fstr ld a k name, file_of (r_disk (csv_command fstr ld a k)) name <> file_of k name ->
  exists p u d, csv_place (ca_file a) (ca_output a) p /\
    open_log ld k (ca_file a) (ca_ignore a) (csv_filter (ca_messages a)) = Ok u /\ In d (u_data u) /\ csv_file_of p d name.
Proof.
  intros fstr ld a k name H. destruct (csv_command_files fstr ld a k name) as [E|(u & d & Eo & Hd & ->)]; [contradiction|].
  exists (csv_prefix (ca_file a) (ca_output a)), u, d. split; [apply csv_prefix_spec|]. split; [exact Eo|]. split; [exact Hd|]. apply csv_file_name. reflexivity.
Qed.
Theorem C68_csv_log : forall fstr ld a k, file_of (r_disk (csv_command fstr ld a k)) (ca_file a) = file_of k (ca_file a).
Proof.
  intros fstr ld a k. destruct (csv_command_files fstr ld a k (ca_file a)) as [E|(u & d & _ & _ & E)]; [exact E|]. destruct (csv_name_file _ _ _ (eq_sym E)).
Qed.
(** extract_gps_dump: the two files, named by log and instance, in the current or the output directory *)
Theorem C68_gps_files : forall ld a k name, file_of (r_disk (gps_command ld a k)) name <> file_of k name ->
  exists inst p x, py_int (ga_instance a) = Ok inst /\ gps_place (ga_file a) (ga_output a) p /\
    name = p ++ lit "_" ++ str_of_Z inst ++ x /\ (x = lit "_to_device.dat" \/ x = lit "_from_device.dat").
Proof.
  intros ld a k name H. destruct (gps_command_files ld a k name) as [E|(inst & p & x & A & B & -> & C)]; [contradiction|].
  exists inst, p, x. rewrite <- !app_assoc. auto.
Qed.
Theorem C68_gps_log : forall ld a k, file_of (r_disk (gps_command ld a k)) (ga_file a) = file_of k (ga_file a).
Proof.
  intros ld a k. destruct (gps_command_files ld a k (ga_file a)) as [E|(inst & p & x & _ & P & E & X)]; [exact E|]. symmetry in E.
  destruct (gps_name_file a p inst x P) in E; [|exact E]. destruct X as [-> | ->]; cbn; lia.
Qed.
(** the others write at most the output file *)
Theorem C68_one_output : forall vstr lstr fstr parser ld k name,
  (forall a, pa_output a <> Some name -> file_of (r_disk (params_command vstr ld a k)) name = file_of k name) /\
  (forall file o topic camera ign, o <> name -> file_of (r_disk (kml_command fstr ld file o topic camera ign k)) name = file_of k name) /\
  (forall file ign, file_of (r_disk (messages_command parser ld file ign k)) name = file_of k name) /\
  (forall file ign v n m, file_of (r_disk (info_command vstr lstr ld file ign v n m k)) name = file_of k name).
Proof.
  intros vstr lstr fstr parser ld k name. split; [|split; [|split]].
  - intros a N. unfold params_command. destruct (open_log _ _ _ _ _); [|reflexivity]. destruct (match format_of _ with Some _ => _ | None => _ end); [|reflexivity].
    destruct (pa_output a) as [o|]; [|reflexivity]. cbn [r_disk]. rewrite file_put. destruct (str_eqb_spec o name); [congruence|reflexivity].
  - intros file o topic camera ign N. unfold kml_command. destruct (kml_main _ _ _ _); [|reflexivity]. cbn [r_disk]. rewrite file_put. destruct (str_eqb_spec o name); [congruence|reflexivity].
  - intros file ign. unfold messages_command. destruct (open_log _ _ _ _ _); [|reflexivity]. destruct (messages_main _ _); reflexivity.
  - intros file ign v n m. unfold info_command. destruct (open_log _ _ _ _ _); [|reflexivity]. destruct (info_main _ _ _ _ _ _); reflexivity.
Qed.
(** A log that cannot be loaded: the programs raise what loading raises, and no file is written. *)
Theorem C68_bad_log : forall vstr lstr fstr parser ld k file ign x,
  (forall keep, open_log ld k file ign keep = Err x) -> forall name,
  (forall a, ca_file a = file -> ca_ignore a = ign -> file_of (r_disk (csv_command fstr ld a k)) name = file_of k name /\ exists y, r_out (csv_command fstr ld a k) = Raised y) /\
  (forall a, ga_file a = file -> ga_ignore a = ign -> file_of (r_disk (gps_command ld a k)) name = file_of k name /\ r_out (gps_command ld a k) <> Exit 0) /\
  (forall a, pa_file a = file -> pa_ignore a = ign -> params_command vstr ld a k = mkRun (Raised x) [] k) /\
  (forall o topic camera, kml_command fstr ld file o topic camera ign k = mkRun (Raised x) [] k) /\
  messages_command parser ld file ign k = mkRun (Raised x) [] k /\
  (forall v n m, info_command vstr lstr ld file ign v n m k = mkRun (Raised x) [] k).
Proof.
  intros vstr lstr fstr parser ld k file ign x H name. split; [|split; [|split; [|split; [|split]]]].
  - intros a Ef Ei. split.
    + destruct (csv_command_files fstr ld a k name) as [E|(u & d & Eo & _)]; [exact E|]. rewrite Ef, Ei, H in Eo. discriminate.
    + unfold csv_command. destruct (make_dir (ca_output a) k) as [k1|y] eqn:Ek; [|exists y; reflexivity].
      destruct (open_log ld k1 _ _ _) as [u|y] eqn:Eo; [|exists y; reflexivity]. apply (open_log_files ld k) in Eo; [|apply (make_dir_files _ _ _ Ek)].
      rewrite Ef, Ei, H in Eo. discriminate.
  - intros a Ef Ei. unfold gps_command. destruct (match ga_output a with Some o => _ | None => _ end); [split; [reflexivity|discriminate]|].
    destruct (py_int _); [|split; [reflexivity|discriminate]]. rewrite Ef, Ei, H. split; [reflexivity|discriminate].
  - intros a Ef Ei. unfold params_command. rewrite Ef, Ei, H. reflexivity.
  - intros o topic camera. unfold kml_command, kml_main, convert_ulog2kml. cbv zeta. rewrite H. reflexivity.
  - unfold messages_command. rewrite H. reflexivity.
  - intros v n m. unfold info_command. rewrite H. reflexivity.
Qed.

(** ** ulog2csv *)
(** Status 0 means that every topic has its whole file; all other files are as they were. *)
Theorem C68_csv_status : forall fstr ld a k u, open_log ld k (ca_file a) (ca_ignore a) (csv_filter (ca_messages a)) = Ok u ->
  make_dir (ca_output a) k <> Err FileExistsError -> forall p, csv_place (ca_file a) (ca_output a) p ->
  (r_out (csv_command fstr ld a k) = Exit 0 <-> exists files, convert_ulog2csv fstr p (ca_delim a) (ca_start a) (ca_end a) u = Ok files) /\
  (forall files, convert_ulog2csv fstr p (ca_delim a) (ca_start a) (ca_end a) u = Ok files -> forall name,
     file_of (r_disk (csv_command fstr ld a k)) name = match sget name files with Some t => Some (Text t) | None => file_of k name end).
Proof.
  intros fstr ld a k u Ho Hd p Hp. pose proof (csv_command_converts fstr ld a k u Hd Ho) as C. cbv zeta in C.
  assert (E : p = csv_prefix (ca_file a) (ca_output a)).
  { destruct Hp as (s & Hs & H). destruct (csv_prefix_spec (ca_file a) (ca_output a)) as (s' & Hs' & H').
    rewrite (stem_fun _ _ _ Hs' Hs) in H'. destruct (ca_output a) as [[|o0 o]|]; [congruence| |congruence].
    destruct H as (b & Hb & Hw). destruct H' as (b' & Hb' & Hw'). rewrite (last_part_fun _ _ _ Hb' Hb) in Hw'.
    destruct Hw as [((d & Ed) & ->)|(Nd & ->)]; destruct Hw' as [((d' & Ed') & ->)|(Nd' & ->)]; try reflexivity; [destruct (Nd' _ Ed)|destruct (Nd _ Ed')]. }
  subst p. destruct (convert_ulog2csv _ _ _ _ _ u) as [files|e].
  - destruct C as (C1 & C2). split; [split; [intros _; exists files; reflexivity|intros _; exact C1]|]. intros f Ef. injection Ef as <-. exact C2.
  - split; [split; [intros Q; congruence|intros (f & Q); discriminate]|]. intros f Q. discriminate.
Qed.
(** -m: the files are those of a run without it, for the topics that are asked for, and no others. *)
Theorem C68_csv_selection : forall fstr cf ld a k f v t defs data u p,
  let full := mkCsvArgs (ca_file a) None (ca_delim a) (ca_output a) (ca_ignore a) (ca_start a) (ca_end a) in
  file_of k (ca_file a) = Some (Bytes f) -> (forall keep r, produces (with_filter keep cf) f r -> ld (ca_ignore a) keep f = r) ->
  (forall n, cf_filter cf n = true) -> cf_hdr cf = false -> well_framed f v t defs data -> not_appended defs ->
  produces cf f (Ok u) -> clean_section cf (u_formats u) (msgs data) ->
  csv_place (ca_file a) (ca_output a) p -> NoDup (map (csv_name p) (u_data u)) ->
  r_out (csv_command fstr ld full k) = Exit 0 ->
  r_out (csv_command fstr ld a k) = Exit 0 /\
  forall name, let after := file_of (r_disk (csv_command fstr ld a k)) name in
    (exists d, In d (u_data u) /\ asked (ca_messages a) (ds_name d) /\ csv_file_of p d name /\
       after = file_of (r_disk (csv_command fstr ld full k)) name /\ exists text, after = Some (Text text)) \/
    ((forall d, In d (u_data u) -> asked (ca_messages a) (ds_name d) -> ~ csv_file_of p d name) /\ after = file_of k name).
Proof.
  intros fstr cf ld a k f v t defs data u p full Hk Hl Hall Hh Hw Ha Hp Hc Hpl Hn Hx.
  destruct (framed_filter (csv_filter (ca_messages a)) cf f v t defs data u Hall Hw Ha Hh Hp Hc) as (w & Pw & O).
  destruct (framed_filter no_filter cf f v t defs data u Hall Hw Ha Hh Hp Hc) as (u' & Pu & O').
  assert (Ow : open_log ld k (ca_file a) (ca_ignore a) (csv_filter (ca_messages a)) = Ok w) by (unfold open_log; unfold file_of in Hk; rewrite Hk; apply Hl; exact Pw).
  assert (Ou : open_log ld k (ca_file full) (ca_ignore full) (csv_filter (ca_messages full)) = Ok u').
  { cbn [full ca_file ca_ignore ca_messages]. unfold open_log; unfold file_of in Hk; rewrite Hk. apply Hl. exact Pu. }
  assert (Hd : make_dir (ca_output a) k <> Err FileExistsError).
  { intros Q. unfold csv_command in Hx. cbn [full ca_output] in Hx. rewrite Q in Hx. discriminate. }
  destruct (C68_csv_status fstr ld full k u' Ou Hd p Hpl) as (S1 & S2). destruct (C68_csv_status fstr ld a k w Ow Hd p Hpl) as (T1 & T2).
  apply S1 in Hx. destruct Hx as (files & Ef). specialize (S2 _ Ef). cbn [full ca_delim ca_start ca_end] in Ef.
  assert (Eu : u_data u' = u_data u). { rewrite (on_data _ _ _ O'). unfold no_filter. clear. induction (u_data u) as [|d l IH]; [reflexivity|]. cbn [filter]. f_equal. exact IH. }
  unfold convert_ulog2csv in Ef. rewrite Eu in Ef.
  pose proof (foldM_texts (csv_text fstr (ca_delim a) (ca_start a) (ca_end a)) (csv_name p) (u_data u) []) as F1. rewrite Ef in F1. destruct F1 as (F1 & F2 & F3).
  pose proof (foldM_texts (csv_text fstr (ca_delim a) (ca_start a) (ca_end a)) (csv_name p) (u_data w) []) as G.
  destruct (foldM (fun files0 d => let* t0 := csv_text fstr (ca_delim a) (ca_start a) (ca_end a) d in Ok (sset (csv_name p d) t0 files0)) (u_data w) []) as [wfiles|e] eqn:Ew.
  2:{ exfalso. destruct G as (d & Hd' & Ed). rewrite (on_data _ _ _ O) in Hd'. apply filter_In in Hd'. destruct (F1 d (proj1 Hd')) as (x & Ex). congruence. }
  destruct G as (G1 & G2 & G3). specialize (T2 wfiles Ew). split; [apply T1; exists wfiles; exact Ew|].
  intros name after.
  assert (Nw : NoDup (map (csv_name p) (u_data w))).
  { rewrite (on_data _ _ _ O). clear -Hn. induction (u_data u) as [|d l IH]; [constructor|]. cbn [map] in Hn. inversion Hn as [|? ? H1 H2]; subst. cbn [filter].
    destruct (csv_filter _ _); [|apply IH; exact H2]. cbn [map]. constructor; [|apply IH; exact H2]. intros Q. apply H1. apply in_map_iff in Q. destruct Q as (x & Ex & Hx).
    apply in_map_iff. exists x. split; [exact Ex|]. apply filter_In in Hx. tauto. }
  destruct (in_dec (list_eq_dec Z.eq_dec) name (map (csv_name p) (u_data w))) as [I|I].
  - left. apply in_map_iff in I. destruct I as (d & <- & Id). pose proof Id as Id'. rewrite (on_data _ _ _ O) in Id'. apply filter_In in Id'. destruct Id' as (Iu & Hf).
    destruct (G1 d Id) as (x & Ex). exists d. split; [exact Iu|]. split; [apply csv_filter_spec; exact Hf|]. split; [apply csv_file_name; reflexivity|].
    unfold after. rewrite T2, S2, (G3 Nw d x Id Ex), (F3 Hn d x Iu Ex). split; [reflexivity|]. exists x. reflexivity.
  - right. split.
    + intros d Iu Has Q. apply I. apply csv_file_name in Q. subst name. apply in_map. rewrite (on_data _ _ _ O). apply filter_In. split; [exact Iu|]. apply csv_filter_spec. exact Has.
    + unfold after. rewrite T2, (G2 name I). reflexivity.
Qed.
(** The output directory is made before the log is read, so it may be left empty. *)
Theorem C68_dir_refuted : exists fstr ld a k, r_out (csv_command fstr ld a k) = Raised FileNotFoundError /\ k_dirs (r_disk (csv_command fstr ld a k)) <> k_dirs k.
Proof. exists (fun _ _ => []), (fun _ _ _ => Err TypeError), (mkCsvArgs (lit "a") None (lit ",") (Some (lit "o")) false None None), (mkDisk [] []). split; [reflexivity|discriminate]. Qed.

(** ** extract_gps_dump *)
(** The status: 2 without the output directory, 0 without gps_dump messages, 255 without the fields; then no file is written. *)
Theorem C68_gps_status : forall ld a k,
  ((exists o, ga_output a = Some o /\ isdir k o = false) -> gps_command ld a k = mkRun (Exit 2) [] k) /\
  (forall inst u, (forall o, ga_output a = Some o -> isdir k o = true) -> py_int (ga_instance a) = Ok inst ->
     open_log ld k (ga_file a) (ga_ignore a) (listed [lit "gps_dump"]) = Ok u ->
     (u_data u = [] -> gps_command ld a k = mkRun (Exit 0) [] k) /\
     (forall d r, u_data u = d :: r -> ~ (In (lit "len") (names d) /\ In (lit "data[0]") (names d)) -> gps_command ld a k = mkRun (Exit 255) [] k)).
Proof.
  intros ld a k. split.
  - intros (o & Eo & Ed). unfold gps_command. rewrite Eo, Ed. reflexivity.
  - intros inst u Hd Hi Ho. unfold gps_command. replace (match ga_output a with Some o => negb (isdir k o) | None => false end) with false
      by (destruct (ga_output a) as [o|]; [rewrite (Hd o eq_refl)|]; reflexivity). rewrite Hi, Ho. split.
    + intros E. unfold gps_files. rewrite E. reflexivity.
    + intros d r E N. unfold gps_files. rewrite E.
      replace (existsb (str_eqb (lit "len")) (map fd_name (ds_fields d)) && existsb (str_eqb (lit "data[0]")) (map fd_name (ds_fields d))) with false; [reflexivity|].
      symmetry. apply Bool.not_true_iff_false. intros Q. apply andb_prop in Q. destruct Q as (Q1 & Q2). apply N. split.
      * apply existsb_exists in Q1. destruct Q1 as (x & Hx & Ex). apply str_eqb_eq in Ex. subst x. exact Hx.
      * apply existsb_exists in Q2. destruct Q2 as (x & Hx & Ex). apply str_eqb_eq in Ex. subst x. exact Hx.
Qed.
(** The dump of a log: the streams of the first gps_dump topic of the log. *)
Theorem C68_gps_dump : forall cf ld a k f v t defs data u inst pre d post ts rows p,
  file_of k (ga_file a) = Some (Bytes f) -> (forall keep r, produces (with_filter keep cf) f r -> ld (ga_ignore a) keep f = r) ->
  (forall n, cf_filter cf n = true) -> cf_hdr cf = false -> well_framed f v t defs data -> not_appended defs ->
  produces cf f (Ok u) -> clean_section cf (u_formats u) (msgs data) ->
  (forall o, ga_output a = Some o -> isdir k o = true) -> gps_place (ga_file a) (ga_output a) p -> py_int (ga_instance a) = Ok inst ->
  u_data u = pre ++ d :: post -> Forall (fun x => ds_name x <> lit "gps_dump") pre -> ds_name d = lit "gps_dump" ->
  In (lit "len") (names d) -> In (lit "data[0]") (names d) -> int_field d (lit "timestamp") ts ->
  (exists c, sget (lit "len") (ds_data d) = Some c) -> Forall2 (gps_sample d) (seq 0 (length ts)) rows ->
  let r := gps_command ld a k in
  r_out r = Exit 0 /\
  file_of (r_disk r) (p ++ lit "_" ++ str_of_Z inst ++ lit "_to_device.dat") = Some (Bytes (gps_stream inst true rows)) /\
  file_of (r_disk r) (p ++ lit "_" ++ str_of_Z inst ++ lit "_from_device.dat") = Some (Bytes (gps_stream inst false rows)).
Proof.
  intros cf ld a k f v t defs data u inst pre d post ts rows p Hk Hl Hall Hh Hw Ha Hp Hc Hd Hpl Hi Eu Hpre Hn H1 H2 H3 H4 H5 r.
  destruct (framed_filter (listed [lit "gps_dump"]) cf f v t defs data u Hall Hw Ha Hh Hp Hc) as (w & Pw & O).
  assert (Ew : exists rest, u_data w = d :: rest).
  { rewrite (on_data _ _ _ O), Eu. rewrite filter_app. replace (filter (fun x => listed [lit "gps_dump"] (ds_name x)) pre) with (@nil dataset).
    - cbn [app filter]. replace (listed [lit "gps_dump"] (ds_name d)) with true by (rewrite Hn; reflexivity). eexists. reflexivity.
    - clear -Hpre. induction Hpre as [|x l Hx Hl IH]; [reflexivity|]. cbn [filter]. destruct (listed [lit "gps_dump"] (ds_name x)) eqn:E; [|exact IH].
      apply listed_In in E. destruct E as [E|[]]. congruence. }
  destruct Ew as (rest & Ew). pose proof (C43_streams_partial w d rest ts inst rows Ew H1 H2 H3 H4 H5) as G.
  pose proof (gps_agree w inst) as Q. rewrite G in Q.
  assert (Ep : p = gps_prefix a).
  { assert (Hpa : gps_place (ga_file a) (ga_output a) (gps_prefix a)) by (apply gps_prefix_spec; intros o Eo; apply (isdir_some k); apply Hd; exact Eo).
    destruct Hpl as (b & s & Hb & Hs & Hx). destruct Hpa as (b' & s' & Hb' & Hs' & Hx'). rewrite (last_part_fun _ _ _ Hb' Hb) in Hs'. rewrite (stem_fun _ _ _ Hs' Hs) in Hx'.
    destruct (ga_output a) as [o|]; [|congruence].
    destruct Hx as [((z & Ez) & ->)|(Nz & ->)]; destruct Hx' as [((z' & Ez') & ->)|(Nz' & ->)]; try reflexivity; [destruct (Nz' _ Ez)|destruct (Nz _ Ez')]. }
  unfold r, gps_command. replace (match ga_output a with Some o => negb (isdir k o) | None => false end) with false
    by (destruct (ga_output a) as [o|]; [rewrite (Hd o eq_refl)|]; reflexivity). rewrite Hi.
  replace (open_log ld k (ga_file a) (ga_ignore a) (listed [lit "gps_dump"])) with (Ok w) by (symmetry; unfold open_log; unfold file_of in Hk; rewrite Hk; apply Hl; exact Pw).
  rewrite Q. cbn [r_out r_disk]. rewrite <- Ep. split; [reflexivity|]. rewrite !file_put.
  assert (R : forall x : str, str_eqb x x = true) by (intros x; apply str_eqb_eq; reflexivity).
  split.
  - replace ((p ++ lit "_" ++ str_of_Z inst) ++ lit "_from_device.dat") with (p ++ lit "_" ++ str_of_Z inst ++ lit "_from_device.dat") by (rewrite <- !app_assoc; reflexivity).
    replace ((p ++ lit "_" ++ str_of_Z inst) ++ lit "_to_device.dat") with (p ++ lit "_" ++ str_of_Z inst ++ lit "_to_device.dat") by (rewrite <- !app_assoc; reflexivity).
    rewrite R. destruct (str_eqb_spec (p ++ lit "_" ++ str_of_Z inst ++ lit "_from_device.dat") (p ++ lit "_" ++ str_of_Z inst ++ lit "_to_device.dat")) as [E|_]; [|reflexivity].
    do 3 apply app_inv_head in E. discriminate.
  - replace ((p ++ lit "_" ++ str_of_Z inst) ++ lit "_from_device.dat") with (p ++ lit "_" ++ str_of_Z inst ++ lit "_from_device.dat") by (rewrite <- !app_assoc; reflexivity).
    rewrite R. reflexivity.
Qed.

(** ** ulog_params *)
(** The output file has the text that is printed without one. *)
Theorem C68_params_file : forall vstr ld a k o, pa_output a = Some o ->
  let printed := params_command vstr ld (mkParamsArgs (pa_file a) (pa_delim a) (pa_initial a) (pa_times a) (pa_format a) None (pa_ignore a) (pa_default a)) k in
  r_out (params_command vstr ld a k) = r_out printed /\ r_disk printed = k /\
  (r_out printed = Exit 0 -> file_of (r_disk (params_command vstr ld a k)) o = Some (Text (r_print printed))) /\
  (r_out printed <> Exit 0 -> r_disk (params_command vstr ld a k) = k).
Proof.
  intros vstr ld a k o Eo printed. unfold printed, params_command. cbn [pa_file pa_delim pa_initial pa_times pa_format pa_output pa_ignore pa_default].
  destruct (open_log _ _ _ _ _); [|split; [reflexivity|split; [reflexivity|split; [discriminate|reflexivity]]]].
  destruct (match format_of _ with Some _ => _ | None => _ end); [|split; [reflexivity|split; [reflexivity|split; [discriminate|reflexivity]]]].
  rewrite Eo. cbn [r_out r_disk r_print]. split; [reflexivity|]. split; [reflexivity|]. split; [|congruence]. intros _. rewrite file_put.
  replace (str_eqb o o) with true by (symmetry; apply str_eqb_eq; reflexivity). reflexivity.
Qed.
(** -i without -t: the listing of the whole log's initial parameters, though no topic is loaded. *)
Theorem C68_params_initial : forall vstr cf ld a k f v t defs data u fmt,
  file_of k (pa_file a) = Some (Bytes f) -> (forall keep r, produces (with_filter keep cf) f r -> ld (pa_ignore a) keep f = r) ->
  (forall n, cf_filter cf n = true) -> cf_hdr cf = false -> well_framed f v t defs data -> not_appended defs ->
  produces cf f (Ok u) -> clean_section cf (u_formats u) (msgs data) ->
  pa_initial a = true -> pa_times a = false -> pa_output a = None -> format_of (pa_format a) = Some fmt ->
  params_command vstr ld a k = match params_main vstr (pa_delim a) fmt (default_of (pa_default a)) false true u with Ok text => mkRun (Exit 0) text k | Err e => mkRun (Raised e) [] k end.
Proof.
  intros vstr cf ld a k f v t defs data u fmt Hk Hl Hall Hh Hw Ha Hp Hc Hi Ht Ho Hf.
  destruct (framed_filter (listed []) cf f v t defs data u Hall Hw Ha Hh Hp Hc) as (w & Pw & O). unfold params_command. rewrite Hi, Ht, Ho, Hf.
  replace (open_log ld k (pa_file a) (pa_ignore a) (listed [])) with (Ok w) by (symmetry; unfold open_log; unfold file_of in Hk; rewrite Hk; apply Hl; exact Pw).
  replace (params_main vstr (pa_delim a) fmt (default_of (pa_default a)) false true w) with (params_main vstr (pa_delim a) fmt (default_of (pa_default a)) false true u); [reflexivity|].
  destruct (on_params _ _ _ O) as (Op & Od). destruct (on_head _ _ _ O) as (_ & _ & Oc & _).
  assert (Ep : params_of w (default_of (pa_default a)) true = params_of u (default_of (pa_default a)) true).
  { unfold params_of, has_default_parameters, get_default_parameters. rewrite Op, Od, Oc. reflexivity. }
  unfold params_main. rewrite Ep. destruct (params_of u (default_of (pa_default a)) true) as [[ps ini]|e] eqn:E; [|reflexivity]. cbn [bind fst snd].
  assert (ini = true) as ->. { unfold params_of in E. destruct (default_of _); [congruence| | |]; (destruct (negb _); [discriminate|]); congruence. }
  destruct fmt; reflexivity.
Qed.
(** Without any topic the time stands still: every change of a parameter and every dropout has the time of the start. *)
Theorem C68_no_topics : forall cf f u, bytes_ok f -> cf_hdr cf = false -> (forall n, cf_filter cf n = false) -> produces cf f (Ok u) ->
  u_last u = u_start u /\ Forall (fun c => fst (fst c) = u_start u) (u_changed u) /\ Forall (fun d => dr_ts d = u_start u) (u_dropouts u).
Proof.
  intros cf f u Hb Hh Hf Hp. destruct (C12_timestamps cf f u Hb Hh Hp) as (defs & secs & _ & El & Ed & Ec). split; [rewrite El; apply still_over; exact Hf|]. split.
  - rewrite Ec. apply (sections_all cf (u_formats u)); [exact Hf|]. intros pre e. unfold changed_at. apply Forall_forall. intros x Hx. apply in_map_iff in Hx. destruct Hx as (m & <- & _). cbn [fst]. apply still. exact Hf.
  - rewrite Ed. apply (sections_all cf (u_formats u)); [exact Hf|]. intros pre e. unfold dropouts_at. destruct e as [ty [|x [|y [|]]]| |]; try constructor. destruct (ty =? 79); [|constructor]. constructor; [cbn [dr_ts]; apply still; exact Hf|constructor].
Qed.
(** ** An example: topics a and gps_dump, a parameter that changes at time 20 *)
Definition read9 : loader := fun ign keep b => match load 60 (with_filter keep (with_ign ign cf0)) b with Some r => r | None => Err Unmodelled end.
Definition cmd_defs : list msg := [MFormat (lit "a") [(lit "uint64_t", 0, lit "timestamp"); (lit "uint8_t", 0, lit "x")];
  MFormat (lit "gps_dump") [(lit "uint64_t", 0, lit "timestamp"); (lit "uint8_t", 0, lit "len"); (lit "uint8_t", 2, lit "data")];
  MParam (lit "int32_t") (lit "P") (le_enc 4 1)].
Definition cmd_data : list msg := [MAdd 0 1 (lit "a"); MAdd 0 2 (lit "gps_dump"); MData 1 (le_enc 8 20 ++ [7]); MParam (lit "int32_t") (lit "P") (le_enc 4 2);
  MData 2 (le_enc 8 30 ++ [130; 65; 66]); MData 2 (le_enc 8 40 ++ [1; 67; 0])].
Definition cmd_file : bytes := file_header 1 5 ++ frames (map wire cmd_defs) ++ frames (map wire cmd_data).
Definition cmd_disk : disk := mkDisk [(lit "d/f.ULG", Bytes cmd_file)] [lit "out"].
Definition ints_only (t : nptype) (x : Z) : str := lit "?".
(** a checker for frames *)
Definition fits_b (types : list Z) (m : Z * bytes) : bool :=
  existsb (Z.eqb (fst m)) types && (lenZ (snd m) <? 65536) && forallb (fun b => (0 <=? b) && (b <? 256)) (snd m).
Lemma fits_b_ok types m : Forall byte_ok types -> fits_b types m = true -> frame_fits m /\ In (fst m) types.
Proof.
  unfold fits_b. intros Ht H. apply andb_prop in H. destruct H as (H & Hb). apply andb_prop in H. destruct H as (Hi & Hl).
  apply existsb_exists in Hi. destruct Hi as (x & Hx & Ex). apply Z.eqb_eq in Ex. subst x. split; [|exact Hx]. split; [rewrite Forall_forall in Ht; apply Ht; exact Hx|].
  split; [|lia]. apply Forall_forall. intros b Hin. rewrite forallb_forall in Hb. specialize (Hb b Hin). unfold byte_ok. lia.
Qed.
Lemma all_data l : forallb (fits_b data_types) l = true -> Forall plain_data l.
Proof.
  intros H. apply Forall_forall. intros m Hm. rewrite forallb_forall in H. destruct (fits_b_ok data_types m) as (A & B); [repeat constructor; unfold byte_ok; lia|apply H; exact Hm|].
  split; [exact A|left; exact B].
Qed.
Lemma all_defs l : forallb (fits_b def_types) l = true -> Forall plain_def l.
Proof.
  intros H. apply Forall_forall. intros m Hm. rewrite forallb_forall in H. destruct (fits_b_ok def_types m) as (A & B); [repeat constructor; unfold byte_ok; lia|apply H; exact Hm|].
  split; [exact A|]. split; [|left; exact B]. unfold def_types, end_types in *. cbn [In] in *. lia.
Qed.
(** the hypotheses hold for this log *)
Example C68_ex_log : exists u, well_framed cmd_file 1 5 (map wire cmd_defs) (map wire cmd_data) /\ not_appended (map wire cmd_defs) /\
  produces cf0 cmd_file (Ok u) /\ clean_section cf0 (u_formats u) (msgs (map wire cmd_data)).
Proof.
  eexists. split; [|split; [|split; [exists 60%nat; vm_compute; reflexivity|]]].
  - split; [exists []; split; [reflexivity|]; split; [now left|discriminate]|unfold header_fits, byte_ok; lia| | | | |cbn; tauto].
    + apply Forall_forall. assert (E : forallb (fun b => (0 <=? b) && (b <? 256)) cmd_file = true) by (vm_compute; reflexivity).
      intros b Hb. rewrite forallb_forall in E. specialize (E b Hb). unfold byte_ok. lia.
    + vm_compute. discriminate.
    + apply all_defs. vm_compute. reflexivity.
    + apply all_data. vm_compute. reflexivity.
  - repeat constructor; cbn; intros; try discriminate; reflexivity.
  - match goal with |- clean_section _ ?f _ => cut (one_topic_per_id (adds cf0 f (msgs (map wire cmd_data))) /\ (forall s, In s (adds cf0 f (msgs (map wire cmd_data))) -> sb_tsoff s + 8 <= itemsize (sb_dtype s))) end.
    { intros (A & B). split; [exact A|apply tsoff_timed, B]. }
    match goal with |- context [adds cf0 ?f ?e] => assert (E : map sb_id (adds cf0 f e) = [1; 2] /\ map sb_name (adds cf0 f e) = [lit "a"; lit "gps_dump"] /\
      forallb (fun s => sb_tsoff s + 8 <=? itemsize (sb_dtype s)) (adds cf0 f e) = true) by (vm_compute; auto); generalize dependent (adds cf0 f e) end.
    intros l (E1 & E2 & E3). split.
    + destruct l as [|a [|b [|]]]; try discriminate. injection E1 as A1 A2. intros x y [<-|[<-|[]]] [<-|[<-|[]]] E; try reflexivity; lia.
    + intros s Hs. rewrite forallb_forall in E3. apply E3 in Hs. lia.
Qed.
(** -m a writes the one file that is also written without -m; the log keeps its name although it is in upper case *)
Example C68_ex_csv : let r m := csv_command ints_only read9 (mkCsvArgs (lit "d/f.ULG") m (lit ",") (Some (lit "new")) false None None) cmd_disk in
  r_out (r (Some (lit "a,b"))) = Exit 0 /\ r_out (r None) = Exit 0 /\ k_dirs (r_disk (r None)) = [lit "out"; lit "new"] /\
  dkeys (k_files (r_disk (r (Some (lit "a,b"))))) = [lit "d/f.ULG"; lit "new/f_a_0.csv"] /\
  file_of (r_disk (r (Some (lit "a,b")))) (lit "new/f_a_0.csv") = Some (Text (lit "timestamp,x" ++ [10] ++ lit "20,7" ++ [10])) /\
  dkeys (k_files (r_disk (r None))) = [lit "d/f.ULG"; lit "new/f_a_0.csv"; lit "new/f_gps_dump_0.csv"].
Proof. cbv zeta. split; [|split; [|split; [|split; [|split]]]]; vm_compute; reflexivity. Qed.
Example C68_ex_gps : let r := gps_command read9 (mkGpsArgs (lit "d/f.ULG") (Some (lit "out")) false (lit "0")) cmd_disk in
  r_out r = Exit 0 /\ file_of (r_disk r) (lit "out/f_0_to_device.dat") = Some (Bytes [65; 66]) /\ file_of (r_disk r) (lit "out/f_0_from_device.dat") = Some (Bytes [67]).
Proof. cbv zeta. split; [|split]; vm_compute; reflexivity. Qed.
(** With -i -t a change is listed with the time of the start (5), without -i with its own (20): the one option
    changes the times of the other's listing. *)
Theorem C68_times_refuted : let r i := params_command vstr_ex read9 (mkParamsArgs (lit "d/f.ULG") (lit ",") i true (lit "csv") None false None) cmd_disk in
  r_print (r false) = lit "P,1,2" ++ [10] ++ lit "timestamp,0,20" ++ [10] /\ r_print (r true) = lit "P,1,2" ++ [10] ++ lit "timestamp,0,5" ++ [10].
Proof. cbv zeta. split; vm_compute; reflexivity. Qed.
(** An unknown format is no error: the output file is emptied and the status is 0. *)
Theorem C68_format_refuted : forall vstr ld a k u o, open_log ld k (pa_file a) (pa_ignore a) (if pa_initial a then listed [] else no_filter) = Ok u ->
  pa_default a = None -> ~ In (pa_format a) [lit "csv"; lit "octave"; lit "qgc"] -> pa_output a = Some o ->
  r_out (params_command vstr ld a k) = Exit 0 /\ file_of (r_disk (params_command vstr ld a k)) o = Some (Text []).
Proof.
  intros vstr ld a k u o Ho Hd Hf Hp. unfold params_command. rewrite Ho, Hd, Hp. replace (format_of (pa_format a)) with (@None pformat).
  - cbn [default_of params_of bind r_out r_disk]. split; [reflexivity|]. rewrite file_put. replace (str_eqb o o) with true by (symmetry; apply str_eqb_eq; reflexivity). reflexivity.
  - symmetry. unfold format_of. cbn [In] in Hf. destruct (str_eqb_spec (pa_format a) (lit "csv")); [exfalso; apply Hf; left; congruence|].
    destruct (str_eqb_spec (pa_format a) (lit "octave")); [exfalso; apply Hf; right; left; congruence|]. destruct (str_eqb_spec (pa_format a) (lit "qgc")); [exfalso; apply Hf; right; right; left; congruence|reflexivity].
Qed.
(** ulog_params with the log as output file replaces the log (the programs with generated names never do). *)
Theorem C68_overwrite_refuted : let r := params_command vstr_ex read9 (mkParamsArgs (lit "d/f.ULG") (lit ",") true false (lit "csv") (Some (lit "d/f.ULG")) false None) cmd_disk in
  r_out r = Exit 0 /\ file_of (r_disk r) (lit "d/f.ULG") = Some (Text (lit "P,1" ++ [10])).
Proof. cbv zeta. split; vm_compute; reflexivity. Qed.

(** ** ulog_messages *)
(** The listing of a log loaded with its events only is that of the whole log. *)
Theorem C68_messages : forall cf parser ld file ign k f v t defs data u,
  file_of k file = Some (Bytes f) -> (forall keep r, produces (with_filter keep cf) f r -> ld ign keep f = r) ->
  (forall n, cf_filter cf n = true) -> cf_hdr cf = false -> well_framed f v t defs data -> not_appended defs ->
  produces cf f (Ok u) -> clean_section cf (u_formats u) (msgs data) ->
  (forall w, u_info w = u_info u -> u_multi w = u_multi u -> parser w = parser u) ->
  messages_command parser ld file ign k = match messages_main (parser u) u with Ok ls => mkRun (Exit 0) (lines_text ls) k | Err e => mkRun (Raised e) [] k end.
Proof.
  intros cf parser ld file ign k f v t defs data u Hk Hl Hall Hh Hw Ha Hp Hc Hpar.
  destruct (framed_filter (listed [lit "event"]) cf f v t defs data u Hall Hw Ha Hh Hp Hc) as (w & Pw & O). unfold messages_command.
  replace (open_log ld k file ign (listed [lit "event"])) with (Ok w) by (symmetry; unfold open_log; unfold file_of in Hk; rewrite Hk; apply Hl; exact Pw).
  destruct (on_info _ _ _ O) as (Oi & _). destruct (on_multi _ _ _ O) as (Om & _). destruct (on_logged _ _ _ O) as (Og & _). rewrite (Hpar w Oi Om).
  replace (messages_main (parser u) w) with (messages_main (parser u) u).
  - destruct (messages_main (parser u) u); reflexivity.
  - unfold messages_main, messages_of. rewrite Og, Oi. replace (get_logged_events (parser u) w) with (get_logged_events (parser u) u); [reflexivity|].
    unfold get_logged_events. replace (get_dataset w (lit "event") 0) with (get_dataset u (lit "event") 0); [reflexivity|].
    unfold get_dataset. rewrite (on_data _ _ _ O). f_equal. induction (u_data u) as [|d l IH]; [reflexivity|]. cbn [filter].
    destruct (listed [lit "event"] (ds_name d)) eqn:K.
    + cbn [filter]. destruct (str_eqb (ds_name d) (lit "event") && (ds_multi d =? 0)); [f_equal; exact IH|exact IH].
    + replace (str_eqb (ds_name d) (lit "event")) with false; [cbn [andb]; exact IH|]. symmetry. apply Bool.not_true_iff_false. intros Q. apply str_eqb_eq in Q. rewrite Q in K. discriminate.
Qed.
