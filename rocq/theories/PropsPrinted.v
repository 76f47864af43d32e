(** Property C68: what the printing programs print, the options of ulog_params, and the map file of ulog2kml. *)
From Verif Require Import Base Dict PyStr Utf8 PyFloat Struct ModelTypes ModelApi ModelTools ModelInfo ModelKml SpecTools SpecKml ModelCommand SpecCommand SpecInfo
  ProofsWindow ProofsCommand PropsInfo PropsTools PropsMap PropsCommand.
From Coq Require Import Permutation Sorted.

Lemma lines_separated l : lines_text l = separated [10] (l ++ [[]]).
Proof.
  unfold lines_text. destruct l as [|x l]; [reflexivity|]. cbn [app separated map concat]. rewrite <- app_assoc. f_equal.
  rewrite map_app, concat_app. cbn [map concat]. revert x. induction l as [|y l IH]; intros x; [reflexivity|].
  cbn [map concat app]. rewrite <- app_assoc. cbn [app]. f_equal. rewrite <- app_assoc. f_equal. exact (IH y).
Qed.
(** ulog_info and ulog_messages print their lines, each ended by a newline, end with status 0 and touch no file;
    if the log cannot be read or the listing fails, the exception ends the program. *)
Theorem C68_info_text : forall vstr lstr ld file ign verbose newline message k,
  match open_log ld k file ign (fun _ => true) with
  | Err e => r_out (info_command vstr lstr ld file ign verbose newline message k) = Raised e
  | Ok u => match info_main vstr lstr verbose newline message u with
            | Err e => r_out (info_command vstr lstr ld file ign verbose newline message k) = Raised e
            | Ok ls => info_command vstr lstr ld file ign verbose newline message k = mkRun (Exit 0) (separated [10] (ls ++ [[]])) k
            end
  end.
Proof.
  intros. unfold info_command. change no_filter with (fun _ : str => true). destruct (open_log ld k file ign (fun _ => true)) as [u|e]; [|reflexivity].
  destruct (info_main vstr lstr verbose newline message u) as [ls|e]; [|reflexivity]. rewrite lines_separated. reflexivity.
Qed.
(** What ulog_info prints.  Without -m, and with an empty text after it, the report of C55; with the name of an information
    message the pages of its entries or, if there are none, that it is not found. *)
Theorem C68_info_report : forall vstr lstr ld file ign verbose newline message k u,
  open_log ld k file ign (fun _ => true) = Ok u -> message = None \/ message = Some [] ->
  (forall v, sget (lit "ver_sw_release") (u_info u) = Some v -> (exists z, v = VInt z) \/ (exists b, v = VBool b)) ->
  (forall d, In d (u_data u) -> sget (lit "timestamp") (ds_data d) <> None) ->
  0 <= u_start u <= 2 ^ 53 -> 0 <= u_last u - u_start u <= 2 ^ 53 -> 0 <= sumZ (map dr_dur (u_dropouts u)) < 2 ^ 53 ->
  exists ls, report vstr lstr verbose u ls /\
    info_command vstr lstr ld file ign verbose newline message k = mkRun (Exit 0) (separated [10] (ls ++ [[]])) k.
Proof.
  intros vstr lstr ld file ign verbose newline message k u O M A B C D E. destruct (C55_printed vstr lstr verbose u A B) as (ls & S).
  exists ls. split; [now apply C55_report|]. generalize (C68_info_text vstr lstr ld file ign verbose newline message k). rewrite O.
  replace (info_main vstr lstr verbose newline message u) with (Ok ls) by (destruct M as [->| ->]; symmetry; exact S). trivial.
Qed.
Theorem C68_info_message : forall vstr lstr ld file ign verbose newline name k u,
  open_log ld k file ign (fun _ => true) = Ok u -> name <> [] ->
  (sget name (u_multi u) = None -> info_command vstr lstr ld file ign verbose newline (Some name) k =
     mkRun (Exit 0) (separated [10] [lit "message " ++ name ++ lit " not found"; []]) k) /\
  (forall entries, sget name (u_multi u) = Some entries ->
     Forall (fun m => (exists l, l <> [] /\ Forall bytes_ok l /\ m = map VBytes l) \/ (exists l, m = map VStr l)) entries ->
     exists pages, info_command vstr lstr ld file ign verbose newline (Some name) k = mkRun (Exit 0) (separated [10] (concat pages ++ [[]])) k /\
       length pages = length entries /\
       forall i m, nth_error entries i = Some m ->
         (forall l, l <> [] -> Forall bytes_ok l -> m = map VBytes l -> exists t, nth_error pages i = Some
            [lit "# " ++ name ++ lit " " ++ str_of_Z (Z.of_nat i) ++ lit " (len: " ++ str_of_Z (lenZ (concat l)) ++ lit "):"; t] /\
            spelled (concat l) t) /\
         (forall l, m = map VStr l -> nth_error pages i = Some
            [lit "# " ++ name ++ lit " " ++ str_of_Z (Z.of_nat i) ++ lit ":"; if newline then separated [10] l else concat l])).
Proof.
  intros vstr lstr ld file ign verbose newline name k u O N. generalize (C68_info_text vstr lstr ld file ign verbose newline (Some name) k). rewrite O.
  assert (X : info_main vstr lstr verbose newline (Some name) u = show_message name newline u) by (destruct name; [contradiction|reflexivity]). rewrite X. intros T. split.
  - intros F. rewrite (C55_not_found name newline u F) in T. exact T.
  - intros entries F G. destruct (C55_message name newline u entries F G) as (pages & A & B & C). rewrite A in T. exists pages. auto.
Qed.
Theorem C68_messages_text : forall parser ld file ign k,
  match open_log ld k file ign (fun n => existsb (str_eqb n) [lit "event"]) with
  | Err e => r_out (messages_command parser ld file ign k) = Raised e
  | Ok u => match messages_main (parser u) u with
            | Err e => r_out (messages_command parser ld file ign k) = Raised e
            | Ok ls => messages_command parser ld file ign k = mkRun (Exit 0) (separated [10] (ls ++ [[]])) k
            end
  end.
Proof.
  intros. unfold messages_command. change (listed [lit "event"]) with (fun n => existsb (str_eqb n) [lit "event"]).
  destruct (open_log ld k file ign _) as [u|e]; [|reflexivity].
  destruct (messages_main (parser u) u) as [ls|e]; [|reflexivity]. rewrite lines_separated. reflexivity.
Qed.
(** The printed text gives the lines back if no line contains a newline. *)
Theorem C68_lines_back : forall l m, Forall (fun x => ~ In 10 x) l -> Forall (fun x => ~ In 10 x) m -> separated [10] (l ++ [[]]) = separated [10] (m ++ [[]]) -> l = m.
Proof.
  intros l m Hl Hm E.
  assert (A : split1 10 (separated [10] (l ++ [[]])) = l ++ [[]]).
  { apply split_separated; [destruct l; discriminate|]. apply Forall_app. split; [exact Hl|]. constructor; [intros []|constructor]. }
  assert (B : split1 10 (separated [10] (m ++ [[]])) = m ++ [[]]).
  { apply split_separated; [destruct m; discriminate|]. apply Forall_app. split; [exact Hm|]. constructor; [intros []|constructor]. }
  rewrite E in A. rewrite A in B. apply app_inj_tail in B. apply B.
Qed.

(** ulog_params -d: "system" lists the system's defaults, "current_setup" those of the airframe; a log without
    defaults, or another word, ends the program with an exception, and then nothing is written. *)
Definition param_lines (vstr : value -> str) (a : params_args) (u : ulog) (fmt : str) (kvs : list (str * value)) : str :=
  concat (map (fun kv =>
    if str_eqb fmt (lit "csv") then csv_entry vstr (pa_delim a) (pa_times a) false u (fst kv) (snd kv)
    else if str_eqb fmt (lit "octave") then octave_entry vstr false u (fst kv) (snd kv)
    else qgc_entry vstr (fst kv) (snd kv)) kvs).
Theorem C68_default : forall vstr ld a k u word kind, pa_default a = Some word -> In (word, kind) [(lit "system", 0); (lit "current_setup", 1)] ->
  In (pa_format a) [lit "csv"; lit "octave"; lit "qgc"] -> pa_output a = None ->
  open_log ld k (pa_file a) (pa_ignore a) (if pa_initial a then listed [] else no_filter) = Ok u ->
  (has_default_parameters u = true -> NoDup (dkeys (get_default_parameters u kind)) ->
   exists kvs, Permutation kvs (get_default_parameters u kind) /\ StronglySorted (fun x y => str_ltb (fst x) (fst y) = true) kvs /\
     params_command vstr ld a k = mkRun (Exit 0) (param_lines vstr a u (pa_format a) kvs) k) /\
  (has_default_parameters u = false -> params_command vstr ld a k = mkRun (Raised AssertionError) [] k).
Proof.
  intros vstr ld a k u word kind Hd Hw Hf Ho Hl. unfold params_command. rewrite Hl, Hd, Ho.
  assert (exists fmt, format_of (pa_format a) = Some fmt /\ forall kvs, param_lines vstr a u (pa_format a) kvs = concat (map (fun kv => match fmt with
      | FCsv => csv_entry vstr (pa_delim a) (pa_times a) false u (fst kv) (snd kv)
      | FOctave => octave_entry vstr false u (fst kv) (snd kv)
      | FQgc => qgc_entry vstr (fst kv) (snd kv)
      end) kvs)) as (fmt & Ef & El).
  { destruct Hf as [<-|[<-|[<-|[]]]]; eexists; (split; [reflexivity|]); intros; reflexivity. }
  rewrite Ef.
  assert (exists setup : bool, default_of (Some word) = (if setup then DefSetup else DefSystem) /\ kind = if setup then 1 else 0) as (setup & Es & ->).
  { destruct Hw as [Q|[Q|[]]]; injection Q as <- <-; [exists false|exists true]; split; reflexivity. }
  rewrite Es. split.
  - intros Hh Hn. destruct (C44_defaults vstr (pa_delim a) fmt (pa_times a) (pa_initial a) u setup Hh Hn) as (kvs & P & S & E).
    exists kvs. split; [exact P|]. split; [exact S|]. rewrite E, El. reflexivity.
  - intros Hh. rewrite C44_no_defaults; [reflexivity|destruct setup; discriminate|exact Hh].
Qed.
Theorem C68_default_word : forall vstr ld a k u word, pa_default a = Some word -> ~ In word [lit "system"; lit "current_setup"] ->
  open_log ld k (pa_file a) (pa_ignore a) (if pa_initial a then listed [] else no_filter) = Ok u ->
  params_command vstr ld a k = mkRun (Raised (if has_default_parameters u then ValueError else AssertionError)) [] k.
Proof.
  intros vstr ld a k u word Hd Hw Hl. unfold params_command. rewrite Hl, Hd.
  assert (Es : default_of (Some word) = DefOther).
  { cbn [default_of]. destruct (str_eqb_spec word (lit "system")) as [->|]; [destruct Hw; left; reflexivity|].
    destruct (str_eqb_spec word (lit "current_setup")) as [->|]; [destruct Hw; right; left; reflexivity|reflexivity]. }
  rewrite Es. destruct (has_default_parameters u) eqn:Hh.
  - destruct (format_of (pa_format a)); [rewrite C44_default_name by exact Hh; reflexivity|]. unfold params_of. rewrite Hh. reflexivity.
  - destruct (format_of (pa_format a)); [rewrite C44_no_defaults by (discriminate || exact Hh); reflexivity|]. unfold params_of. rewrite Hh. reflexivity.
Qed.

(** ulog2kml: with the flight modes below 18 the program ends with status 0 and leaves the map in the output file. *)
Theorem C68_kml_map : forall fstr ld file output topic camera ign k u ch d ts fixes cam,
  let name := match topic with Some t => t | None => lit "vehicle_gps_position" end in
  open_log ld k file ign (listed (name :: lit "vehicle_status" :: match camera with Some c => [c] | None => [] end)) = Ok u ->
  modes u ch -> trackable u name d ts fixes -> Forall (fun c => snd c < 18) ch -> camera_in u camera cam ->
  exists lines points, let r := kml_command fstr ld file output topic camera ign k in
    r_out r = Exit 0 /\ r_print r = [] /\ file_of (r_disk r) output = Some (Map (mkDoc lines points)) /\
    shown 100000 ch None (VInt 0) name default_colors d ts fixes lines /\ triggers fstr (VInt 0) cam points.
Proof.
  intros fstr ld file output topic camera ign k u ch d ts fixes cam name Hl Hm Ht Hc Hcam.
  destruct (C59_command fstr (fun names => open_log ld k file ign (listed names)) topic camera u ch d ts fixes cam Hl Hm Ht Hc Hcam) as (lines & points & E & A & B).
  exists lines, points. cbv zeta. unfold kml_command. rewrite E. cbn [r_out r_print r_disk]. split; [reflexivity|]. split; [reflexivity|]. split; [|split; assumption].
  rewrite file_put. replace (str_eqb output output) with true by (symmetry; apply str_eqb_eq; reflexivity). reflexivity.
Qed.
(** A map that fails ends with an exception and leaves every file as it was. *)
Theorem C68_kml_fail : forall fstr ld file output topic camera ign k e,
  kml_main fstr (fun names => open_log ld k file ign (listed names)) topic camera = Err e ->
  kml_command fstr ld file output topic camera ign k = mkRun (Raised e) [] k.
Proof. intros. unfold kml_command. rewrite H. reflexivity. Qed.

(** A map is no log: read by any of the programs, it ends them with TypeError. *)
Theorem C68_map_input : forall fstr vstr lstr parser ld k file m o, file_of k file = Some (Map m) ->
  (forall ign vb nl msg, r_out (info_command vstr lstr ld file ign vb nl msg k) = Raised TypeError) /\
  (forall ign, r_out (messages_command parser ld file ign k) = Raised TypeError) /\
  (forall topic camera ign, r_out (kml_command fstr ld file o topic camera ign k) = Raised TypeError) /\
  (forall a, pa_file a = file -> r_out (params_command vstr ld a k) = Raised TypeError) /\
  (forall a, ca_file a = file -> ca_output a = None -> r_out (csv_command fstr ld a k) = Raised TypeError).
Proof.
  intros fstr vstr lstr parser ld k file m o H. assert (O : forall ign keep, open_log ld k file ign keep = Err TypeError).
  { intros. unfold open_log. unfold file_of in H. rewrite H. reflexivity. }
  split; [|split; [|split; [|split]]].
  - intros. unfold info_command. rewrite O. reflexivity.
  - intros. unfold messages_command. rewrite O. reflexivity.
  - intros. unfold kml_command, kml_main, convert_ulog2kml. cbv zeta. rewrite O. reflexivity.
  - intros a <-. unfold params_command. rewrite O. reflexivity.
  - intros a <- E. unfold csv_command. rewrite E. cbn [make_dir nonempty]. rewrite O. reflexivity.
Qed.

Example C68_ex_info : r_print (info_command vstr_ex (fun _ => []) read9 (lit "d/f.ULG") false false false None cmd_disk) <> [] /\
  r_out (info_command vstr_ex (fun _ => []) read9 (lit "d/f.ULG") false false false None cmd_disk) = Exit 0.
Proof. split; vm_compute; [discriminate|reflexivity]. Qed.
(** a log with the message "k" of C55_ex_hex, read by the program *)
Example C68_ex_info_message : let run (m : str) := info_command vstr_ex (fun _ => []) (fun _ _ _ => Ok (c55_log [] [(lit "k", [[VBytes [0; 10; 255]; VBytes [16]]])] [])) (lit "d/f.ULG") false false true (Some m) cmd_disk in
  r_print (run (lit "k")) = separated [10] [lit "# k 0 (len: 4):"; lit "00 0a ff"; lit "10"; []] /\
  r_print (run (lit "x")) = separated [10] [lit "message x not found"; []] /\
  r_print (run (lit "")) <> separated [10] [lit "message  not found"; []].
Proof. vm_compute. repeat split. discriminate. Qed.
(** a log with defaults: the words, and the map of a log with modes 4 and 5 *)
Definition d_log : ulog := set_defaults [(0, [(lit "B", VInt 2); (lit "A", VInt 1)]); (1, [(lit "A", VInt 5)])] (set_compat [1] ulog0).
Definition d_args (word : str) : params_args := mkParamsArgs (lit "f") (lit ",") false false (lit "csv") None false (Some word).
Definition d_disk : disk := mkDisk [(lit "f", Bytes [])] [].
Example C68_ex_default : has_default_parameters d_log = true /\ NoDup (dkeys (get_default_parameters d_log 0)) /\
  r_print (params_command vstr_ex (fun _ _ _ => Ok d_log) (d_args (lit "system")) d_disk) = lit "A,1" ++ [10] ++ lit "B,2" ++ [10] /\
  r_print (params_command vstr_ex (fun _ _ _ => Ok d_log) (d_args (lit "current_setup")) d_disk) = lit "A,5" ++ [10] /\
  r_out (params_command vstr_ex (fun _ _ _ => Ok d_log) (d_args (lit "other")) d_disk) = Raised ValueError.
Proof.
  split; [reflexivity|]. split; [|split; [|split]; vm_compute; reflexivity].
  cbn. constructor; [intros [E|[]]; discriminate|]. constructor; [intros []|constructor].
Qed.
Example C68_ex_kml : exists lines points, let r := kml_command (fun _ _ => []) (fun _ _ _ => Ok (m_log 5)) (lit "f") (lit "f.kml") (Some (lit "pos")) (Some (lit "cam")) false d_disk in
  r_out r = Exit 0 /\ file_of (r_disk r) (lit "f.kml") = Some (Map (mkDoc lines points)) /\ lines <> [] /\ points <> [].
Proof. do 2 eexists. cbv zeta. split; [vm_compute; reflexivity|]. split; [vm_compute; reflexivity|]. split; discriminate. Qed.
