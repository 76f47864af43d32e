(** Properties C55 and C68, continued: what ulog_info has printed when it ends with an exception. *)
From Verif Require Import Base Dict PyStr PySort PyFloat Struct ModelTypes ModelRead ModelApi ModelTools ModelInfo ModelCommand ModelShown
  Spec SpecMsg SpecTools SpecInfo SpecCommand ProofsFields ProofsInfo ProofsCommand Samples PropsRead PropsInfo PropsCommand PropsPrinted.
From Coq Require Import Permutation Sorted.

(** ** calls of print *)
Lemma prints_ok ls l : prints (map Ok ls ++ l) = (fst (prints l), ls ++ snd (prints l)).
Proof. induction ls as [|x ls IH]; cbn [map app prints]; [now destruct (prints l)|]. rewrite IH. reflexivity. Qed.
Lemma prints_app a b : prints (a ++ b) = match prints a with (Ok _, x) => (fst (prints b), x ++ snd (prints b)) | (Err e, x) => (Err e, x) end.
Proof.
  induction a as [|[x|e] a IH]; cbn [app prints]; [now destruct (prints b)| |reflexivity]. rewrite IH. destruct (prints a) as [[t|e] y]; reflexivity.
Qed.
Lemma prints_map {A} (f : A -> res str) l : match mapM f l with
  | Ok ls => prints (map f l) = (Ok tt, ls)
  | Err e => exists a x b ls, l = a ++ x :: b /\ mapM f a = Ok ls /\ f x = Err e /\ prints (map f l) = (Err e, ls)
  end.
Proof.
  induction l as [|x l IH]; [reflexivity|]. cbn [mapM map prints]. destruct (f x) as [y|e] eqn:E; unfold bind; fold (@mapM A str).
  - destruct (mapM f l) as [ls|e] eqn:M.
    + rewrite IH. reflexivity.
    + destruct IH as (a & z & b & ls & -> & F & G & ->). exists (x :: a), z, b, (y :: ls). cbn [mapM app]. rewrite E. cbn [bind]. rewrite F. auto.
  - exists [], x, l, []. auto.
Qed.
Lemma prints_single (r : res str) : prints [r] = match r with Ok x => (Ok tt, [x]) | Err e => (Err e, []) end.
Proof. now destruct r. Qed.

Lemma prints_map_ok {A} (f : A -> res str) l ls : mapM f l = Ok ls -> prints (map f l) = (Ok tt, ls).
Proof. intros E. generalize (prints_map f l). rewrite E. auto. Qed.
Lemma info_prints_ok vstr verbose u : exists ls, info_lines vstr verbose u = Ok ls /\ prints (info_prints vstr verbose u) = (Ok tt, ls).
Proof.
  destruct (key_lines_total (fun k => negb (starts_with (lit "perf_") k) || verbose) (fun k v => lit " " ++ k ++ lit ": " ++ vstr v) (u_info u)) as (ls & E).
  exists ls. split; [exact E|]. apply prints_map_ok. exact E.
Qed.
Lemma multi_prints_ok lstr verbose u : exists ls, multi_lines lstr verbose u = Ok ls /\ prints (multi_prints lstr verbose u) = (Ok tt, ls).
Proof.
  unfold multi_lines, multi_prints. cbv zeta. destruct (0 <? Z.of_nat (length (u_multi u))); [|exists []; auto].
  destruct verbose.
  - destruct (mapM_total (fun k => let* v := lookup k (u_multi u) in Ok (lit " " ++ k ++ lit ": " ++ lstr v)) (ssort str_leb (map fst (u_multi u)))) as (ls & E).
    { intros k Hk. apply In_ssort in Hk. destruct (lookup_in _ _ Hk) as [v ->]. eexists. reflexivity. }
    exists (lit "Info Multiple Messages:" :: ls). split.
    + transitivity (bind (Ok ls) (fun ls => Ok (lit "Info Multiple Messages:" :: ls))); [|reflexivity]. f_equal. exact E.
    + cbn [prints]. apply prints_map_ok in E. match goal with |- (let '(e, s) := ?p in _) = _ => replace p with (@Ok unit tt, ls) by (symmetry; exact E) end. reflexivity.
  - destruct (mapM_total (fun k => let* v := lookup k (u_multi u) in Ok (lit "[" ++ k ++ lit ": " ++ str_of_Z (Z.of_nat (length v)) ++ lit "]")) (ssort str_leb (map fst (u_multi u)))) as (ls & E).
    { intros k Hk. apply In_ssort in Hk. destruct (lookup_in _ _ Hk) as [v ->]. eexists. reflexivity. }
    exists [lit "Info Multiple Messages: " ++ join (lit ", ") ls]. rewrite prints_single. split.
    + transitivity (bind (Ok ls) (fun ls => Ok [lit "Info Multiple Messages: " ++ join (lit ", ") ls])); [|reflexivity]. f_equal. exact E.
    + match goal with |- match bind ?p _ with _ => _ end = _ => replace p with (@Ok (list str) ls) by (symmetry; exact E) end. reflexivity.
Qed.
Definition warn_lines (u : ulog) : list str := if u_corrupt u then [lit "Warning: file has data corruption(s)"] else [].
Lemma report_prints_eq vstr lstr verbose u : exists infos multis, info_lines vstr verbose u = Ok infos /\ multi_lines lstr verbose u = Ok multis /\
  prints (report_prints vstr lstr verbose u) =
  match version_lines u with
  | Err e => (Err e, warn_lines u ++ [time_line u; dropout_line u])
  | Ok ver => (fst (prints (table_prints u)), warn_lines u ++ [time_line u; dropout_line u] ++ ver ++ [lit "Info Messages:"] ++ infos ++ multis ++
                 [[]; title_line] ++ snd (prints (table_prints u)))
  end.
Proof.
  destruct (info_prints_ok vstr verbose u) as (infos & I1 & I2). destruct (multi_prints_ok lstr verbose u) as (multis & M1 & M2).
  exists infos, multis. split; [exact I1|]. split; [exact M1|]. unfold report_prints.
  replace (if u_corrupt u then [Ok (lit "Warning: file has data corruption(s)")] else []) with (map (@Ok str) (warn_lines u)) by (unfold warn_lines; now destruct (u_corrupt u)).
  rewrite prints_ok. change [Ok (time_line u); Ok (dropout_line u)] with (map (@Ok str) [time_line u; dropout_line u]). rewrite prints_ok. rewrite prints_app.
  unfold version_prints, version_lines. destruct (get_version_info_str u (lit "ver_sw_release")) as [v|e]; cbn [bind].
  - assert (V : prints (match v with Some t => [Ok (lit "SW Version: " ++ t)] | None => [] end) = (Ok tt, match v with Some t => [lit "SW Version: " ++ t] | None => [] end)) by now destruct v.
    replace (match v with Some t => [Ok (lit "SW Version: " ++ t)] | None => [] end) with (match v with None => [] | Some t => [@Ok str (lit "SW Version: " ++ t)] end) in V by now destruct v.
    rewrite V. change [Ok (lit "Info Messages:")] with (map (@Ok str) [lit "Info Messages:"]). rewrite prints_ok. rewrite prints_app, I2. rewrite prints_app, M2.
    change [Ok []; Ok title_line] with (map (@Ok str) [[]; title_line]). rewrite prints_ok. cbn [fst snd]. reflexivity.
  - cbn [prints fst snd]. rewrite app_nil_r. reflexivity.
Qed.
(** The lines on the screen of a run that ends are those of C55, and both fail with the same exception. *)
Theorem C55_agrees : forall vstr lstr verbose u,
  match show_info vstr lstr verbose u with
  | Ok out => prints (report_prints vstr lstr verbose u) = (Ok tt, out)
  | Err e => fst (prints (report_prints vstr lstr verbose u)) = Err e
  end.
Proof.
  intros vstr lstr verbose u. destruct (report_prints_eq vstr lstr verbose u) as (infos & multis & A & B & ->). unfold show_info. rewrite A, B.
  destruct (version_lines u) as [ver|e]; cbn [bind]; [|reflexivity]. unfold table_lines, table_prints.
  match goal with |- context [mapM ?f ?l] => generalize (prints_map f l); destruct (mapM f l) as [rows|e] end; cbn [bind].
  - intros ->. reflexivity.
  - intros (a & x & b & ls & _ & _ & _ & ->). reflexivity.
Qed.
(** ulog_info fails for one of two reasons.  The software version is no number: then the first lines are on the screen.
    Or topics have no times: then the whole report of a log that has only the topics before the first of those. *)
Theorem C55_failed : forall vstr lstr verbose u e out, prints (report_prints vstr lstr verbose u) = (Err e, out) ->
  0 <= u_start u <= 2 ^ 53 -> 0 <= u_last u - u_start u <= 2 ^ 53 -> 0 <= sumZ (map dr_dur (u_dropouts u)) < 2 ^ 53 ->
  (e = TypeError /\ (exists v, sget (lit "ver_sw_release") (u_info u) = Some v /\ (forall z, v <> VInt z) /\ (forall b, v <> VBool b)) /\
   exists start duration drops, hms (u_start u / 1000000) start /\ hms ((u_last u - u_start u) / 1000000) duration /\
     dropouts_shown (map dr_dur (u_dropouts u)) drops /\
     out = (if u_corrupt u then [lit "Warning: file has data corruption(s)"] else []) ++
           [lit "Logging start time: " ++ start ++ lit ", duration: " ++ duration; drops]) \/
  (e = KeyError /\ exists before d after,
     Permutation (before ++ d :: after) (u_data u) /\
     StronglySorted (fun a b => str_cmp (ds_name a ++ str_of_Z (ds_multi a)) (ds_name b ++ str_of_Z (ds_multi b)) <> Gt) (before ++ d :: after) /\
     sget (lit "timestamp") (ds_data d) = None /\ report vstr lstr verbose (set_data before u) out).
Proof.
  intros vstr lstr verbose u e out P H1 H2 H3. destruct (report_prints_eq vstr lstr verbose u) as (infos & multis & A & B & Q). rewrite Q in P. clear Q.
  destruct (version_lines u) as [ver|e'] eqn:V.
  - right. unfold table_prints in P. set (ds := ssort (fun a b => str_leb (row_key a) (row_key b)) (u_data u)) in *.
    generalize (prints_map table_line ds). destruct (mapM table_line ds) as [rows|e0] eqn:M; intros X; [rewrite X in P; discriminate|].
    destruct X as (a & x & b & ls & Ed & Ma & Ex & Pr). rewrite Pr in P. cbn [fst snd] in P.
    assert (e0 = e) as -> by congruence. apply (f_equal snd) in P. cbn [snd] in P.
    assert (N : e = KeyError /\ sget (lit "timestamp") (ds_data x) = None).
    { unfold table_line, lookup in Ex. cbv zeta in Ex. destruct (sget (lit "timestamp") (ds_data x)); [discriminate|]. cbn in Ex. split; [congruence|reflexivity]. }
    destruct N as (-> & N). split; [reflexivity|]. exists a, x, b.
    pose proof (ssort_sorted (fun a b => str_leb (row_key a) (row_key b)) (fun a b => str_leb_total _ _) (fun a b c => str_leb_trans _ _ _) (u_data u)) as S.
    fold ds in S. rewrite Ed in S. split; [rewrite <- Ed; symmetry; apply ssort_perm|]. split; [|split; [exact N|]].
    + unfold sorted in S. revert S. generalize (a ++ x :: b). intros l S. induction S as [|y l Hl IH Hx]; constructor; auto. eapply Forall_impl; [|exact Hx].
      intros z Hz Hc. cbv beta in Hz. unfold str_leb in Hz. change (str_cmp (row_key y) (row_key z) = Gt) in Hc. rewrite Hc in Hz. discriminate.
    + apply show_info_report; try assumption. unfold show_info.
      change (version_lines (set_data a u)) with (version_lines u). change (info_lines vstr verbose (set_data a u)) with (info_lines vstr verbose u).
      change (multi_lines lstr verbose (set_data a u)) with (multi_lines lstr verbose u). rewrite V, A, B. cbn [bind].
      assert (T : table_lines (set_data a u) = Ok ls).
      { unfold table_lines. change (u_data (set_data a u)) with a. rewrite ssort_id; [exact Ma|].
        unfold sorted in *. clear -S. induction a as [|y l IH]; [constructor|]. cbn [app] in S. apply StronglySorted_inv in S as (S1 & S2).
        constructor; [apply IH, S1|]. apply Forall_app in S2 as (S2 & _). exact S2. }
      rewrite T. cbn [bind]. rewrite <- P. reflexivity.
  - left. assert (e' = e) as -> by congruence. apply (f_equal snd) in P. cbn [snd] in P. subst out.
    unfold version_lines, get_version_info_str, get_version_info in V. destruct (sget (lit "ver_sw_release") (u_info u)) as [v|] eqn:G; [|discriminate].
    assert (T : e = TypeError /\ (forall z, v <> VInt z) /\ (forall b, v <> VBool b)).
    { destruct v; cbn in V; try (destruct (64 <=? _); discriminate); split; try congruence; split; discriminate. }
    destruct T as (-> & T). split; [reflexivity|]. split; [exists v; auto|].
    exists (hms_text (u_start u / 1000000)), (hms_text ((u_last u - u_start u) / 1000000)), (dropout_line u).
    split; [apply hms_of|]. split; [apply hms_of|]. split; [apply dropout_line_spec, H3|]. unfold warn_lines, time_line. rewrite !whole_seconds_exact by assumption. reflexivity.
Qed.

(** ** -m *)
Lemma entry_agrees name sep i m ls : entry_lines name sep i m = Ok ls -> prints (entry_prints name sep i m) = (Ok tt, ls).
Proof.
  unfold entry_lines, entry_prints. intros E. destruct m as [|[]]; cbn [prints];
    try (destruct (mapM item_len _) as [ns|]; [|discriminate E]; cbn [bind] in E |- *);
    (destruct (mapM _ _) as [ts|]; [|discriminate E]); cbn [bind rmap] in E |- *; injection E as <-; reflexivity.
Qed.
Lemma entries_agree name sep l : forall i, match entries_lines name sep i l with
  | Ok ls => prints (entries_prints name sep i l) = (Ok tt, ls)
  | Err e => fst (prints (entries_prints name sep i l)) = Err e end.
Proof.
  induction l as [|m r IH]; intros i; [reflexivity|]. cbn [entries_lines entries_prints]. rewrite prints_app.
  destruct (entry_lines name sep i m) as [a|e] eqn:E; cbn [bind].
  - rewrite (entry_agrees _ _ _ _ _ E). specialize (IH (S i)). destruct (entries_lines name sep (S i) r) as [b|e]; cbn [bind].
    + rewrite IH. reflexivity.
    + exact IH.
  - destruct (prints (entry_prints name sep i m)) as [[]] eqn:P; cbn [fst]; [|].
    + exfalso. revert E P. unfold entry_lines, entry_prints. destruct m as [|[]]; cbn [prints];
      try (destruct (mapM item_len _) as [ns|]; cbn [bind]; [|discriminate]);
      (destruct (mapM _ _) as [ts|]; cbn [bind rmap]; discriminate).
    + revert E P. unfold entry_lines, entry_prints. destruct m as [|[]]; cbn [prints];
      try (destruct (mapM item_len _) as [ns|]; cbn [bind]; [|intros; congruence]);
      (destruct (mapM _ _) as [ts|]; cbn [bind rmap]; [discriminate|intros; congruence]).
Qed.

Lemma entries_split name sep a b : forall i, entries_prints name sep i (a ++ b) = entries_prints name sep i a ++ entries_prints name sep (i + length a) b.
Proof.
  induction a as [|m r IH]; intros i; cbn [app entries_prints length]; [now rewrite Nat.add_0_r|]. replace (i + S (length r))%nat with (S i + length r)%nat by lia. rewrite IH, <- app_assoc. reflexivity.
Qed.
(** An entry that begins with a number ends -m with a TypeError: on the screen are the entries before it and its heading. *)
Theorem C55_message_failed : forall name newline u before v m after, sget name (u_multi u) = Some (before ++ (v :: m) :: after) ->
  Forall (fun m => (exists l, l <> [] /\ Forall bytes_ok l /\ m = map VBytes l) \/ (exists l, m = map VStr l)) before ->
  (forall b, v <> VBytes b) -> (forall s, v <> VStr s) ->
  exists pages, prints (message_prints name newline u) = (Err TypeError, concat pages ++ [lit "# " ++ name ++ lit " " ++ str_of_Z (lenZ before) ++ lit ":"]) /\
    length pages = length before /\
    forall i m, nth_error before i = Some m ->
      (forall l, l <> [] -> Forall bytes_ok l -> m = map VBytes l -> exists t, nth_error pages i = Some
         [lit "# " ++ name ++ lit " " ++ str_of_Z (Z.of_nat i) ++ lit " (len: " ++ str_of_Z (lenZ (concat l)) ++ lit "):"; t] /\
         spelled (concat l) t) /\
      (forall l, m = map VStr l -> nth_error pages i = Some
         [lit "# " ++ name ++ lit " " ++ str_of_Z (Z.of_nat i) ++ lit ":"; if newline then separated [10] l else concat l]).
Proof.
  intros name newline u before v m after E G Nb Ns.
  assert (E1 : sget name (u_multi (set_multi [(name, before)] u)) = Some before).
  { change (u_multi (set_multi [(name, before)] u)) with [(name, before)]. unfold sget. cbn [dget fst snd]. rewrite str_eqb_refl. reflexivity. }
  destruct (C55_message name newline (set_multi [(name, before)] u) before E1 G) as (pages & A & B & C).
  exists pages. split; [|split; assumption]. unfold message_prints. rewrite E. unfold show_message in A. rewrite E1 in A.
  rewrite entries_split, prints_app. generalize (entries_agree name (if newline then [10] else []) before 0). rewrite A. intros ->.
  cbn [entries_prints]. rewrite prints_app. unfold lenZ. cbn [Nat.add].
  destruct v; try (exfalso; eapply Nb; reflexivity); try (exfalso; eapply Ns; reflexivity); reflexivity.
Qed.

(** ** the program *)
(** What C68 says of ulog_info (C68_info_text and others) holds with the screen of a failing run in the model as well. *)
Theorem C68_info_screen : forall vstr lstr ld file ign verbose newline message k,
  let r := info_program vstr lstr ld file ign verbose newline message k in
  let c := info_command vstr lstr ld file ign verbose newline message k in
  r_out r = r_out c /\ r_disk r = k /\ (r_out c = Exit 0 -> r = c).
Proof.
  intros vstr lstr ld file ign verbose newline message k. cbv zeta. unfold info_program, info_command. destruct (open_log ld k file ign no_filter) as [u|e]; [|cbn; auto].
  assert (X : match info_main vstr lstr verbose newline message u with
              | Ok ls => prints (main_prints vstr lstr verbose newline message u) = (Ok tt, ls)
              | Err e => fst (prints (main_prints vstr lstr verbose newline message u)) = Err e end).
  { unfold info_main, main_prints.
    assert (M : forall n, match show_message n newline u with Ok ls => prints (message_prints n newline u) = (Ok tt, ls) | Err e => fst (prints (message_prints n newline u)) = Err e end).
    { intros n. unfold show_message, message_prints. destruct (sget n (u_multi u)) as [l|]; [apply entries_agree|reflexivity]. }
    destruct message as [[|x n]|]; [apply C55_agrees|apply M|apply C55_agrees]. }
  destruct (info_main vstr lstr verbose newline message u) as [ls|e].
  - rewrite X. cbn. auto.
  - destruct (prints (main_prints vstr lstr verbose newline message u)) as [r ls]. cbn [fst] in X. subst r. cbn. split; [reflexivity|]. split; [reflexivity|discriminate].
Qed.
(** The screen is the lines printed, each ended by a newline. *)
Theorem C68_info_lines : forall vstr lstr ld file ign verbose newline k u, open_log ld k file ign (fun _ => true) = Ok u ->
  (forall message, message = None \/ message = Some [] ->
     r_print (info_program vstr lstr ld file ign verbose newline message k) = separated [10] (snd (prints (report_prints vstr lstr verbose u)) ++ [[]])) /\
  (forall name, name <> [] ->
     r_print (info_program vstr lstr ld file ign verbose newline (Some name) k) = separated [10] (snd (prints (message_prints name newline u)) ++ [[]])).
Proof.
  intros vstr lstr ld file ign verbose newline k u O. change (fun _ : str => true) with no_filter in O. unfold info_program. rewrite O. split.
  - intros message M. replace (main_prints vstr lstr verbose newline message u) with (report_prints vstr lstr verbose u) by (destruct M as [->| ->]; reflexivity).
    destruct (prints (report_prints vstr lstr verbose u)) as [r ls]. cbn [r_print snd]. apply lines_separated.
  - intros name N. replace (main_prints vstr lstr verbose newline (Some name) u) with (message_prints name newline u) by (destruct name; [contradiction|reflexivity]).
    destruct (prints (message_prints name newline u)) as [r ls]. cbn [r_print snd]. apply lines_separated.
Qed.

(** ** Examples *)
(** a topic "b" without times after a topic "a": the row of "a" is on the screen *)
Definition shown_file : bytes := hdr0 ++
  frame_of (wire (MFormat (lit "a") [(lit "uint64_t", 0, lit "timestamp")])) ++ frame_of (wire (MFormat (lit "b") [(lit "uint8_t", 0, lit "x")])) ++
  frame_of (wire (MAdd 0 2 (lit "b"))) ++ frame_of (wire (MAdd 0 1 (lit "a"))) ++
  frame_of (wire (MData 1 [1; 0; 0; 0; 0; 0; 0; 0])) ++ frame_of (wire (MData 2 [7])).
Example C55_ex_failed : exists u, produces cf0 shown_file (Ok u) /\
  fst (prints (report_prints c55_v (fun _ => []) false u)) = Err KeyError /\
  nth_error (snd (prints (report_prints c55_v (fun _ => []) false u))) 5 = Some (ljust 41 (lit " a (0, 8)") ++ lit "       1          8") /\
  length (snd (prints (report_prints c55_v (fun _ => []) false u))) = 6%nat.
Proof. eexists. split; [exists 12%nat; vm_compute; reflexivity|]. vm_compute. auto. Qed.
(** a multi info message of numbers, from a file *)
Example C55_ex_message_failed : exists u, produces cf0 (hdr0 ++ frame_of (wire (MMulti 0 (lit "int32_t") (lit "k") [5; 0; 0; 0]))) (Ok u) /\
  prints (message_prints (lit "k") false u) = (Err TypeError, [lit "# k 0:"]).
Proof. eexists. split; [exists 12%nat; vm_compute; reflexivity|]. vm_compute. reflexivity. Qed.
