(** Names and effects of the command-line programs. *)
From Verif Require Import Base Dict PyStr Utf8 PyFloat Struct ModelTypes ModelApi ModelTools ModelInfo ModelKml ModelPartial SpecTools SpecPartial ModelRead Spec SpecSection SpecFilter ModelCommand SpecCommand ProofsText ProofsWindow ProofsPartial.

(** ** Names *)
Lemma basename_from_spec s : forall acc, ~ In 47 acc -> exists b, basename_from acc s = b /\ ~ In 47 b /\
  ((~ In 47 s /\ b = rev acc ++ s) \/ exists dir, s = dir ++ [47] ++ b).
Proof.
  induction s as [|c s IH]; intros acc Ha; cbn [basename_from].
  - exists (rev acc). split; [reflexivity|]. split; [rewrite <- in_rev; exact Ha|]. left. split; [intros []|]. rewrite app_nil_r. reflexivity.
  - destruct (Z.eqb_spec c 47) as [->|N].
    + destruct (IH [] (fun x => x)) as (b & E & Hb & [(Hs & Eb)|(dir & Es)]).
      * exists b. split; [exact E|]. split; [exact Hb|]. right. exists []. cbn [rev app] in Eb. rewrite Eb. reflexivity.
      * exists b. split; [exact E|]. split; [exact Hb|]. right. exists (47 :: dir). rewrite Es at 1. reflexivity.
    + destruct (IH (c :: acc)) as (b & E & Hb & [(Hs & Eb)|(dir & Es)]).
      { intros [Q|Q]; [congruence|contradiction]. }
      * exists b. split; [exact E|]. split; [exact Hb|]. left. split; [intros [Q|Q]; [congruence|contradiction]|]. cbn [rev] in Eb. rewrite Eb, <- app_assoc. reflexivity.
      * exists b. split; [exact E|]. split; [exact Hb|]. right. exists (c :: dir). rewrite Es at 1. reflexivity.
Qed.
Lemma basename_spec s : last_part s (basename s).
Proof.
  destruct (basename_from_spec s [] (fun x => x)) as (b & E & Hb & H). unfold basename. rewrite E. split; [exact Hb|].
  destruct H as [(_ & H)|H]; [left; cbn in H; congruence|right; exact H].
Qed.
(** cut at the last slash *)
Lemma last_slash dir dir' a b : ~ In 47 a -> ~ In 47 b -> dir ++ [47] ++ a = dir' ++ [47] ++ b -> a = b.
Proof.
  revert dir'. induction dir as [|c dir IH]; intros [|c' dir'] Ha Hb H; cbn [app] in H.
  - now injection H.
  - injection H as H1 H2. exfalso. apply Ha. rewrite H2. apply in_or_app. right. left. reflexivity.
  - injection H as H1 H2. exfalso. apply Hb. rewrite <- H2. apply in_or_app. right. left. reflexivity.
  - injection H as H1 H2. exact (IH dir' Ha Hb H2).
Qed.
Lemma last_part_fun path a b : last_part path a -> last_part path b -> a = b.
Proof.
  intros (Ha & [Ea|(da & Ea)]) (Hb & [Eb|(db & Eb)]).
  - congruence.
  - exfalso. subst. apply Ha. apply in_or_app. right. left. reflexivity.
  - exfalso. subst. apply Hb. apply in_or_app. right. left. reflexivity.
  - apply (last_slash da db); congruence.
Qed.
Lemma last_part_app path base x : last_part path base -> ~ In 47 x -> last_part (path ++ x) (base ++ x).
Proof.
  intros (Hb & H) Hx. split; [intros Q; apply in_app_or in Q; tauto|]. destruct H as [->|(dir & ->)]; [left; reflexivity|].
  right. exists dir. rewrite <- !app_assoc. reflexivity.
Qed.
Lemma within_last dir base path : ~ In 47 base -> within dir base path -> last_part path base.
Proof.
  intros Hb [((d & ->) & ->)|(_ & ->)]; (split; [exact Hb|]); right; [exists d; rewrite <- app_assoc|exists dir]; reflexivity.
Qed.
Lemma join_path_spec dir base : dir <> [] -> within dir base (join_path dir base).
Proof.
  intros N. unfold join_path. destruct (rev dir) as [|c r] eqn:E.
  - exfalso. apply N. apply (f_equal (@rev Z)) in E. rewrite rev_involutive in E. exact E.
  - apply (f_equal (@rev Z)) in E. rewrite rev_involutive in E. cbn [rev] in E. destruct (Z.eqb_spec c 47) as [->|Nc].
    + left. split; [exists (rev r); exact E|reflexivity].
    + right. split; [|reflexivity]. intros d Ed. rewrite E in Ed. apply app_inj_tail in Ed. tauto.
Qed.
(** the suffix *)
Lemma lower_dot c : lower c = 46 -> c = 46.
Proof. unfold lower. destruct (65 <=? c) eqn:A; destruct (c <=? 90) eqn:B; cbn [andb]; lia. Qed.
Lemma lower_letter c l : 97 <= l <= 122 -> lower c = l -> c = l \/ c = l - 32.
Proof. unfold lower. destruct (65 <=? c) eqn:A; destruct (c <=? 90) eqn:B; cbn [andb]; lia. Qed.
Lemma ulg_lower x : ulg_suffix x <-> map lower x = lit ".ulg".
Proof.
  split.
  - intros (u & l & g & -> & [->| ->] & [->| ->] & [->| ->]); reflexivity.
  - intros H. change (lit ".ulg") with [46; 117; 108; 103] in H. destruct x as [|a [|b [|c [|d [|]]]]]; try discriminate H. cbn [map] in H.
    injection H as H1 H2 H3 H4. exists b, c, d. apply lower_dot in H1. apply (lower_letter b 117) in H2; [|lia]. apply (lower_letter c 108) in H3; [|lia].
    apply (lower_letter d 103) in H4; [|lia]. subst a. split; [reflexivity|]. lia.
Qed.
Lemma ulg_length x : ulg_suffix x -> length x = 4%nat.
Proof. intros (u & l & g & -> & _). reflexivity. Qed.
Lemma strip_ulg_spec file : stem file (strip_ulg file).
Proof.
  unfold strip_ulg. set (n := (length file - 4)%nat). destruct (str_eqb_spec (map lower (skipn n file)) (lit ".ulg")) as [E|N].
  - left. exists (skipn n file). split; [apply ulg_lower; exact E|]. symmetry. apply firstn_skipn.
  - right. split; [|reflexivity]. intros t x Hx E. apply N. assert (Hn : n = length t). { unfold n. rewrite E, app_length, (ulg_length x Hx). lia. }
    rewrite Hn, E, skipn_app, skipn_all, Nat.sub_diag. cbn [app skipn]. apply ulg_lower. exact Hx.
Qed.
Lemma stem_fun file a b : stem file a -> stem file b -> a = b.
Proof.
  intros [(x & Hx & Ex)|(Na & ->)] [(y & Hy & Ey)|(Nb & ->)]; [|destruct (Nb a x Hx Ex)|destruct (Na b y Hy Ey)|reflexivity].
  rewrite Ex in Ey. assert (L : length a = length b). { apply (f_equal (@length Z)) in Ey. rewrite !app_length, (ulg_length x Hx), (ulg_length y Hy) in Ey. lia. }
  apply (f_equal (firstn (length a))) in Ey. rewrite firstn_app, Nat.sub_diag, firstn_all in Ey. rewrite L, firstn_app, Nat.sub_diag, firstn_all in Ey. cbn [firstn] in Ey. rewrite !app_nil_r in Ey. exact Ey.
Qed.
Lemma csv_prefix_spec file output : csv_place file output (csv_prefix file output).
Proof.
  exists (strip_ulg file). split; [apply strip_ulg_spec|]. unfold csv_prefix. destruct output as [[|c o]|]; cbn [nonempty]; try reflexivity.
  exists (basename (strip_ulg file)). split; [apply basename_spec|]. apply join_path_spec. discriminate.
Qed.
Lemma gps_prefix_spec a : (forall o, ga_output a = Some o -> o <> []) -> gps_place (ga_file a) (ga_output a) (gps_prefix a).
Proof.
  intros N. exists (basename (ga_file a)), (strip_ulg (basename (ga_file a))). split; [apply basename_spec|]. split; [apply strip_ulg_spec|].
  unfold gps_prefix. destruct (ga_output a) as [o|]; [|reflexivity]. apply join_path_spec. apply N. reflexivity.
Qed.
Lemma flat_name_spec s : flat_name s (no_slash s).
Proof.
  unfold flat_name, no_slash. induction s as [|c s IH]; [constructor|]. cbn [map]. constructor; [|exact IH]. destruct (Z.eqb_spec c 47); [left|right]; auto.
Qed.
Lemma flat_name_fun s t : flat_name s t -> t = no_slash s.
Proof.
  unfold no_slash. induction 1 as [|a b s t H F IH]; [reflexivity|]. cbn [map]. rewrite <- IH. f_equal. destruct (Z.eqb_spec a 47); destruct H as [(? & ?)|(? & ?)]; congruence.
Qed.
Lemma csv_file_name p d name : csv_file_of p d name <-> name = csv_name p d.
Proof.
  split.
  - intros (t & Ht & ->). apply flat_name_fun in Ht. subst t. reflexivity.
  - intros ->. exists (no_slash (ds_name d)). split; [apply flat_name_spec|reflexivity].
Qed.
Lemma no_slash_47 s : ~ In 47 (no_slash s).
Proof. unfold no_slash. rewrite in_map_iff. intros (c & E & _). destruct (c =? 47) eqn:Q; lia. Qed.
Lemma dec_47 n : ~ In 47 (str_of_Z n).
Proof.
  intros H. unfold str_of_Z in H. destruct (n <? 0) eqn:N.
  - destruct H as [H|H]; [discriminate|]. assert (G : In 47 (str_of_Z (-n))) by (unfold str_of_Z; replace (-n <? 0) with false by lia; exact H).
    apply (ProofsMsg.size_digits (-n) 47) in G; lia.
  - assert (G : In 47 (str_of_Z n)) by (unfold str_of_Z; rewrite N; exact H). apply (ProofsMsg.size_digits n 47) in G; lia.
Qed.
Lemma prefix_or p file output : csv_place file output p -> p = file \/ (exists x, ulg_suffix x /\ file = p ++ x) \/
  (exists b c, last_part p b /\ last_part file c /\ (c = b \/ exists x, ulg_suffix x /\ c = b ++ x)).
Proof.
  intros (s & Hs & H). destruct output as [[|o0 o]|].
  - subst p. destruct Hs as [H|(_ & ->)]; auto.
  - destruct H as (b & Hb & Hw). right. right. pose proof (within_last _ _ _ (proj1 Hb) Hw) as Hp. destruct Hs as [(x & Hx & ->)|(_ & ->)].
    + exists b, (b ++ x). split; [exact Hp|]. split; [|right; exists x; auto]. apply last_part_app; [exact Hb|].
      destruct Hx as (u & l & g & -> & A & B & C). intros Q. cbn [In] in Q. lia.
    + exists b, b. auto.
  - subst p. destruct Hs as [H|(_ & ->)]; auto.
Qed.
(** no output has the name of the log *)
Lemma csv_name_file file output d : csv_name (csv_prefix file output) d <> file.
Proof.
  set (p := csv_prefix file output). pose proof (csv_prefix_spec file output : csv_place file output p) as H. unfold csv_name. intros E.
  set (y := lit "_" ++ no_slash (ds_name d) ++ lit "_" ++ str_of_Z (ds_multi d) ++ lit ".csv") in E.
  assert (Hy : ~ In 47 y).
  { unfold y. rewrite !in_app_iff. intros [Q|[Q|[Q|[Q|Q]]]]; [cbn in Q; lia|exact (no_slash_47 _ Q)|cbn in Q; lia|exact (dec_47 _ Q)|cbn in Q; lia]. }
  assert (Hh : exists z, y = 95 :: z) by (eexists; reflexivity). destruct Hh as (z & Hz).
  destruct (prefix_or p file output H) as [Ep|[(x & (u & l & g & Hx & _) & Ep)|(b & c & Hb & Hc & Ec)]].
  - rewrite Ep in E. apply (f_equal (@length Z)) in E. rewrite app_length, Hz in E. cbn [length] in E. lia.
  - rewrite Ep in E. apply app_inv_head in E. rewrite Hz, Hx in E. discriminate.
  - rewrite <- E in Hc. pose proof (last_part_fun _ _ _ Hc (last_part_app p b y Hb Hy)) as Q. destruct Ec as [->|(x & (u & l & g & Hx & _) & ->)].
    + apply (f_equal (@length Z)) in Q. rewrite app_length, Hz in Q. cbn [length] in Q. lia.
    + apply app_inv_head in Q. rewrite Hz, Hx in Q. discriminate.
Qed.
Lemma gps_name_file a p inst x : gps_place (ga_file a) (ga_output a) p -> ~ In 47 x -> (p ++ lit "_" ++ str_of_Z inst) ++ x <> ga_file a.
Proof.
  intros (b & s & Hb & Hs & H) Hx E. rewrite <- app_assoc in E. set (y := (lit "_" ++ str_of_Z inst) ++ x) in E.
  assert (Hy : ~ In 47 y). { unfold y. rewrite !in_app_iff. intros [[Q|Q]|Q]; [cbn in Q; lia|exact (dec_47 _ Q)|exact (Hx Q)]. }
  assert (Hh : exists z, y = 95 :: z) by (eexists; reflexivity). destruct Hh as (z & Hz).
  assert (Hn : ~ In 47 s). { destruct Hs as [(t & _ & ->)|(_ & ->)]; [|exact (proj1 Hb)]. intros Q. apply (proj1 Hb). apply in_or_app. left. exact Q. }
  assert (Hp : last_part p s). { destruct (ga_output a) as [o|]; [exact (within_last _ _ _ Hn H)|subst p; split; [exact Hn|left; reflexivity]]. }
  rewrite <- E in Hb. pose proof (last_part_fun _ _ _ Hb (last_part_app p s y Hp Hy)) as Q. destruct Hs as [(t & (u & l & g & Ht & _) & Es)|(_ & ->)].
  - rewrite Es in Q. apply app_inv_head in Q. rewrite Hz, Ht in Q. discriminate.
  - apply (f_equal (@length Z)) in Q. rewrite app_length, Hz in Q. cbn [length] in Q. lia.
Qed.

(** ** Options *)
Lemma listed_In names n : listed names n = true <-> In n names.
Proof.
  unfold listed. rewrite existsb_exists. split; [intros (x & Hx & E); apply str_eqb_eq in E; subst; exact Hx|].
  intros H. exists n. split; [exact H|]. apply str_eqb_eq. reflexivity.
Qed.
Lemma csv_filter_spec m topic : csv_filter m topic = true <-> asked m topic.
Proof.
  unfold csv_filter, asked. destruct m as [[|c s]|]; cbn [nonempty]; try (split; [constructor|reflexivity]).
  rewrite listed_In. destruct (separated_split 44 (c :: s)) as (E & F). split.
  - intros H. exists (split1 44 (c :: s)). auto.
  - intros (names & En & Fn & H). rewrite En, split_separated; [exact H| |exact Fn]. intros ->. discriminate.
Qed.

(** ** Effects *)
Lemma file_put n c k name : file_of (put n c k) name = if str_eqb n name then Some c else file_of k name.
Proof.
  unfold file_of, put. cbn [k_files]. destruct (str_eqb_spec n name) as [->|N]; [apply (dget_dset_eq str_eqb str_eqb_spec)|].
  apply (dget_dset_neq str_eqb str_eqb_spec). congruence.
Qed.
Lemma put_texts_file l : NoDup (dkeys l) -> forall k name, file_of (put_texts l k) name = match sget name l with Some t => Some (Text t) | None => file_of k name end.
Proof.
  induction l as [|[n t] l IH]; intros H k name; [reflexivity|]. cbn [dkeys map] in H. inversion H as [|? ? Hn Hl]; subst. cbn [put_texts]. rewrite (IH Hl).
  change (sget name ((n, t) :: l)) with (if str_eqb name n then Some t else sget name l). destruct (str_eqb_spec name n) as [->|N].
  - destruct (sget n l) as [x|] eqn:E; [exfalso; apply Hn; apply (dget_In str_eqb str_eqb_spec) in E; apply (in_map fst) in E; exact E|].
    rewrite file_put. replace (str_eqb n n) with true by (symmetry; apply str_eqb_eq; reflexivity). reflexivity.
  - destruct (sget name l); [reflexivity|]. rewrite file_put. destruct (str_eqb_spec n name); [congruence|reflexivity].
Qed.
Lemma csv_files_names fstr p delim s e ds : forall disk r disk', csv_files fstr p delim s e ds disk = (r, disk') -> NoDup (dkeys disk) ->
  NoDup (dkeys disk') /\ forall name, In name (dkeys disk') -> In name (dkeys disk) \/ exists d, In d ds /\ name = csv_name p d.
Proof.
  induction ds as [|d ds IH]; intros disk r disk' H N; cbn [csv_files] in H.
  - injection H as _ <-. split; [exact N|]. auto.
  - destruct (csv_file fstr p delim s e d disk) as [r1 disk1] eqn:E.
    assert (G : NoDup (dkeys disk1) /\ forall name, In name (dkeys disk1) -> In name (dkeys disk) \/ name = csv_name p d).
    { unfold csv_file in E. destruct (len_ts d); [|injection E as _ <-; auto]. destruct (puts _) as [r2 t]. injection E as _ <-.
      split; [apply (NoDup_dset str_eqb str_eqb_spec); exact N|]. intros name Hn. apply in_map_iff in Hn. destruct Hn as ([n x] & <- & Hn). cbn [fst].
      destruct (str_eqb_spec n (csv_name p d)) as [->|Nn]; [right; reflexivity|]. left.
      apply (In_dget str_eqb str_eqb_spec) in Hn; [|apply (NoDup_dset str_eqb str_eqb_spec); exact N].
      rewrite (dget_dset_neq str_eqb str_eqb_spec) in Hn by exact Nn. apply (dget_In str_eqb str_eqb_spec) in Hn. apply (in_map fst) in Hn. exact Hn. }
    destruct G as (N1 & G). destruct r1 as [[]|x].
    + destruct (IH _ _ _ H N1) as (N2 & G2). split; [exact N2|]. intros name Hn. destruct (G2 name Hn) as [H2|(d' & Hd & ->)].
      * destruct (G name H2) as [H3|H3]; [left; exact H3|right; exists d; split; [left; reflexivity|exact H3]].
      * right. exists d'. split; [right; exact Hd|reflexivity].
    + injection H as _ <-. split; [exact N1|]. intros name Hn. destruct (G name Hn) as [H3|H3]; [left; exact H3|right; exists d; split; [left; reflexivity|exact H3]].
Qed.
Lemma make_dir_files o k k1 : make_dir o k = Ok k1 -> k_files k1 = k_files k.
Proof.
  unfold make_dir. destruct (nonempty o) as [x|]; [|congruence]. destruct (isdir k x); [congruence|]. destruct (sget x (k_files k)); [discriminate|].
  intros E. injection E as <-. reflexivity.
Qed.
Lemma open_log_files ld k k1 name ign keep u : k_files k1 = k_files k -> open_log ld k1 name ign keep = Ok u -> open_log ld k name ign keep = Ok u.
Proof.
  unfold open_log. intros ->. destruct (sget name (k_files k)) as [[| |]|]; auto. destruct (isdir k1 name); discriminate.
Qed.
(** the files of a run of ulog2csv *)
Lemma csv_command_files fstr ld a k name :
  file_of (r_disk (csv_command fstr ld a k)) name = file_of k name \/
  exists u d, open_log ld k (ca_file a) (ca_ignore a) (csv_filter (ca_messages a)) = Ok u /\ In d (u_data u) /\
    name = csv_name (csv_prefix (ca_file a) (ca_output a)) d.
Proof.
  unfold csv_command. destruct (make_dir (ca_output a) k) as [k1|x] eqn:Ek; [|left; reflexivity]. apply make_dir_files in Ek.
  assert (F : forall n, file_of k1 n = file_of k n) by (intros n; unfold file_of; rewrite Ek; reflexivity).
  destruct (open_log ld k1 _ _ _) as [u|x] eqn:Eo; [|left; apply F]. apply (open_log_files ld k) in Eo; [|exact Ek].
  destruct (csv_files _ _ _ _ _ _ _) as [r texts] eqn:Ec. cbn [r_disk].
  destruct (csv_files_names _ _ _ _ _ _ _ _ _ Ec (NoDup_nil _)) as (N & G). rewrite (put_texts_file _ N). destruct (sget name texts) as [t|] eqn:E; [|left; apply F].
  right. apply (dget_In str_eqb str_eqb_spec) in E. apply (in_map fst) in E. destruct (G _ E) as [[]|(d & Hd & Hn)]. exists u, d. auto.
Qed.
(** a conversion without a failing topic *)
Lemma foldM_texts {A} (f : A -> res str) (nm : A -> str) l : forall files0,
  match foldM (fun files d => let* t := f d in Ok (sset (nm d) t files)) l files0 with
  | Ok files => (forall d, In d l -> exists t, f d = Ok t) /\
      (forall n, ~ In n (map nm l) -> sget n files = sget n files0) /\
      (NoDup (map nm l) -> forall d t, In d l -> f d = Ok t -> sget (nm d) files = Some t)
  | Err e => exists d, In d l /\ f d = Err e
  end.
Proof.
  induction l as [|d l IH]; intros files0; cbn [foldM].
  - split; [intros d []|]. split; [reflexivity|intros _ d t []].
  - destruct (f d) as [t|e] eqn:E; cbn [bind]; [|exists d; split; [left; reflexivity|exact E]].
    specialize (IH (sset (nm d) t files0)). destruct (foldM _ l _) as [files|e].
    + destruct IH as (A1 & B & C). split; [intros d' [<-|Hd]; [exists t; exact E|apply A1; exact Hd]|]. split.
      * intros n Hn. rewrite B by (intros Q; apply Hn; right; exact Q). rewrite (dget_dset_neq str_eqb str_eqb_spec); [reflexivity|]. intros Q. apply Hn. left. congruence.
      * intros N d' t' [<-|Hd] E'; inversion N as [|? ? Hn N']; subst.
        -- rewrite B by exact Hn. rewrite E in E'. injection E' as <-. apply (dget_dset_eq str_eqb str_eqb_spec).
        -- apply C; assumption.
    + destruct IH as (d' & Hd & Ed). exists d'. split; [right; exact Hd|exact Ed].
Qed.
Lemma csv_command_converts fstr ld a k u : make_dir (ca_output a) k <> Err FileExistsError ->
  open_log ld k (ca_file a) (ca_ignore a) (csv_filter (ca_messages a)) = Ok u ->
  let r := csv_command fstr ld a k in
  match convert_ulog2csv fstr (csv_prefix (ca_file a) (ca_output a)) (ca_delim a) (ca_start a) (ca_end a) u with
  | Ok files => r_out r = Exit 0 /\ forall name, file_of (r_disk r) name = match sget name files with Some t => Some (Text t) | None => file_of k name end
  | Err e => r_out r = Raised e
  end.
Proof.
  intros Hd Ho r. unfold r, csv_command. destruct (make_dir (ca_output a) k) as [k1|x] eqn:Ek.
  2:{ exfalso. apply Hd. unfold make_dir in Ek. destruct (nonempty _); [|discriminate]. destruct (isdir k s); [discriminate|]. destruct (sget s (k_files k)); [congruence|discriminate]. }
  apply make_dir_files in Ek. assert (F : forall n, file_of k1 n = file_of k n) by (intros n; unfold file_of; rewrite Ek; reflexivity).
  assert (Ho1 : open_log ld k1 (ca_file a) (ca_ignore a) (csv_filter (ca_messages a)) = Ok u).
  { unfold open_log in *. rewrite Ek. destruct (sget _ _) as [[| |]|]; auto. destruct (isdir k _) in Ho; discriminate. }
  rewrite Ho1. set (p := csv_prefix (ca_file a) (ca_output a)).
  pose proof (disk_run fstr p (ca_delim a) (ca_start a) (ca_end a) [] (u_data u) [] [] (fun n => eq_refl)) as D. cbv zeta in D.
  match type of D with match ?x with _ => _ end => change x with (convert_ulog2csv fstr p (ca_delim a) (ca_start a) (ca_end a) u) in D end.
  destruct (convert_ulog2csv _ _ _ _ _ u) as [files|e].
  - destruct D as (texts & Ec & Et). destruct (csv_files _ _ _ _ _ _ _) as [r0 t0] eqn:Ex. injection Ec as -> ->. cbn [r_out r_disk]. split; [reflexivity|]. intros name.
    destruct (csv_files_names _ _ _ _ _ _ _ _ _ Ex (NoDup_nil _)) as (N & _). rewrite (put_texts_file _ N), Et. unfold over.
    destruct (sget name files); [reflexivity|]. cbn. apply F.
  - destruct D as (pre & d & post & files & cur & _ & _ & _ & Ec & _). destruct (csv_files _ _ _ _ _ _ _) as [r0 t0] eqn:Ex. injection Ec as -> ->. reflexivity.
Qed.

(** ** GPS dump *)
Lemma isdir_some k o : isdir k o = true -> o <> [].
Proof. unfold isdir. intros H ->. discriminate. Qed.
Lemma gps_command_files ld a k name :
  file_of (r_disk (gps_command ld a k)) name = file_of k name \/
  exists inst p x, py_int (ga_instance a) = Ok inst /\ gps_place (ga_file a) (ga_output a) p /\
    name = (p ++ lit "_" ++ str_of_Z inst) ++ x /\ (x = lit "_to_device.dat" \/ x = lit "_from_device.dat").
Proof.
  unfold gps_command. destruct (match ga_output a with Some o => negb (isdir k o) | None => false end) eqn:Ed; [left; reflexivity|].
  destruct (py_int (ga_instance a)) as [inst|e]; [|left; reflexivity]. destruct (open_log _ _ _ _ _) as [u|e]; [|left; reflexivity].
  destruct (gps_files u inst) as [[r [t f]]|]; [|left; reflexivity]. cbn [r_disk]. rewrite !file_put.
  assert (P : gps_place (ga_file a) (ga_output a) (gps_prefix a)).
  { apply gps_prefix_spec. intros o Eo. rewrite Eo in Ed. apply (isdir_some k). destruct (isdir k o); [reflexivity|discriminate]. }
  destruct (str_eqb_spec ((gps_prefix a ++ lit "_" ++ str_of_Z inst) ++ lit "_from_device.dat") name) as [<-|N1];
    [|destruct (str_eqb_spec ((gps_prefix a ++ lit "_" ++ str_of_Z inst) ++ lit "_to_device.dat") name) as [<-|N2]; [|left; reflexivity]].
  - right. exists inst, (gps_prefix a), (lit "_from_device.dat"). auto.
  - right. exists inst, (gps_prefix a), (lit "_to_device.dat"). auto.
Qed.

(** ** Loading nothing: without subscriptions the time stands still *)
Lemma no_subscription cf fmts evs id : (forall n, cf_filter cf n = false) -> subscription cf fmts evs id = None.
Proof.
  intros H. unfold subscription. rewrite <- (rev_involutive evs). induction (rev evs) as [|e r IH]; [reflexivity|]. cbn [rev]. rewrite fold_left_app, IH. cbn [fold_left].
  unfold sub_step. destruct e as [ty p| |]; try reflexivity. destruct (ty =? 65).
  - destruct (parse_add cf fmts p); [|reflexivity]. rewrite H, Bool.andb_false_r. reflexivity.
  - destruct (ty =? 68); [|reflexivity]. destruct (msg_id p); reflexivity.
Qed.
Lemma no_stamps cf fmts evs : (forall n, cf_filter cf n = false) -> forall pre, collect (stamps cf fmts) pre evs = [].
Proof.
  intros H. induction evs as [|e evs IH]; intros pre; [reflexivity|]. cbn [collect]. rewrite IH, app_nil_r. unfold stamps. destruct e as [ty p| |]; try reflexivity.
  destruct (ty =? 68); [|reflexivity]. destruct (msg_id p); [|reflexivity]. rewrite (no_subscription cf fmts pre _ H). reflexivity.
Qed.
Lemma still cf fmts t0 evs : (forall n, cf_filter cf n = false) -> last_stamp cf fmts t0 evs = t0.
Proof. intros H. unfold last_stamp. rewrite (no_stamps cf fmts evs H []). reflexivity. Qed.
Lemma still_over cf fmts secs : (forall n, cf_filter cf n = false) -> forall t0, last_over cf fmts t0 secs = t0.
Proof.
  intros H. unfold last_over. induction secs as [|s secs IH]; intros t0; [reflexivity|]. cbn [fold_left]. rewrite (still cf fmts t0 s H). apply IH.
Qed.
Lemma collect_all {X} (P : X -> Prop) g evs : forall pre, (forall p e, Forall P (g p e)) -> Forall P (collect g pre evs).
Proof. induction evs as [|e evs IH]; intros pre H; [constructor|]. cbn [collect]. apply Forall_app. split; [apply H|apply IH; exact H]. Qed.
Lemma sections_all {X} cf fmts (P : X -> Prop) (g : Z -> list event -> event -> list X) secs t0 : (forall n, cf_filter cf n = false) ->
  (forall pre e, Forall P (g t0 pre e)) -> Forall P (over_sections cf fmts g t0 secs).
Proof.
  intros H G. induction secs as [|s secs IH]; [constructor|]. cbn [over_sections]. apply Forall_app. split; [apply collect_all; exact G|].
  rewrite (still cf fmts t0 s H). exact IH.
Qed.
