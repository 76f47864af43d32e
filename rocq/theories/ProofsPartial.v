(** Proofs for PropsPartial.v *)
From Verif Require Import Base Dict PyStr PyFloat Struct ModelTypes ModelApi ModelTools ModelPartial SpecTools SpecPartial ProofsWindow.

(** ** Writes *)
Lemma puts_app xs l : puts (map Ok xs ++ l) = (fst (puts l), concat xs ++ snd (puts l)).
Proof.
  induction xs as [|x xs IH]; cbn [map app puts concat]; [destruct (puts l); reflexivity|]. rewrite IH, <- app_assoc. reflexivity.
Qed.
Lemma puts_ok xs : puts (map Ok xs) = (Ok tt, concat xs).
Proof. rewrite <- (app_nil_r (map Ok xs)), puts_app. cbn [puts fst snd]. rewrite app_nil_r. reflexivity. Qed.
Lemma row_ok delim xs : exists ys, row_puts delim (map Ok xs) = map Ok ys /\ concat ys = join delim xs ++ [10].
Proof.
  induction xs as [|x xs IH]; [exists [[10]]; split; reflexivity|]. destruct xs as [|x' xs].
  - exists [x; [10]]. split; [reflexivity|]. cbn [concat join]. rewrite app_nil_r. reflexivity.
  - destruct IH as (ys & E & C). exists (x :: delim :: ys). split.
    + change (row_puts delim (map Ok (x :: x' :: xs))) with (Ok x :: Ok delim :: row_puts delim (map Ok (x' :: xs))). rewrite E. reflexivity.
    + cbn [concat]. rewrite C. change (join delim (x :: x' :: xs)) with (x ++ delim ++ join delim (x' :: xs)). rewrite <- !app_assoc. reflexivity.
Qed.
(** the first exception of a row *)
Lemma row_err delim xs e r : exists ys t, row_puts delim (map Ok xs ++ Err e :: r) = map Ok ys ++ Err e :: t /\ concat ys = open_row delim xs.
Proof.
  induction xs as [|x xs IH].
  - destruct r as [|y r]; [exists [], [Ok [10]]|exists [], (Ok delim :: row_puts delim (y :: r))]; split; reflexivity.
  - destruct IH as (ys & t & E & C). exists (x :: delim :: ys), t. split.
    + cbn [map app]. destruct (map Ok xs ++ Err e :: r) as [|z zs] eqn:Ez; [destruct xs; discriminate|].
      change (row_puts delim (Ok x :: z :: zs)) with (Ok x :: Ok delim :: row_puts delim (z :: zs)). rewrite E. reflexivity.
    + cbn [concat]. rewrite C. unfold open_row. cbn [map concat]. rewrite <- app_assoc. reflexivity.
Qed.
Lemma mapM_split {A B} (f : A -> res B) l : (exists ys, mapM f l = Ok ys /\ map f l = map Ok ys) \/
  (exists e xs r, mapM f l = Err e /\ map f l = map Ok xs ++ Err e :: r).
Proof.
  induction l as [|x l IH]; [left; exists []; split; reflexivity|]. cbn [mapM map]. destruct (f x) as [y|e]; cbn [bind].
  - destruct IH as [(ys & E & M)|(e & xs & r & E & M)]; rewrite E, M; cbn [bind].
    + left. exists (y :: ys). split; reflexivity.
    + right. exists e, (y :: xs), r. split; reflexivity.
  - right. exists e, [], (map f l). split; reflexivity.
Qed.
Lemma rows_puts delim (f : nat -> str -> res str) keys l :
  match mapM (fun i => mapM (f i) keys) l with
  | Ok rows => puts (flat_map (fun i => row_puts delim (map (f i) keys)) l) = (Ok tt, concat (map (fun r => join delim r ++ [10]) rows))
  | Err e => fst (puts (flat_map (fun i => row_puts delim (map (f i) keys)) l)) = Err e
  end.
Proof.
  induction l as [|i l IH]; [reflexivity|]. cbn [mapM flat_map]. destruct (mapM_split (f i) keys) as [(ys & E & M)|(e & xs & r & E & M)]; rewrite E, M; cbn [bind].
  - destruct (row_ok delim ys) as (zs & Ez & Cz). rewrite Ez, puts_app, Cz.
    destruct (mapM (fun i => mapM (f i) keys) l) as [rows|e]; cbn [bind].
    + rewrite IH. reflexivity.
    + cbn [fst]. exact IH.
  - destruct (row_err delim xs e r) as (ys & t & Ey & _). rewrite Ey, <- app_assoc, puts_app. reflexivity.
Qed.
Lemma csv_agree fstr delim s e d : (exists n, len_ts d = Ok n) ->
  match csv_text fstr delim s e d with
  | Ok t => puts (csv_puts fstr delim s e d) = (Ok tt, t)
  | Err x => fst (puts (csv_puts fstr delim s e d)) = Err x
  end.
Proof.
  intros (n & Hn). unfold csv_text, csv_puts. rewrite Hn. cbn [bind]. destruct (get_fields d) as [ks|x]; cbn [bind]; [|reflexivity].
  destruct (window d s e) as [w|x]; cbn [bind]; [|reflexivity].
  pose proof (rows_puts delim (csv_cell fstr d (snd ks)) (fst ks) (seq (fst w) (snd w - fst w))) as R.
  destruct (mapM (fun i => mapM (csv_cell fstr d (snd ks) i) (fst ks)) (seq (fst w) (snd w - fst w))) as [rows|x]; cbn [bind].
  - cbn [puts]. rewrite R. reflexivity.
  - cbn [puts]. destruct (puts (flat_map _ _)) as [r t]. exact R.
Qed.
Lemma len_text fstr delim s e d x : len_ts d = Err x -> csv_text fstr delim s e d = Err x.
Proof. intros H. unfold csv_text. rewrite H. reflexivity. Qed.

(** ** The disk *)
Lemma over_sset files disk k v name : over (sset k v files) disk name = if str_eqb k name then Some v else over files disk name.
Proof.
  unfold over. destruct (str_eqb_spec k name) as [->|N]; [rewrite (dget_dset_eq str_eqb str_eqb_spec)|rewrite (dget_dset_neq str_eqb str_eqb_spec) by congruence]; reflexivity.
Qed.

Lemma len_time d : match sget (lit "timestamp") (ds_data d) with Some _ => exists n, len_ts d = Ok n | None => len_ts d = Err KeyError end.
Proof. unfold len_ts. destruct (sget _ (ds_data d)); eauto. Qed.
Section Disk.
Variables (fstr : nptype -> Z -> str) (prefix delim : str) (s e : option Z) (disk0 : dict str str).
Let go := foldM (fun files d => let* t := csv_text fstr delim s e d in Ok (sset (csv_name prefix d) t files)).
Lemma disk_run ds : forall files0 cur, (forall n, sget n cur = over files0 disk0 n) ->
  match go ds files0 with
  | Ok files => exists cur', csv_files fstr prefix delim s e ds cur = (Ok tt, cur') /\ forall n, sget n cur' = over files disk0 n
  | Err x => exists pre d post files cur', ds = pre ++ d :: post /\ go pre files0 = Ok files /\ csv_text fstr delim s e d = Err x /\
      csv_files fstr prefix delim s e ds cur = (Err x, cur') /\
      (forall n, n <> csv_name prefix d -> sget n cur' = over files disk0 n) /\
      sget (csv_name prefix d) cur' = match sget (lit "timestamp") (ds_data d) with
                                      | Some _ => Some (snd (puts (csv_puts fstr delim s e d)))
                                      | None => over files disk0 (csv_name prefix d) end
  end.
Proof.
  subst go. induction ds as [|d ds IH]; intros files0 cur Hc; cbn [foldM csv_files]; [eauto|].
  unfold csv_file. pose proof (len_time d) as L. destruct (sget (lit "timestamp") (ds_data d)) as [c|] eqn:Et.
  - pose proof (csv_agree fstr delim s e d L) as A. destruct L as (n & L). rewrite L.
    destruct (csv_text fstr delim s e d) as [t|x] eqn:Ex; cbn [bind].
    + rewrite A.
      assert (Hc' : forall n, sget n (sset (csv_name prefix d) t cur) = over (sset (csv_name prefix d) t files0) disk0 n).
      { intros m. rewrite over_sset. destruct (str_eqb_spec (csv_name prefix d) m) as [<-|N].
        - rewrite (dget_dset_eq str_eqb str_eqb_spec). reflexivity.
        - rewrite (dget_dset_neq str_eqb str_eqb_spec) by congruence. apply Hc. }
      specialize (IH _ _ Hc'). destruct (foldM _ ds (sset (csv_name prefix d) t files0)) as [files|x]; [exact IH|].
      destruct IH as (pre & d' & post & files & cur' & -> & Ep & Et' & Ec & R). exists (d :: pre), d', post, files, cur'.
      split; [reflexivity|]. split; [cbn [foldM]; rewrite Ex; cbn [bind]; exact Ep|]. split; [exact Et'|]. split; [exact Ec|exact R].
    + destruct (puts (csv_puts fstr delim s e d)) as [r t] eqn:Ep. cbn [fst] in A. subst r.
      exists [], d, ds, files0, (sset (csv_name prefix d) t cur). split; [reflexivity|]. split; [reflexivity|]. split; [exact Ex|]. split; [reflexivity|]. split.
      * intros m N. rewrite (dget_dset_neq str_eqb str_eqb_spec) by exact N. apply Hc.
      * rewrite Et, Ep. apply (dget_dset_eq str_eqb str_eqb_spec).
  - rewrite L. assert (Ex : csv_text fstr delim s e d = Err KeyError) by (unfold csv_text; rewrite L; reflexivity). rewrite Ex. cbn [bind].
    exists [], d, ds, files0, cur. split; [reflexivity|]. split; [reflexivity|]. split; [exact Ex|]. split; [reflexivity|]. split; [intros; apply Hc|]. rewrite Et. apply Hc.
Qed.
End Disk.

(** ** The tables *)
Lemma table_fields d fs ty : ds_fields d = flat_map elements fs -> Forall sane fs -> NoDup (map tname (filter shown fs)) -> In (FValue (lit "timestamp") ty) fs ->
  exists sizes, get_fields d = Ok (map tname (table_columns fs), sizes) /\
    (forall x n, In (FText x n) fs -> sget x sizes = Some (Z.of_nat n)) /\ (forall x, existsb (is_text x) fs = false -> sget x sizes = None).
Proof.
  intros Hfs Hsane Hn Ht. destruct (csv_fields fs Hsane Hn [] []) as (sizes & Ef & Hsz & Hno); [reflexivity|].
  assert (Hkeys : In (lit "timestamp") (map tname (filter shown fs))).
  { refine (in_map tname _ (FValue _ ty) _). apply filter_In. split; [exact Ht|reflexivity]. }
  exists sizes. split; [|split; [exact Hsz|]].
  - unfold get_fields. rewrite Hfs. refine (eq_trans (f_equal (fun r => bind r _) Ef) _). cbn [bind fst snd app].
    rewrite (timestamp_first_spec _ Hn Hkeys), (columns_names fs ty Hn Ht). reflexivity.
  - intros x Hx. rewrite (Hno x Hx). reflexivity.
Qed.
Lemma cell_printed fstr d fs sizes i f t : NoDup (map tname (filter shown fs)) ->
  (forall x n, In (FText x n) fs -> sget x sizes = Some (Z.of_nat n)) -> (forall x, existsb (is_text x) fs = false -> sget x sizes = None) ->
  In f fs -> shown f = true -> printed fstr d i f t -> csv_cell fstr d sizes i (tname f) = Ok t.
Proof.
  intros Hn Hsz Hno Hf Sf Hp. apply csv_cell_spec; [exact Sf| | |exact Hp].
  - intros x n ->. apply Hsz. exact Hf.
  - intros x t' ->. rewrite Hno; [reflexivity|]. destruct (existsb (is_text x) fs) eqn:E; [|reflexivity].
    exfalso. apply existsb_exists in E. destruct E as (g & Hg & Tg). destruct g as [|m n|]; try discriminate. cbn in Tg.
    apply str_eqb_eq in Tg. subst m. assert (X := NoDup_named fs (FText x n) (FValue x t') Hn Hg Hf eq_refl eq_refl eq_refl). discriminate X.
Qed.
Lemma read_bad d name i m : forall j l, Forall2 (fun k c => cell d (item name k) i = Some (VInt c)) (seq j m) l -> chars l = None ->
  read_string d name m (Z.of_nat j) i = Err ValueError.
Proof.
  induction m as [|m IH]; intros j l H E.
  - inversion H; subst. discriminate.
  - cbn [seq] in H. inversion H as [|? c ? r Hc Hr]; subst. cbn [read_string].
    destruct (elem_cell _ _ _ _ Hc) as (x & Ex & Ev). change (name ++ lit "[" ++ str_of_Z (Z.of_nat j) ++ lit "]") with (item name j).
    rewrite Ex. cbn [bind]. rewrite Ev. cbn [chars fold_right] in E. destruct (c =? 0); [discriminate|].
    destruct ((c <? 0) || (1114111 <? c)); [reflexivity|]. fold (chars r) in E.
    destruct (chars r) as [t|] eqn:Et; [discriminate|].
    replace (Z.of_nat j + 1) with (Z.of_nat (S j)) by lia. rewrite (IH (S j) r Hr Et). reflexivity.
Qed.
Lemma column_printed fstr d fs (ts : list Z) i f : ds_fields d = flat_map elements fs -> rectangular d (length ts) -> (i < length ts)%nat ->
  In f (table_columns fs) -> (forall name n, f = FText name n -> exists l s, Forall2 (fun k c => cell d (item name k) i = Some (VInt c)) (seq 0 n) l /\ chars l = Some s) ->
  exists t, printed fstr d i f t.
Proof.
  intros Hfs Hr Hi Hf Ht. apply columns_In in Hf as (Hf & Sf). destruct f as [name t|name n|]; [| |discriminate].
  - apply (value_printed fstr d (length ts)); [exact Hr| |exact Hi]. rewrite Hfs. apply in_flat_map. exists (FValue name t). split; [exact Hf|left; reflexivity].
  - destruct (Ht name n eq_refl) as (l & t & H1 & H2). exists t. econstructor; eassumption.
Qed.
Lemma choice {A B} (R : A -> B -> Prop) l : (forall x, In x l -> exists y, R x y) -> exists ys, Forall2 R l ys.
Proof.
  induction l as [|x l IH]; intros H; [exists []; constructor|]. destruct (H x (or_introl eq_refl)) as (y & Hy).
  destruct IH as (ys & Hys); [intros; apply H; now right|]. exists (y :: ys). constructor; assumption.
Qed.
Lemma cells_ok {A} (f : A -> res str) (R : A -> str -> Prop) l ys : (forall x y, In x l -> R x y -> f x = Ok y) -> Forall2 R l ys -> map f l = map Ok ys.
Proof.
  intros H F. induction F as [|x y l ys Hx _ IH]; [reflexivity|]. cbn [map]. rewrite (H x y (or_introl eq_refl) Hx), IH; [reflexivity|].
  intros a b Ha. apply H. now right.
Qed.
Lemma left_header fstr sep s e d fs ty ts : ds_fields d = flat_map elements fs -> Forall sane fs ->
  NoDup (map tname (filter shown fs)) -> In (FValue (lit "timestamp") ty) fs ->
  int_field d (lit "timestamp") ts -> proper_times ts -> exact_limit s -> exact_limit e -> ~ (met ts s /\ met ts e) ->
  puts (csv_puts fstr sep s e d) = (Err IndexError, table_text sep [map tname (table_columns fs)]).
Proof.
  intros Hfs Hsane Hn Ht Hi Hp Xs Xe N. destruct (window_limits d ts s e Hi Hp Xs Xe) as (_ & W). specialize (W N).
  destruct (table_fields d fs ty Hfs Hsane Hn Ht) as (sizes & G & _). unfold csv_puts. rewrite G. cbn [fst snd]. rewrite W.
  cbn [puts]. f_equal. unfold table_text. cbn [map concat]. rewrite join_separated. reflexivity.
Qed.
Lemma left_rows fstr sep s e d fs ty ts pre i post cs1 name n cs2 : ds_fields d = flat_map elements fs -> Forall sane fs ->
  NoDup (map tname (filter shown fs)) -> In (FValue (lit "timestamp") ty) fs ->
  int_field d (lit "timestamp") ts -> proper_times ts -> exact_limit s -> exact_limit e -> met ts s -> met ts e ->
  rectangular d (length ts) -> window_samples ts (limit s) (limit e) = pre ++ i :: post -> (forall j, In j pre -> texts_ok d fs j) ->
  table_columns fs = cs1 ++ FText name n :: cs2 -> (forall x m, In (FText x m) cs1 -> exists l t, Forall2 (fun k c => cell d (item x k) i = Some (VInt c)) (seq 0 m) l /\ chars l = Some t) ->
  text_bad d name n i ->
  exists rows cells, puts (csv_puts fstr sep s e d) = (Err ValueError, table_text sep (map tname (table_columns fs) :: rows) ++ open_row sep cells) /\
    Forall2 (fun j row => Forall2 (printed fstr d j) (table_columns fs) row) pre rows /\ Forall2 (printed fstr d i) cs1 cells.
Proof.
  intros Hfs Hsane Hn Ht Hi Hp Xs Xe Ms Me Hr Hw Hpre Hcs Hcs1 (l & Hl & Hbad).
  destruct (window_limits d ts s e Hi Hp Xs Xe) as (W & _). destruct (W (conj Ms Me)) as (a & b & Ew & Es).
  destruct (table_fields d fs ty Hfs Hsane Hn Ht) as (sizes & G & Hsz & Hno).
  assert (Hlt : forall j, In j (pre ++ i :: post) -> (j < length ts)%nat) by (intros j Hj; rewrite <- Hw in Hj; now apply window_samples_lt in Hj).
  destruct (choice (fun j row => Forall2 (printed fstr d j) (table_columns fs) row) pre) as (rows & Hrows).
  { intros j Hj. apply choice. intros f Hf. apply (column_printed fstr d fs ts j f Hfs Hr); [apply Hlt, in_app_iff; now left|exact Hf|].
    intros x m ->. apply (Hpre j Hj x m). apply columns_In in Hf. apply Hf. }
  destruct (choice (printed fstr d i) cs1) as (cells & Hcells).
  { intros f Hf. assert (Hf' : In f (table_columns fs)) by (rewrite Hcs; apply in_app_iff; now left).
    apply (column_printed fstr d fs ts i f Hfs Hr); [apply Hlt, in_app_iff; right; now left|exact Hf'|]. intros x m ->. exact (Hcs1 x m Hf). }
  exists rows, cells. split; [|split; assumption].
  unfold csv_puts. rewrite G. cbn [fst snd]. rewrite Ew. cbn [fst snd]. rewrite Es, Hw, flat_map_app. cbn [flat_map].
  assert (C : forall j f t, In f (table_columns fs) -> printed fstr d j f t -> csv_cell fstr d sizes j (tname f) = Ok t).
  { intros j f t Hf Pf. apply columns_In in Hf as (Hf & Sf). eapply cell_printed; eassumption. }
  assert (P : exists ys, flat_map (fun j => row_puts sep (map (csv_cell fstr d sizes j) (map tname (table_columns fs)))) pre = map Ok ys /\
              concat ys = concat (map (fun r => separated sep r ++ [10]) rows)).
  { clear -C Hrows. induction Hrows as [|j row pre rows Hrow _ IH]; [exists []; split; reflexivity|]. destruct IH as (ys & E & Cy). cbn [flat_map].
    rewrite map_map. rewrite (cells_ok (fun f => csv_cell fstr d sizes j (tname f)) (printed fstr d j) _ _ (fun f t => C j f t) Hrow).
    destruct (row_ok sep row) as (zs & Ez & Cz). rewrite Ez, E, <- map_app. exists (zs ++ ys). split; [reflexivity|].
    rewrite concat_app, Cz, Cy. cbn [map concat]. rewrite join_separated. reflexivity. }
  destruct P as (ys & Ey & Cy). rewrite Ey. cbn [puts]. rewrite puts_app.
  assert (R : map (csv_cell fstr d sizes i) (map tname (table_columns fs)) = map Ok cells ++ Err ValueError :: map (csv_cell fstr d sizes i) (map tname cs2)).
  { rewrite Hcs, !map_app. cbn [map tname]. f_equal.
    - rewrite map_map. apply (cells_ok _ (printed fstr d i)); [|exact Hcells]. intros f t Hf Pf. apply C; [|exact Pf]. rewrite Hcs. apply in_app_iff. now left.
    - f_equal. unfold csv_cell. rewrite (Hsz name n).
      + rewrite Nat2Z.id. exact (read_bad d name i n 0%nat l Hl Hbad).
      + assert (X : In (FText name n) (table_columns fs)) by (rewrite Hcs; apply in_app_iff; right; now left). apply columns_In in X. apply X. }
  rewrite R. destruct (row_err sep cells ValueError (map (csv_cell fstr d sizes i) (map tname cs2))) as (zs & t & Ez & Cz).
  rewrite Ez, <- app_assoc, puts_app. cbn [app puts fst snd]. rewrite Cz, Cy, app_nil_r. f_equal. unfold table_text. cbn [map concat].
  rewrite join_separated, <- !app_assoc. reflexivity.
Qed.

Lemma files_app fstr prefix delim s e pre rest : forall cur cur', csv_files fstr prefix delim s e pre cur = (Ok tt, cur') ->
  csv_files fstr prefix delim s e (pre ++ rest) cur = csv_files fstr prefix delim s e rest cur'.
Proof.
  induction pre as [|d pre IH]; intros cur cur' H; cbn [csv_files app] in *; [congruence|].
  destruct (csv_file fstr prefix delim s e d cur) as [[[]|x] c]; [|discriminate]. apply IH. exact H.
Qed.
Lemma at_topic fstr prefix delim s e disk pre d post files x t :
  foldM (fun (files : dict str str) d => let* t := csv_text fstr delim s e d in Ok (sset (csv_name prefix d) t files)) pre [] = Ok files ->
  sget (lit "timestamp") (ds_data d) <> None -> puts (csv_puts fstr delim s e d) = (Err x, t) ->
  exists disk', csv_files fstr prefix delim s e (pre ++ d :: post) disk = (Err x, disk') /\ sget (csv_name prefix d) disk' = Some t /\
    forall name, name <> csv_name prefix d -> sget name disk' = over files disk name.
Proof.
  intros Ep T P. pose proof (disk_run fstr prefix delim s e disk pre [] disk (fun n => eq_refl)) as D. cbv zeta in D.
  assert (D' : exists cur, csv_files fstr prefix delim s e pre disk = (Ok tt, cur) /\ forall n, sget n cur = over files disk n).
  { revert D. match goal with |- match ?x with _ => _ end -> _ => change x with (convert_ulog2csv fstr prefix delim s e (set_data pre ulog0)) end.
    change (convert_ulog2csv fstr prefix delim s e (set_data pre ulog0) = Ok files) in Ep. rewrite Ep. exact (fun D => D). }
  destruct D' as (cur & Ec & Eo). rewrite (files_app _ _ _ _ _ _ _ _ _ Ec). cbn [csv_files]. unfold csv_file.
  pose proof (len_time d) as L. destruct (sget (lit "timestamp") (ds_data d)); [|congruence]. destruct L as (n & ->). rewrite P.
  eexists. split; [reflexivity|]. split.
  - apply (dget_dset_eq str_eqb str_eqb_spec).
  - intros name N. rewrite (dget_dset_neq str_eqb str_eqb_spec) by congruence. apply Eo.
Qed.

(** ** GPS dump *)
Lemma gps_puts_agree d i ks : match mapM (fun k => let* x := elem d (data_key k) i in Ok (le_enc (np_size (fst x)) (snd x))) ks with
  | Ok bs => gps_puts d i ks = (Ok tt, concat bs)
  | Err e => fst (gps_puts d i ks) = Err e end.
Proof.
  induction ks as [|k ks IH]; [reflexivity|]. cbn [mapM gps_puts]. destruct (elem d (data_key k) i) as [x|]; cbn [bind]; [|reflexivity].
  destruct (mapM _ ks) as [bs|e]; cbn [bind].
  - rewrite IH. reflexivity.
  - destruct (gps_puts d i ks) as [r b]. exact IH.
Qed.
Lemma gps_turn_agree d inst tf i : match gps_row d inst tf i with
  | Ok tf' => gps_turn d inst tf i = (Ok tt, tf')
  | Err e => fst (gps_turn d inst tf i) = Err e end.
Proof.
  unfold gps_row, gps_turn. destruct (gps_instance d i) as [ins|]; cbn [bind]; [|reflexivity].
  destruct (elem d (lit "len") i) as [l|]; cbn [bind]; [|reflexivity]. destruct (negb (value_eqb ins (VInt inst))); [reflexivity|].
  destruct (negb (nptype_eqb (fst l) (NI 1 false))); [reflexivity|].
  destruct (Z.land (snd l) 128 =? 0).
  - pose proof (gps_puts_agree d i (seq 0 (Z.to_nat (snd l)))) as G. destruct (mapM _ _) as [bs|e]; cbn [bind].
    + rewrite G. reflexivity.
    + destruct (gps_puts d i _) as [r b]. exact G.
  - pose proof (gps_puts_agree d i (seq 0 (Z.to_nat (Z.land (snd l) 127)))) as G. destruct (mapM _ _) as [bs|e]; cbn [bind].
    + rewrite G. reflexivity.
    + destruct (gps_puts d i _) as [r b]. exact G.
Qed.
Lemma gps_turns_agree d inst is : forall tf, match foldM (gps_row d inst) is tf with
  | Ok tf' => gps_turns d inst is tf = (Ok tt, tf')
  | Err e => fst (gps_turns d inst is tf) = Err e end.
Proof.
  induction is as [|i is IH]; intros tf; [reflexivity|]. cbn [foldM gps_turns]. pose proof (gps_turn_agree d inst tf i) as G.
  destruct (gps_row d inst tf i) as [tf'|e]; cbn [bind].
  - rewrite G. apply IH.
  - destruct (gps_turn d inst tf i) as [r b]. cbn [fst] in G. subst r. reflexivity.
Qed.
Lemma gps_agree u inst : match gps_dump u inst with
  | Ok (GpsFiles t f) => gps_files u inst = Some (Ok tt, (t, f))
  | Ok _ => gps_files u inst = None
  | Err e => exists tf, gps_files u inst = Some (Err e, tf) end.
Proof.
  unfold gps_dump, gps_files. destruct (u_data u) as [|d r]; [reflexivity|]. destruct (negb _); [reflexivity|].
  destruct (sget (lit "len") (ds_data d)); cbn [bind]; [|eauto]. destruct (len_ts d) as [n|]; cbn [bind]; [|eauto].
  pose proof (gps_turns_agree d inst (seq 0 n) ([], [])) as G. destruct (foldM (gps_row d inst) (seq 0 n) ([], [])) as [[t f]|e]; cbn [bind fst snd].
  - rewrite G. reflexivity.
  - destruct (gps_turns d inst (seq 0 n) ([], [])) as [r' tf]. cbn [fst] in G. subst r'. eauto.
Qed.
Lemma gps_puts_short d i b : forall j n, Forall2 (fun k x => byte_field d (item (lit "data") k) i x) (seq j (length b)) b ->
  sget (item (lit "data") (j + length b)) (ds_data d) = None -> (length b < n)%nat -> gps_puts d i (seq j n) = (Err KeyError, b).
Proof.
  induction b as [|x b IH]; intros j n H N L.
  - destruct n as [|n]; [cbn in L; lia|]. cbn [seq gps_puts]. change (data_key j) with (item (lit "data") j). unfold elem.
    cbn [length] in N. rewrite Nat.add_0_r in N. rewrite N. reflexivity.
  - destruct n as [|n]; [cbn in L; lia|]. cbn [length seq] in H. inversion H as [|? ? ? ? Hx Hr]; subst. cbn [seq gps_puts].
    change (data_key j) with (item (lit "data") j). rewrite (byte_elem _ _ _ _ Hx). cbn [fst snd np_size].
    rewrite le_enc1 by (destruct Hx as (? & ? & ? & ? & ?); assumption). rewrite (IH (S j) n Hr).
    + reflexivity.
    + rewrite <- N. f_equal. f_equal. cbn [length]. lia.
    + cbn [length] in L. lia.
Qed.
Lemma gps_turn_short d inst i len b t f : gps_short d inst i len b ->
  gps_turn d inst (t, f) i = (Err KeyError, if 128 <=? len then (t ++ b, f) else (t, f ++ b)).
Proof.
  intros (Hi & Hl & Hn & Hb & Hk). unfold gps_turn.
  assert (I : gps_instance d i = Ok (VInt inst)).
  { unfold gps_instance. destruct (sget (lit "instance") (ds_data d)) as [c|] eqn:E; [|rewrite Hi; reflexivity].
    destruct (elem_cell _ _ _ _ Hi) as (x & Ex & Ev). rewrite Ex. cbn [bind]. rewrite Ev. reflexivity. }
  rewrite I, (byte_elem _ _ _ _ Hl). cbn [fst snd]. change (value_eqb (VInt inst) (VInt inst)) with (inst =? inst). rewrite Z.eqb_refl. cbn [negb nptype_eqb Nat.eqb Bool.eqb andb].
  assert (Hr : 0 <= len < 256) by (destruct Hl as (? & ? & ? & ? & ?); assumption).
  destruct (bit7 _ Hr) as (B1 & _). rewrite B1. destruct (128 <=? len) eqn:L; cbn [negb].
  - change 127 with (Z.ones 7). rewrite Z.land_ones by lia. change (2 ^ 7) with 128.
    rewrite (gps_puts_short d i b 0 (Z.to_nat (len mod 128)) Hb Hk); [reflexivity|lia].
  - rewrite Z.mod_small in Hn by lia. rewrite (gps_puts_short d i b 0 (Z.to_nat len) Hb Hk); [reflexivity|lia].
Qed.
Lemma gps_turns_ok d inst rows : forall is rest t f, Forall2 (gps_sample d) is rows ->
  gps_turns d inst (is ++ rest) (t, f) = gps_turns d inst rest (t ++ gps_stream inst true rows, f ++ gps_stream inst false rows).
Proof.
  induction rows as [|r rows IH]; intros is rest t f H; inversion H as [|i ? is' ? Hi His]; subst.
  - cbn. rewrite !app_nil_r. reflexivity.
  - cbn [app gps_turns]. pose proof (gps_turn_agree d inst (t, f) i) as G. rewrite (gps_row_spec _ _ _ _ _ _ Hi) in G. rewrite G.
    rewrite (IH _ _ _ _ His). change (r :: rows) with ([r] ++ rows). rewrite !gps_stream_app, <- !app_assoc. reflexivity.
Qed.
Lemma gps_left u d rest ts inst rows len b : u_data u = d :: rest -> In (lit "len") (names d) -> In (lit "data[0]") (names d) ->
  int_field d (lit "timestamp") ts -> (length rows < length ts)%nat -> Forall2 (gps_sample d) (seq 0 (length rows)) rows ->
  gps_short d inst (length rows) len b ->
  gps_files u inst = Some (Err KeyError, (gps_stream inst true rows ++ (if 128 <=? len then b else []), gps_stream inst false rows ++ (if 128 <=? len then [] else b))).
Proof.
  intros Hu H1 H2 (c & size & sg & Hc & Ht & Hm) Hlt Hrows Hs. unfold gps_files. rewrite Hu.
  assert (A : forall k, In k (names d) -> existsb (str_eqb k) (map fd_name (ds_fields d)) = true).
  { intros k Hk. apply existsb_exists. exists k. split; [exact Hk|apply str_eqb_refl]. }
  rewrite (A _ H1), (A _ H2). cbn [andb negb].
  assert (Hl : exists cl, sget (lit "len") (ds_data d) = Some cl) by (destruct Hs as (_ & (cl & Hcl & _) & _); eauto).
  destruct Hl as (cl & Hcl). rewrite Hcl. unfold len_ts. rewrite Hc.
  rewrite (proj1 (np_elem_ints _ _ _ Hm)). replace (seq 0 (length ts)) with (seq 0 (length rows) ++ length rows :: seq (S (length rows)) (length ts - S (length rows))).
  2:{ change (length rows :: seq (S (length rows)) (length ts - S (length rows))) with (seq (0 + length rows) (S (length ts - S (length rows)))).
      rewrite <- seq_app. f_equal. lia. }
  rewrite (gps_turns_ok d inst rows _ _ [] [] Hrows). cbn [app gps_turns]. rewrite (gps_turn_short d inst (length rows) len b _ _ Hs).
  destruct (128 <=? len); rewrite ?app_nil_r; reflexivity.
Qed.
