(** Property C64: what ulog2csv and extract_gps_dump leave in their files when they end or raise. *)
From Verif Require Import Base Dict PyStr PyFloat Struct ModelTypes ModelApi ModelTools ModelPartial SpecTools SpecPartial ProofsCache ProofsWindow ProofsPartial PropsTools.

(** ** CSV *)
(** The run ends without an exception exactly when the conversion has a result; then each file of it has
    its whole text, whatever was in it, and other files are as they were. *)
Theorem C64_complete : forall fstr prefix sep s e u disk files, convert_ulog2csv fstr prefix sep s e u = Ok files ->
  exists disk', csv_files fstr prefix sep s e (u_data u) disk = (Ok tt, disk') /\ forall name, sget name disk' = over files disk name.
Proof.
  intros fstr prefix sep s e u disk files H.
  pose proof (disk_run fstr prefix sep s e disk (u_data u) [] disk (fun n => eq_refl)) as D. cbv zeta in D.
  match type of D with match ?x with _ => _ end => change x with (convert_ulog2csv fstr prefix sep s e u) in D end. rewrite H in D. exact D.
Qed.
(** An exception: the topics before the failing one have their whole files, the later ones' files and all
    others are as they were; the failing one's file is as it was if the topic has no timestamps. *)
Theorem C64_failed : forall fstr prefix sep s e u disk x, convert_ulog2csv fstr prefix sep s e u = Err x ->
  exists pre d post files disk', u_data u = pre ++ d :: post /\ convert_ulog2csv fstr prefix sep s e (set_data pre u) = Ok files /\
    csv_text fstr sep s e d = Err x /\ csv_files fstr prefix sep s e (u_data u) disk = (Err x, disk') /\
    (forall name, name <> csv_name prefix d -> sget name disk' = over files disk name) /\
    (forall name, ~ In name (map (csv_name prefix) (pre ++ [d])) -> sget name disk' = sget name disk) /\
    (sget (lit "timestamp") (ds_data d) = None -> x = KeyError /\ sget (csv_name prefix d) disk' = over files disk (csv_name prefix d)).
Proof.
  intros fstr prefix sep s e u disk x H.
  pose proof (disk_run fstr prefix sep s e disk (u_data u) [] disk (fun n => eq_refl)) as D. cbv zeta in D.
  match type of D with match ?x with _ => _ end => change x with (convert_ulog2csv fstr prefix sep s e u) in D end. rewrite H in D.
  destruct D as (pre & d & post & files & cur & E & Ep & Ex & Er & Eo & El). exists pre, d, post, files, cur.
  split; [exact E|]. split; [exact Ep|]. split; [exact Ex|]. split; [exact Er|]. split; [exact Eo|]. split.
  - intros name N. rewrite map_app in N. rewrite Eo by (intros ->; apply N; apply in_or_app; right; left; reflexivity).
    unfold over. replace (sget name files) with (@None str); [reflexivity|]. symmetry.
    assert (G : forall ds f0 f, foldM (fun files d => let* t := csv_text fstr sep s e d in Ok (sset (csv_name prefix d) t files)) ds f0 = Ok f ->
      sget name f0 = None -> ~ In name (map (csv_name prefix) ds) -> sget name f = None).
    { induction ds as [|d0 ds IH]; intros f0 f Ef E0 Nn; cbn [foldM] in Ef; [congruence|].
      destruct (csv_text fstr sep s e d0) as [t|]; cbn [bind] in Ef; [|discriminate]. apply (IH _ _ Ef).
      - rewrite (dget_dset_neq str_eqb str_eqb_spec); [exact E0|]. intros Q. apply Nn. left. congruence.
      - intros Q. apply Nn. right. exact Q. }
    apply (G _ _ _ Ep); [reflexivity|]. intros Q. apply N. apply in_or_app. left. exact Q.
  - intros T. rewrite T in El. split; [|exact El]. unfold csv_text, len_ts in Ex. rewrite T in Ex. cbn [bind] in Ex. congruence.
Qed.
(** The file of a topic that has no sample at or after a limit has the header and nothing else. *)
Theorem C64_limit : forall fstr prefix sep s e u disk pre d post files fs ty ts, u_data u = pre ++ d :: post ->
  convert_ulog2csv fstr prefix sep s e (set_data pre u) = Ok files ->
  ds_fields d = flat_map elements fs -> Forall sane fs -> NoDup (map tname (filter shown fs)) -> In (FValue (lit "timestamp") ty) fs ->
  int_field d (lit "timestamp") ts -> proper_times ts -> exact_limit s -> exact_limit e -> ~ (met ts s /\ met ts e) ->
  exists disk', csv_files fstr prefix sep s e (u_data u) disk = (Err IndexError, disk') /\
    sget (csv_name prefix d) disk' = Some (table_text sep [map tname (table_columns fs)]) /\
    forall name, name <> csv_name prefix d -> sget name disk' = over files disk name.
Proof.
  intros fstr prefix sep s e u disk pre d post files fs ty ts E Ep H1 H2 H3 H4 H5 H6 H7 H8 H9. rewrite E.
  pose proof (left_header fstr sep s e d fs ty ts H1 H2 H3 H4 H5 H6 H7 H8 H9) as L.
  destruct H5 as (c & z & sg & Hc & _). eapply at_topic; [exact Ep|rewrite Hc; discriminate|exact L].
Qed.
(** A text that is no text in sample [i]: the file has the header, the rows of the samples before it, and the
    cells before the text with a separator after each; so it does not end with a newline. *)
Theorem C64_text : forall fstr prefix sep s e u disk pre d post files fs ty ts before i after cs1 name n cs2, u_data u = pre ++ d :: post ->
  convert_ulog2csv fstr prefix sep s e (set_data pre u) = Ok files ->
  ds_fields d = flat_map elements fs -> Forall sane fs -> NoDup (map tname (filter shown fs)) -> In (FValue (lit "timestamp") ty) fs ->
  int_field d (lit "timestamp") ts -> proper_times ts -> exact_limit s -> exact_limit e -> met ts s -> met ts e -> rectangular d (length ts) ->
  window_samples ts (limit s) (limit e) = before ++ i :: after -> (forall j, In j before -> texts_ok d fs j) ->
  table_columns fs = cs1 ++ FText name n :: cs2 ->
  (forall x m, In (FText x m) cs1 -> exists l t, Forall2 (fun k c => cell d (item x k) i = Some (VInt c)) (seq 0 m) l /\ chars l = Some t) ->
  text_bad d name n i ->
  exists disk' rows cells, csv_files fstr prefix sep s e (u_data u) disk = (Err ValueError, disk') /\
    sget (csv_name prefix d) disk' = Some (table_text sep (map tname (table_columns fs) :: rows) ++ open_row sep cells) /\
    Forall2 (fun j row => Forall2 (printed fstr d j) (table_columns fs) row) before rows /\ Forall2 (printed fstr d i) cs1 cells /\
    (exists text, sget (csv_name prefix d) disk' = Some (text ++ sep)) /\
    forall other, other <> csv_name prefix d -> sget other disk' = over files disk other.
Proof.
  intros fstr prefix sep s e u disk pre d post files fs ty ts before i after cs1 name n cs2 E Ep H1 H2 H3 H4 H5 H6 H7 H8 H9 H10 H11 H12 H13 H14 H15 H16. rewrite E.
  destruct (left_rows fstr sep s e d fs ty ts before i after cs1 name n cs2 H1 H2 H3 H4 H5 H6 H7 H8 H9 H10 H11 H12 H13 H14 H15 H16) as (rows & cells & L & R & C).
  destruct H5 as (c & z & sg & Hc & _). destruct (at_topic fstr prefix sep s e disk pre d post files _ _ Ep ltac:(rewrite Hc; discriminate) L) as (disk' & Ed & El & Eo).
  exists disk', rows, cells. split; [exact Ed|]. split; [exact El|]. split; [exact R|]. split; [exact C|]. split; [|exact Eo].
  assert (N : cells <> []).
  { intros ->. inversion C; subst. pose proof (columns_names fs ty H3 H4) as Q. rewrite H14 in Q. cbn [app map tname] in Q.
    assert (Qn : name = lit "timestamp") by exact (f_equal (fun l => match l with x :: _ => x | [] => [] end) Q). subst name.
    assert (In1 : In (FText (lit "timestamp") n) (table_columns fs)) by (rewrite H14; left; reflexivity).
    destruct (columns_In _ _ In1) as (I1 & S1).
    assert (G : FText (lit "timestamp") n = FValue (lit "timestamp") ty); [|discriminate].
    apply (NoDup_map_inj tname (filter shown fs) _ _ H3); [apply filter_In; split; assumption|apply filter_In; split; [assumption|reflexivity]|reflexivity]. }
  destruct (exists_last N) as (cs & z' & ->). rewrite El. eexists. f_equal. unfold open_row. rewrite map_app, concat_app. cbn [map concat]. rewrite app_nil_r, !app_assoc. reflexivity.
Qed.
(** A topic without timestamps: nothing is written for it or the later ones. *)
Theorem C64_no_time : forall fstr prefix sep s e u disk pre d post files, u_data u = pre ++ d :: post ->
  convert_ulog2csv fstr prefix sep s e (set_data pre u) = Ok files -> sget (lit "timestamp") (ds_data d) = None ->
  exists disk', csv_files fstr prefix sep s e (u_data u) disk = (Err KeyError, disk') /\ forall name, sget name disk' = over files disk name.
Proof.
  intros fstr prefix sep s e u disk pre d post files E Ep T. rewrite E.
  destruct (C64_complete fstr prefix sep s e (set_data pre u) disk files Ep) as (cur & Ec & Eo).
  exists cur. split; [|exact Eo]. rewrite (files_app _ _ _ _ _ _ _ _ _ Ec). cbn [csv_files]. unfold csv_file, len_ts. rewrite T. reflexivity.
Qed.
(** Not every file left behind shows that the conversion failed: a limit that no sample reaches leaves
    the very file of a run with an empty range. *)
Theorem C64_header_refuted : exists u, let run s e := csv_files (fun _ _ => lit "?") (lit "f") (lit ",") s e (u_data u) [] in
  fst (run (Some 2) (Some 2)) = Ok tt /\ fst (run (Some 4) None) = Err IndexError /\ snd (run (Some 2) (Some 2)) = snd (run (Some 4) None).
Proof. exists log_t. split; [|split]; vm_compute; reflexivity. Qed.

(** ** GPS dump *)
(** The files of a run that ends are the streams of C43; a run that raises left both files. *)
Theorem C64_gps_complete : forall u inst, match gps_dump u inst with
  | Ok (GpsFiles t f) => gps_files u inst = Some (Ok tt, (t, f))
  | Ok _ => gps_files u inst = None
  | Err e => exists tf, gps_files u inst = Some (Err e, tf) end.
Proof. exact gps_agree. Qed.
(** A length beyond the data fields: KeyError, with the streams of the samples before it and the data there is
    of this one in the files. *)
Theorem C64_gps : forall u d rest ts inst rows len b, u_data u = d :: rest -> In (lit "len") (names d) -> In (lit "data[0]") (names d) ->
  int_field d (lit "timestamp") ts -> (length rows < length ts)%nat -> Forall2 (gps_sample d) (seq 0 (length rows)) rows ->
  gps_short d inst (length rows) len b ->
  gps_dump u inst = Err KeyError /\
  gps_files u inst = Some (Err KeyError, (gps_stream inst true rows ++ (if 128 <=? len then b else []), gps_stream inst false rows ++ (if 128 <=? len then [] else b))).
Proof.
  intros u d rest ts inst rows len b H1 H2 H3 H4 H5 H6 H7. pose proof (gps_left u d rest ts inst rows len b H1 H2 H3 H4 H5 H6 H7) as G. split; [|exact G].
  pose proof (gps_agree u inst) as A. rewrite G in A. destruct (gps_dump u inst) as [[| |t f]|e]; try discriminate. destruct A as (tf & A). congruence.
Qed.

(** ** Cases *)
(** as [ds_t], with a text that is none in the second sample *)
Definition ds_bad : dataset := mkDS 0 7 (lit "t") (ds_fields ds_t) 0
  [(lit "timestamp", col U64 [1000000; 2000000; 3000000]); (lit "x", col I8 [1; 255; 3]); (lit "name[0]", col CChar [104; 200; 97]);
   (lit "name[1]", col CChar [105; 0; 0]); (lit "_padding0", col U8 [0; 0; 0])].
Definition ds_u : dataset := mkDS 0 8 (lit "u") [mkFD (lit "timestamp") U64] 0 [(lit "timestamp", col U64 [9000000])].
Definition disk_0 : dict str str := [(lit "f_u_0.csv", lit "old"); (lit "f_t_0.csv", lit "old"); (lit "x", lit "x")].
Example C64_ex_text : text_bad ds_bad (lit "name") 2 1 /\ (forall j, In j [0%nat] -> texts_ok ds_bad fs_t j) /\ met [1000000; 2000000; 3000000] (Some 3) /\
  window_samples [1000000; 2000000; 3000000] None (Some 3) = [0%nat] ++ 1%nat :: [] /\
  table_columns fs_t = [FValue (lit "timestamp") U64; FValue (lit "x") I8] ++ FText (lit "name") 2 :: [] /\
  rectangular ds_bad 3.
Proof.
  split; [exists [-56; 0]; split; [repeat constructor|reflexivity]|]. split.
  { intros j [<-|[]] name n Hin. cbn in Hin. destruct Hin as [Hin|[Hin|[Hin|[Hin|[]]]]]; try discriminate. injection Hin as <- <-.
    exists [104; 105]. eexists. split; [repeat constructor|reflexivity]. }
  split; [cbn; apply Exists_cons_tl, Exists_cons_tl, Exists_cons_hd; lia|]. split; [reflexivity|]. split; [reflexivity|].
  intros f Hf. cbn in Hf. repeat (destruct Hf as [<-|Hf]; [eexists; split; reflexivity|]). destruct Hf.
Qed.
Example C64_ex_text_run : csv_files (fun _ _ => lit "?") (lit "f") (lit ",") None None [ds_u; ds_bad] disk_0 =
  (Err ValueError, [(lit "f_u_0.csv", lit "timestamp" ++ [10] ++ lit "9000000" ++ [10]);
    (lit "f_t_0.csv", lit "timestamp,x,name" ++ [10] ++ lit "1000000,1,hi" ++ [10] ++ lit "2000000,-1,"); (lit "x", lit "x")]).
Proof. vm_compute. reflexivity. Qed.
Example C64_ex_limit_run : ~ met [1000000; 2000000; 3000000] (Some 4) /\
  csv_files (fun _ _ => lit "?") (lit "f") (lit ",") (Some 4) None [ds_t; ds_u] disk_0 =
  (Err IndexError, [(lit "f_u_0.csv", lit "old"); (lit "f_t_0.csv", lit "timestamp,x,name" ++ [10]); (lit "x", lit "x")]).
Proof. split; [|vm_compute; reflexivity]. cbn. intros H. repeat (inversion H as [? ? A|? ? A]; subst; clear H; [lia|]; rename A into H). inversion H. Qed.
(** lengths 2 and 3 with two data fields *)
Definition ds_short : dataset := mkDS 0 1 (lit "gps_dump") (ds_fields (ds_gps 0)) 0
  [(lit "timestamp", col U64 [1; 2; 3]); (lit "instance", col U8 [0; 0; 0]); (lit "len", col U8 [2; 131; 1]); (lit "data[0]", col U8 [10; 20; 30]); (lit "data[1]", col U8 [11; 21; 31])].
Example C64_ex_gps : Forall2 (gps_sample ds_short) (seq 0 1) [mkGps 0 2 [10; 11]] /\ gps_short ds_short 0 1 131 [20; 21] /\
  gps_files (set_data [ds_short] ulog0) 0 = Some (Err KeyError, ([20; 21], [10; 11])).
Proof.
  assert (B : forall k i b, (exists raw, sget k (ds_data ds_short) = Some (mkCol (NI 1 false) raw) /\ nth_error raw i = Some b) -> 0 <= b < 256 -> byte_field ds_short k i b).
  { intros k i b (raw & E & R) Hb. unfold byte_field. eexists. split; [exact E|]. split; [reflexivity|]. split; [exact R|exact Hb]. }
  split; [|split; [|vm_compute; reflexivity]].
  - repeat constructor; cbn [gps_inst gps_len gps_data]; try reflexivity; apply B; try lia; eexists; split; reflexivity.
  - split; [reflexivity|]. split; [apply B; [eexists; split; reflexivity|lia]|]. split; [reflexivity|]. split; [|reflexivity].
    repeat constructor; (apply B; [eexists; split; reflexivity|lia]).
Qed.
