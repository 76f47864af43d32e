(** Properties of the command line tools and of the PX4 helpers. *)
From Verif Require Import Base Dict PyStr PyFloat Struct PySort ModelTypes ModelRead ModelApi ModelTools SpecTools ProofsWindow ProofsListing ProofsKml.
From Coq Require Import Permutation Sorted.

Lemma F2_len {A B} {R : A -> B -> Prop} {l l'} : Forall2 R l l' -> length l = length l'.
Proof. induction 1; cbn; congruence. Qed.

(** ** C41: extract_message *)
(** One dictionary for each sample in the window, in order, with the timestamp as first key and every
    field once.  A start of 0 is allowed; every other limit must be reached by some sample. *)
Theorem C41_window_partial : forall u name s e d ts, get_dataset u name 0 = Ok d ->
  int_field d (lit "timestamp") ts -> proper_times ts -> (s = Some 0 \/ reached ts s) -> reached ts e ->
  rectangular d (length ts) -> NoDup (names d) -> In (lit "timestamp") (names d) ->
  exists rows, extract_message (Ok u) name s e = Ok rows /\
    Forall2 (record d (time_first (names d))) (window_samples ts s e) rows.
Proof. exact extract_spec. Qed.
(** What every pair of limits gives: 0 counts as no limit, and a limit that no sample has reached
    raises IndexError. *)
Theorem C41_limits : forall u name s e d ts, get_dataset u name 0 = Ok d ->
  int_field d (lit "timestamp") ts -> proper_times ts -> exact_limit s -> exact_limit e ->
  rectangular d (length ts) -> NoDup (names d) -> In (lit "timestamp") (names d) ->
  (met ts s /\ met ts e -> exists rows, extract_message (Ok u) name s e = Ok rows /\
     Forall2 (record d (time_first (names d))) (window_samples ts (limit s) (limit e)) rows) /\
  (~ (met ts s /\ met ts e) -> extract_message (Ok u) name s e = Err IndexError).
Proof. exact extract_limits. Qed.
(** the keys are the fields of the topic *)
Theorem C41_keys : forall d, NoDup (names d) -> In (lit "timestamp") (names d) -> Permutation (time_first (names d)) (names d).
Proof. intros d. apply time_first_Perm. Qed.
(** samples are selected by start <= t < end *)
Theorem C41_selects : forall ts s e i, In i (window_samples ts s e) <->
  (i < length ts)%nat /\ (forall x, s = Some x -> x * 1000000 <= nth i ts 0) /\ (forall x, e = Some x -> nth i ts 0 < x * 1000000).
Proof.
  intros ts s e i. unfold window_samples. rewrite filter_In, in_seq. unfold in_window. rewrite andb_true_iff.
  assert (A : match s with Some x => x * 1000000 <=? nth i ts 0 | None => true end = true <-> forall x, s = Some x -> x * 1000000 <= nth i ts 0).
  { destruct s as [x|]; [|split; [discriminate|reflexivity]]. rewrite Z.leb_le. split; [intros H y E; injection E as <-; exact H|intros H; apply H; reflexivity]. }
  assert (B : match e with Some x => nth i ts 0 <? x * 1000000 | None => true end = true <-> forall x, e = Some x -> nth i ts 0 < x * 1000000).
  { destruct e as [x|]; [|split; [discriminate|reflexivity]]. rewrite Z.ltb_lt. split; [intros H y E; injection E as <-; exact H|intros H; apply H; reflexivity]. }
  rewrite A, B. split; intros (H & H'); (split; [lia|exact H']).
Qed.
(** a topic that is not in the log, and a log that cannot be loaded *)
Theorem C41_missing : forall u name s e, (forall d, In d (u_data u) -> ds_name d = name -> ds_multi d <> 0) ->
  extract_message (Ok u) name s e = Err AttributeError.
Proof.
  intros u name s e H. unfold extract_message, get_dataset. cbn [bind]. replace (filter _ (u_data u)) with (@nil dataset); [reflexivity|].
  symmetry. apply filter_none. apply Forall_forall. intros d Hd. destruct (str_eqb_spec (ds_name d) name) as [E|N]; [|reflexivity].
  cbn [andb]. apply Z.eqb_neq. apply H; assumption.
Qed.
Theorem C41_load : forall e name ts te, extract_message (Err e) name ts te = Err e.
Proof. reflexivity. Qed.

(** topic "t": three samples at 1 s, 2 s and 3 s *)
Definition col (t : ctype) (l : list Z) : column := mkCol (np_of t) l.
Definition ds_t : dataset := mkDS 0 7 (lit "t") [mkFD (lit "timestamp") U64; mkFD (lit "x") I8; mkFD (lit "name[0]") CChar; mkFD (lit "name[1]") CChar; mkFD (lit "_padding0") U8] 0
  [(lit "timestamp", col U64 [1000000; 2000000; 3000000]); (lit "x", col I8 [1; 255; 3]); (lit "name[0]", col CChar [104; 0; 97]);
   (lit "name[1]", col CChar [105; 0; 0]); (lit "_padding0", col U8 [0; 0; 0])].
Definition log_t : ulog := set_data [ds_t] (set_last 3000000 ulog0).
Example C41_ex : int_field ds_t (lit "timestamp") [1000000; 2000000; 3000000] /\ proper_times [1000000; 2000000; 3000000] /\
  reached [1000000; 2000000; 3000000] (Some 2) /\ reached [1000000; 2000000; 3000000] (Some 3) /\ rectangular ds_t 3 /\
  NoDup (names ds_t) /\ In (lit "timestamp") (names ds_t) /\ window_samples [1000000; 2000000; 3000000] (Some 2) (Some 3) = [1%nat].
Proof.
  split; [exists (col U64 [1000000; 2000000; 3000000]), 8%nat, false; repeat split; reflexivity|].
  split; [split; [repeat constructor; lia|change (2 ^ 53) with 9007199254740992; repeat constructor; lia]|].
  split; [split; [lia|split; [change (2 ^ 53) with 9007199254740992; lia|right; left; lia]]|].
  split; [split; [lia|split; [change (2 ^ 53) with 9007199254740992; lia|right; right; left; lia]]|].
  split; [intros f Hf; cbn in Hf; repeat (destruct Hf as [<-|Hf]; [eexists; split; reflexivity|]); destruct Hf|].
  split; [repeat constructor; cbn; intuition discriminate|]. split; [left; reflexivity|]. reflexivity.
Qed.
Example C41_limits_ex : exact_limit (Some 2) /\ exact_limit (Some 4) /\ met [1000000; 2000000; 3000000] (Some 2) /\ ~ met [1000000; 2000000; 3000000] (Some 4).
Proof.
  cbn [exact_limit met limit]. change (2 ^ 53) with 9007199254740992. split; [lia|]. split; [lia|]. split; [right; left; lia|].
  intros H. repeat (inversion H as [? ? X|? ? X]; subst; [lia|clear H; rename X into H]). inversion H.
Qed.
Example C41_ex_run : extract_message (Ok log_t) (lit "t") (Some 2) (Some 3) =
  Ok [[(lit "timestamp", VInt 2000000); (lit "x", VInt (-1)); (lit "name[0]", VInt 0); (lit "name[1]", VInt 0); (lit "_padding0", VInt 0)]].
Proof. vm_compute. reflexivity. Qed.
(** An end after the last sample does not give the samples up to the end of the log: it raises. *)
Theorem C41_end_refuted : exists u name e d ts, get_dataset u name 0 = Ok d /\ int_field d (lit "timestamp") ts /\ proper_times ts /\
  rectangular d (length ts) /\ window_samples ts None (Some e) = seq 0 (length ts) /\ extract_message (Ok u) name None (Some e) = Err IndexError.
Proof.
  exists log_t, (lit "t"), 4, ds_t, [1000000; 2000000; 3000000]. split; [reflexivity|].
  destruct C41_ex as (A & B & _ & _ & C & _). split; [exact A|]. split; [exact B|]. split; [exact C|]. split; vm_compute; reflexivity.
Qed.
(** An end of 0 is no limit: samples after the end are returned. *)
Theorem C41_zero_refuted : exists u name d ts rows, get_dataset u name 0 = Ok d /\ int_field d (lit "timestamp") ts /\ proper_times ts /\
  rectangular d (length ts) /\ window_samples ts None (Some 0) = [] /\ extract_message (Ok u) name None (Some 0) = Ok rows /\ rows <> [].
Proof.
  exists log_t, (lit "t"), ds_t, [1000000; 2000000; 3000000]. eexists. split; [reflexivity|].
  destruct C41_ex as (A & B & _ & _ & C & _). split; [exact A|]. split; [exact B|]. split; [exact C|]. split; [reflexivity|].
  split; [vm_compute; reflexivity|discriminate].
Qed.
(** the filter that loads the topic also loads the topics whose name is part of the given one *)
Theorem C41_filter : forall message name, substring_filter message name = true <-> exists a b, message = a ++ name ++ b.
Proof.
  intros m n. unfold substring_filter, str_in. rewrite Z.leb_le. split.
  - intros H. destruct (find_sub_spec n m (find_sub n m) eq_refl H) as ((a & b & E & _) & _). exists a, b. exact E.
  - intros (a & b & ->). apply find_sub_found.
Qed.

(** ** C42: CSV *)
(** The fields of the topic are given as values, texts and padding. *)
Theorem C42_table : forall fstr sep s e d fs ty ts, ds_fields d = flat_map elements fs -> Forall sane fs ->
  NoDup (map tname (filter shown fs)) -> In (FValue (lit "timestamp") ty) fs ->
  int_field d (lit "timestamp") ts -> proper_times ts -> (s = Some 0 \/ reached ts s) -> reached ts e ->
  rectangular d (length ts) -> (forall i, In i (window_samples ts s e) -> texts_ok d fs i) ->
  exists rows, csv_text fstr sep s e d = Ok (table_text sep (map tname (table_columns fs) :: rows)) /\
    Forall2 (fun i row => Forall2 (printed fstr d i) (table_columns fs) row) (window_samples ts s e) rows.
Proof. exact csv_spec. Qed.
(** A limit that no sample of the topic has reached raises IndexError; a limit of 0 is none. *)
Theorem C42_limits : forall fstr sep s e d fs ty ts, ds_fields d = flat_map elements fs -> Forall sane fs ->
  NoDup (map tname (filter shown fs)) -> In (FValue (lit "timestamp") ty) fs ->
  int_field d (lit "timestamp") ts -> proper_times ts -> exact_limit s -> exact_limit e ->
  csv_text fstr sep s e d = csv_text fstr sep (limit s) (limit e) d /\
  (~ (met ts s /\ met ts e) -> csv_text fstr sep s e d = Err IndexError).
Proof. intros. split; [apply csv_limit|]. intros N. eapply csv_beyond; eassumption. Qed.
(** the columns: every field but the padding once, the timestamp first *)
Theorem C42_columns : forall fs ty, NoDup (map tname (filter shown fs)) -> In (FValue (lit "timestamp") ty) fs ->
  Permutation (table_columns fs) (filter shown fs) /\ exists r, map tname (table_columns fs) = lit "timestamp" :: r.
Proof.
  intros fs ty Hn Ht. split; [|rewrite (columns_names fs ty Hn Ht); eexists; reflexivity].
  apply NoDup_Permutation.
  - apply (NoDup_map_inv tname). rewrite (columns_names fs ty Hn Ht). apply time_first_NoDup. exact Hn.
  - apply (NoDup_map_inv tname). exact Hn.
  - intros f. unfold table_columns. rewrite in_app_iff, !filter_In. destruct f as [n t|n k|n t]; cbn [shown is_time andb negb]; [|intuition discriminate|intuition discriminate].
    destruct (str_eqb n (lit "timestamp")); cbn [negb]; intuition discriminate.
Qed.
(** Reading the file back by splitting it at newlines and delimiters gives the header and the rows,
    each as long as the header, if neither occurs in a name or a printed value. *)
Theorem C42_rectangular : forall fstr c s e d fs ty ts, ds_fields d = flat_map elements fs -> Forall sane fs ->
  NoDup (map tname (filter shown fs)) -> In (FValue (lit "timestamp") ty) fs ->
  int_field d (lit "timestamp") ts -> proper_times ts -> (s = Some 0 \/ reached ts s) -> reached ts e ->
  rectangular d (length ts) -> (forall i, In i (window_samples ts s e) -> texts_ok d fs i) -> c <> 10 ->
  (forall f, In f fs -> shown f = true -> ~ In c (tname f) /\ ~ In 10 (tname f)) ->
  (forall i f t, In i (window_samples ts s e) -> In f fs -> printed fstr d i f t -> ~ In c t /\ ~ In 10 t) ->
  exists text, csv_text fstr [c] s e d = Ok text /\
  exists header rows, map (split1 c) (removelast (split1 10 text)) = header :: rows /\ header = map tname (table_columns fs) /\
    length rows = length (window_samples ts s e) /\ Forall (fun r => length r = length header) rows /\
    Forall2 (fun i row => Forall2 (printed fstr d i) (table_columns fs) row) (window_samples ts s e) rows.
Proof.
  intros fstr c s e d fs ty ts H1 H2 H3 H4 H5 H6 H7 H8 H9 H10 Hc Hnm Hpr.
  destruct (csv_spec fstr [c] s e d fs ty ts H1 H2 H3 H4 H5 H6 H7 H8 H9 H10) as (rows & E & R).
  eexists. split; [exact E|]. exists (map tname (table_columns fs)), rows.
  assert (N : table_columns fs <> []).
  { intros X. apply (f_equal (map tname)) in X. rewrite (columns_names fs ty H3 H4) in X. discriminate. }
  split; [|split; [reflexivity|split; [symmetry; exact (F2_len R)|split; [|exact R]]]].
  - apply split_table; [exact Hc|]. constructor.
    + split; [intros X; apply N; apply map_eq_nil in X; exact X|]. apply Forall_forall. intros x Hx. apply in_map_iff in Hx. destruct Hx as (f & <- & Hf).
      apply columns_In in Hf. apply Hnm; apply Hf.
    + apply Forall_forall. intros row Hrow. assert (G : exists i, In i (window_samples ts s e) /\ Forall2 (printed fstr d i) (table_columns fs) row).
      { clear -R Hrow. induction R as [|i r is rs Hi His IH]; [destruct Hrow|]. destruct Hrow as [<-|Hrow]; [exists i; split; [left; reflexivity|exact Hi]|].
        destruct (IH Hrow) as (j & Hj & Pj). exists j. split; [right; exact Hj|exact Pj]. }
      destruct G as (i & Hi & G). split.
      * intros ->. inversion G. congruence.
      * assert (Q : forall f, In f (table_columns fs) -> In f fs) by (intros f Hf; apply (columns_In fs f Hf)). revert Q. clear -G Hpr Hi. induction G as [|f t l m P Q IH]; intros Hin; constructor.
        -- apply (Hpr i f t Hi); [apply Hin; left; reflexivity|exact P].
        -- apply IH. intros g Hg. apply Hin. right. exact Hg.
  - rewrite map_length. clear -R. induction R as [|i r is rs Hi His IH]; constructor; [symmetry; exact (F2_len Hi)|exact IH].
Qed.
(** what is printed is determined *)
Lemma cell_float d n i c size z : sget n (ds_data d) = Some c -> c_type c = NF size -> cell d n i = Some (VInt z) -> False.
Proof.
  intros E T H. unfold cell in H. rewrite E in H. destruct (nth_error (c_raw c) i) as [x|]; [|discriminate]. rewrite T in H.
  cbn [np_elem] in H. destruct size as [|[|[|[|[|size]]]]]; discriminate H.
Qed.
Theorem C42_printed_partial : forall fstr d i f a b, printed fstr d i f a -> printed fstr d i f b -> a = b.
Proof.
  intros fstr d i f a b Ha Hb. destruct Ha as [n ty z E|n ty c size x E1 E2 E3|n k l s E1 E2]; inversion Hb as [n' ty' z' E' Q|n' ty' c' size' x' E1' E2' E3' Q|n' k' l' s' E1' E2' Q]; subst.
  - congruence.
  - exfalso. exact (cell_float _ _ _ _ _ _ E1' E2' E).
  - exfalso. exact (cell_float _ _ _ _ _ _ E1 E2 E').
  - congruence.
  - assert (l = l'); [|congruence]. clear -E1 E1'. revert l' E1'. induction E1 as [|j x ks l Hx Hl IH]; intros l' E1'; inversion E1'; subst; [reflexivity|].
    f_equal; [congruence|]. apply IH. assumption.
Qed.
Definition fs_t : list tfield := [FValue (lit "timestamp") U64; FValue (lit "x") I8; FText (lit "name") 2; FPadding (lit "0") U8].
Example C42_ex : ds_fields ds_t = flat_map elements fs_t /\ Forall sane fs_t /\ NoDup (map tname (filter shown fs_t)) /\
  In (FValue (lit "timestamp") U64) fs_t /\ (forall i, In i (window_samples [1000000; 2000000; 3000000] None None) -> texts_ok ds_t fs_t i).
Proof.
  split; [reflexivity|]. split.
  { repeat constructor; cbn; try reflexivity; try discriminate; try lia; intuition discriminate. }
  split; [repeat constructor; cbn; intuition discriminate|]. split; [left; reflexivity|].
  intros i Hi name n Hin. cbn in Hin. destruct Hin as [Hin|[Hin|[Hin|[Hin|[]]]]]; try discriminate. injection Hin as <- <-.
  cbn in Hi. destruct Hi as [<-|[<-|[<-|[]]]].
  - exists [104; 105]. eexists. split; [repeat constructor|reflexivity].
  - exists [0; 0]. eexists. split; [repeat constructor|reflexivity].
  - exists [97; 0]. eexists. split; [repeat constructor|reflexivity].
Qed.
Example C42_ex_run : csv_text (fun _ _ => lit "?") (lit ",") None None ds_t = Ok (table_text (lit ",")
  [[lit "timestamp"; lit "x"; lit "name"]; [lit "1000000"; lit "1"; lit "hi"]; [lit "2000000"; lit "-1"; lit ""]; [lit "3000000"; lit "3"; lit "a"]]).
Proof. vm_compute. reflexivity. Qed.
(** Delimiters in texts are not quoted: the row then has more fields than the header. *)
Theorem C42_quote_refuted : exists d text header row, csv_text (fun _ _ => []) (lit ",") None None d = Ok text /\
  map (split1 44) (removelast (split1 10 text)) = [header; row] /\ length row <> length header.
Proof.
  exists (mkDS 0 0 (lit "t") [mkFD (lit "timestamp") U64; mkFD (lit "n[0]") CChar; mkFD (lit "n[1]") CChar] 0
    [(lit "timestamp", col U64 [5]); (lit "n[0]", col CChar [97]); (lit "n[1]", col CChar [44])]).
  do 3 eexists. split; [vm_compute; reflexivity|]. split; [vm_compute; reflexivity|]. discriminate.
Qed.
(** A text that is not ASCII cannot be converted. *)
Theorem C42_text_refuted : exists d, rectangular d 1 /\ csv_text (fun _ _ => []) (lit ",") None None d = Err ValueError.
Proof.
  exists (mkDS 0 0 (lit "t") [mkFD (lit "timestamp") U64; mkFD (lit "n[0]") CChar; mkFD (lit "n[1]") CChar] 0
    [(lit "timestamp", col U64 [5]); (lit "n[0]", col CChar [195]); (lit "n[1]", col CChar [164])]).
  split; [|vm_compute; reflexivity]. intros f Hf. cbn in Hf. repeat (destruct Hf as [<-|Hf]; [eexists; split; reflexivity|]). destruct Hf.
Qed.

(** A topic without a timestamp ends the conversion of the log. *)
Theorem C42_no_time : forall fstr prefix sep ts te u d rest, u_data u = d :: rest -> sget (lit "timestamp") (ds_data d) = None ->
  convert_ulog2csv fstr prefix sep ts te u = Err KeyError.
Proof. intros fstr prefix sep ts te u d rest E H. unfold convert_ulog2csv. rewrite E. cbn [foldM]. unfold csv_text, len_ts. rewrite H. reflexivity. Qed.

(** ** C43: GPS dump *)
Theorem C43_streams_partial : forall u d rest ts inst rows, u_data u = d :: rest -> In (lit "len") (names d) -> In (lit "data[0]") (names d) ->
  int_field d (lit "timestamp") ts -> (exists c, sget (lit "len") (ds_data d) = Some c) -> Forall2 (gps_sample d) (seq 0 (length ts)) rows ->
  gps_dump u inst = Ok (GpsFiles (gps_stream inst true rows) (gps_stream inst false rows)).
Proof. exact gps_spec. Qed.
(** no byte is lost: the streams of all instances together have the bytes of all rows *)
Theorem C43_complete : forall inst rows, (forall r, In r rows -> gps_inst r = inst) ->
  (length (gps_stream inst true rows) + length (gps_stream inst false rows))%nat = length (concat (map gps_data rows)).
Proof.
  intros inst rows H. unfold gps_stream. induction rows as [|r rows IH]; [reflexivity|]. cbn [filter map concat].
  rewrite (H r (or_introl eq_refl)), Z.eqb_refl. cbn [andb]. rewrite app_length, <- IH by (intros r' Hr; apply H; right; exact Hr).
  destruct (128 <=? gps_len r); cbn [Bool.eqb map concat]; rewrite app_length; lia.
Qed.
Definition ds_gps (multi : Z) : dataset := mkDS multi 1 (lit "gps_dump") [mkFD (lit "timestamp") U64; mkFD (lit "instance") U8; mkFD (lit "len") U8; mkFD (lit "data[0]") U8; mkFD (lit "data[1]") U8] 0
  [(lit "timestamp", col U64 [1; 2; 3]); (lit "instance", col U8 [0; 0; 1]); (lit "len", col U8 [2; 129; 1]); (lit "data[0]", col U8 [10; 20; 30]); (lit "data[1]", col U8 [11; 21; 31])].
Example C43_ex : Forall2 (gps_sample (ds_gps 0)) (seq 0 (length [1; 2; 3])) [mkGps 0 2 [10; 11]; mkGps 0 129 [20]; mkGps 1 1 [30]].
Proof.
  repeat constructor; cbn [gps_inst gps_len gps_data]; try reflexivity;
    match goal with |- byte_field _ ?k _ _ => destruct (sget k (ds_data (ds_gps 0))) as [c|] eqn:E; vm_compute in E; [|discriminate]; eexists; split; [vm_compute; reflexivity|]; repeat split; lia end.
Qed.
Example C43_ex_run : gps_dump (set_data [ds_gps 0] ulog0) 0 = Ok (GpsFiles [20] [10; 11]).
Proof. vm_compute. reflexivity. Qed.
Theorem C43_none : forall u inst, u_data u = [] -> gps_dump u inst = Ok GpsNoData.
Proof. intros u inst H. unfold gps_dump. rewrite H. reflexivity. Qed.
(** Rows in a second dataset of the topic are not written. *)
Theorem C43_second_refuted : exists u d, In d (u_data u) /\ ds_name d = lit "gps_dump" /\
  (exists row, gps_sample d 0 row /\ gps_inst row = 0 /\ gps_data row <> []) /\ gps_dump u 0 = Ok (GpsFiles [] []).
Proof.
  exists (set_data [mkDS 0 1 (lit "gps_dump") (ds_fields (ds_gps 0)) 0 [(lit "timestamp", col U64 []); (lit "len", col U8 []); (lit "data[0]", col U8 []); (lit "data[1]", col U8 [])]; ds_gps 1] ulog0), (ds_gps 1).
  split; [right; left; reflexivity|]. split; [reflexivity|]. split; [|vm_compute; reflexivity].
  exists (mkGps 0 2 [10; 11]). pose proof C43_ex as H. inversion H; subst. split; [assumption|]. split; [reflexivity|discriminate].
Qed.
(** A length beyond the data fields stops the tool. *)
Theorem C43_length_refuted : exists u d, u_data u = [d] /\ rectangular d 1 /\ gps_dump u 0 = Err KeyError.
Proof.
  exists (set_data [mkDS 0 1 (lit "gps_dump") [mkFD (lit "timestamp") U64; mkFD (lit "len") U8; mkFD (lit "data[0]") U8] 0
    [(lit "timestamp", col U64 [1]); (lit "len", col U8 [2]); (lit "data[0]", col U8 [10])]] ulog0). eexists. split; [reflexivity|]. split; [|vm_compute; reflexivity].
  intros f Hf. cbn in Hf. repeat (destruct Hf as [<-|Hf]; [eexists; split; reflexivity|]). destruct Hf.
Qed.

(** ** C44: parameters *)
(** the parameters listed: the initial ones, or the selected defaults (which imply --initial) *)
Theorem C44_initial_partial : forall vstr sep fmt times initial u, NoDup (dkeys (u_params u)) ->
  exists kvs, Permutation kvs (u_params u) /\ StronglySorted (fun a b => str_ltb (fst a) (fst b) = true) kvs /\
    params_main vstr sep fmt DefNone times initial u = Ok (concat (map (fun kv => match fmt with
      | FCsv => csv_entry vstr sep times (negb initial) u (fst kv) (snd kv)
      | FOctave => octave_entry vstr (negb initial) u (fst kv) (snd kv)
      | FQgc => qgc_entry vstr (fst kv) (snd kv)
      end) kvs)).
Proof. intros vstr sep fmt times initial u Hn. exact (params_spec vstr sep fmt DefNone times initial u (u_params u) initial eq_refl Hn). Qed.
Theorem C44_defaults : forall vstr sep fmt times initial u (setup : bool),
  let params := get_default_parameters u (if setup then 1 else 0) in
  has_default_parameters u = true -> NoDup (dkeys params) ->
  exists kvs, Permutation kvs params /\ StronglySorted (fun a b => str_ltb (fst a) (fst b) = true) kvs /\
    params_main vstr sep fmt (if setup then DefSetup else DefSystem) times initial u = Ok (concat (map (fun kv => match fmt with
      | FCsv => csv_entry vstr sep times false u (fst kv) (snd kv)
      | FOctave => octave_entry vstr false u (fst kv) (snd kv)
      | FQgc => qgc_entry vstr (fst kv) (snd kv)
      end) kvs)).
Proof.
  intros vstr sep fmt times initial u setup params Hd Hn.
  apply (params_spec vstr sep fmt (if setup then DefSetup else DefSystem) times initial u params true); [|exact Hn].
  unfold params_of. destruct setup; rewrite Hd; reflexivity.
Qed.
Theorem C44_no_defaults : forall vstr sep fmt df times initial u, df <> DefNone -> has_default_parameters u = false ->
  params_main vstr sep fmt df times initial u = Err AssertionError.
Proof. intros vstr sep fmt df times initial u Hd Hh. unfold params_main, params_of. rewrite Hh. destruct df; [congruence|reflexivity|reflexivity|reflexivity]. Qed.
Theorem C44_default_name : forall vstr sep fmt times initial u, has_default_parameters u = true ->
  params_main vstr sep fmt DefOther times initial u = Err ValueError.
Proof. intros vstr sep fmt times initial u Hh. unfold params_main, params_of. rewrite Hh. reflexivity. Qed.
Definition vstr_ex (v : value) : str := match v with VInt z => str_of_Z z | _ => lit "?" end.
Definition log_p : ulog := set_changed [(5, lit "B", VInt 3); (6, lit "C", VInt 4); (7, lit "B", VInt 5)] (set_params [(lit "B", VInt 2); (lit "A", VInt 1)] ulog0).
Example C44_ex : params_main vstr_ex (lit ",") FCsv DefNone false false log_p = Ok (lit "A,1" ++ [10] ++ lit "B,2,3,5" ++ [10]).
Proof. vm_compute. reflexivity. Qed.
Example C44_ex_times : params_main vstr_ex (lit ",") FCsv DefNone true false log_p =
  Ok (lit "A,1" ++ [10] ++ lit "timestamp,0" ++ [10] ++ lit "B,2,3,5" ++ [10] ++ lit "timestamp,0,5,7" ++ [10]).
Proof. vm_compute. reflexivity. Qed.
(** A parameter that is only set during the log is not listed at all. *)
Theorem C44_changed_refuted : exists u t k v out, In (t, k, v) (u_changed u) /\ params_main vstr_ex (lit ",") FCsv DefNone false false u = Ok out /\ find_sub k out = -1.
Proof. exists log_p, 6, (lit "C"), (VInt 4). eexists. split; [right; left; reflexivity|]. split; vm_compute; reflexivity. Qed.
(** With timestamps, --initial (and --default) does not leave out the changes. *)
Theorem C44_timestamps_refuted : exists u, params_main vstr_ex (lit ",") FCsv DefNone true true u = params_main vstr_ex (lit ",") FCsv DefNone true false u /\
  params_main vstr_ex (lit ",") FCsv DefNone false true u <> params_main vstr_ex (lit ",") FCsv DefNone false false u.
Proof. exists log_p. split; [reflexivity|]. vm_compute. discriminate. Qed.

(** ** C45: messages *)
(** PX4 logs: every event to be shown and every message that does not end with a tab, once, ordered by
    time, and in the order of the log (events first) for equal times. *)
Theorem C45_merge_partial : forall p u d ids rows, sget (lit "sys_name") (u_info u) = Some (VStr (lit "PX4")) ->
  get_dataset u (lit "event") 0 = Ok d -> int_field d (lit "id") ids -> Forall2 (event_sample d) (seq 0 (length ids)) rows ->
  Forall (fun m => lg_msg m <> []) (u_logged u) ->
  exists keep out, messages_of (Ok (Some p)) u = Ok out /\
    (forall m, keep m = true <-> ~ tab_ended (lg_msg m)) /\
    let expected := flat_map (event_entry p) rows ++ map log_entry (filter keep (u_logged u)) in
    Permutation out expected /\ StronglySorted (fun a b => time_of a <= time_of b) out /\
    forall t, filter (fun m => time_of m =? t) out = filter (fun m => time_of m =? t) expected.
Proof.
  intros p u d ids rows Hs Hd Hi Hr Hm. exists (fun m => negb (tab_endedb (lg_msg m))).
  destruct (messages_px4 (Ok (Some p)) u _ Hs (events_spec (Some p) u d ids rows Hd Hi Hr) Hm) as (out & E & P & S & F).
  exists out. split; [exact E|]. split; [|split; [exact P|split; [exact S|exact F]]].
  intros m. rewrite negb_true_iff. split.
  - intros H X. apply tab_endedb_iff in X. congruence.
  - intros H. destruct (tab_endedb (lg_msg m)) eqn:B; [|reflexivity]. apply tab_endedb_iff in B. contradiction.
Qed.
(** without event definitions every event of a visible level is listed by its number *)
Theorem C45_unknown : forall u d ids rows, get_dataset u (lit "event") 0 = Ok d -> int_field d (lit "id") ids -> Forall2 (event_sample d) (seq 0 (length ids)) rows ->
  get_logged_events (Ok None) u = Ok (flat_map (event_entry (fun _ _ => None)) rows).
Proof. intros u d ids rows. exact (events_spec None u d ids rows). Qed.
(** a sample without a level, or a visible one without a time, ends the list: the events before it are kept *)
Theorem C45_cut : forall p u d ids rows, get_dataset u (lit "event") 0 = Ok d -> int_field d (lit "id") ids ->
  (length rows < length ids)%nat -> Forall2 (event_sample d) (seq 0 (length rows)) rows ->
  cell d (lit "log_levels") (length rows) = None \/
    (exists l, cell d (lit "log_levels") (length rows) = Some (VInt l) /\ 0 <= l < 128 /\ cell d (lit "timestamp") (length rows) = None) ->
  get_logged_events (Ok p) u = Ok (flat_map (event_entry (match p with Some f => f | None => fun _ _ => None end)) rows).
Proof. exact events_cut. Qed.
(** no events: the topic is missing, or the definitions cannot be loaded *)
Theorem C45_no_events : forall parser u, (forall d, get_dataset u (lit "event") 0 <> Ok d) \/ (exists e, parser = Err e) -> get_logged_events parser u = Ok [].
Proof.
  intros parser u H. unfold get_logged_events. destruct (get_dataset u (lit "event") 0) as [d|e]; [|reflexivity].
  destruct H as [H|(e & ->)]; [destruct (H d eq_refl)|]. destruct (sget (lit "id") (ds_data d)) as [c|]; [|reflexivity]. destruct (c_raw c); reflexivity.
Qed.
(** other logs: the messages as they are in the log *)
Theorem C45_other : forall parser u, (forall v, sget (lit "sys_name") (u_info u) = Some v -> value_eqb v (VStr (lit "PX4")) = false) ->
  messages_of parser u = Ok (map log_entry (u_logged u)).
Proof. exact messages_other. Qed.
(** the printed time *)
Theorem C45_clock : forall t level text, 0 <= t <= 2 ^ 53 -> exists h m s, 0 <= m < 60 /\ 0 <= s < 60 /\ h * 3600 + m * 60 + s = t / 1000000 /\
  message_line (t, level, text) = str_of_Z h ++ lit ":" ++ dd m ++ lit ":" ++ dd s ++ lit " " ++ level ++ lit ": " ++ text.
Proof. exact clock_spec. Qed.
Theorem C45_lines : forall parser u out, messages_of parser u = Ok out -> messages_main parser u = Ok (map message_line out).
Proof. intros parser u out E. unfold messages_main. rewrite E. reflexivity. Qed.
Definition ds_ev : dataset := mkDS 0 3 (lit "event") [] 0
  [(lit "timestamp", col U64 [3000000; 61000000]); (lit "id", col U32 [5; 6]); (lit "log_levels", col U8 [100; 134]); (lit "arguments[0]", col U8 [1; 2])].
Definition log_m : ulog := set_data [ds_ev] (set_logged [mkLog 54 3661000000 (lit "late"); mkLog 52 1 (lit "early"); mkLog 52 2 (lit "dup" ++ [9])]
  (set_info [(lit "sys_name", VStr (lit "PX4"))] ulog0)).
Example C45_ex : Forall2 (event_sample ds_ev) (seq 0 (length [5; 6])) [mkEv 3000000 5 100 [1]; mkEv 61000000 6 134 [2]].
Proof.
  repeat constructor; cbn [ev_time ev_id ev_levels ev_args]; try reflexivity; try lia;
    match goal with |- byte_field _ ?k _ _ => eexists; split; [vm_compute; reflexivity|]; repeat split; lia end.
Qed.
Definition ds_cut : dataset := mkDS 0 3 (lit "event") [] 0
  [(lit "timestamp", col U64 [3000000]); (lit "id", col U32 [5; 6]); (lit "log_levels", col U8 [100; 102])].
Example C45_ex_cut : Forall2 (event_sample ds_cut) (seq 0 1) [mkEv 3000000 5 100 []] /\ int_field ds_cut (lit "id") [5; 6] /\
  cell ds_cut (lit "log_levels") 1 = Some (VInt 102) /\ cell ds_cut (lit "timestamp") 1 = None /\
  get_logged_events (Ok None) (set_data [ds_cut] ulog0) = Ok [(3000000, lit "INFO", lit "[Unknown event with ID 5]")].
Proof.
  split; [repeat constructor; cbn [ev_time ev_id ev_levels ev_args]; try reflexivity; lia|].
  split; [eexists _, _, _; repeat split; reflexivity|]. repeat split; vm_compute; reflexivity.
Qed.
Example C45_ex_run : messages_main (Ok None) log_m =
  Ok [lit "0:00:00 WARNING: early"; lit "0:00:03 INFO: [Unknown event with ID 5]"; lit "1:01:01 INFO: late"].
Proof. vm_compute. reflexivity. Qed.
(** Findings: an empty message stops the listing of a PX4 log; ... *)
Theorem C45_empty_refuted : exists u, sget (lit "sys_name") (u_info u) = Some (VStr (lit "PX4")) /\ messages_main (Ok None) u = Err IndexError.
Proof.
  exists (set_logged [mkLog 54 1 []] (set_info [(lit "sys_name", VStr (lit "PX4"))] ulog0)). split; [reflexivity|]. vm_compute. reflexivity.
Qed.
(** ... logs of other systems are not ordered by time; ... *)
Theorem C45_order_refuted : exists u out, messages_of (Ok None) u = Ok out /\ ~ StronglySorted (fun a b => time_of a <= time_of b) out.
Proof.
  exists (set_logged [mkLog 54 2 (lit "b"); mkLog 54 1 (lit "a")] ulog0). eexists. split; [reflexivity|]. intros H. inversion H as [|? ? _ F]; subst.
  inversion F; subst. cbv in H2. apply H2. reflexivity.
Qed.
(** ... and the seconds of very late times are those of a rounded time. *)
Theorem C45_clock_refuted : exists t, 0 <= t < 2 ^ 64 /\ seconds t <> t / 1000000.
Proof. exists 18446743999999999999. split; [change (2 ^ 64) with 18446744073709551616; lia|]. vm_compute. discriminate. Qed.

(** ** C46: tracks *)
Theorem C46_track : forall min u topic vs vts ms d ts fixes, get_dataset u (lit "vehicle_status") 0 = Ok vs ->
  int_field vs (lit "timestamp") vts -> (exists c, sget (lit "timestamp") (ds_data vs) = Some c /\ c_type c = NI 8 false) ->
  int_field vs (lit "nav_state") ms -> length vts = length ms -> StronglySorted Z.le vts -> Forall (fun t => t <= u_last u) vts ->
  get_dataset u topic 0 = Ok d ->
  (exists c, either d (lit "lon") (lit "longitude_deg") = Ok c) -> (exists c, either d (lit "lat") (lit "latitude_deg") = Ok c) ->
  (exists c, either d (lit "alt") (lit "altitude_msl_m") = Ok c) ->
  int_field d (lit "timestamp") ts -> StronglySorted Z.le ts -> Forall (fun t => 0 <= t < 2 ^ 64) ts ->
  match fixes with Some fs => int_field d (lit "fix_type") fs /\ length fs = length ts | None => sget (lit "fix_type") (ds_data d) = None end ->
  exists lines, kml_track min u topic = Ok lines /\ thinned min 0 (fix_samples ts fixes) (path lines) /\
    consecutive touches lines /\ Forall (coloured (mode_samples u vts ms)) lines.
Proof. exact track_spec. Qed.
(** thinning, in other words: a subsequence with gaps larger than the minimum *)
Theorem C46_thinned : forall min last l k, thinned min last l k -> subsequence k l /\
  (forall p r, k = p :: r -> min < fst p - last) /\ consecutive (fun p q => min < fst q - fst p) k.
Proof. intros min last l k H. split; [apply (thinned_sub _ _ _ _ H)|apply (thinned_spaced _ _ _ _ H)]. Qed.
Theorem C46_thinned_unique : forall min last l k k', thinned min last l k -> thinned min last l k' -> k = k'.
Proof.
  intros min last l k k' H. revert k'. induction H as [last|last p r k H T IH|last p r k H T IH]; intros k' H'; inversion H'; subst; try reflexivity; try lia.
  - f_equal. apply IH. assumption.
  - apply IH. assumption.
Qed.
(** without flight modes there is one line *)
Theorem C46_no_modes : forall min u topic d ts fixes, (forall vs, get_dataset u (lit "vehicle_status") 0 <> Ok vs) ->
  get_dataset u topic 0 = Ok d ->
  (exists c, either d (lit "lon") (lit "longitude_deg") = Ok c) -> (exists c, either d (lit "lat") (lit "latitude_deg") = Ok c) ->
  (exists c, either d (lit "alt") (lit "altitude_msl_m") = Ok c) ->
  int_field d (lit "timestamp") ts -> StronglySorted Z.le ts -> Forall (fun t => 0 <= t < 2 ^ 64) ts ->
  match fixes with Some fs => int_field d (lit "fix_type") fs /\ length fs = length ts | None => sget (lit "fix_type") (ds_data d) = None end ->
  exists points, kml_track min u topic = Ok [(0, points)] /\ thinned min 0 (fix_samples ts fixes) points.
Proof.
  intros min u topic d ts fixes Hv D1 D2 D3 D4 D5 D6 D7 D8. unfold kml_track.
  assert (E : kml_changes u = Ok []).
  { unfold kml_changes. destruct (get_dataset u (lit "vehicle_status") 0) as [vs|e] eqn:G; [destruct (Hv vs eq_refl)|]. unfold get_dataset, py_nth in G.
    destruct (nth_error _ 0); [discriminate|]. injection G as <-. reflexivity. }
  rewrite E. cbn [bind]. rewrite (positions_spec u topic d ts D1 D2 D3 D4 D5 fixes D8). cbn [bind].
  assert (F : forall ps k, kml_done (fold_left (kml_point min []) ps k) = kml_done k /\ fst (kml_cur (fold_left (kml_point min []) ps k)) = fst (kml_cur k)).
  { induction ps as [|p ps IH]; intros k; [split; reflexivity|]. cbn [fold_left]. destruct (IH (kml_point min [] k p)) as (A & B). rewrite A, B.
    unfold kml_point. cbn [length next_modes]. destruct (min <? _); split; reflexivity. }
  destruct (F (fix_samples ts fixes) (kml_start [])) as (A & B).
  exists (snd (kml_cur (fold_left (kml_point min []) (fix_samples ts fixes) (kml_start [])))). split.
  - unfold kml_lines. cbv zeta. rewrite A. destruct (kml_cur _) as (m, pts) eqn:Ec. cbn [fst snd kml_start kml_cur] in *. rewrite B. reflexivity.
  - destruct (kml_spec min [] (fix_samples ts fixes) (SSorted_nil _) (fix_samples_sorted ts fixes D6)) as (T & _).
    + apply Forall_forall. intros p Hp. unfold fix_samples in Hp. apply in_map_iff in Hp. destruct Hp as (i & <- & Hi). apply filter_In in Hi. destruct Hi as (Hi & _).
      apply in_seq in Hi. rewrite Forall_forall in D7. apply D7. apply nth_In. lia.
    + unfold kml_lines in T. cbv zeta in T. rewrite A in T. cbn [kml_done kml_start app path map concat] in T. rewrite app_nil_r in T. exact T.
Qed.
Definition ds_pos : dataset := mkDS 0 1 (lit "pos") [] 0
  [(lit "timestamp", col U64 [1000000; 1050000; 2000000; 3000000; 4000000]); (lit "lon", col I32 [0; 1; 2; 3; 4]); (lit "lat", col I32 [0; 1; 2; 3; 4]);
   (lit "alt", col I32 [0; 1; 2; 3; 4]); (lit "fix_type", col U8 [3; 3; 3; 2; 3])].
Definition ds_vs : dataset := mkDS 0 2 (lit "vehicle_status") [] 0 [(lit "timestamp", col U64 [500000; 1500000; 3500000]); (lit "nav_state", col U8 [4; 5; 5])].
Definition log_k : ulog := set_data [ds_pos; ds_vs] (set_last 4000000 ulog0).
Example C46_ex : kml_track 100000 log_k (lit "pos") =
  Ok [(4, [(1000000, 0); (2000000, 2)]); (5, [(2000000, 2); (4000000, 4)]); (-1, [(4000000, 4)])].
Proof. vm_compute. reflexivity. Qed.
Example C46_ex_hyps : int_field ds_vs (lit "timestamp") [500000; 1500000; 3500000] /\ int_field ds_vs (lit "nav_state") [4; 5; 5] /\
  int_field ds_pos (lit "timestamp") [1000000; 1050000; 2000000; 3000000; 4000000] /\ int_field ds_pos (lit "fix_type") [3; 3; 3; 2; 3].
Proof. repeat split; (eexists; eexists; eexists; repeat split; reflexivity). Qed.
(** When time goes back, a sample is kept although it is no later than the one before it. *)
Theorem C46_backwards_refuted : exists u topic lines, kml_track 100000 u topic = Ok lines /\
  ~ consecutive (fun p q => 100000 < fst q - fst p) (path lines).
Proof.
  exists (set_data [mkDS 0 1 (lit "pos") [] 0 [(lit "timestamp", col U64 [1000000; 900000]); (lit "lon", col I32 [0; 1]); (lit "lat", col I32 [0; 1]); (lit "alt", col I32 [0; 1])]] ulog0), (lit "pos").
  eexists. split; [vm_compute; reflexivity|]. intros H. specialize (H [] [] (1000000, 0) (900000, 1) eq_refl). cbn in H. lia.
Qed.

(** ** C47: names *)
Theorem C47_csv_partial : forall prefix d e, 0 <= ds_multi d -> 0 <= ds_multi e -> ~ In 47 (ds_name d) -> ~ In 47 (ds_name e) ->
  (ds_name d, ds_multi d) <> (ds_name e, ds_multi e) -> csv_name prefix d <> csv_name prefix e.
Proof.
  intros prefix d e Hd He Sd Se Hne E. destruct (csv_name_inj _ _ _ Hd He E) as (E1 & E2). rewrite !no_slash_id in E1 by assumption. congruence.
Qed.
(** so every dataset has its own file *)
(** The name of a file: the prefix, the topic with each slash turned into an underscore, the instance, the suffix. *)
Theorem C47_csv_form : forall prefix d, exists topic,
  csv_name prefix d = prefix ++ lit "_" ++ topic ++ lit "_" ++ str_of_Z (ds_multi d) ++ lit ".csv" /\
  length topic = length (ds_name d) /\
  forall i, (i < length topic)%nat -> (nth i (ds_name d) 0 = 47 -> nth i topic 0 = 95) /\ (nth i (ds_name d) 0 <> 47 -> nth i topic 0 = nth i (ds_name d) 0).
Proof.
  intros prefix d. exists (no_slash (ds_name d)). split; [reflexivity|]. unfold no_slash. split; [apply map_length|].
  intros i Hi. rewrite map_length in Hi.
  assert (E : nth i (map (fun c => if c =? 47 then 95 else c) (ds_name d)) 0 = if nth i (ds_name d) 0 =? 47 then 95 else nth i (ds_name d) 0)
    by apply (map_nth (fun c => if c =? 47 then 95 else c) (ds_name d) 0 i).
  cbn [length] in *. rewrite E.
  destruct (Z.eqb_spec (nth i (ds_name d) 0) 47); split; intros; congruence.
Qed.
Theorem C47_files : forall fstr prefix sep ts te u files, convert_ulog2csv fstr prefix sep ts te u = Ok files ->
  NoDup (map (csv_name prefix) (u_data u)) ->
  Forall2 (fun d f => fst f = csv_name prefix d /\ csv_text fstr sep ts te d = Ok (snd f)) (u_data u) files.
Proof.
  intros fstr prefix sep ts te u files E Hn. unfold convert_ulog2csv in E.
  assert (G : forall ds acc files, foldM (fun files d => let* t := csv_text fstr sep ts te d in Ok (sset (csv_name prefix d) t files)) ds acc = Ok files ->
    NoDup (map fst acc ++ map (csv_name prefix) ds) -> exists more, files = acc ++ more /\
    Forall2 (fun d f => fst f = csv_name prefix d /\ csv_text fstr sep ts te d = Ok (snd f)) ds more).
  { clear. induction ds as [|d ds IH]; intros acc files E Hn.
    - cbn in E. injection E as <-. exists []. rewrite app_nil_r. split; [reflexivity|constructor].
    - cbn [foldM] in E. apply bind_Ok in E. destruct E as (f1 & E1 & E). apply bind_Ok in E1. destruct E1 as (t & Et & E1). injection E1 as <-.
      cbn [map] in Hn. rewrite dset_fresh in E by (apply NoDup_remove_2 in Hn; intros X; apply Hn; apply in_or_app; left; exact X).
      destruct (IH _ _ E) as (more & -> & F); [rewrite map_app; cbn [map fst]; rewrite <- app_assoc; exact Hn|].
      exists ((csv_name prefix d, t) :: more). rewrite <- app_assoc. split; [reflexivity|]. constructor; [split; [reflexivity|exact Et]|exact F]. }
  destruct (G _ _ _ E Hn) as (more & -> & F). exact F.
Qed.
Theorem C47_ros2_partial : forall u d e, In d (u_data u) -> In e (u_data u) -> 0 <= ds_multi d -> 0 <= ds_multi e ->
  (forall a b k, In a (u_data u) -> In b (u_data u) -> 0 <= k -> ds_name a <> ds_name b ++ lit "_" ++ str_of_Z k) ->
  (ds_name d, ds_multi d) <> (ds_name e, ds_multi e) -> ros2_topic u d <> ros2_topic u e.
Proof. intros u d e Hd He Md Me Hn Hne E. destruct (ros2_inj u d e Hd He Md Me Hn E) as (E1 & E2). congruence. Qed.
Definition named (n : str) (m : Z) : dataset := mkDS m 0 n [] 0 [].
Example C47_ex : let u := set_data [named (lit "a") 0; named (lit "a") 1; named (lit "b") 0] ulog0 in
  map (ros2_topic u) (u_data u) = [lit "/px4/a_0"; lit "/px4/a_1"; lit "/px4/b"] /\
  map (csv_name (lit "f")) (u_data u) = [lit "f_a_0.csv"; lit "f_a_1.csv"; lit "f_b_0.csv"].
Proof. split; vm_compute; reflexivity. Qed.
(** Findings: "/" and "_" are the same in a file name, and an instance number looks like part of a name. *)
Theorem C47_csv_refuted : exists prefix d e, (ds_name d, ds_multi d) <> (ds_name e, ds_multi e) /\ csv_name prefix d = csv_name prefix e.
Proof. exists [], (named (lit "a/b") 0), (named (lit "a_b") 0). split; [discriminate|reflexivity]. Qed.
Theorem C47_ros2_refuted : exists u d e, In d (u_data u) /\ In e (u_data u) /\ (ds_name d, ds_multi d) <> (ds_name e, ds_multi e) /\ ros2_topic u d = ros2_topic u e.
Proof.
  exists (set_data [named (lit "a") 0; named (lit "a") 1; named (lit "a_1") 0] ulog0), (named (lit "a") 1), (named (lit "a_1") 0).
  split; [right; left; reflexivity|]. split; [right; right; left; reflexivity|]. split; [discriminate|]. vm_compute. reflexivity.
Qed.

(** ** C48: loads at the same time *)
(** A load is as on its own if no load with another setting begins while it runs, whatever the steps
    are and however they are interleaved. *)
Theorem C48_alone_partial : forall S (step : bool -> S -> option S) start es1 es2 i b,
  (forall j b', In (Begin j b') es2 -> j <> i /\ b' = b) ->
  w_load (run_events step start (es1 ++ Begin i b :: es2)) i = Some (run_alone step b (moves i es2) (start i)).
Proof.
  intros S step start es1 es2 i b H. unfold run_events. rewrite fold_left_app. cbn [fold_left happen].
  apply (same_flag step start i b es2 H _ O); [reflexivity|]. cbn [w_load]. unfold upd. rewrite Nat.eqb_refl. reflexivity.
Qed.
(** What every history gives: each step of a load runs with the setting of the load that began last. *)
Theorem C48_law : forall S (step : bool -> S -> option S) start es1 es2 i b, (forall b', ~ In (Begin i b') es2) ->
  w_load (run_events step start (es1 ++ Begin i b :: es2)) i = Some (run_settings step (in_force i b es2) (start i)).
Proof.
  intros S step start es1 es2 i b H. unfold run_events. rewrite fold_left_app. cbn [fold_left].
  set (w := happen step start (fold_left (happen step start) es1 (mkWorld false (fun _ => None))) (Begin i b)).
  assert (Hf : w_flag w = b) by reflexivity. assert (Hw : w_load w i = Some (start i)) by (cbn; unfold upd; now rewrite Nat.eqb_refl).
  clearbody w. revert b w Hf Hw. generalize (start i) as s. induction es2 as [|e es2 IH]; intros s b w Hf Hw; [exact Hw|].
  assert (H' : forall b', ~ In (Begin i b') es2) by (intros b' X; apply (H b'); now right).
  cbn [fold_left]. destruct e as [j b'|j].
  - cbn [in_force]. apply (IH H'); [reflexivity|]. cbn. unfold upd. destruct (Nat.eqb_spec i j) as [<-|]; [|exact Hw]. destruct (H b' (or_introl eq_refl)).
  - cbn [in_force happen]. destruct (Nat.eqb_spec j i) as [->|N].
    + rewrite Hw. cbn [run_settings]. rewrite Hf. destruct (step b s) as [t|].
      * apply (IH H'); [reflexivity|]. cbn [w_load]. unfold upd. now rewrite Nat.eqb_refl.
      * apply (IH H'); assumption.
    + destruct (w_load w j) as [x|]; [|apply (IH H'); assumption]. destruct (step (w_flag w) x) as [t|]; [|apply (IH H'); assumption].
      apply (IH H'); [exact Hf|]. cbn [w_load]. unfold upd. destruct (Nat.eqb_spec i j); [congruence|exact Hw].
Qed.
(** Exactly when a load, whatever it does, is as on its own: no step of it runs with another setting. *)
Theorem C48_exact : forall es1 es2 i b, (forall b', ~ In (Begin i b') es2) ->
  ((forall S (step : bool -> S -> option S) start, w_load (run_events step start (es1 ++ Begin i b :: es2)) i = Some (run_alone step b (moves i es2) (start i)))
   <-> Forall (eq b) (in_force i b es2)).
Proof.
  intros es1 es2 i b H.
  assert (L : forall c, length (in_force i c es2) = moves i es2).
  { clear. induction es2 as [|[j b'|j] r IH]; intros c; cbn [in_force moves]; auto. destruct (Nat.eqb j i); cbn [length]; now rewrite IH. }
  split.
  - intros A. specialize (A (list bool) (fun b s => Some (s ++ [b])) (fun _ => [])). rewrite C48_law in A by exact H. injection A as A.
    assert (R : forall bs s, run_settings (fun b s => Some (s ++ [b])) bs s = s ++ bs).
    { clear. induction bs as [|x bs IH]; intros s; cbn [run_settings]; [now rewrite app_nil_r|]. rewrite IH, <- app_assoc. reflexivity. }
    assert (Q : forall n s, run_alone (fun b s => Some (s ++ [b])) b n s = s ++ repeat b n).
    { clear. induction n as [|n IH]; intros s; cbn [run_alone repeat]; [now rewrite app_nil_r|]. rewrite IH, <- app_assoc. reflexivity. }
    rewrite R, Q in A. cbn [app] in A. rewrite A. apply Forall_forall. intros x I. now apply repeat_spec in I.
  - intros A S step start. rewrite C48_law by exact H. f_equal. rewrite <- (L b). clear -A. generalize (start i) as s. induction A as [|x bs <- A IH]; intros s; [reflexivity|].
    cbn [run_settings length run_alone]. destruct (step b s) as [t|] eqn:E; [apply IH|]. rewrite IH. destruct (length bs); [reflexivity|]. cbn [run_alone]. now rewrite E.
Qed.
Example C48_ex_law : in_force 0 true [Move 0; Begin 1 false; Move 1; Move 0; Begin 2 true; Move 0] = [true; false; true].
Proof. reflexivity. Qed.
(** The setting of another load can make a load fail that does not fail on its own. *)
Definition bad_msg : list (Z * bytes) := [(T_LOG, [54; 1; 0; 0; 0; 0; 0; 0; 0; 255])].
Definition cf48 : cfg := mkCfg true (fun _ => true) false 10 MemFile.
Theorem C48_refuted : exists start es r, w_load (run_events (data_step cf48) start es) 0%nat = Some ([], Err UnicodeDecodeError) /\
  In (Begin 0 true) es /\ run_alone (data_step cf48) true (moves 0 es) (start 0%nat) = ([], Ok r).
Proof.
  exists (fun _ => (bad_msg, Ok ulog0)), [Begin 0 true; Begin 1 false; Move 0]. eexists. split; [vm_compute; reflexivity|]. split; [left; reflexivity|]. vm_compute. reflexivity.
Qed.

(** ** C50: PX4 helpers *)
Theorem C50_only : forall vstr u u' channel, u_params u = u_params u' ->
  get_mav_type u = get_mav_type u' /\ get_estimator vstr u = get_estimator vstr u' /\
  get_configured_rc_input_names u channel = get_configured_rc_input_names u' channel.
Proof. intros vstr u u' channel E. unfold get_mav_type, get_estimator, get_configured_rc_input_names. rewrite E. repeat split. Qed.
Lemma int_get_nth z n l : (forall k, 0 <= k < Z.of_nat n -> exists s, nth_error l (Z.to_nat k) = Some (k, s)) -> (length l = n) ->
  (0 <= z < Z.of_nat n -> int_get (VInt z) l = option_map snd (nth_error l (Z.to_nat z))) /\ (~ 0 <= z < Z.of_nat n -> @int_get str (VInt z) l = None).
Proof.
  intros H L. unfold int_get.
  assert (G : forall a, find (fun p : Z * str => value_eqb (VInt z) (VInt (fst p))) l = a -> match a with Some p => fst p = z /\ In p l | None => forall p, In p l -> fst p <> z end).
  { intros [p|] E.
    - apply find_some in E. destruct E as (E & F). cbn in F. apply Z.eqb_eq in F. split; [congruence|exact E].
    - intros p Hp X. pose proof (find_none _ _ E p Hp) as F. cbn in F. rewrite X, Z.eqb_refl in F. discriminate. }
  specialize (G _ eq_refl).
  assert (D : forall p, In p l -> 0 <= fst p < Z.of_nat n /\ nth_error l (Z.to_nat (fst p)) = Some p).
  { intros p Hp. apply In_nth_error in Hp. destruct Hp as (k & Hk). assert (Hlt : (k < n)%nat) by (rewrite <- L; apply nth_error_Some; congruence).
    destruct (H (Z.of_nat k)) as (s & Hs); [lia|]. rewrite Nat2Z.id in Hs. assert (p = (Z.of_nat k, s)) by congruence. subst p. cbn [fst]. rewrite Nat2Z.id. split; [lia|exact Hs]. }
  split; intros Hz.
  - destruct (H z Hz) as (s & Hs). destruct (find _ l) as [p|].
    + destruct G as (E & Hp). destruct (D p Hp) as (_ & X). rewrite E in X. rewrite X. reflexivity.
    + exfalso. apply (G (z, s)); [apply (nth_error_In _ _ Hs)|reflexivity].
  - destruct (find _ l) as [p|]; [|reflexivity]. destruct G as (E & Hp). destruct (D p Hp) as (X & _). congruence.
Qed.
Lemma all_below (P : Z -> Prop) n : (forall k, (k < n)%nat -> P (Z.of_nat k)) -> forall z, 0 <= z < Z.of_nat n -> P z.
Proof. intros H z Hz. rewrite <- (Z2Nat.id z) by lia. apply H. lia. Qed.
Theorem C50_mav_type : forall u,
  (forall z, sget (lit "MAV_TYPE") (u_params u) = Some (VInt z) -> 0 <= z < 28 -> get_mav_type u = nth (Z.to_nat z) vehicle_kinds []) /\
  (forall z, sget (lit "MAV_TYPE") (u_params u) = Some (VInt z) -> ~ 0 <= z < 28 -> get_mav_type u = lit "unknown type") /\
  (sget (lit "MAV_TYPE") (u_params u) = None -> get_mav_type u = lit "unknown type").
Proof.
  intros u.
  assert (A : forall k, 0 <= k < Z.of_nat 28 -> exists s, nth_error mav_types (Z.to_nat k) = Some (k, s)).
  { apply all_below. intros k Hk. rewrite Nat2Z.id. do 28 (destruct k as [|k]; [eexists; reflexivity|]). lia. }
  assert (B : forall k, 0 <= k < Z.of_nat 28 -> option_map snd (nth_error mav_types (Z.to_nat k)) = Some (nth (Z.to_nat k) vehicle_kinds [])).
  { apply all_below. intros k Hk. rewrite Nat2Z.id. do 28 (destruct k as [|k]; [reflexivity|]). lia. }
  unfold get_mav_type. split; [|split].
  - intros z -> Hz. destruct (int_get_nth z 28 mav_types A eq_refl) as (C & D). rewrite C, B by lia. reflexivity.
  - intros z -> Hz. destruct (int_get_nth z 28 mav_types A eq_refl) as (C & D). rewrite D by lia. reflexivity.
  - intros ->. reflexivity.
Qed.
(** a fixed wing always uses EKF2; other vehicles use what the parameter says, EKF2 without it *)
Theorem C50_fixed_wing : forall vstr u, sget (lit "MAV_TYPE") (u_params u) = Some (VInt 1) -> get_estimator vstr u = lit "EKF2".
Proof. intros vstr u E. unfold get_estimator. rewrite E. reflexivity. Qed.
Theorem C50_estimator : forall vstr u, (sget (lit "MAV_TYPE") (u_params u) = None \/ exists t, sget (lit "MAV_TYPE") (u_params u) = Some (VInt t) /\ t <> 1) ->
  (forall z, sget (lit "SYS_MC_EST_GROUP") (u_params u) = Some (VInt z) -> 0 <= z < 4 -> get_estimator vstr u = nth (Z.to_nat z) estimators []) /\
  (forall z, sget (lit "SYS_MC_EST_GROUP") (u_params u) = Some (VInt z) -> ~ 0 <= z < 4 -> get_estimator vstr u = lit "unknown (" ++ vstr (VInt z) ++ lit ")") /\
  (sget (lit "SYS_MC_EST_GROUP") (u_params u) = None -> get_estimator vstr u = lit "EKF2").
Proof.
  intros vstr u H.
  assert (A : forall k, 0 <= k < Z.of_nat 4 -> exists s, nth_error [(0, lit "INAV"); (1, lit "LPE"); (2, lit "EKF2"); (3, lit "Q")] (Z.to_nat k) = Some (k, s)).
  { apply all_below. intros k Hk. rewrite Nat2Z.id. do 4 (destruct k as [|k]; [eexists; reflexivity|]). lia. }
  assert (B : forall k, 0 <= k < Z.of_nat 4 -> option_map snd (nth_error [(0, lit "INAV"); (1, lit "LPE"); (2, lit "EKF2"); (3, lit "Q")] (Z.to_nat k)) = Some (nth (Z.to_nat k) estimators [])).
  { apply all_below. intros k Hk. rewrite Nat2Z.id. do 4 (destruct k as [|k]; [reflexivity|]). lia. }
  assert (O : get_estimator vstr u = let v := match sget (lit "SYS_MC_EST_GROUP") (u_params u) with Some v => v | None => VInt 2 end in
    match int_get v [(0, lit "INAV"); (1, lit "LPE"); (2, lit "EKF2"); (3, lit "Q")] with Some s => s | None => lit "unknown (" ++ vstr v ++ lit ")" end).
  { unfold get_estimator. destruct H as [->|(t & -> & Ht)]; [reflexivity|]. change (value_eqb (VInt t) (VInt 1)) with (t =? 1).
    apply Z.eqb_neq in Ht. rewrite Ht. reflexivity. }
  rewrite O. cbv zeta. split; [|split].
  - intros z -> Hz. destruct (int_get_nth z 4 _ A eq_refl) as (C & D). rewrite C, B by lia. reflexivity.
  - intros z -> Hz. destruct (int_get_nth z 4 _ A eq_refl) as (C & D). rewrite D by lia. reflexivity.
  - intros ->. reflexivity.
Qed.
Lemma starts_with_split p s : starts_with p s = true -> exists r, s = p ++ r.
Proof.
  revert s. induction p as [|c p IH]; intros s H; [exists s; reflexivity|]. destruct s as [|x s]; [discriminate|]. cbn in H. apply andb_true_iff in H. destruct H as (A & B).
  apply Z.eqb_eq in A. subst x. destruct (IH s B) as (r & ->). exists r. reflexivity.
Qed.
(** the names of a channel: in the order of the parameters, every RC_MAP_ parameter that is channel+1 *)
Theorem C50_rc : forall u channel, get_configured_rc_input_names u channel =
  match map (fun kv => capital (skipn 7 (fst kv))) (filter (fun kv => str_eqb (firstn 7 (fst kv)) (lit "RC_MAP_") && value_eqb (snd kv) (VInt (channel + 1))) (u_params u)) with
  | [] => None
  | names => Some names
  end.
Proof.
  intros u channel. unfold get_configured_rc_input_names.
  replace (flat_map _ (u_params u)) with (map (fun kv : str * value => capital (skipn 7 (fst kv))) (filter (fun kv => str_eqb (firstn 7 (fst kv)) (lit "RC_MAP_") && value_eqb (snd kv) (VInt (channel + 1))) (u_params u))); [reflexivity|].
  induction (u_params u) as [|(k, v) l IH]; [reflexivity|]. cbn [filter flat_map fst snd]. rewrite <- IH.
  assert (E : starts_with (lit "RC_MAP_") k = str_eqb (firstn 7 k) (lit "RC_MAP_")).
  { apply Bool.eq_iff_eq_true. split.
    - intros H. apply starts_with_split in H. destruct H as (r & ->). destruct (str_eqb_spec (firstn 7 (lit "RC_MAP_" ++ r)) (lit "RC_MAP_")) as [|N]; [reflexivity|destruct N; reflexivity].
    - intros H. destruct (str_eqb_spec (firstn 7 k) (lit "RC_MAP_")) as [X|]; [|discriminate]. rewrite <- (firstn_skipn 7 k), X. reflexivity. }
  rewrite E. destruct (_ && _); reflexivity.
Qed.
Example C50_ex : let u := set_params [(lit "RC_MAP_ROLL", VInt 1); (lit "MAV_TYPE", VInt 2); (lit "RC_MAP_FLAPS", VInt 1); (lit "RC_MAP_YAW", VInt 4)] ulog0 in
  get_mav_type u = lit "Quadrotor" /\ get_estimator vstr_ex u = lit "EKF2" /\ get_configured_rc_input_names u 0 = Some [lit "Roll"; lit "Flaps"] /\
  get_configured_rc_input_names u 2 = None.
Proof. vm_compute. auto. Qed.

(** ** Trusted base *)
Definition all_tools := (@C41_window_partial, @C41_keys, @C41_selects, @C41_missing, @C41_load, @C41_end_refuted, @C41_zero_refuted, @C41_filter,
  @C42_table, @C42_limits, @C41_limits, @C42_columns, @C42_rectangular, @C42_printed_partial, @C42_quote_refuted, @C42_text_refuted, @C42_no_time,
  @C43_streams_partial, @C43_complete, @C43_none, @C43_second_refuted, @C43_length_refuted,
  @C44_initial_partial, @C44_defaults, @C44_no_defaults, @C44_changed_refuted, @C44_timestamps_refuted,
  @C45_merge_partial, @C45_unknown, @C45_no_events, @C45_other, @C45_clock, @C45_lines, @C45_empty_refuted, @C45_order_refuted, @C45_clock_refuted,
  @C46_track, @C46_thinned, @C46_thinned_unique, @C46_no_modes, @C46_backwards_refuted,
  @C47_csv_partial, @C47_csv_form, @C47_files, @C47_ros2_partial, @C47_csv_refuted, @C47_ros2_refuted, @C48_alone_partial, @C48_law, @C48_exact, @C48_refuted,
  @C50_only, @C50_mav_type, @C50_fixed_wing, @C50_estimator, @C50_rc).
Print Assumptions all_tools.
