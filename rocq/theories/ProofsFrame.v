(** Loading a log looks only at the rows that belong to it. *)
From Coq Require Import Permutation.
From Verif Require Import Base Dict PyStr PyFloat PySort Struct ModelTypes Sql Schema5 ModelDb SpecDb ProofsDb.

Definition project (t : str) (names : list str) (r : row) : row := map (cell_at (cols t) r) names.
Lemma link_aff t c a p : In (t, (c, a, p)) links -> aff_of (cols t) c = a.
Proof. intros H. repeat (destruct H as [[= <- <- <- <-]|H]; [vm_compute; reflexivity|]). destruct H. Qed.
Lemma link_has t c a p : In (t, (c, a, p)) links -> has_col (cols t) c = true.
Proof. intros H. repeat (destruct H as [[= <- <- <- <-]|H]; [vm_compute; reflexivity|]). destruct H. Qed.

Lemma select_v5 d T t df names conds : d_defs d = v5_defs -> ident T = t -> sget t v5_defs = Some df ->
  forallb (has_col (cols t)) (names ++ map fst conds) = true ->
  sql_select d T names conds = Ok (map (project t names) (filter (where_ (cols t) conds) (d_rows d t))).
Proof.
  intros D <- E H. unfold sql_select. rewrite table_v5, E by auto. cbn [bind]. rewrite <- (cols_def _ _ E), H. reflexivity.
Qed.
Lemma select_link d T t c a p names i : d_defs d = v5_defs -> ident T = t -> In (t, (c, a, p)) links ->
  forallb (has_col (cols t)) names = true ->
  sql_select d T names [(c, CInt i)] = Ok (map (project t names) (children d t c a i)).
Proof.
  intros D E L H. destruct (link_def _ _ _ _ L) as (df & T').
  rewrite (select_v5 d T t df) by (auto; rewrite forallb_app; cbn [map fst forallb]; now rewrite H, (link_has _ _ _ _ L)).
  do 2 f_equal. apply filter_ext. intros r. unfold where_. cbn [forallb fst snd]. rewrite andb_true_r, (link_aff _ _ _ _ L). reflexivity.
Qed.
Lemma select_log d names pk : d_defs d = v5_defs -> forallb (has_col (cols (lit "ulog"))) names = true ->
  sql_select d (lit "ULog") names [(lit "Id", CInt pk)] = Ok (map (project (lit "ulog") names) (log_rows d pk)).
Proof.
  intros D H.
  rewrite (select_v5 d (lit "ULog") (lit "ulog") t_ulog) by (auto; rewrite forallb_app, H; reflexivity).
  do 2 f_equal. apply filter_ext. intros r. unfold where_. cbn [forallb fst snd]. now rewrite andb_true_r.
Qed.

(** the key column is Id *)
Lemma id_cell p r z : In p parents -> (cell_at (cols p) r (lit "Id") = CInt z <-> row_id (cols p) r = Some z).
Proof.
  intros H. destruct r as [|x r]; [repeat (destruct H as [<-|H]; [split; discriminate|]); destruct H|].
  assert (E : cell_at (cols p) (x :: r) (lit "Id") = x /\ row_id (cols p) (x :: r) = match x with CInt z => Some z | _ => None end).
  { repeat (destruct H as [<-|H]; [split; reflexivity|]). destruct H. }
  destruct E as [-> ->]. split; [now intros ->|]. destruct x; try discriminate. now intros [= ->].
Qed.
Lemma good_row_id d p r : good d -> In p parents -> In r (d_rows d p) -> exists z, row_id (cols p) r = Some z.
Proof.
  intros G P H. pose proof (gd_ids _ G p P) as F. rewrite Forall_forall in F. destruct (F r H) as (z & Hz & _). eauto.
Qed.
(** the key of a child of an owned row is owned *)
Lemma child_owned d pk t c a p i r : good d -> In (t, (c, a, p)) links -> In t parents -> owns d pk p i -> In r (children d t c a i) ->
  exists z, cell_at (cols t) r (lit "Id") = CInt z /\ row_id (cols t) r = Some z /\ owns d pk t z.
Proof.
  intros G L P O H. apply (children_In _ _ _ _ _ _ _ L) in H as [H R].
  destruct (good_row_id d t r G P H) as (z & Hz). exists z. split; [now apply id_cell|]. split; auto.
  eapply owns_child; eauto.
Qed.

Ltac tab := lazymatch goal with
  | |- In (lit "ulogappendedoffsets", _) links => exact in_offset
  | |- In (lit "ulogdataset", _) links => exact in_dataset
  | |- In (lit "ulogfield", _) links => exact in_field
  | |- In (lit "ulogmessagedropout", _) links => exact in_dropout
  | |- In (lit "ulogmessageformat", _) links => exact in_format
  | |- In (lit "ulogmessageformatfield", _) links => exact in_ffield
  | |- In (lit "ulogmessagelogging", _) links => exact in_logging
  | |- In (lit "ulogmessageloggingtagged", _) links => exact in_tagged
  | |- In (lit "ulogmessageinfo", _) links => exact in_info
  | |- In (lit "ulogmessageinfomultiple", _) links => exact in_multi
  | |- In (lit "ulogmessageinfomultiplelist", _) links => exact in_list
  | |- In (lit "ulogmessageinfomultiplelistelement", _) links => exact in_elem
  | |- In (lit "uloginitialparameter", _) links => exact in_param
  | |- In (lit "ulogchangedparameter", _) links => exact in_change
  | |- In (lit "ulogdefaultparameter", _) links => exact in_default
  | |- _ => reflexivity end.

Section frame.
  Variables (d d' : db) (pk : Z).
  Hypothesis G : good d.
  Hypothesis D' : d_defs d' = v5_defs.
  Hypothesis A : agree d d' pk.
  Let D := gd_defs d G.

  Lemma of_log_same T t names : ident T = t -> In (t, (lit "ULogId", AInt, lit "ulog")) links -> forallb (has_col (cols t)) names = true ->
    of_log d T names pk = of_log d' T names pk.
  Proof.
    intros E L H. unfold of_log. rewrite (select_link d T t _ _ _ names pk D E L H), (select_link d' T t _ _ _ names pk D' E L H).
    now rewrite (ag_ch _ _ _ A _ _ _ _ _ (owns_log d pk) L).
  Qed.
  Lemma of_log_rows T t names : ident T = t -> In (t, (lit "ULogId", AInt, lit "ulog")) links -> forallb (has_col (cols t)) names = true ->
    of_log d T names pk = Ok (map (project t names) (children d t (lit "ULogId") AInt pk)).
  Proof. intros E L H. unfold of_log. now apply (select_link d T t _ _ _ names pk D E L H). Qed.

  Lemma fetch_dataset_same name multi lazy : fetch_dataset d (Some pk) name multi lazy = fetch_dataset d' (Some pk) name multi lazy.
  Proof.
    unfold fetch_dataset.
    set (conds := [(lit "DatasetName", CText name); (lit "MultiId", CInt multi); (lit "ULogId", CInt pk)]).
    assert (S : forall x, d_defs x = v5_defs -> sql_select x (lit "ULogDataset") [lit "Id"; lit "TimestampIndex"; lit "MessageId"] conds =
      Ok (map (project (lit "ulogdataset") [lit "Id"; lit "TimestampIndex"; lit "MessageId"])
        (filter (where_ (cols (lit "ulogdataset")) [(lit "DatasetName", CText name); (lit "MultiId", CInt multi)]) (children x (lit "ulogdataset") (lit "ULogId") AInt pk)))).
    { intros x Dx. rewrite (select_v5 x _ (lit "ulogdataset") t_ulogdataset) by (auto; reflexivity).
      do 2 f_equal. unfold children. rewrite filter_filter. apply filter_ext. intros r. unfold conds, where_. cbn [forallb fst snd].
      rewrite !andb_true_r, andb_assoc. reflexivity. }
    rewrite (S d D), (S d' D').
    rewrite <- (ag_ch _ _ _ A _ _ _ _ _ (owns_log d pk) in_dataset).
    cbn [bind]. destruct (filter _ _) as [|r l] eqn:E; [reflexivity|].
    assert (Hr : In r (children d (lit "ulogdataset") (lit "ULogId") AInt pk)).
    { assert (X : In r (r :: l)) by now left. rewrite <- E in X. now apply filter_In in X as [X _]. }
    destruct (child_owned d pk _ _ _ _ pk r G in_dataset par_dataset (owns_log d pk) Hr) as (z & Hz & _ & O).
    cbn [map project]. unfold project. cbn [map]. rewrite Hz. cbn [as_int bind].
    destruct (as_int _); [|reflexivity]. cbn [bind]. destruct (as_int _); [|reflexivity]. cbn [bind].
    destruct lazy; [reflexivity|].
    rewrite (select_link d _ (lit "ulogfield") (lit "DatasetId") AInt (lit "ulogdataset") _ z D) by tab.
    rewrite (select_link d' _ (lit "ulogfield") (lit "DatasetId") AInt (lit "ulogdataset") _ z D') by tab.
    rewrite (ag_ch _ _ _ A _ _ _ _ _ O in_field). reflexivity.
  Qed.

  Lemma join_formats_same : join_formats d pk = join_formats d' pk.
  Proof.
    unfold join_formats. rewrite <- (of_log_same _ (lit "ulogmessageformat")) by tab.
    rewrite (of_log_rows _ (lit "ulogmessageformat")) by tab. cbn [bind]. f_equal. apply mapM_ext.
    intros x Hx. apply in_map_iff in Hx as (r & <- & Hr).
    destruct (child_owned d pk _ _ _ _ pk r G in_format par_format (owns_log d pk) Hr) as (z & Hz & _ & O).
    unfold project. cbn [map]. rewrite Hz.
    rewrite (select_link d _ (lit "ulogmessageformatfield") (lit "MessageId") AInt (lit "ulogmessageformat") _ z D) by tab.
    rewrite (select_link d' _ (lit "ulogmessageformatfield") (lit "MessageId") AInt (lit "ulogmessageformat") _ z D') by tab.
    rewrite (ag_ch _ _ _ A _ _ _ _ _ O in_ffield). reflexivity.
  Qed.

  Lemma by_index_In rows l x : by_index rows = Ok l -> In x l -> exists i, In (i :: x) rows.
  Proof.
    unfold by_index. match goal with |- context [mapM ?f rows] => destruct (mapM f rows) as [m|] eqn:E end; [|discriminate]. cbn [bind]. intros [= <-] H.
    apply in_map_iff in H as ((z & y) & Ey & Hy). cbn in Ey. subst y. apply (Permutation_in _ (Permutation_sym (ssort_perm _ _))) in Hy.
    apply mapM_F2 in E. clear -E Hy. induction E as [|r q rows m Er _ IH]; [destruct Hy|].
    destruct Hy as [->|Hy].
    - destruct r as [|i r]; [discriminate|]. destruct (as_int i); [|discriminate]. cbn in Er. injection Er as _ ->. exists i. now left.
    - destruct (IH Hy) as (i & Hi). exists i. now right.
  Qed.
  Lemma fetch_lists_same z : owns d pk (lit "ulogmessageinfomultiple") z -> fetch_lists d (CInt z) = fetch_lists d' (CInt z).
  Proof.
    intros O. unfold fetch_lists.
    rewrite (select_link d _ (lit "ulogmessageinfomultiplelist") (lit "MessageId") AText (lit "ulogmessageinfomultiple") _ z D) by tab.
    rewrite (select_link d' _ (lit "ulogmessageinfomultiplelist") (lit "MessageId") AText (lit "ulogmessageinfomultiple") _ z D') by tab.
    rewrite <- (ag_ch _ _ _ A _ _ _ _ _ O in_list). cbn [bind].
    destruct (by_index _) as [ls|] eqn:B; [|reflexivity]. cbn [bind]. apply mapM_ext. intros l Hl.
    destruct (by_index_In _ _ _ B Hl) as (i & Hi). apply in_map_iff in Hi as (r & Er & Hr).
    unfold project in Er. cbn [map] in Er. apply (f_equal (@tl cell)) in Er. cbn [tl] in Er. subst l.
    destruct (child_owned d pk _ _ _ _ z r G in_list par_list O Hr) as (y & Hy & _ & O').
    rewrite Hy.
    rewrite (select_link d _ (lit "ulogmessageinfomultiplelistelement") (lit "ListId") AText (lit "ulogmessageinfomultiplelist") _ y D) by tab.
    rewrite (select_link d' _ (lit "ulogmessageinfomultiplelistelement") (lit "ListId") AText (lit "ulogmessageinfomultiplelist") _ y D') by tab.
    rewrite (ag_ch _ _ _ A _ _ _ _ _ O' in_elem). reflexivity.
  Qed.

  Lemma load_same o lazy : o_pk o = Some pk -> load d o lazy = load d' o lazy.
  Proof.
    intros P. unfold load. rewrite P. unfold exists_in_db.
    rewrite !select_log by (auto; reflexivity). rewrite <- (ag_log _ _ _ A). cbn [bind].
    destruct (negb _); [reflexivity|].
    destruct (map (project _ _) (log_rows d pk)) as [|top rest]; [reflexivity|].
    do 8 (destruct top as [|? top]; [reflexivity|]). destruct top; [|reflexivity].
    rewrite <- (of_log_same (lit "ULogAppendedOffsets") (lit "ulogappendedoffsets")) by tab.
    rewrite <- (of_log_same (lit "ULogMessageDropout") (lit "ulogmessagedropout")) by tab.
    rewrite <- (of_log_same (lit "ULogMessageLogging") (lit "ulogmessagelogging")) by tab.
    rewrite <- (of_log_same (lit "ULogMessageLoggingTagged") (lit "ulogmessageloggingtagged")) by tab.
    rewrite <- (of_log_same (lit "ULogMessageInfo") (lit "ulogmessageinfo")) by tab.
    rewrite <- (of_log_same (lit "ULogInitialParameter") (lit "uloginitialparameter")) by tab.
    rewrite <- (of_log_same (lit "ULogDefaultParameter") (lit "ulogdefaultparameter")) by tab.
    rewrite <- (of_log_same (lit "ULogChangedParameter") (lit "ulogchangedparameter")) by tab.
    rewrite <- (of_log_same (lit "ULogDataset") (lit "ulogdataset")) by tab.
    rewrite <- join_formats_same.
    rewrite <- (of_log_same (lit "ULogMessageInfoMultiple") (lit "ulogmessageinfomultiple")) by tab.
    rewrite (of_log_rows (lit "ULogMessageInfoMultiple") (lit "ulogmessageinfomultiple")) by tab.
    repeat match goal with
    | |- bind (mapM (fun nm => fetch_dataset d _ _ _ _) ?l) _ = bind (mapM _ ?l) _ =>
      rewrite (mapM_ext (fun nm => fetch_dataset d (Some pk) (fst nm) (snd nm) lazy) (fun nm => fetch_dataset d' (Some pk) (fst nm) (snd nm) lazy) l)
        by (intros; apply fetch_dataset_same)
    | |- bind ?x _ = bind ?x _ => destruct x; cbn [bind]; [|reflexivity]
    end.
    match goal with |- bind (mapM ?f ?l) _ = bind (mapM ?g ?l) _ => rewrite (mapM_ext f g l) end.
    - reflexivity.
    - intros x Hx. apply in_map_iff in Hx as (r & <- & Hr).
      destruct (child_owned d pk _ _ _ _ pk r G in_multi par_multi (owns_log d pk) Hr) as (z & Hz & _ & O).
      unfold project. cbn [map]. rewrite Hz. rewrite fetch_lists_same by exact O. reflexivity.
  Qed.
End frame.
