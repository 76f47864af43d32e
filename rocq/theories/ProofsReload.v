(** A saved log loads back. *)
From Coq Require Import Sorted.
From Verif Require Import Base Dict PyStr PyFloat PySort Struct ModelTypes ModelApi Sql Schema5 ModelDb SpecDb ProofsDb ProofsFrame ProofsSave ProofsStore.

Lemma fold_dict {A K V} (eqb : K -> K -> bool) (H : forall a b, reflect (a = b) (eqb a b)) (k : A -> K) (v : A -> V) l : NoDup (map k l) ->
  fold_left (fun a x => dset eqb (k x) (v x) a) l [] = map (fun x => (k x, v x)) l.
Proof.
  intros N. change (map (fun x => (k x, v x)) l) with ([] ++ map (fun x => (k x, v x)) l).
  rewrite <- (fold_dset_id eqb H (map (fun x => (k x, v x)) l) []).
  - generalize (@nil (K * V)). clear N. induction l; cbn; intros; auto.
  - unfold dkeys. cbn. rewrite map_map. exact N.
Qed.

Lemma by_index_rows {A} (l : list A) (rows : list row) (tail : Z * A -> row -> Prop) : length rows = length l ->
  Forall2 (fun ia x => exists t, x = CInt (fst ia) :: t /\ tail ia t) (enumerate l) rows ->
  exists tl, by_index rows = Ok tl /\ Forall2 tail (enumerate l) tl.
Proof.
  intros L H.
  assert (exists tl, Forall2 (fun ia rt => fst rt = CInt (fst ia) :: snd rt) (enumerate l) (combine rows tl) /\ length rows = length tl /\ Forall2 tail (enumerate l) tl) as (tl & H1 & H2 & H3).
  { clear L. induction H as [|ia x e rows (t & -> & Ht) H (tl & I1 & I2 & I3)].
    - exists []. repeat split; constructor.
    - exists (t :: tl). repeat split; cbn; try constructor; auto. }
  exists tl. split; auto. eapply by_index_enum; eauto.
Qed.
Lemma length_enumerate {A} (l : list A) : length (enumerate l) = length l.
Proof. now rewrite <- (map_length snd), enumerate_snd. Qed.
Lemma F2_length {A B} (R : A -> B -> Prop) l l' : Forall2 R l l' -> length l' = length l.
Proof. induction 1; cbn; auto. Qed.
Lemma F2_in_l {A B} (R : A -> B -> Prop) l l' : Forall2 R l l' -> Forall2 (fun x y => In x l /\ R x y) l l'.
Proof.
  induction 1 as [|x y l l' H1 H IH]; constructor; [split; [now left|auto]|]. eapply F2_impl; [|exact IH]. intros a b [H2 H3]. split; [now right|auto].
Qed.
Lemma F2_map_r {A B C} (R : A -> C -> Prop) (f : B -> C) l l' : Forall2 (fun x y => R x (f y)) l l' -> Forall2 R l (map f l').
Proof. induction 1; cbn; constructor; auto. Qed.
Lemma F2_map_l {A B C} (R : C -> B -> Prop) (f : A -> C) l l' : Forall2 R (map f l) l' -> Forall2 (fun x y => R (f x) y) l l'.
Proof. revert l'. induction l; cbn; intros l' H; inversion H; subst; constructor; auto. Qed.
Lemma F2_map_l' {A B C} (R : C -> B -> Prop) (f : A -> C) l l' : Forall2 (fun x y => R (f x) y) l l' -> Forall2 R (map f l) l'.
Proof. induction 1; cbn; constructor; auto. Qed.
Lemma F2_In_r {A B} (R : A -> B -> Prop) l l' : Forall2 R l l' -> forall y, In y l' -> exists x, In x l /\ R x y.
Proof. induction 1 as [|x y l l' H1 H IH]; intros z []; [subst; exists x; split; auto; now left|]. destruct (IH z H0) as (w & Hw & Hr). exists w. split; auto. now right. Qed.
Lemma mapM_back {A B} (f : B -> res A) l rows : Forall2 (fun x y => f y = Ok x) l rows -> mapM f rows = Ok l.
Proof. induction 1 as [|x y l rows H1 H IH]; cbn [mapM]; [reflexivity|]. rewrite H1. cbn [bind]. now rewrite IH. Qed.
Lemma enum_vals {A} (l : list A) (x : Z * A) : In x (enumerate l) -> In (snd x) l.
Proof. intros H. rewrite <- (enumerate_snd l). now apply in_map. Qed.

Lemma typed_back {V} (e : dict str V) (ty : dict str str) xs : map fst e = map fst ty -> NoDup (map fst e) ->
  Forall2 (fun kv x => exists t, sget (fst kv) ty = Some t /\ x = (fst kv, t, snd kv)) e xs ->
  map (fun x => (fst (fst x), snd x)) xs = e /\ map fst xs = ty.
Proof.
  intros K Nd F. split.
  - clear K Nd. induction F as [|[k v] x e xs (t & _ & ->) F IH]; [reflexivity|]. cbn [map fst snd]. now rewrite IH.
  - assert (H : forall (e0 : dict str V) (ty0 : dict str str) xs0, map fst e0 = map fst ty0 -> (forall kt, In kt ty0 -> In kt ty) ->
      Forall2 (fun kv x => exists t, sget (fst kv) ty = Some t /\ x = (fst kv, t, snd kv)) e0 xs0 -> map fst xs0 = ty0).
    { intros e0 ty0 xs0 K0 Sub F0. revert ty0 K0 Sub. induction F0 as [|[k v] x e0 xs0 (t & Ht & ->) F0 IH]; intros [|[k' t'] ty0] K0 Sub; try discriminate; [reflexivity|].
      cbn [map fst snd] in K0 |- *. injection K0 as -> K0. f_equal.
      - f_equal. pose proof (Sub (k', t') (or_introl eq_refl)) as Hin. rewrite K in Nd. pose proof (In_dget _ str_eqb_spec _ _ _ Nd Hin) as E.
        cbn [fst] in Ht. rewrite Ht in E. now injection E.
      - apply IH; auto. intros kt Hkt. apply Sub. now right. }
    now apply (H e).
Qed.

Lemma mkU_eq a0 b0 a1 b1 a2 b2 a3 b3 a4 b4 a5 b5 a6 b6 a7 b7 a8 b8 a9 b9 a10 b10 a11 b11 a12 b12 a13 b13 a14 b14 a15 b15 a16 b16 a17 b17 a18 b18 a19 b19 a20 b20 a21 b21 a22 b22 a23 b23 :
  a0 = b0 -> a1 = b1 -> a2 = b2 -> a3 = b3 -> a4 = b4 -> a5 = b5 -> a6 = b6 -> a7 = b7 -> a8 = b8 -> a9 = b9 -> a10 = b10 -> a11 = b11 -> a12 = b12 -> a13 = b13 -> a14 = b14 -> a15 = b15 -> a16 = b16 -> a17 = b17 -> a18 = b18 -> a19 = b19 -> a20 = b20 -> a21 = b21 -> a22 = b22 -> a23 = b23 ->
  mkU a0 a1 a2 a3 a4 a5 a6 a7 a8 a9 a10 a11 a12 a13 a14 a15 a16 a17 a18 a19 a20 a21 a22 a23 = mkU b0 b1 b2 b3 b4 b5 b6 b7 b8 b9 b10 b11 b12 b13 b14 b15 b16 b17 b18 b19 b20 b21 b22 b23.
Proof. now intros -> -> -> -> -> -> -> -> -> -> -> -> -> -> -> -> -> -> -> -> -> -> -> ->. Qed.

Section back.
  Variables (d d1 d' : db) (sha : str) (u : ulog) (r : row) (N : str -> list row).
  Hypothesis G : good d.
  Hypothesis X : tx d d' sha u r d1 N.
  Hypothesis FT : fits_db u.
  Let pk := next_key d.
  Let S := tx_saved _ _ _ _ _ _ _ X.
  Let G1 := ad_good _ _ _ _ (tx_log _ _ _ _ _ _ _ X).
  Let G' := ad_good _ _ _ _ (sv_adds _ _ _ _ _ S).
  Let D' := gd_defs d' G'.

  Lemma kids t c a p i : In (t, (c, a, p)) links -> d_seq d p < i -> children d' t c a i = filter (is_ref t c a i) (N t).
  Proof.
    intros L H. rewrite (children_grows _ _ _ _ _ _ _ (ad_grows _ _ _ _ (sv_adds _ _ _ _ _ S))).
    rewrite (children_grows _ _ _ _ _ _ _ (ad_grows _ _ _ _ (tx_log _ _ _ _ _ _ _ X))).
    assert (t <> lit "ulog") by (intros ->; now apply no_link_ulog in L).
    rewrite only_other by auto. cbn [filter]. rewrite app_nil_r.
    replace (children d t c a i) with (@nil row); [reflexivity|]. symmetry. apply ProofsDb.filter_none. intros x Hx.
    destruct (is_ref t c a i x) eqn:E; [|reflexivity]. exfalso. apply (is_ref_refers _ _ _ _ _ _ L) in E.
    pose proof (gd_fk _ G _ _ _ _ L) as F. rewrite Forall_forall in F. destruct (F x Hx) as (j & Hj & R).
    apply (good_id_bound d p j G (links_parent _ _ _ _ L)) in Hj. unfold refers in *. rewrite E in R. pose proof (gd_seq _ G p). apply ref_cell_inj in R; lia.
  Qed.
  Lemma seq1 t : t <> lit "ulog" -> d_seq d1 t = d_seq d t.
  Proof. intros H. apply (adds_seq _ _ _ _ t (tx_log _ _ _ _ _ _ _ X)). now apply only_other. Qed.
  Lemma pk_new : d_seq d (lit "ulog") < pk.
  Proof. unfold pk, next_key. lia. Qed.
  Lemma direct T t names : ident T = t -> In (t, (lit "ULogId", AInt, lit "ulog")) links -> forallb (has_col (cols t)) names = true ->
    refer_to t (lit "ULogId") AInt pk (N t) -> of_log d' T names pk = Ok (map (project t names) (N t)).
  Proof.
    intros E L H R. rewrite (of_log_rows d' pk G' T t names E L H), (kids _ _ _ _ _ L pk_new). now rewrite (refer_all _ _ _ _ _ _ L R).
  Qed.
  Lemma r_offset : refer_to (lit "ulogappendedoffsets") (lit "ULogId") AInt pk (N (lit "ulogappendedoffsets")).
  Proof. exact (rows_for_refer _ _ _ _ _ _ _ _ _ in_offset (gv_offset pk) (sv_offset _ _ _ _ _ S)). Qed.
  Lemma r_dropout : refer_to (lit "ulogmessagedropout") (lit "ULogId") AInt pk (N (lit "ulogmessagedropout")).
  Proof. exact (rows_for_refer _ _ _ _ _ _ _ _ _ in_dropout (gv_dropout pk) (sv_dropout _ _ _ _ _ S)). Qed.
  Lemma r_logged : refer_to (lit "ulogmessagelogging") (lit "ULogId") AInt pk (N (lit "ulogmessagelogging")).
  Proof. exact (rows_for_refer _ _ _ _ _ _ _ _ _ in_logging (gv_logged pk) (sv_logged _ _ _ _ _ S)). Qed.
  Lemma r_tagged : refer_to (lit "ulogmessageloggingtagged") (lit "ULogId") AInt pk (N (lit "ulogmessageloggingtagged")).
  Proof. exact (rows_for_refer _ _ _ _ _ _ _ _ _ in_tagged (gv_tagged pk) (sv_tagged _ _ _ _ _ S)). Qed.
  Lemma r_param : refer_to (lit "uloginitialparameter") (lit "ULogId") AInt pk (N (lit "uloginitialparameter")).
  Proof. exact (rows_for_refer _ _ _ _ _ _ _ _ _ in_param (gv_param pk) (sv_param _ _ _ _ _ S)). Qed.
  Lemma r_default : refer_to (lit "ulogdefaultparameter") (lit "ULogId") AInt pk (N (lit "ulogdefaultparameter")).
  Proof. exact (rows_for_refer _ _ _ _ _ _ _ _ _ in_default (gv_default pk) (sv_default _ _ _ _ _ S)). Qed.
  Lemma r_change : refer_to (lit "ulogchangedparameter") (lit "ULogId") AInt pk (N (lit "ulogchangedparameter")).
  Proof. exact (rows_for_refer _ _ _ _ _ _ _ _ _ in_change (gv_change pk) (sv_change _ _ _ _ _ S)). Qed.
  Lemma r_info : refer_to (lit "ulogmessageinfo") (lit "ULogId") AInt pk (N (lit "ulogmessageinfo")).
  Proof. destruct (sv_info _ _ _ _ _ S) as (infos & _ & H). exact (rows_for_refer _ _ _ _ _ _ _ _ _ in_info (gv_info pk) H). Qed.
  Lemma r_dataset : refer_to (lit "ulogdataset") (lit "ULogId") AInt pk (N (lit "ulogdataset")).
  Proof. pose proof (sv_dataset _ _ _ _ _ S) as T. induction T; constructor; auto. exact (prep_refers _ _ _ _ _ _ _ _ _ in_dataset (gv_dataset pk _) H). Qed.
  Lemma r_format : refer_to (lit "ulogmessageformat") (lit "ULogId") AInt pk (N (lit "ulogmessageformat")).
  Proof. pose proof (sv_format _ _ _ _ _ S) as T. induction T; constructor; auto. exact (prep_refers _ _ _ _ _ _ _ _ _ in_format (gv_format pk _) H). Qed.
  Lemma r_multi : refer_to (lit "ulogmessageinfomultiple") (lit "ULogId") AInt pk (N (lit "ulogmessageinfomultiple")).
  Proof. pose proof (sv_multi _ _ _ _ _ S) as T. induction T as [|base baseL kl l r0 lr er rs lrs ers (ty & Hty & H)]; constructor; auto. exact (prep_refers _ _ _ _ _ _ _ _ _ in_multi (gv_multi pk _) H). Qed.

  (** *** The header row *)
  Lemma l_log : log_rows d' pk = [r].
  Proof.
    unfold log_rows. rewrite (g_rows _ _ _ (ad_grows _ _ _ _ (sv_adds _ _ _ _ _ S))), (sv_log _ _ _ _ _ S), app_nil_r.
    rewrite (g_rows _ _ _ (ad_grows _ _ _ _ (tx_log _ _ _ _ _ _ _ X))), only_same, filter_app.
    replace (filter _ (d_rows d (lit "ulog"))) with (@nil row).
    - cbn [filter app]. replace (is_ref _ _ _ pk r) with true; [reflexivity|]. symmetry. unfold is_ref. apply cell_is_ref; [now left|].
      apply (id_cell _ r pk par_log). exact (prep_id _ _ _ _ _ par_log (tx_row _ _ _ _ _ _ _ X)).
    - symmetry. apply ProofsDb.filter_none. intros x Hx. destruct (is_ref _ _ _ pk x) eqn:E; [|reflexivity]. exfalso.
      unfold is_ref in E. apply cell_is_ref in E; [|now left]. apply (id_cell _ x pk par_log) in E.
      pose proof (gd_ids _ G _ par_log) as F. rewrite Forall_forall in F. destruct (F x Hx) as (z & Hz & Bz). rewrite Hz in E. injection E as ->. pose proof pk_new. lia.
  Qed.

  (** *** Lists *)
  Lemma l_offset : exists tl, by_index (map (project (lit "ulogappendedoffsets") [lit "SeriesIndex"; lit "Offset"]) (N (lit "ulogappendedoffsets"))) = Ok tl /\ mapM read_offset tl = Ok (u_offsets u).
  Proof.
    pose proof (sv_offset _ _ _ _ _ S) as H. apply F2_map_l in H.
    destruct (by_index_rows (u_offsets u) (map (project (lit "ulogappendedoffsets") [lit "SeriesIndex"; lit "Offset"]) (N (lit "ulogappendedoffsets"))) (fun ia t => t = [CInt (snd ia)])) as (tl & B & F).
    - rewrite map_length. apply F2_length in H. now rewrite H, length_enumerate.
    - apply F2_map_r. eapply F2_impl; [|exact H]. cbv beta. intros x y (k & P). exists [CInt (snd x)]. split; [|reflexivity]. exact (rd_offset _ _ _ _ P).
    - exists tl. split; [exact B|]. rewrite <- (enumerate_snd (u_offsets u)). apply mapM_back. apply F2_map_l'. eapply F2_impl; [|exact F]. cbv beta. intros x y ->. reflexivity.
  Qed.
  Lemma l_dropout : mapM read_dropout (map (project (lit "ulogmessagedropout") [lit "Timestamp"; lit "Duration"]) (N (lit "ulogmessagedropout"))) = Ok (u_dropouts u).
  Proof. rewrite (rows_read _ _ _ _ _ (fun x => x) _ _ (sv_dropout _ _ _ _ _ S)); [now rewrite map_id|]. intros x k r0 _. apply rd_dropout. Qed.
  Lemma l_logged : mapM read_logged (map (project (lit "ulogmessagelogging") [lit "LogLevel"; lit "Timestamp"; lit "Message"]) (N (lit "ulogmessagelogging"))) = Ok (u_logged u).
  Proof. rewrite (rows_read _ _ _ _ _ (fun x => x) _ _ (sv_logged _ _ _ _ _ S)); [now rewrite map_id|]. intros x k r0 _. apply rd_logged. Qed.
  Lemma l_tagged : mapM read_tagged (map (project (lit "ulogmessageloggingtagged") [lit "LogLevel"; lit "Tag"; lit "Timestamp"; lit "Message"]) (N (lit "ulogmessageloggingtagged"))) = Ok (map snd (all_tagged u)).
  Proof.
    rewrite (rows_read _ _ _ _ _ snd _ _ (sv_tagged _ _ _ _ _ S)); [reflexivity|]. intros x k r0 Hx P. apply (rd_tagged _ _ _ _ P).
    unfold all_tagged in Hx. apply in_flat_map in Hx as (tl & Htl & Hx). apply in_map_iff in Hx as (m & <- & Hm).
    destruct (ft_tagged _ FT) as [_ F]. rewrite Forall_forall in F. destruct (F tl Htl) as (_ & _ & F'). rewrite Forall_forall in F'. now destruct (F' m Hm).
  Qed.
  Lemma l_info : exists infos, Forall2 (info_typed u) (u_info u) infos /\
    mapM read_info (map (project (lit "ulogmessageinfo") [lit "Key"; lit "Typename"; lit "Value"]) (N (lit "ulogmessageinfo"))) = Ok (map (fun x => (fst x, stored_value (snd x))) infos).
  Proof.
    destruct (sv_info _ _ _ _ _ S) as (infos & H1 & H2). exists infos. split; [exact H1|].
    apply (rows_read _ _ _ _ _ _ _ _ H2). intros x k r0 Hx P. apply (rd_info _ _ _ _ P).
    assert (exists kv, In kv (u_info u) /\ info_typed u kv x) as (kv & Hkv & ty & _ & ->).
    { clear -H1 Hx. induction H1 as [|a b la lb Hab H IH]; [destruct Hx|]. destruct Hx as [->|Hx]; [exists a; split; [now left|auto]|].
      destruct (IH Hx) as (kv & H2 & H3). exists kv. split; [now right|auto]. }
    cbn [snd]. destruct (ft_info _ FT) as (_ & _ & F & _). rewrite Forall_forall in F. now destruct (F kv Hkv).
  Qed.
  Lemma l_param : mapM read_entry (map (project (lit "uloginitialparameter") [lit "Key"; lit "Value"]) (N (lit "uloginitialparameter"))) = Ok (stored_dict (u_params u)).
  Proof.
    apply (rows_read _ _ _ _ _ _ _ _ (sv_param _ _ _ _ _ S)). intros x k r0 Hx P. apply (rd_param _ _ _ _ P).
    destruct (ft_params _ FT) as (_ & F). rewrite Forall_forall in F. now destruct (F x Hx).
  Qed.
  Lemma l_default : mapM read_default (map (project (lit "ulogdefaultparameter") [lit "DefaultType"; lit "Key"; lit "Value"]) (N (lit "ulogdefaultparameter"))) =
    Ok (map (fun x => (fst x, stored_value (snd x))) (all_defaults u)).
  Proof.
    apply (rows_read _ _ _ _ _ _ _ _ (sv_default _ _ _ _ _ S)). intros x k r0 Hx P. apply (rd_default _ _ _ _ P).
    unfold all_defaults in Hx. apply in_flat_map in Hx as (td & Htd & Hx). apply in_map_iff in Hx as (kv & <- & Hkv). cbn [snd].
    destruct (ft_defaults _ FT) as [_ F]. rewrite Forall_forall in F. destruct (F td Htd) as (_ & _ & _ & F'). rewrite Forall_forall in F'. now destruct (F' kv Hkv).
  Qed.
  Lemma l_change : mapM read_default (map (project (lit "ulogchangedparameter") [lit "Timestamp"; lit "Key"; lit "Value"]) (N (lit "ulogchangedparameter"))) =
    Ok (map (fun c => (fst c, stored_value (snd c))) (u_changed u)).
  Proof.
    apply (rows_read _ _ _ _ _ _ _ _ (sv_change _ _ _ _ _ S)). intros x k r0 Hx P. apply (rd_change _ _ _ _ P).
    pose proof (ft_changed _ FT) as F. rewrite Forall_forall in F. now destruct (F x Hx) as (_ & _ & ?).
  Qed.

  (** *** Message formats *)
  Lemma l_formats : exists rows, join_formats d' pk = Ok rows /\
    mapM read_format rows = Ok (flat_map (fun nm => map (pair (fst nm)) (mf_fields (snd nm))) (u_formats u)).
  Proof.
    unfold join_formats. rewrite (direct _ (lit "ulogmessageformat")) by (try tab; apply r_format). cbn [bind].
    pose proof (sv_format _ _ _ _ _ S) as T. rewrite seq1 in T by discriminate.
    pose proof (tree_flat _ _ _ _ _ _ in_ffield (fun i x fr H => rows_for_refer _ _ _ _ _ _ _ _ _ in_ffield (gv_ffield i) H) _ _ _ _ (gd_seq _ G _) T) as F. clear T.
    assert (M : exists rows, mapM (fun m => match m with
      | [id; name] => let* fs := sql_select d' (lit "ULogMessageFormatField") [lit "FieldType"; lit "ArraySize"; lit "Name"] [(lit "MessageId", id)] in
                    Ok (map (fun f => name :: f) fs)
      | _ => Err Unmodelled
      end) (map (project (lit "ulogmessageformat") [lit "Id"; lit "Name"]) (N (lit "ulogmessageformat"))) = Ok rows /\
      mapM read_format (concat rows) = Ok (flat_map (fun nm => map (pair (fst nm)) (mf_fields (snd nm))) (u_formats u))).
    { induction F as [|nm x l rs (i & fr & Hi & HP & HQ & HF) F (rows & I1 & I2)]; [exists []; split; reflexivity|].
      cbn [map mapM]. rewrite (rd_format _ _ _ _ HP).
      rewrite (select_link d' _ (lit "ulogmessageformatfield") (lit "MessageId") AInt (lit "ulogmessageformat") _ i D') by tab. cbn [bind].
      rewrite (kids _ _ _ _ _ in_ffield Hi), HF. rewrite I1. cbn [bind]. eexists. split; [reflexivity|].
      cbn [concat flat_map]. rewrite mapM_app, I2.
      rewrite map_map, mapM_map.
      assert (M1 : mapM (fun x0 => read_format (CText (fst nm) :: project (lit "ulogmessageformatfield") [lit "FieldType"; lit "ArraySize"; lit "Name"] x0)) fr = Ok (map (pair (fst nm)) (mf_fields (snd nm)))).
      { pose proof (rows_read (lit "ulogmessageformatfield") n_ffield [lit "FieldType"; lit "ArraySize"; lit "Name"] (v_ffield i) (fun f => read_format (CText (fst nm) :: f)) (pair (fst nm)) _ _ HQ) as R.
        rewrite mapM_map in R. apply R. intros f k r0 _ P. rewrite (rd_ffield _ _ _ _ P). now destruct f as [[? ?] ?]. }
      unfold row in *. rewrite M1. reflexivity. }
    destruct M as (rows & M1 & M2). exists (concat rows). split; [|exact M2]. unfold rmap. unfold row in *. rewrite M1. reflexivity.
  Qed.

  (** *** Info messages with several values *)
  Lemma l_elems il i er : Forall fits_text (snd il) -> elems_saved i il er ->
    exists es, by_index (map (project (lit "ulogmessageinfomultiplelistelement") [lit "SeriesIndex"; lit "Value"]) er) = Ok es /\
      mapM (fun e => match e with [c] => as_value c | _ => Err Unmodelled end) es = Ok (snd il).
  Proof.
    intros Ft H. unfold elems_saved, rows_for in H. apply F2_map_l in H.
    destruct (by_index_rows (snd il) (map (project (lit "ulogmessageinfomultiplelistelement") [lit "SeriesIndex"; lit "Value"]) er)
      (fun ia t => exists y, t = [y] /\ as_value y = Ok (snd ia))) as (tl & B & F).
    - rewrite map_length. apply F2_length in H. now rewrite H, length_enumerate.
    - apply F2_map_r. apply F2_in_l in H. eapply F2_impl; [|exact H]. cbv beta. intros x y [Hx (k & P)]. apply enum_vals in Hx. rewrite Forall_forall in Ft.
      destruct (rd_elem _ _ _ _ P (Ft _ Hx)) as (z & Hz & V). exists [z]. split; [exact Hz|]. exists z. auto.
    - exists tl. split; [exact B|]. rewrite <- (enumerate_snd (snd il)). apply mapM_back. apply F2_map_l'. eapply F2_impl; [|exact F]. cbv beta. intros x y (z & -> & V). exact V.
  Qed.
  Lemma l_lists kl i lr : Forall (fun l => lenZ l < 2 ^ 63 /\ Forall fits_text l) (snd kl) -> d_seq d (lit "ulogmessageinfomultiple") < i ->
    filter (is_ref (lit "ulogmessageinfomultiplelist") (lit "MessageId") AText i) (N (lit "ulogmessageinfomultiplelist")) = lr ->
    Forall2 (list_back (N (lit "ulogmessageinfomultiplelistelement")) i (d_seq d (lit "ulogmessageinfomultiplelist"))) (enumerate (snd (kl : str * list (list value)))) lr ->
    fetch_lists d' (CInt i) = Ok (snd kl).
  Proof.
    intros Ft Hi HF H. unfold fetch_lists.
    rewrite (select_link d' _ (lit "ulogmessageinfomultiplelist") (lit "MessageId") AText (lit "ulogmessageinfomultiple") _ i D') by tab. cbn [bind].
    rewrite (kids _ _ _ _ _ in_list Hi), HF.
    destruct (by_index_rows (snd kl) (map (project (lit "ulogmessageinfomultiplelist") [lit "SeriesIndex"; lit "Id"]) lr)
      (fun ia t => In ia (enumerate (snd kl)) /\ exists j er, t = [CInt j] /\ d_seq d (lit "ulogmessageinfomultiplelist") < j /\ elems_saved j ia er /\
        filter (is_ref (lit "ulogmessageinfomultiplelistelement") (lit "ListId") AText j) (N (lit "ulogmessageinfomultiplelistelement")) = er)) as (tl & B & F).
    - rewrite map_length. apply F2_length in H. now rewrite H, length_enumerate.
    - apply F2_map_r. apply F2_in_l in H. eapply F2_impl; [|exact H]. cbv beta. intros x y [Hx (j & er & Hj & HL & HE & HFe)].
      exists [CInt j]. split; [exact (rd_list _ _ _ _ HL)|]. split; [exact Hx|]. exists j, er. auto.
    - rewrite B. cbn [bind]. rewrite <- (enumerate_snd (snd kl)). apply mapM_back. apply F2_map_l'. eapply F2_impl; [|exact F]. cbv beta.
      intros x y (Hx & j & er & -> & Hj & HE & HFe).
      rewrite (select_link d' _ (lit "ulogmessageinfomultiplelistelement") (lit "ListId") AText (lit "ulogmessageinfomultiplelist") _ j D') by tab. cbn [bind].
      rewrite (kids _ _ _ _ _ in_elem Hj), HFe. apply enum_vals in Hx. rewrite Forall_forall in Ft. destruct (Ft _ Hx) as [_ Ft'].
      destruct (l_elems _ _ _ Ft' HE) as (es & -> & M). exact M.
  Qed.
  Lemma l_multi : exists ms, Forall2 (fun kl x => exists ty, sget (fst kl) (u_multit u) = Some ty /\ x = (fst kl, ty, snd kl)) (u_multi u) ms /\
    mapM (fun r => match r with
        | [i; k; t] => let* k := as_text k in let* t := as_text t in let* ls := fetch_lists d' i in Ok (k, t, ls)
        | _ => Err Unmodelled end) (map (project (lit "ulogmessageinfomultiple") [lit "Id"; lit "Key"; lit "Typename"]) (N (lit "ulogmessageinfomultiple"))) = Ok ms.
  Proof.
    pose proof (sv_multi _ _ _ _ _ S) as T. rewrite !seq1 in T by discriminate.
    pose proof (multis_flat _ _ _ _ _ _ _ _ T (gd_seq _ G _) (gd_seq _ G _) [] (Forall_nil _)) as F. cbn [app] in F. clear T.
    destruct (ft_multi _ FT) as (_ & _ & Ft & _). revert F Ft.
    generalize (N (lit "ulogmessageinfomultiple")) as rs. generalize (u_multi u) as l. intros l rs F. induction F as [|kl x l rs (i & lr & Hi & (ty & Hty & HP) & HF & HL) F IH]; intros Ft.
    - exists []. split; constructor.
    - inversion Ft as [|? ? (_ & _ & Ft1) Ft2]; subst. destruct (IH Ft2) as (ms & I1 & I2). exists ((fst kl, ty, snd kl) :: ms). split.
      + constructor; auto. exists ty. auto.
      + cbn [map mapM]. rewrite (rd_multi _ _ _ _ HP). cbn [as_text bind fst snd]. rewrite (l_lists kl i _ Ft1 Hi eq_refl HL). cbn [bind]. rewrite I2. reflexivity.
  Qed.

  (** *** Datasets *)
  Lemma l_names : mapM (fun r => match r with [n; m] => let* n := as_text n in let* m := as_int m in Ok (n, m) | _ => Err Unmodelled end)
      (map (project (lit "ulogdataset") [lit "DatasetName"; lit "MultiId"]) (N (lit "ulogdataset"))) = Ok (map (fun ds => (ds_name ds, ds_multi ds)) (u_data u)).
  Proof.
    pose proof (sv_dataset _ _ _ _ _ S) as T. induction T as [|base ds l r0 fr rs frs HP HQ T IH]; [reflexivity|].
    cbn [map mapM]. unfold project at 1. cbn [map].
    rewrite (cell_text _ _ _ _ _ (lit "DatasetName") _ _ HP eq_refl eq_refl ltac:(sel) ltac:(sel)).
    rewrite (cell_int _ _ _ _ _ (lit "MultiId") _ _ HP eq_refl eq_refl ltac:(sel) ltac:(sel)).
    cbn [as_text as_int bind]. rewrite IH. reflexivity.
  Qed.
  Lemma sorted_unique_names : NoDup (map (fun ds => (ds_name ds, ds_multi ds)) (u_data u)).
  Proof.
    pose proof (ft_sorted _ FT) as Hs. induction Hs as [|ds l Hs IH Hf]; cbn [map]; constructor; auto.
    intros Hin. apply in_map_iff in Hin as (ds' & E & Hd). rewrite Forall_forall in Hf. injection E as E1 E2. destruct (Hf ds' Hd) as [C|[_ C]].
    - rewrite E1 in C. assert (R : forall s, str_cmp s s = Eq) by (induction s; cbn; [auto|now rewrite Z.compare_refl]). rewrite R in C. discriminate.
    - lia.
  Qed.
  Lemma is_named_row k ds r0 name multi : dataset_saved pk k ds r0 ->
    where_ (cols (lit "ulogdataset")) [(lit "DatasetName", CText name); (lit "MultiId", CInt multi)] r0 = str_eqb (ds_name ds) name && (ds_multi ds =? multi).
  Proof.
    intros HP. unfold where_. cbn [forallb fst snd].
    rewrite (cell_text _ _ _ _ _ (lit "DatasetName") _ _ HP eq_refl eq_refl ltac:(sel) ltac:(sel)).
    rewrite (cell_int _ _ _ _ _ (lit "MultiId") _ _ HP eq_refl eq_refl ltac:(sel) ltac:(sel)).
    change (aff_of (cols (lit "ulogdataset")) (lit "DatasetName")) with AText. change (aff_of (cols (lit "ulogdataset")) (lit "MultiId")) with AInt.
    unfold cell_is. cbn [apply_aff cell_eqb]. now rewrite andb_true_r.
  Qed.
  Lemma fields_refer i ds fr : fields_saved i ds fr -> refer_to (lit "ulogfield") (lit "DatasetId") AInt i fr.
  Proof.
    intros H. unfold fields_saved in H. induction H as [|fd r0 l rs (col & k & _ & P) H IH]; constructor; auto.
    exact (prep_refers _ _ _ _ _ _ _ _ _ in_field (gv_field i _) P).
  Qed.
  Lemma l_fields i ds fr : fits_dataset ds -> fields_saved i ds fr -> exists fs,
    mapM read_field (map (project (lit "ulogfield") [lit "TopicName"; lit "DataType"; lit "ValueArray"]) fr) = Ok fs /\
    map fst fs = ds_fields ds /\ fold_left (fun acc kv => sset (fst kv) (snd kv) acc) (map snd fs) [] = ds_data ds.
  Proof.
    intros [_ _ Hc Ho Ht] H. unfold fields_saved in H.
    assert (exists fs, mapM read_field (map (project (lit "ulogfield") [lit "TopicName"; lit "DataType"; lit "ValueArray"]) fr) = Ok fs /\
      map fst fs = ds_fields ds /\ Forall (fun x => fst (snd x) = fd_name (fst x) /\ sget (fst (snd x)) (ds_data ds) = Some (snd (snd x))) fs) as (fs & M & E & F).
    { clear Hc Ho. revert Ht H. generalize (ds_fields ds) as l. intros l Ht H. induction H as [|fd r0 l rs (col & k & Hcol & P) H IH].
      - exists []. repeat split; constructor.
      - inversion Ht as [|? ? (c & Hc' & Ty & _ & Rg) Ht2]; subst. rewrite Hcol in Hc'. injection Hc' as <-. destruct (IH Ht2) as (fs & I1 & I2 & I3).
        exists ((fd, (fd_name fd, col)) :: fs). split; [|split].
        + cbn [map mapM]. rewrite (rd_field _ _ _ _ _ P Ty Rg). cbn [bind]. rewrite I1. reflexivity.
        + cbn. now rewrite I2.
        + constructor; auto. }
    exists fs. split; [exact M|]. split; [exact E|].
    assert (K : map snd fs = ds_data ds).
    { assert (Hk : map fst (map snd fs) = map fst (ds_data ds)).
      { rewrite Hc, <- E, !map_map. apply map_ext_Forall. eapply Forall_impl; [|exact F]. now intros x [? _]. }
      assert (Nd : NoDup (map fst (ds_data ds))) by (rewrite Hc; exact Ho).
      assert (Fs : Forall (fun kv => In kv (ds_data ds)) (map snd fs)).
      { apply Forall_map. eapply Forall_impl; [|exact F]. cbv beta. intros x [_ Hx]. apply (dget_In _ str_eqb_spec) in Hx. now rewrite <- surjective_pairing in Hx. }
      clear -Hk Nd Fs. revert Hk Fs. generalize (map snd fs) as m. intros m. revert Nd. generalize (ds_data ds) as e. intros e Nd Hk Fs.
      assert (Hpt : forall m0 e0 : list (str * column), map fst m0 = map fst e0 -> Forall (fun kv => forall v, In (fst kv, v) e0 -> snd kv = v) m0 -> m0 = e0).
      { induction m0 as [|[k v] m0 IH]; intros [|[k' v'] e0] Hk0 Hf; try discriminate; [reflexivity|]. cbn in Hk0. injection Hk0 as -> Hk0.
        inversion Hf as [|? ? Hf1 Hf2]; subst. cbn in Hf1. rewrite (Hf1 v') by now left. f_equal. apply IH; auto.
        eapply Forall_impl; [|exact Hf2]. cbv beta. intros kv Hkv w Hw. apply Hkv. now right. }
      apply Hpt; auto. eapply Forall_impl; [|exact Fs]. cbv beta. intros [k v] Hin w Hw. cbn [fst snd] in *.
      pose proof (In_dget _ str_eqb_spec _ _ _ Nd Hin) as E1. pose proof (In_dget _ str_eqb_spec _ _ _ Nd Hw) as E2. rewrite E1 in E2. now injection E2. }
    rewrite K. rewrite (fold_dset_id str_eqb str_eqb_spec); [reflexivity|]. cbn [app]. exact (eq_ind_r (fun l => NoDup l) Ho Hc).
  Qed.
  Lemma find_named (l : list dataset) rs name multi : forall P : dataset -> row -> Prop, Forall2 P l rs -> forall q : row -> bool,
    (forall ds x, P ds x -> q x = str_eqb (ds_name ds) name && (ds_multi ds =? multi)) ->
    NoDup (map (fun ds => (ds_name ds, ds_multi ds)) l) -> forall ds x, In (ds, x) (combine l rs) -> ds_name ds = name -> ds_multi ds = multi -> filter q rs = [x].
  Proof.
    intros P H q Hq. induction H as [|ds0 x0 l rs H1 H IH]; intros Nd ds x Hin En Em; [destruct Hin|].
    cbn [map] in Nd. inversion Nd as [|? ? Nin Nd']; subst. cbn [combine] in Hin. cbn [filter]. destruct Hin as [Hin|Hin].
    - injection Hin as -> ->. rewrite (Hq _ _ H1), str_eqb_refl, Z.eqb_refl. cbn [andb]. f_equal. apply ProofsDb.filter_none. intros y Hy.
      assert (exists ds', In ds' l /\ P ds' y) as (ds' & Hd & Hp).
      { clear -H Hy. induction H as [|a b la lb Hab H IH]; [destruct Hy|]. destruct Hy as [->|Hy]; [exists a; split; [now left|auto]|].
        destruct (IH Hy) as (ds' & ? & ?). exists ds'. split; [now right|auto]. }
      rewrite (Hq _ _ Hp). destruct (str_eqb_spec (ds_name ds') (ds_name ds)) as [E|]; [|reflexivity]. cbn [andb]. apply Z.eqb_neq. intros E2.
      apply Nin. apply in_map_iff. exists ds'. rewrite E, E2. auto.
    - rewrite (Hq _ _ H1). destruct (str_eqb_spec (ds_name ds0) (ds_name ds)) as [E|]; [destruct (Z.eqb_spec (ds_multi ds0) (ds_multi ds)) as [E2|]|]; cbn [andb].
      + exfalso. apply Nin. apply in_map_iff. exists ds. rewrite E, E2. split; auto. now apply in_combine_l in Hin.
      + eapply IH; eauto.
      + eapply IH; eauto.
  Qed.
  Lemma l_dataset ds (lazy : bool) : In ds (u_data u) ->
    fetch_dataset d' (Some pk) (ds_name ds) (ds_multi ds) lazy =
    Ok (if lazy then mkDS (ds_multi ds) (ds_id ds) (ds_name ds) [] (ds_tsidx ds) [] else ds).
  Proof.
    intros Hds. pose proof (sv_dataset _ _ _ _ _ S) as T. rewrite seq1 in T by discriminate.
    pose proof (tree_flat _ _ _ _ _ _ in_field (fun i x fr H => fields_refer i x fr H) _ _ _ _ (gd_seq _ G _) T) as F. clear T.
    assert (exists x, In (ds, x) (combine (u_data u) (N (lit "ulogdataset"))) /\ exists i fr, d_seq d (lit "ulogdataset") < i /\ dataset_saved pk i ds x /\
       fields_saved i ds fr /\ filter (is_ref (lit "ulogfield") (lit "DatasetId") AInt i) (N (lit "ulogfield")) = fr) as (x & Hx & i & fr & Hi & HP & HQ & HF).
    { clear -F Hds. induction F as [|a b la lb Hab F IH]; [destruct Hds|]. cbn [combine]. destruct Hds as [->|Hds].
      - exists b. split; [now left|exact Hab].
      - destruct (IH Hds) as (x & H1 & H2). exists x. split; [now right|exact H2]. }
    pose proof (find_named _ _ (ds_name ds) (ds_multi ds) _ F (where_ (cols (lit "ulogdataset")) [(lit "DatasetName", CText (ds_name ds)); (lit "MultiId", CInt (ds_multi ds))])) as FN.
    specialize (FN (fun ds0 x0 H => match H with ex_intro _ i0 (ex_intro _ _ (conj _ (conj HP0 _))) => is_named_row i0 ds0 x0 _ _ HP0 end) sorted_unique_names ds x Hx eq_refl eq_refl).
    unfold fetch_dataset.
    rewrite (select_v5 d' _ (lit "ulogdataset") t_ulogdataset) by (auto; reflexivity).
    replace (filter _ (d_rows d' (lit "ulogdataset"))) with [x].
    2: { rewrite <- FN. rewrite <- (refer_all _ _ _ _ _ _ in_dataset r_dataset) at 1. rewrite <- (kids _ _ _ _ _ in_dataset pk_new). unfold children. rewrite filter_filter.
      apply filter_ext. intros y. unfold where_. cbn [forallb fst snd]. rewrite !andb_true_r, andb_assoc. reflexivity. }
    cbn [map bind]. unfold project at 1. cbn [map].
    rewrite (cell_key _ _ _ _ _ par_dataset HP).
    rewrite (cell_int _ _ _ _ _ (lit "TimestampIndex") _ _ HP eq_refl eq_refl ltac:(sel) ltac:(sel)).
    rewrite (cell_int _ _ _ _ _ (lit "MessageId") _ _ HP eq_refl eq_refl ltac:(sel) ltac:(sel)). cbn [as_int bind]. destruct lazy; [reflexivity|].
    rewrite (select_link d' _ (lit "ulogfield") (lit "DatasetId") AInt (lit "ulogdataset") _ i D') by tab. cbn [bind].
    rewrite (kids _ _ _ _ _ in_field Hi), HF.
    pose proof (ft_data _ FT) as Fd. rewrite Forall_forall in Fd. destruct (l_fields _ _ _ (Fd ds Hds) HQ) as (fs & -> & E4 & E5). cbn [bind]. rewrite E4, E5. now destruct ds.
  Qed.

  Lemma l_absent name multi lazy : ~ In (name, multi) (map (fun ds => (ds_name ds, ds_multi ds)) (u_data u)) ->
    fetch_dataset d' (Some pk) name multi lazy = Err KeyError.
  Proof.
    intros Nin. pose proof (sv_dataset _ _ _ _ _ S) as T. rewrite seq1 in T by discriminate.
    pose proof (tree_flat _ _ _ _ _ _ in_field (fun i x fr H => fields_refer i x fr H) _ _ _ _ (gd_seq _ G _) T) as F. clear T.
    unfold fetch_dataset. rewrite (select_v5 d' _ (lit "ulogdataset") t_ulogdataset) by (auto; reflexivity).
    replace (filter _ (d_rows d' (lit "ulogdataset"))) with (@nil row); [reflexivity|].
    transitivity (filter (where_ (cols (lit "ulogdataset")) [(lit "DatasetName", CText name); (lit "MultiId", CInt multi)]) (N (lit "ulogdataset"))).
    - symmetry. apply filter_none. intros y Hy. destruct (F2_In_r _ _ _ F _ Hy) as (ds & Hds & i & fr & _ & HP & _). rewrite (is_named_row i ds y _ _ HP).
      apply not_true_is_false. rewrite andb_true_iff. intros [E1 E2]. apply Nin. apply in_map_iff. exists ds. split; auto.
      destruct (str_eqb_spec (ds_name ds) name) as [<-|]; [|discriminate]. apply Z.eqb_eq in E2. now rewrite E2.
    - rewrite <- (refer_all _ _ _ _ _ _ in_dataset r_dataset) at 1. rewrite <- (kids _ _ _ _ _ in_dataset pk_new). unfold children. rewrite filter_filter.
      apply filter_ext. intros y. unfold where_. cbn [forallb fst snd]. rewrite !andb_true_r, andb_assoc. reflexivity.
  Qed.

  Lemma l_data (lazy : bool) : mapM (fun nm => fetch_dataset d' (Some pk) (fst nm) (snd nm) lazy) (ssort name_leb (map (fun ds => (ds_name ds, ds_multi ds)) (u_data u))) =
    Ok (if lazy then map shell (u_data u) else u_data u).
  Proof.
    rewrite ssort_id.
    - rewrite mapM_map. cbn [fst snd]. rewrite (mapM_all_Ok _ (fun ds => if lazy then shell ds else ds)).
      + destruct lazy; [reflexivity|now rewrite map_id].
      + intros ds Hds. now rewrite l_dataset.
    - pose proof (ft_sorted _ FT) as Hs. induction Hs as [|ds l Hs IH Hf]; cbn [map]; constructor; auto.
      apply Forall_map. eapply Forall_impl; [|exact Hf]. cbv beta. intros ds' [C|[C1 C2]]; unfold name_leb; cbn [fst snd].
      + now rewrite C.
      + rewrite C1, str_cmp_refl. apply Z.leb_le. lia.
  Qed.
  Lemma l_exists : exists_in_db d' pk = Ok true.
  Proof.
    unfold exists_in_db. rewrite (select_log d' _ pk D') by reflexivity. rewrite l_log. reflexivity.
  Qed.
  Lemma tagged_back : fold_left add_tagged (map snd (all_tagged u)) [] = u_tagged u.
  Proof.
    destruct (ft_tagged _ FT) as [Nd F].
    assert (E : fold_left add_tagged (map snd (all_tagged u)) [] =
      fold_left (gstep Z.eqb (fun o m => match o with Some l => l | None => [] end ++ [m])) (flat_map (fun tl => map (pair (fst tl)) (snd tl)) (u_tagged u)) []).
    { unfold all_tagged. change (fun tl : Z * list tagmsg => map (fun x => (fst tl, x)) (snd tl)) with (fun tl : Z * list tagmsg => map (pair (fst tl)) (snd tl)).
      assert (Ft : Forall (fun tx => tg_tag (snd tx) = fst tx) (flat_map (fun tl => map (pair (fst tl)) (snd tl)) (u_tagged u))).
      { apply Forall_forall. intros x Hx. apply in_flat_map in Hx as (tl & Htl & Hx). apply in_map_iff in Hx as (m & <- & Hm). cbn [fst snd].
        rewrite Forall_forall in F. destruct (F tl Htl) as (_ & _ & F'). rewrite Forall_forall in F'. now destruct (F' m Hm). }
      generalize (@nil (Z * list tagmsg)). induction Ft as [|[t m] l Hm Ft IH]; intros acc; cbn [map fold_left]; [reflexivity|]. rewrite IH. cbn [fst snd] in Hm. subst t.
      unfold add_tagged. reflexivity. }
    rewrite E, (group_all _ Zeqb_spec _ _ snd).
    - cbn [app]. etransitivity; [|apply map_id]. apply map_ext. now intros [? ?].
    - cbn [dkeys map app]. exact Nd.
    - eapply Forall_impl; [|exact F]. cbv beta. intros [t l] (_ & Hl & _). cbn [snd] in *. destruct l as [|m l]; [contradiction|]. cbn [app].
      assert (forall l acc, fold_left (fun v x => v ++ [x]) l acc = acc ++ (l : list tagmsg)) as ->; [|reflexivity].
      clear. induction l; intros; cbn; [now rewrite app_nil_r|]. rewrite IHl, <- app_assoc. reflexivity.
  Qed.
  Lemma formats_back : fold_left add_field (flat_map (fun nm => map (pair (fst nm)) (mf_fields (snd nm))) (u_formats u)) [] = u_formats u.
  Proof.
    destruct (ft_formats _ FT) as [Nd F].
    (* the step knows the name of the format *)
    assert (E : forall l acc, Forall (fun nm => mf_name (snd nm) = fst nm) acc ->
      fold_left add_field l acc = map (fun nm => (fst nm, mkFmt (fst nm) (snd nm)))
        (fold_left (gstep str_eqb (fun o f => match o with Some l => l | None => [] end ++ [f])) l (map (fun nm => (fst nm, mf_fields (snd nm))) acc))).
    { induction l as [|[n f] l IH]; intros acc Ha; cbn [fold_left].
      - rewrite map_map. cbn [fst snd]. rewrite <- (map_id acc) at 1. apply map_ext_Forall. eapply Forall_impl; [|exact Ha]. cbv beta. intros [n [a b]] H. cbn in *. now subst.
      - assert (Gt : dget str_eqb n (map (fun nm : str * mformat => (fst nm, mf_fields (snd nm))) acc) = match sget n acc with Some m => Some (mf_fields m) | None => None end).
        { clear. induction acc as [|[k m] acc IH]; cbn; [reflexivity|]. destruct (str_eqb n k); auto. }
        unfold gstep at 2. cbn [fst snd]. rewrite Gt. unfold add_field at 2. cbn [fst snd].
        assert (St : forall m fs, mf_fields m = fs -> mf_name m = n -> map (fun nm => (fst nm, mf_fields (snd nm))) (sset n m acc) = sset n fs (map (fun nm => (fst nm, mf_fields (snd nm))) acc)).
        { intros m fs Hm _. subst fs. clear. induction acc as [|[k m0] acc IH]; cbn; [reflexivity|]. destruct (str_eqb n k); cbn; [reflexivity|]. now rewrite IH. }
        assert (Wf : forall m, mf_name m = n -> Forall (fun nm => mf_name (snd nm) = fst nm) (sset n m acc)).
        { intros m Hm. clear -Ha Hm. induction Ha as [|[k m0] acc H Ha IH]; cbn [dset]; [constructor; auto|]. destruct (str_eqb_spec n k); constructor; auto. cbn. now subst. }
        destruct (sget n acc) as [m|] eqn:Gn.
        + assert (Hm : mf_name m = n). { apply (dget_In _ str_eqb_spec) in Gn. rewrite Forall_forall in Ha. apply (Ha _ Gn). }
          rewrite IH by (apply Wf; cbn; auto). rewrite (St _ (mf_fields m ++ [f])) by (cbn; auto). reflexivity.
        + rewrite IH by (apply Wf; reflexivity). rewrite (St _ [f]) by reflexivity. reflexivity. }
    rewrite E by constructor. cbn [map].
    replace (flat_map (fun nm => map (pair (fst nm)) (mf_fields (snd nm))) (u_formats u)) with
      (flat_map (fun kx => map (pair (fst kx)) (snd kx)) (map (fun nm => (fst nm, mf_fields (snd nm))) (u_formats u))) by (rewrite flat_map_concat_map, map_map, <- flat_map_concat_map; reflexivity).
    rewrite (group_all _ str_eqb_spec _ _ snd).
    - cbn [app]. rewrite !map_map. cbn [fst snd]. etransitivity; [|apply map_id]. apply map_ext_Forall. eapply Forall_impl; [|exact F]. cbv beta. intros [n [a b]] (_ & H & _). cbn in *. now subst.
    - cbn [dkeys map app]. unfold dkeys. rewrite map_map. exact Nd.
    - apply Forall_map. eapply Forall_impl; [|exact F]. cbv beta. intros [t m] (_ & _ & Hl & _). cbn [fst snd] in *. destruct (mf_fields m) as [|f l]; [contradiction|]. cbn [app].
      assert (forall l acc, fold_left (fun v x => v ++ [x]) l acc = acc ++ (l : list (str * Z * str))) as ->; [|reflexivity].
      clear. induction l; intros; cbn; [now rewrite app_nil_r|]. rewrite IHl, <- app_assoc. reflexivity.
  Qed.
  Lemma defaults_back : fold_left add_default (map (fun x => (fst x, stored_value (snd x))) (all_defaults u)) [] = map (fun kv => (fst kv, stored_dict (snd kv))) (u_defaults u).
  Proof.
    destruct (ft_defaults _ FT) as [Nd F].
    assert (E : fold_left add_default (map (fun x => (fst x, stored_value (snd x))) (all_defaults u)) [] =
      fold_left (gstep Z.eqb (fun o kv => sset (fst kv) (snd kv) (match o with Some m => m | None => [] end)))
        (flat_map (fun td => map (pair (fst td)) (snd td)) (map (fun td => (fst td, stored_dict (snd td))) (u_defaults u))) []).
    { replace (flat_map (fun td => map (pair (fst td)) (snd td)) (map (fun td => (fst td, stored_dict (snd td))) (u_defaults u))) with
        (map (fun x => (fst (fst x), (snd (fst x), stored_value (snd x)))) (all_defaults u)).
      - set (g := gstep Z.eqb _).
        assert (H : forall l acc, fold_left add_default (map (fun x => (fst x, stored_value (snd x))) l) acc =
          fold_left g (map (fun x => (fst (fst x), (snd (fst x), stored_value (snd x)))) l) acc).
        { induction l as [|[[t k] v] l IH]; intros acc; cbn [map fold_left]; [reflexivity|]. etransitivity; [apply IH|]. reflexivity. }
        apply H.
      - unfold all_defaults. rewrite !flat_map_concat_map, concat_map, !map_map. f_equal. apply map_ext. intros td. unfold stored_dict. cbn [fst snd]. rewrite !map_map. reflexivity. }
    rewrite E. clear E. etransitivity; [apply (group_all _ Zeqb_spec _ _ snd)|].
    - cbn [dkeys map app]. unfold dkeys. rewrite map_map. exact Nd.
    - apply Forall_map. eapply Forall_impl; [|exact F]. cbv beta. intros [t m] (_ & Hl & Nd' & _). cbn [fst snd] in *.
      assert (Nd2 : NoDup (map fst (stored_dict m))) by (unfold stored_dict; rewrite map_map; exact Nd').
      assert (Hl2 : stored_dict m <> []) by (destruct m; [contradiction|discriminate]). revert Nd2 Hl2. generalize (stored_dict m) as e. intros [|kv e] Nd2 Hl2; [contradiction|].
      change (fold_left (fun a kv => sset (fst kv) (snd kv) a) (kv :: e) [] = kv :: e). rewrite (fold_dset_id _ str_eqb_spec); [reflexivity|exact Nd2].
    - cbn [app]. rewrite map_map. reflexivity.
  Qed.

  Lemma load_back lazy : load d' (mkObj (Some pk) [] lazy ulog0) lazy = Ok (mkObj (Some pk) sha lazy (loaded_as u lazy)).
  Proof.
    unfold load. cbn [o_pk]. rewrite l_exists. cbn [bind negb].
    rewrite (select_log d' _ pk D') by reflexivity. rewrite l_log. cbn [map bind]. rewrite (rd_log _ _ _ _ (tx_row _ _ _ _ _ _ _ X)). cbn [as_int as_text bind].
    rewrite (direct _ (lit "ulogappendedoffsets")) by (try tab; apply r_offset). cbn [bind]. destruct l_offset as (tl & -> & Mo). cbn [bind]. rewrite Mo. cbn [bind].
    rewrite (direct _ (lit "ulogdataset")) by (try tab; apply r_dataset). cbn [bind]. rewrite l_names. cbn [bind]. rewrite l_data. cbn [bind].
    rewrite (direct _ (lit "ulogmessagedropout")) by (try tab; apply r_dropout). cbn [bind]. rewrite l_dropout. cbn [bind].
    rewrite (direct _ (lit "ulogmessagelogging")) by (try tab; apply r_logged). cbn [bind]. rewrite l_logged. cbn [bind].
    rewrite (direct _ (lit "ulogmessageloggingtagged")) by (try tab; apply r_tagged). cbn [bind]. rewrite l_tagged. cbn [bind].
    destruct l_formats as (rows & -> & Mf). cbn [bind]. rewrite Mf. cbn [bind].
    rewrite (direct _ (lit "ulogmessageinfo")) by (try tab; apply r_info). cbn [bind]. destruct l_info as (infos & Fi & ->). cbn [bind].
    rewrite (direct _ (lit "ulogmessageinfomultiple")) by (try tab; apply r_multi). cbn [bind]. destruct l_multi as (ms & Fm & ->). cbn [bind].
    rewrite (direct _ (lit "uloginitialparameter")) by (try tab; apply r_param). cbn [bind]. rewrite l_param. cbn [bind].
    rewrite (direct _ (lit "ulogdefaultparameter")) by (try tab; apply r_default). cbn [bind]. rewrite l_default. cbn [bind].
    rewrite (direct _ (lit "ulogchangedparameter")) by (try tab; apply r_change). cbn [bind]. rewrite l_change. cbn [bind].
    destruct (ft_info _ FT) as (Ki & Ni & _). destruct (typed_back _ _ _ Ki Ni Fi) as [Ti1 Ti2].
    destruct (ft_multi _ FT) as (Km & Nm & _). destruct (typed_back _ _ _ Km Nm Fm) as [Tm1 Tm2].
    cbn [ulog0 o_log u_corrupt u_info u_infot u_multi u_multit u_params u_defaults u_changed u_formats u_logged u_tagged u_dropouts u_subs u_filtered u_missing u_offsets app].
    rewrite tagged_back, formats_back, defaults_back.
    assert (Nk : NoDup (map (fun x : str * str * value => fst (fst x)) (map (fun x => (fst x, stored_value (snd x))) infos))).
    { rewrite map_map. cbn [fst]. rewrite <- Ti1, map_map in Ni. exact Ni. }
    rewrite (fold_dict _ str_eqb_spec (fun x : str * str * value => fst (fst x)) snd) by exact Nk.
    rewrite (fold_dict _ str_eqb_spec (fun x : str * str * value => fst (fst x)) (fun x => snd (fst x))) by exact Nk.
    assert (Nk2 : NoDup (map (fun x : str * str * list (list value) => fst (fst x)) ms)).
    { rewrite <- Tm1, map_map in Nm. exact Nm. }
    rewrite (fold_dict _ str_eqb_spec (fun x : str * str * list (list value) => fst (fst x)) snd) by exact Nk2.
    rewrite (fold_dict _ str_eqb_spec (fun x : str * str * list (list value) => fst (fst x)) (fun x => snd (fst x))) by exact Nk2.
    assert (Np : NoDup (map fst (stored_dict (u_params u)))). { unfold stored_dict. rewrite map_map. apply (ft_params _ FT). }
    rewrite (fold_dict _ str_eqb_spec fst snd) by exact Np.
    do 2 f_equal. unfold loaded_as, set_data, stored. cbn [u_corrupt u_start u_last u_info u_infot u_multi u_multit u_params u_defaults u_changed u_formats u_logged u_tagged u_dropouts u_subs u_filtered u_missing u_version u_compat u_incompat u_offsets u_has_sync u_sync_cnt].
    apply mkU_eq; try reflexivity.
    - rewrite map_map. cbn [fst snd]. rewrite <- Ti1. unfold stored_dict. rewrite map_map. reflexivity.
    - rewrite map_map. cbn [fst snd]. rewrite <- Ti2. apply map_ext. now intros [[? ?] ?].
    - rewrite <- Tm1. reflexivity.
    - rewrite <- Tm2. apply map_ext. now intros [[? ?] ?].
    - etransitivity; [|apply map_id]. apply map_ext. now intros [? ?].
    - now destruct (u_has_sync u).
  Qed.
End back.
