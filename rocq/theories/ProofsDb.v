(** Inserting into and deleting from a database with the version 5 schema. *)
From Verif Require Import Base Dict PyStr PyFloat PySort Struct ModelTypes Sql Schema5 ModelDb SpecDb.

(** ** Generalities *)
Lemma mapM_F2 {A B} (f : A -> res B) l : forall l', mapM f l = Ok l' -> Forall2 (fun x y => f x = Ok y) l l'.
Proof.
  induction l as [|x l IH]; intros l' E; cbn in E; [injection E as <-; constructor|].
  destruct (f x) eqn:Ex; [|discriminate]. cbn in E. destruct (mapM f l) eqn:El; [|discriminate].
  injection E as <-. constructor; auto.
Qed.
Lemma F2_mapM {A B} (f : A -> res B) l l' : Forall2 (fun x y => f x = Ok y) l l' -> mapM f l = Ok l'.
Proof. induction 1 as [|x y l l' E _ IH]; cbn; [reflexivity|]. now rewrite E, IH. Qed.
Lemma mapM_ext {A B} (f g : A -> res B) l : (forall x, In x l -> f x = g x) -> mapM f l = mapM g l.
Proof.
  intros H. induction l as [|x l IH]; cbn; [reflexivity|]. rewrite H by now left.
  destruct (g x); cbn; [|reflexivity]. rewrite IH; [reflexivity|]. intros y Hy. apply H. now right.
Qed.
Lemma foldM_ext {A S} (f g : S -> A -> res S) l : (forall s x, In x l -> f s x = g s x) -> forall s, foldM f l s = foldM g l s.
Proof.
  intros H. induction l as [|x l IH]; intros s; cbn; [reflexivity|]. rewrite H by now left.
  destruct (g s x); cbn; [|reflexivity]. apply IH. intros s' y Hy. apply H. now right.
Qed.
Lemma filter_filter {A} (p q : A -> bool) l : filter p (filter q l) = filter (fun x => p x && q x) l.
Proof.
  induction l as [|x l IH]; cbn; [reflexivity|]. destruct (q x) eqn:Q, (p x) eqn:P; cbn; rewrite ?P, IH; reflexivity.
Qed.
Lemma filter_all {A} (p : A -> bool) l : (forall x, In x l -> p x = true) -> filter p l = l.
Proof.
  intros H. induction l as [|x l IH]; cbn; [reflexivity|]. rewrite H by now left. f_equal. apply IH. intros y Hy. apply H. now right.
Qed.
Lemma filter_none {A} (p : A -> bool) l : (forall x, In x l -> p x = false) -> filter p l = [].
Proof.
  intros H. induction l as [|x l IH]; cbn; [reflexivity|]. rewrite H by now left. apply IH. intros y Hy. apply H. now right.
Qed.
Lemma filter_ext_In' {A} (p q : A -> bool) l : (forall x, In x l -> p x = q x) -> filter p l = filter q l.
Proof.
  intros H. induction l as [|x l IH]; cbn; [reflexivity|]. rewrite H by now left.
  rewrite IH by (intros y Hy; apply H; now right). reflexivity.
Qed.

(** ** Cells *)
Lemma str_of_Z_inj a b : 0 <= a -> 0 <= b -> str_of_Z a = str_of_Z b -> a = b.
Proof.
  intros Ha Hb E. rewrite !str_of_Z_nonneg in E by auto. apply (f_equal py_int) in E.
  rewrite !py_int_str_of_nonneg in E by auto. congruence.
Qed.
Definition ref_aff (a : affinity) : Prop := a = AInt \/ a = AText.
Lemma cell_is_ref a x i : ref_aff a -> (cell_is a x (CInt i) = true <-> x = ref_cell a i).
Proof.
  intros [->| ->]; unfold cell_is; cbn.
  - destruct x; cbn; split; try discriminate. now rewrite Z.eqb_eq; intros ->. intros [= ->]. apply Z.eqb_refl.
  - destruct x; cbn; split; try discriminate. intros H. apply str_eqb_eq in H. now subst. intros [= ->]. apply str_eqb_refl.
Qed.
Lemma ref_cell_inj a i j : 0 <= i -> 0 <= j -> ref_cell a i = ref_cell a j -> i = j.
Proof. intros Hi Hj. destruct a; cbn; intros [= E]; auto. now apply str_of_Z_inj. Qed.

(** ** The schema *)
Lemma links_ref t c a p : In (t, (c, a, p)) links -> ref_aff a.
Proof. intros H. repeat (destruct H as [[= <- <- <- <-]|H]; [unfold ref_aff; auto|]). destruct H. Qed.
(** every REFERENCES column of the schema is in the list and conversely *)
Definition refs_of (defs : dict str tabledef) : list (str * (str * affinity * str)) :=
  flat_map (fun kv => flat_map (fun c => match k_ref c with Some (p, true) => [(fst kv, (k_name c, k_aff c, p))] | _ => [] end) (t_cols (snd kv))) defs.
Lemma links_all : refs_of v5_defs = links.
Proof. vm_compute. reflexivity. Qed.
(** the tables with keys *)
Lemma links_parent t c a p : In (t, (c, a, p)) links -> In p parents.
Proof. intros H. repeat (destruct H as [[= <- <- <- <-]|H]; [cbn [parents In]; auto 10|]). destruct H. Qed.
(** the references one by one *)
Definition lk_offset := (lit "ulogappendedoffsets", (lit "ULogId", AInt, lit "ulog")).
Definition lk_dataset := (lit "ulogdataset", (lit "ULogId", AInt, lit "ulog")).
Definition lk_field := (lit "ulogfield", (lit "DatasetId", AInt, lit "ulogdataset")).
Definition lk_dropout := (lit "ulogmessagedropout", (lit "ULogId", AInt, lit "ulog")).
Definition lk_format := (lit "ulogmessageformat", (lit "ULogId", AInt, lit "ulog")).
Definition lk_ffield := (lit "ulogmessageformatfield", (lit "MessageId", AInt, lit "ulogmessageformat")).
Definition lk_logging := (lit "ulogmessagelogging", (lit "ULogId", AInt, lit "ulog")).
Definition lk_tagged := (lit "ulogmessageloggingtagged", (lit "ULogId", AInt, lit "ulog")).
Definition lk_info := (lit "ulogmessageinfo", (lit "ULogId", AInt, lit "ulog")).
Definition lk_multi := (lit "ulogmessageinfomultiple", (lit "ULogId", AInt, lit "ulog")).
Definition lk_list := (lit "ulogmessageinfomultiplelist", (lit "MessageId", AText, lit "ulogmessageinfomultiple")).
Definition lk_elem := (lit "ulogmessageinfomultiplelistelement", (lit "ListId", AText, lit "ulogmessageinfomultiplelist")).
Definition lk_param := (lit "uloginitialparameter", (lit "ULogId", AInt, lit "ulog")).
Definition lk_change := (lit "ulogchangedparameter", (lit "ULogId", AInt, lit "ulog")).
Definition lk_default := (lit "ulogdefaultparameter", (lit "ULogId", AInt, lit "ulog")).

Lemma in_offset : In (lit "ulogappendedoffsets", (lit "ULogId", AInt, lit "ulog")) links.
Proof. exact (or_introl eq_refl). Qed.
Lemma in_dataset : In (lit "ulogdataset", (lit "ULogId", AInt, lit "ulog")) links.
Proof. exact (or_intror (or_introl eq_refl)). Qed.
Lemma in_field : In (lit "ulogfield", (lit "DatasetId", AInt, lit "ulogdataset")) links.
Proof. exact (or_intror (or_intror (or_introl eq_refl))). Qed.
Lemma in_dropout : In (lit "ulogmessagedropout", (lit "ULogId", AInt, lit "ulog")) links.
Proof. exact (or_intror (or_intror (or_intror (or_introl eq_refl)))). Qed.
Lemma in_format : In (lit "ulogmessageformat", (lit "ULogId", AInt, lit "ulog")) links.
Proof. exact (or_intror (or_intror (or_intror (or_intror (or_introl eq_refl))))). Qed.
Lemma in_ffield : In (lit "ulogmessageformatfield", (lit "MessageId", AInt, lit "ulogmessageformat")) links.
Proof. exact (or_intror (or_intror (or_intror (or_intror (or_intror (or_introl eq_refl)))))). Qed.
Lemma in_logging : In (lit "ulogmessagelogging", (lit "ULogId", AInt, lit "ulog")) links.
Proof. exact (or_intror (or_intror (or_intror (or_intror (or_intror (or_intror (or_introl eq_refl))))))). Qed.
Lemma in_tagged : In (lit "ulogmessageloggingtagged", (lit "ULogId", AInt, lit "ulog")) links.
Proof. exact (or_intror (or_intror (or_intror (or_intror (or_intror (or_intror (or_intror (or_introl eq_refl)))))))). Qed.
Lemma in_info : In (lit "ulogmessageinfo", (lit "ULogId", AInt, lit "ulog")) links.
Proof. exact (or_intror (or_intror (or_intror (or_intror (or_intror (or_intror (or_intror (or_intror (or_introl eq_refl))))))))). Qed.
Lemma in_multi : In (lit "ulogmessageinfomultiple", (lit "ULogId", AInt, lit "ulog")) links.
Proof. exact (or_intror (or_intror (or_intror (or_intror (or_intror (or_intror (or_intror (or_intror (or_intror (or_introl eq_refl)))))))))). Qed.
Lemma in_list : In (lit "ulogmessageinfomultiplelist", (lit "MessageId", AText, lit "ulogmessageinfomultiple")) links.
Proof. exact (or_intror (or_intror (or_intror (or_intror (or_intror (or_intror (or_intror (or_intror (or_intror (or_intror (or_introl eq_refl))))))))))). Qed.
Lemma in_elem : In (lit "ulogmessageinfomultiplelistelement", (lit "ListId", AText, lit "ulogmessageinfomultiplelist")) links.
Proof. exact (or_intror (or_intror (or_intror (or_intror (or_intror (or_intror (or_intror (or_intror (or_intror (or_intror (or_intror (or_introl eq_refl)))))))))))). Qed.
Lemma in_param : In (lit "uloginitialparameter", (lit "ULogId", AInt, lit "ulog")) links.
Proof. exact (or_intror (or_intror (or_intror (or_intror (or_intror (or_intror (or_intror (or_intror (or_intror (or_intror (or_intror (or_intror (or_introl eq_refl))))))))))))). Qed.
Lemma in_change : In (lit "ulogchangedparameter", (lit "ULogId", AInt, lit "ulog")) links.
Proof. exact (or_intror (or_intror (or_intror (or_intror (or_intror (or_intror (or_intror (or_intror (or_intror (or_intror (or_intror (or_intror (or_intror (or_introl eq_refl)))))))))))))). Qed.
Lemma in_default : In (lit "ulogdefaultparameter", (lit "ULogId", AInt, lit "ulog")) links.
Proof. exact (or_intror (or_intror (or_intror (or_intror (or_intror (or_intror (or_intror (or_intror (or_intror (or_intror (or_intror (or_intror (or_intror (or_intror (or_introl eq_refl))))))))))))))). Qed.
Lemma par_log : In (lit "ulog") parents.
Proof. exact (or_introl eq_refl). Qed.
Lemma par_dataset : In (lit "ulogdataset") parents.
Proof. exact (or_intror (or_introl eq_refl)). Qed.
Lemma par_format : In (lit "ulogmessageformat") parents.
Proof. exact (or_intror (or_intror (or_introl eq_refl))). Qed.
Lemma par_multi : In (lit "ulogmessageinfomultiple") parents.
Proof. exact (or_intror (or_intror (or_intror (or_introl eq_refl)))). Qed.
Lemma par_list : In (lit "ulogmessageinfomultiplelist") parents.
Proof. exact (or_intror (or_intror (or_intror (or_intror (or_introl eq_refl))))). Qed.
Lemma par_field : In (lit "ulogfield") parents.
Proof. exact (or_intror (or_intror (or_intror (or_intror (or_intror (or_introl eq_refl)))))). Qed.
Lemma par_elem : In (lit "ulogmessageinfomultiplelistelement") parents.
Proof. exact (or_intror (or_intror (or_intror (or_intror (or_intror (or_intror (or_introl eq_refl))))))). Qed.
(** a table has at most one reference *)
Lemma links_fun t x y : In (t, x) links -> In (t, y) links -> x = y.
Proof.
  intros H1 H2.
  assert (N : NoDup (map fst links)).
  { assert (E : nodup (list_eq_dec Z.eq_dec) (map fst links) = map fst links) by (vm_compute; reflexivity).
    rewrite <- E. apply NoDup_nodup. }
  clear - H1 H2 N. induction links as [|[k v] l IH]; [destruct H1|].
  cbn in N. inversion N as [|? ? N1 N2]; subst.
  destruct H1 as [[= -> ->]|H1], H2 as [E|H2].
  - congruence.
  - destruct N1. change t with (fst (t, y)). now apply in_map.
  - injection E as -> ->. destruct N1. change t with (fst (t, x)). now apply in_map.
  - auto.
Qed.
Lemma no_link_ulog x : ~ In (lit "ulog", x) links.
Proof. intros H. destruct x as [[c a] p]. repeat (destruct H as [H|H]; [discriminate H|]). destruct H. Qed.
Definition keyed (t : str) : bool := has_key (cols t).

(** ** Databases that only grew *)
Definition only (t : str) (rs : list row) : str -> list row := fun t' => if str_eqb t' t then rs else [].
Record grows (d d' : db) (N : str -> list row) : Prop := {
  g_defs : d_defs d' = d_defs d; g_idx : d_idx d' = d_idx d; g_ver : d_version d' = d_version d;
  g_rows : forall t, d_rows d' t = d_rows d t ++ N t;
  g_seq : forall t, d_seq d' t = d_seq d t + (if keyed t then lenZ (N t) else 0) }.
Lemma grows_refl d : grows d d (fun _ => []).
Proof. split; auto; intros t; [now rewrite app_nil_r|]. destruct (keyed t); rewrite ?lenZ_nil; lia. Qed.
Lemma grows_trans d d' d'' N N' : grows d d' N -> grows d' d'' N' -> grows d d'' (fun t => N t ++ N' t).
Proof.
  intros [A1 A2 A3 A4 A5] [B1 B2 B3 B4 B5]. split; try congruence; intros t.
  - rewrite B4, A4. now rewrite app_assoc.
  - rewrite B5, A5, lenZ_app. destruct (keyed t); lia.
Qed.
Lemma grows_ext d d' N N' : (forall t, N t = N' t) -> grows d d' N -> grows d d' N'.
Proof. intros H [A1 A2 A3 A4 A5]. split; auto; intros t; rewrite <- H; auto. Qed.

(** ** INSERT *)
(** the row an INSERT of these parameters stores *)
Definition prep (t : str) (names : list str) (key : Z) (vals : list (res cell)) : res row :=
  let* v := mapM (fun x => x) vals in new_row key (cols t) names v.

Lemma table_v5 d t : d_defs d = v5_defs -> table d t = match sget t v5_defs with Some x => Ok x | None => Err OperationalError end.
Proof. intros E. unfold table. now rewrite E. Qed.

Record inserted (F : fault) (s : sst) (t : str) (names : list str) (vals : list (res cell)) (k : Z) (s' : sst) (df : tabledef) (r : row) : Prop := {
  in_def : sget (ident t) v5_defs = Some df;
  in_row : prep (ident t) names (d_seq (snd s) (ident t) + 1) vals = Ok r;
  in_clash : existsb (clash df r) (d_rows (snd s) (ident t)) = false;
  in_fk : fks_ok (snd s) (t_cols df) r = Ok tt;
  in_grows : grows (snd s) (snd s') (only (ident t) [r]);
  in_key : k = if keyed (ident t) then d_seq (snd s) (ident t) + 1 else 0;
  in_fault : F (fst s) = None; in_step : fst s' = S (fst s) }.

Lemma set_rows_grows d t r : d_defs d = v5_defs -> 
  grows d (let d' := set_rows t (d_rows d t ++ [r]) d in if keyed t then set_seq t (d_seq d t + 1) d' else d') (only t [r]).
Proof.
  intros E. split; unfold only, set_rows, set_seq, upd; try (destruct (keyed t); reflexivity).
  - intros t'. destruct (keyed t); cbn; destruct (str_eqb_spec t' t) as [->|]; rewrite ?app_nil_r; reflexivity.
  - intros t'. destruct (keyed t) eqn:K; cbn; (destruct (str_eqb_spec t' t) as [->|]; [rewrite K; rewrite ?lenZ_cons, ?lenZ_nil; lia|]);
      destruct (keyed t'); rewrite ?lenZ_nil; lia.
Qed.

Lemma ins_inv F s t names vals k s' : d_defs (snd s) = v5_defs -> ins F s t names vals = Ok (k, s') ->
  exists df r, inserted F s t names vals k s' df r.
Proof.
  intros D E. unfold ins in E. destruct (mapM _ vals) as [v|] eqn:V; [|discriminate]. cbn [bind] in E.
  destruct (F (fst s)) eqn:Fs; [discriminate|].
  unfold sql_insert in E. rewrite table_v5 in E by auto.
  destruct (sget (ident t) v5_defs) as [df|] eqn:T; [|discriminate]. cbn [bind] in E.
  destruct (negb _); [discriminate|].
  destruct (new_row _ _ _ _) as [r|] eqn:R; [|discriminate]. cbn [bind] in E.
  destruct (existsb _ _) eqn:C; [discriminate|].
  destruct (fks_ok _ _ _) as [[]|] eqn:K; [|discriminate]. cbn [bind] in E.
  assert (Kt : has_key (t_cols df) = keyed (ident t)) by (unfold keyed, cols; now rewrite T).
  rewrite Kt in E. pose proof (set_rows_grows (snd s) (ident t) r D) as G. cbv zeta in G.
  exists df, r. destruct (keyed (ident t)) eqn:Ky; injection E as <- <-; split; auto;
    try (unfold prep; rewrite V; cbn [bind]; unfold cols; rewrite T; exact R); try exact G; now rewrite Ky.
Qed.
Lemma ins_fwd s t names vals df v r : d_defs (snd s) = v5_defs ->
  sget (ident t) v5_defs = Some df -> forallb (has_col (t_cols df)) names && Nat.eqb (length names) (length vals) = true ->
  mapM (fun x => x) vals = Ok v -> new_row (d_seq (snd s) (ident t) + 1) (t_cols df) names v = Ok r ->
  existsb (clash df r) (d_rows (snd s) (ident t)) = false -> fks_ok (snd s) (t_cols df) r = Ok tt ->
  exists k s', ins no_fault s t names vals = Ok (k, s').
Proof.
  intros D T H V R C K. unfold ins. rewrite V. cbn [bind]. unfold no_fault, sql_insert.
  rewrite table_v5, T by auto. cbn [bind].
  apply andb_true_iff in H as [H1 H2]. rewrite <- (mapM_Ok_length _ _ _ V) in H2. rewrite H1, H2. cbn [andb negb].
  rewrite R. cbn [bind]. rewrite C, K. cbn [bind]. eauto.
Qed.

(** ** The invariant *)
Lemma row_ids_In cs rs i : In i (row_ids cs rs) <-> exists r, In r rs /\ row_id cs r = Some i.
Proof.
  unfold row_ids. rewrite in_flat_map. split.
  - intros (r & H1 & H2). exists r. split; auto. destruct (row_id cs r); [|destruct H2]. destruct H2 as [->|[]]. reflexivity.
  - intros (r & H1 & H2). exists r. split; auto. rewrite H2. now left.
Qed.
Lemma row_ids_app cs a b : row_ids cs (a ++ b) = row_ids cs a ++ row_ids cs b.
Proof. unfold row_ids. apply flat_map_app. Qed.
Lemma good_id_bound d t i : good d -> In t parents -> In i (row_ids (cols t) (d_rows d t)) -> 0 < i <= d_seq d t.
Proof.
  intros G T H. apply row_ids_In in H as (r & H1 & H2). pose proof (gd_ids d G t T) as B.
  rewrite Forall_forall in B. destruct (B r H1) as (z & Hz & Hb). rewrite Hz in H2. injection H2 as <-. exact Hb.
Qed.
Lemma ord_pairs_app {A} (R : A -> A -> Prop) l x : ForallOrdPairs R l -> (forall y, In y l -> R y x) -> ForallOrdPairs R (l ++ [x]).
Proof.
  intros H. induction H as [|y l Hy Hl IH]; intros Hx; cbn; [repeat constructor|].
  constructor; [|apply IH; intros z Hz; apply Hx; now right].
  apply Forall_app. split; [exact Hy|]. repeat constructor. apply Hx. now left.
Qed.
Lemma ord_pairs_filter {A} (R : A -> A -> Prop) p l : ForallOrdPairs R l -> ForallOrdPairs R (filter p l).
Proof.
  intros H. induction H as [|y l Hy Hl IH]; cbn; [constructor|]. destruct (p y); [|exact IH].
  constructor; [|exact IH]. rewrite Forall_forall in *. intros z Hz. apply filter_In in Hz as [Hz _]. auto.
Qed.

Lemma cell_at_find cs : forall r c, cell_at cs r c <> CNull ->
  exists cd, find (fun x => str_eqb (k_name x) c) cs = Some cd /\ In (cd, cell_at cs r c) (combine cs r).
Proof.
  induction cs as [|x cs IH]; intros [|y r] c H; cbn in *; try congruence.
  destruct (str_eqb (k_name x) c) eqn:E.
  - exists x. split; auto.
  - destruct (IH r c H) as (cd & H1 & H2). exists cd. split; auto.
Qed.
Lemma fks_ok_In d cs r cd x : fks_ok d cs r = Ok tt -> In (cd, x) (combine cs r) -> fk_ok d cd x = Ok tt.
Proof.
  unfold fks_ok. destruct (mapM _ _) as [l|] eqn:E; [|discriminate]. intros _ H.
  apply mapM_F2 in E. induction E as [|[a b] u q q' Eu _ IH]; [destruct H|].
  destruct H as [[= -> ->]|H]; [|now apply IH]. destruct u. exact Eu.
Qed.
Lemma link_col t c a p : In (t, (c, a, p)) links -> find (fun x => str_eqb (k_name x) c) (cols t) = Some (mkCD c a (Some (p, true)) false).
Proof. intros H. repeat (destruct H as [[= <- <- <- <-]|H]; [vm_compute; reflexivity|]). destruct H. Qed.
Lemma link_def t c a p : In (t, (c, a, p)) links -> exists df, sget t v5_defs = Some df.
Proof.
  intros H. apply (link_col t c a p) in H. unfold cols in H. destruct (sget t v5_defs); [eauto|]. discriminate.
Qed.
Lemma parent_def p : In p parents -> exists df, sget p v5_defs = Some df.
Proof. intros H. repeat (destruct H as [<-|H]; [vm_compute; eauto|]). destruct H. Qed.
Lemma cols_def t df : sget t v5_defs = Some df -> cols t = t_cols df.
Proof. intros E. unfold cols. now rewrite E. Qed.

Lemma fk_link d t c a p df r : d_defs d = v5_defs -> In (t, (c, a, p)) links -> sget t v5_defs = Some df ->
  fks_ok d (t_cols df) r = Ok tt -> cell_at (cols t) r c <> CNull ->
  exists i, In i (row_ids (cols p) (d_rows d p)) /\ refers t c a r i.
Proof.
  intros D L T K H. destruct (cell_at_find _ _ _ H) as (cd & F & I).
  rewrite (link_col _ _ _ _ L) in F. injection F as <-. rewrite (cols_def _ _ T) in I.
  pose proof (fks_ok_In _ _ _ _ _ K I) as O. unfold fk_ok in O. cbn [k_ref k_aff] in O.
  destruct (parent_def p (links_parent _ _ _ _ L)) as (pdf & P).
  rewrite table_v5, P in O by auto. cbn [bind] in O. rewrite <- (cols_def _ _ T) in O.
  unfold refers. rewrite (cols_def _ _ P).
  destruct (cell_at (cols t) r c) as [| | | | |] eqn:X; [congruence|..];
    (destruct (existsb _ _) eqn:Ex; [|discriminate]; apply existsb_exists in Ex as (i & Hi & Ei); exists i; split; [exact Hi|];
     apply cell_is_ref in Ei; [exact Ei|eapply links_ref; eauto]).
Qed.

(** the key of a new row *)
Lemma parent_cols p : In p parents -> exists c cs, cols p = c :: cs /\ k_key c = true.
Proof. intros H. repeat (destruct H as [<-|H]; [eexists; eexists; split; vm_compute; reflexivity|]). destruct H. Qed.
Lemma parent_keyed p : In p parents -> keyed p = true.
Proof. intros H. repeat (destruct H as [<-|H]; [vm_compute; reflexivity|]). destruct H. Qed.
Lemma new_row_id p k names vals r : In p parents -> new_row k (cols p) names vals = Ok r -> row_id (cols p) r = Some k.
Proof.
  intros P E. destruct (parent_cols p P) as (c & cs & Ec & K). rewrite Ec in *. unfold new_row in E. cbn [mapM] in E.
  rewrite K in E. cbn [bind] in E. destruct (mapM _ cs); [|discriminate]. cbn [bind] in E.
  apply (f_equal (fun x => match x with Ok y => y | Err _ => [] end)) in E. cbv beta iota in E. subst r.
  cbn [row_id]. rewrite K. reflexivity.
Qed.
Lemma prep_id p names k vals r : In p parents -> prep p names k vals = Ok r -> row_id (cols p) r = Some k.
Proof. intros P E. unfold prep in E. destruct (mapM _ vals); [|discriminate]. eapply new_row_id; eauto. Qed.

Lemma only_same t rs : only t rs t = rs.
Proof. unfold only. now rewrite str_eqb_refl. Qed.
Lemma only_other t rs t' : t' <> t -> only t rs t' = [].
Proof. intros H. unfold only. now rewrite str_eqb_neq. Qed.

(** every reference of the new row is given *)
Definition fk_given (t : str) (r : row) : Prop := forall c a p, In (t, (c, a, p)) links -> cell_at (cols t) r c <> CNull.

Lemma good_ins F s t names vals k s' df r : good (snd s) -> inserted F s t names vals k s' df r -> fk_given (ident t) r -> good (snd s').
Proof.
  intros G I Fk. set (T := ident t) in *. pose proof (in_grows _ _ _ _ _ _ _ _ _ I) as [A1 A2 A3 A4 A5].
  fold T in A4, A5.
  assert (D := gd_defs _ G).
  split.
  - congruence.
  - intros t'. rewrite A5. pose proof (gd_seq _ G t'). destruct (keyed t'); [pose proof (lenZ_nonneg (only T [r] t'))|]; lia.
  - intros t' P. rewrite A4, A5, (parent_keyed t' P). apply Forall_app. split.
    + eapply Forall_impl; [|apply (gd_ids _ G t' P)]. cbv beta. intros x (z & H1 & H2). exists z. split; auto.
      pose proof (lenZ_nonneg (only T [r] t')). lia.
    + destruct (str_eqb_spec t' T) as [->|N]; [|rewrite only_other by auto; constructor].
      rewrite only_same. constructor; [|constructor]. exists (d_seq (snd s) T + 1). split.
      * eapply prep_id; eauto. apply (in_row _ _ _ _ _ _ _ _ _ I).
      * pose proof (gd_seq _ G T). unfold lenZ; cbn [length]; rewrite ?only_same; cbn [length]; lia.
  - intros t' P. rewrite A4, row_ids_app. destruct (str_eqb_spec t' T) as [->|N].
    + rewrite only_same. unfold row_ids at 2. cbn [flat_map]. rewrite (prep_id _ _ _ _ _ P (in_row _ _ _ _ _ _ _ _ _ I)). cbn [app].
      apply (NoDup_Add (a := d_seq (snd s) T + 1) (l := row_ids (cols T) (d_rows (snd s) T))).
      * pose proof (Add_app (d_seq (snd s) T + 1) (row_ids (cols T) (d_rows (snd s) T)) []) as Ad. now rewrite app_nil_r in Ad.
      * split; [apply (gd_nodup _ G T P)|]. intros H. apply (good_id_bound _ _ _ G P) in H. lia.
    + rewrite only_other by auto. cbn. rewrite app_nil_r. apply (gd_nodup _ G t' P).
  - intros t' c a p L. rewrite (A4 t'). apply Forall_app. split.
    + eapply Forall_impl; [|apply (gd_fk _ G t' c a p L)]. cbv beta. intros x (i & H1 & H2). exists i. split; auto.
      rewrite A4, row_ids_app, in_app_iff. now left.
    + destruct (str_eqb_spec t' T) as [->|N]; [|rewrite only_other by auto; constructor].
      rewrite only_same. constructor; [|constructor].
      destruct (fk_link (snd s) T c a p df r D L (in_def _ _ _ _ _ _ _ _ _ I) (in_fk _ _ _ _ _ _ _ _ _ I) (Fk c a p L)) as (i & H1 & H2).
      exists i. split; auto. rewrite A4, row_ids_app, in_app_iff. now left.
  - intros t' df' T'. rewrite A4. destruct (str_eqb_spec t' T) as [->|N].
    + rewrite only_same. pose proof (in_def _ _ _ _ _ _ _ _ _ I) as T2. fold T in T2. rewrite T2 in T'. injection T' as <-.
      apply ord_pairs_app; [apply (gd_uniq _ G T df T2)|]. intros y Hy.
      pose proof (in_clash _ _ _ _ _ _ _ _ _ I) as C. fold T in C.
      destruct (clash df r y) eqn:E; [|reflexivity]. assert (existsb (clash df r) (d_rows (snd s) T) = true); [|congruence].
      apply existsb_exists. eauto.
    + rewrite only_other, app_nil_r by auto. apply (gd_uniq _ G t' df' T').
Qed.

(** ** What belongs to a log *)
Definition is_ref (t c : str) (a : affinity) (i : Z) (r : row) : bool := cell_is a (cell_at (cols t) r c) (CInt i).
Definition children (d : db) (t c : str) (a : affinity) (i : Z) : list row := filter (is_ref t c a i) (d_rows d t).
Definition log_rows (d : db) (pk : Z) : list row := filter (is_ref (lit "ulog") (lit "Id") AInt pk) (d_rows d (lit "ulog")).

Lemma is_ref_refers t c a p i r : In (t, (c, a, p)) links -> (is_ref t c a i r = true <-> refers t c a r i).
Proof. intros L. unfold is_ref, refers. apply cell_is_ref. eapply links_ref; eauto. Qed.
Lemma children_In d t c a p i r : In (t, (c, a, p)) links -> (In r (children d t c a i) <-> In r (d_rows d t) /\ refers t c a r i).
Proof. intros L. unfold children. rewrite filter_In, is_ref_refers by eauto. reflexivity. Qed.

Lemma row_id_keyed t r j : row_id (cols t) r = Some j -> keyed t = true.
Proof.
  unfold keyed. revert r. induction (cols t) as [|c cs IH]; intros [|x r] H; cbn in *; try discriminate.
  destruct (k_key c); [reflexivity|]. cbn. eauto.
Qed.
Lemma link_keyed t c a p : In (t, (c, a, p)) links -> keyed t = true -> In t parents.
Proof.
  intros H K. repeat (destruct H as [[= <- <- <- <-]|H]; [first [discriminate K|cbn [parents In]; auto 12]|]). destruct H.
Qed.
Lemma row_unique cs rs r r' i : NoDup (row_ids cs rs) -> In r rs -> In r' rs -> row_id cs r = Some i -> row_id cs r' = Some i -> r = r'.
Proof.
  intros N. induction rs as [|x rs IH]; [intros []|]. intros H H' E E'.
  assert (N' : NoDup (row_ids cs rs)).
  { cbn in N. destruct (row_id cs x); cbn in N; [inversion N; subst|]; auto. }
  destruct H as [->|H], H' as [->|H'].
  - reflexivity.
  - exfalso. cbn in N. rewrite E in N. inversion N as [|? ? X _]; subst. apply X. apply row_ids_In. eauto.
  - exfalso. cbn in N. rewrite E' in N. inversion N as [|? ? X _]; subst. apply X. apply row_ids_In. eauto.
  - apply IH; auto.
Qed.

Lemma owns_pos d pk t i : good d -> owns d pk t i -> t <> lit "ulog" -> 0 < i.
Proof.
  intros G H N. inversion H as [E1 E2|t' c a p i' r j Ho L Hr Hf Hj E1 E2]; subst; [congruence|].
  pose proof (link_keyed _ _ _ _ L (row_id_keyed _ _ _ Hj)) as P.
  apply (good_id_bound _ _ i G P). apply row_ids_In. eauto.
Qed.
Lemma link_text_parent t c p : In (t, (c, AText, p)) links -> p <> lit "ulog".
Proof. intros H. repeat (destruct H as [H|H]; [first [discriminate H|injection H as <- <- <-; vm_compute; discriminate]|]). destruct H. Qed.
Lemma owns_ref_inj d pk pk' t c a p i i' r : good d -> In (t, (c, a, p)) links -> owns d pk p i -> owns d pk' p i' ->
  refers t c a r i -> refers t c a r i' -> i = i'.
Proof.
  unfold refers. intros G L O O' R R'. rewrite R in R'.
  destruct (links_ref _ _ _ _ L) as [->| ->]; [now injection R'|].
  pose proof (link_text_parent _ _ _ L) as N. apply owns_pos in O; auto. apply owns_pos in O'; auto.
  eapply ref_cell_inj; [| |exact R']; lia.
Qed.
Lemma owns_unique d pk pk' t i : good d -> owns d pk t i -> owns d pk' t i -> pk = pk'.
Proof.
  intros G H. revert pk'. induction H as [|t c a p i r j Ho IH L Hr Hf Hj]; intros pk' H'.
  - inversion H' as [E1 E2|t' c a p i' r j Ho L Hr Hf Hj E1 E2]; subst; [reflexivity|]. destruct (no_link_ulog _ L).
  - inversion H' as [E1 E2|t' c' a' p' i' r' j' Ho' L' Hr' Hf' Hj' E1 E2]; subst.
    + destruct (no_link_ulog _ L).
    + pose proof (links_fun _ _ _ L L') as E. injection E as <- <- <-.
      pose proof (link_keyed _ _ _ _ L (row_id_keyed _ _ _ Hj)) as P.
      assert (r = r') by (eapply row_unique; [apply (gd_nodup _ G t P)|..]; eauto). subst r'.
      assert (i = i') by (eapply owns_ref_inj; eauto). subst i'. auto.
Qed.

(** ** Databases that agree on a log *)
Record agree (d d' : db) (pk : Z) : Prop := {
  ag_log : log_rows d pk = log_rows d' pk;
  ag_ch : forall p i t c a, owns d pk p i -> In (t, (c, a, p)) links -> children d t c a i = children d' t c a i }.
Lemma agree_owns d d' pk t i : agree d d' pk -> owns d pk t i -> owns d' pk t i.
Proof.
  intros A. induction 1 as [|t c a p i r j Ho IH L Hr Hf Hj]; [constructor|].
  econstructor; eauto. pose proof (ag_ch _ _ _ A _ _ _ _ _ Ho L) as E.
  assert (X : In r (children d t c a i)) by (apply (children_In d t c a p); auto).
  rewrite E in X. now apply (children_In d' t c a p) in X as [X _].
Qed.
Lemma agree_owns' d d' pk t i : agree d d' pk -> owns d' pk t i -> owns d pk t i.
Proof.
  intros A. induction 1 as [|t c a p i r j Ho IH L Hr Hf Hj]; [constructor|].
  econstructor; eauto. pose proof (ag_ch _ _ _ A _ _ _ _ _ IH L) as E.
  assert (X : In r (children d' t c a i)) by (apply (children_In d' t c a p); auto).
  rewrite <- E in X. now apply (children_In d t c a p) in X as [X _].
Qed.
Lemma agree_refl d pk : agree d d pk.
Proof. split; auto. Qed.
Lemma agree_sym d d' pk : agree d d' pk -> agree d' d pk.
Proof.
  intros A. split; [symmetry; apply (ag_log _ _ _ A)|]. intros. symmetry. eapply (ag_ch _ _ _ A); eauto. eapply agree_owns'; eauto.
Qed.
Lemma agree_trans d d' d'' pk : agree d d' pk -> agree d' d'' pk -> agree d d'' pk.
Proof.
  intros A B. split; [rewrite (ag_log _ _ _ A); apply (ag_log _ _ _ B)|]. intros p i t c a O L.
  rewrite (ag_ch _ _ _ A _ _ _ _ _ O L). eapply (ag_ch _ _ _ B); eauto. eapply agree_owns; eauto.
Qed.

(** an insertion changes no log but the one it inserts for *)
Lemma children_grows d d' N t c a i : grows d d' N -> children d' t c a i = children d t c a i ++ filter (is_ref t c a i) (N t).
Proof. intros G. unfold children. rewrite (g_rows _ _ _ G). apply filter_app. Qed.
Lemma agree_ins F s t names vals k s' df r pk : inserted F s t names vals k s' df r ->
  is_ref (lit "ulog") (lit "Id") AInt pk r = false \/ ident t <> lit "ulog" ->
  (forall c a p i, In (ident t, (c, a, p)) links -> owns (snd s) pk p i -> ~ refers (ident t) c a r i) ->
  agree (snd s) (snd s') pk.
Proof.
  intros I H1 H2. pose proof (in_grows _ _ _ _ _ _ _ _ _ I) as G. split.
  - unfold log_rows. rewrite (g_rows _ _ _ G), filter_app. destruct (str_eqb_spec (lit "ulog") (ident t)) as [E|N].
    + rewrite E, only_same, <- E. cbn [filter]. destruct H1 as [->|H1]; [now rewrite app_nil_r|]. now destruct H1.
    + rewrite only_other by auto. cbn. now rewrite app_nil_r.
  - intros p i t' c a O L. rewrite (children_grows _ _ _ t' c a i G). destruct (str_eqb_spec t' (ident t)) as [->|N].
    + rewrite only_same. cbn [filter]. destruct (is_ref (ident t) c a i r) eqn:E; [|now rewrite app_nil_r].
      apply (is_ref_refers _ _ _ _ _ _ L) in E. now apply (H2 _ _ _ _ L O) in E.
    + rewrite only_other by auto. cbn. now rewrite app_nil_r.
Qed.
