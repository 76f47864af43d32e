(** Migrations from version 2 on keep the rows. *)
From Verif Require Import Base Dict PyStr PyFloat Sql ModelSchema Schema5 ModelDb ModelMigrate SpecMigrate ProofsMigrate.

(** ** Columns and cells *)
Lemma str_dec : forall a b : str, str_eqb a b = true <-> a = b.
Proof. intros a b. destruct (str_eqb_spec a b); split; congruence. Qed.
Lemma str_refl : forall a : str, str_eqb a a = true.
Proof. intro a. apply str_dec. reflexivity. Qed.
Lemma str_neq : forall a b : str, a <> b -> str_eqb a b = false.
Proof. intros a b H. destruct (str_eqb_spec a b); congruence. Qed.

Lemma cell_at_app : forall cols r c x n, length r = length cols ->
  cell_at (cols ++ [c]) (r ++ [x]) n = if has_col cols n then cell_at cols r n else if str_eqb (k_name c) n then x else CNull.
Proof.
  induction cols as [|k cols IH]; intros [|y r] c x n L; try discriminate; cbn.
  - destruct (str_eqb (k_name c) n); reflexivity.
  - destruct (str_eqb (k_name k) n) eqn:E; cbn; [reflexivity|]. apply IH. cbn in L. lia.
Qed.
Lemma set_cell_app : forall cols r c x y, length r = length cols -> has_col cols (k_name c) = false ->
  set_cell (cols ++ [c]) (r ++ [y]) (k_name c) x = r ++ [x].
Proof.
  induction cols as [|k cols IH]; intros [|z r] c x y L H; try discriminate; cbn.
  - rewrite str_refl. reflexivity.
  - cbn in H. apply orb_false_elim in H. destruct H as [H1 H2]. rewrite H1. f_equal. apply IH; [cbn in L; lia|exact H2].
Qed.
Lemma has_col_app : forall cols c n, has_col (cols ++ [c]) n = has_col cols n || str_eqb (k_name c) n.
Proof. intros. unfold has_col. rewrite existsb_app. cbn. rewrite orb_false_r. reflexivity. Qed.

Definition rename_col (old new : str) (c : coldef) : coldef :=
  if str_eqb (k_name c) old then mkCD new (k_aff c) (k_ref c) (k_key c) else c.
Lemma has_col_cons : forall k cols n, has_col (k :: cols) n = str_eqb (k_name k) n || has_col cols n.
Proof. reflexivity. Qed.
Lemma has_col_rename : forall cols old new n, old <> new -> has_col cols old = true ->
  has_col (map (rename_col old new) cols) n = (str_eqb new n || has_col cols n && negb (str_eqb old n)).
Proof.
  intros cols old new n N H. destruct (str_eqb new n) eqn:E.
  - apply str_dec in E. subst n. cbn. apply existsb_exists in H. destruct H as [c [I C]].
    apply existsb_exists. exists (rename_col old new c). split; [apply in_map; exact I|]. unfold rename_col. rewrite C. cbn. apply str_refl.
  - cbn. clear H. induction cols as [|k cols IH]; [reflexivity|]. cbn [map]. rewrite !has_col_cons, IH. unfold rename_col at 1.
    destruct (str_eqb (k_name k) old) eqn:K; cbn.
    + rewrite E. apply str_dec in K. rewrite K. destruct (str_eqb old n); cbn [orb negb]; rewrite ?andb_false_r; reflexivity.
    + destruct (str_eqb (k_name k) n) eqn:K2; [|reflexivity]. cbn [orb andb]. apply str_dec in K2. subst n.
      rewrite str_neq; [reflexivity|]. intro X. rewrite X, str_refl in K. discriminate.
Qed.
Lemma cell_at_rename_other : forall cols r old new n, n <> old -> n <> new ->
  cell_at (map (rename_col old new) cols) r n = cell_at cols r n.
Proof.
  induction cols as [|k cols IH]; intros [|y r] old new n N1 N2; try reflexivity; cbn. unfold rename_col at 1.
  rewrite IH by assumption. destruct (str_eqb (k_name k) old) eqn:K; [|reflexivity]. apply str_dec in K. cbn. rewrite K.
  rewrite (str_neq new n), (str_neq old n) by congruence. reflexivity.
Qed.
Lemma cell_at_rename : forall cols r old new, has_col cols new = false ->
  cell_at (map (rename_col old new) cols) r new = cell_at cols r old.
Proof.
  induction cols as [|k cols IH]; intros [|y r] old new H; try reflexivity; cbn. cbn in H.
  apply orb_false_elim in H. destruct H as [H1 H2]. unfold rename_col at 1.
  destruct (str_eqb (k_name k) old); cbn; [rewrite str_refl; reflexivity|]. rewrite H1. apply IH, H2.
Qed.
Lemma aff_app : forall cols c, has_col cols (k_name c) = false -> aff_of (cols ++ [c]) (k_name c) = k_aff c.
Proof.
  induction cols as [|k cols IH]; intros c H; cbn; [rewrite str_refl; reflexivity|]. cbn in H.
  apply orb_false_elim in H. destruct H as [H1 H2]. rewrite H1. apply IH, H2.
Qed.

Lemma cast_whole : forall c, whole c = true -> cast_int c = Ok (as_int c).
Proof. intros [| | b | | | ] H; try discriminate; try reflexivity. cbn in *. destruct (f64_to_Z b); [reflexivity|discriminate]. Qed.
Lemma aff_whole : forall c, whole c = true -> apply_aff AInt (as_int c) = Ok (as_int c).
Proof. intros [| | b | | | ] H; try discriminate; try reflexivity. cbn in *. destruct (f64_to_Z b); [reflexivity|discriminate]. Qed.

Lemma sget_sset : forall {A} t (x : A) d u, sget u (sset t x d) = if str_eqb u t then Some x else sget u d.
Proof.
  intros A t x d u. destruct (str_eqb_spec u t) as [->|N].
  - apply (dget_dset_eq str_eqb str_eqb_spec).
  - apply (dget_dset_neq str_eqb str_eqb_spec). exact N.
Qed.

(** ** One column of times becomes a column of integers *)
Definition int_col (c : str) : coldef := mkCD c AInt None false.
Definition triple (T c old : str) : list stmt := [SRenameCol T c old; SAddCol T (int_col c); SCast T c old].
Definition new_def (c old : str) (df : tabledef) : tabledef := mkTD (map (rename_col c old) (t_cols df) ++ [int_col c]) (t_uniq df).
Definition retime (t c old : str) (l : dict str tabledef) : dict str tabledef :=
  match sget t l with Some df => sset t (new_def c old df) (sset t (map_cols (rename_col c old) df) l) | None => l end.

Lemma triple_runs : forall d T t c old df, ident T = t -> sget t (d_defs d) = Some df ->
  has_col (t_cols df) c = true -> has_col (t_cols df) old = false ->
  (forall r, In r (d_rows d t) -> length r = length (t_cols df) /\ whole (cell_at (t_cols df) r c) = true) ->
  exists d', apply_body (triple T c old) d = Ok d' /\ d_defs d' = retime t c old (d_defs d) /\
    (forall u, d_rows d' u = if str_eqb u t then map (fun r => r ++ [as_int (cell_at (t_cols df) r c)]) (d_rows d t) else d_rows d u) /\
    d_seq d' = d_seq d /\ d_idx d' = d_idx d /\ d_version d' = d_version d.
Proof.
  intros d T t c old df HT D Hc Ho R.
  assert (N : c <> old) by (intro X; subst; congruence).
  assert (Hr : has_col (map (rename_col c old) (t_cols df)) c = false).
  { rewrite has_col_rename by assumption. rewrite (str_neq old c) by congruence. rewrite str_refl. cbn. apply andb_false_r. }
  assert (Hr2 : has_col (map (rename_col c old) (t_cols df)) old = true) by (rewrite has_col_rename by assumption; rewrite str_refl; reflexivity).
  unfold apply_body, triple. cbn [foldM exec]. rewrite HT. unfold table at 1. rewrite D. cbn [bind]. rewrite Hc, Ho. cbn [andb negb bind].
  change (fun c0 : coldef => if str_eqb (k_name c0) c then mkCD old (k_aff c0) (k_ref c0) (k_key c0) else c0) with (rename_col c old).
  unfold table at 1. cbn [set_defs d_defs]. rewrite sget_sset, str_refl. cbn [bind map_cols t_cols int_col k_name]. rewrite Hr.
  cbn [bind]. unfold table at 1. cbn [set_rows set_defs d_defs d_rows]. rewrite sget_sset, str_refl. cbn [bind t_cols].
  rewrite !has_col_app, Hr2. cbn [int_col k_name]. rewrite str_refl, orb_true_r. cbn [andb orb].
  change (mkCD c AInt None false) with (int_col c).
  assert (M : mapM (fun r => let* x := cast_int (cell_at (map (rename_col c old) (t_cols df) ++ [int_col c]) r old) in
       let* y := apply_aff (aff_of (map (rename_col c old) (t_cols df) ++ [int_col c]) c) x in
       Ok (set_cell (map (rename_col c old) (t_cols df) ++ [int_col c]) r c y))
       (upd (d_rows d) t (map (fun r => r ++ [CNull]) (d_rows d t)) t) = Ok (map (fun r => r ++ [as_int (cell_at (t_cols df) r c)]) (d_rows d t))).
  { unfold upd. rewrite str_refl. rewrite (aff_app _ (int_col c) Hr : aff_of _ c = AInt).
    revert R. generalize (d_rows d t). induction l as [|r l IH]; intros R; [reflexivity|]. cbn [map mapM].
    destruct (R r (or_introl eq_refl)) as [L W].
    rewrite cell_at_app by (rewrite map_length; exact L). rewrite Hr2, cell_at_rename by exact Ho. rewrite (cast_whole _ W). cbn [bind].
    rewrite (aff_whole _ W). cbn [bind]. rewrite IH by (intros r' I; apply R; right; exact I). cbn [bind].
    rewrite (set_cell_app _ r (int_col c)); [reflexivity|rewrite map_length; exact L|exact Hr]. }
  rewrite M. cbn [bind]. eexists. split; [reflexivity|]. cbn [set_rows set_defs d_defs d_rows d_seq d_idx d_version].
  split; [unfold retime; rewrite D; reflexivity|]. split; [|auto].
  intros u. unfold upd. destruct (str_eqb u t); reflexivity.
Qed.

Lemma F2_map_r : forall {A B C} (R : A -> C -> Prop) (f : B -> C) l m, Forall2 (fun a b => R a (f b)) l m -> Forall2 R l (map f m).
Proof. intros A B C R f l m H. induction H; constructor; assumption. Qed.
Lemma F2_weaken : forall {A B} (R R' : A -> B -> Prop) l m, (forall a b, In a l -> R a b -> R' a b) -> Forall2 R l m -> Forall2 R' l m.
Proof. intros A B R R' l m I H. induction H; constructor; [apply I; [left; reflexivity|assumption]|apply IHForall2; intros; apply I; [right|]; assumption]. Qed.
Lemma F2_back : forall {A B} (R : A -> B -> Prop) l m b, Forall2 R l m -> In b m -> exists a, In a l /\ R a b.
Proof. intros A B R l m b H. induction H; intros I; [destruct I|]. destruct I as [<-|I]; [eexists; split; [left; reflexivity|assumption]|]. destruct (IHForall2 I) as [a [I1 I2]]. exists a. split; [right|]; assumption. Qed.

(** [d0] is where the migration started *)
Lemma triple_kept : forall done d0 d T t c old df0 df, rows_kept done d0 d -> ident T = t ->
  sget t (d_defs d0) = Some df0 -> sget t (d_defs d) = Some df ->
  has_col (t_cols df0) c = true -> has_col (t_cols df0) old = false -> has_col (t_cols df) old = false ->
  has_time done t c = false ->
  (forall r, In r (d_rows d0 t) -> whole (cell_at (t_cols df0) r c) = true) ->
  exists d', apply_body (triple T c old) d = Ok d' /\ d_defs d' = retime t c old (d_defs d) /\
    rows_kept ((t, c) :: done) d0 d' /\ d_seq d' = d_seq d.
Proof.
  intros done d0 d T t c old df0 df K HT D0 D C0 O0 O DN W.
  destruct (K t df0 D0) as [dfx [Dx [Cx Kx]]]. rewrite D in Dx. injection Dx as <-.
  assert (N : c <> old) by (intro X; subst; congruence).
  pose proof (Cx c C0) as Hc.
  destruct (triple_runs d T t c old df HT D Hc O) as [d' [E1 [E2 [E3 [E4 _]]]]].
  { intros r I. destruct (F2_back _ _ _ _ Kx I) as [r0 [I0 [L Q]]]. split; [exact L|]. pose proof (Q c C0) as Q2. rewrite DN in Q2.
    rewrite Q2. apply W, I0. }
  exists d'. split; [exact E1|]. split; [exact E2|]. split; [|exact E4].
  intros u dfu Du. rewrite E2, E3. unfold retime. rewrite D, !sget_sset.
  destruct (str_eqb_spec u t) as [->|Nu].
  - rewrite D0 in Du. injection Du as <-. eexists. split; [reflexivity|].
    assert (Hn : forall n, has_col (t_cols df0) n = true -> has_col (t_cols (new_def c old df)) n = true).
    { intros n Hn. cbn [new_def t_cols]. rewrite has_col_app, has_col_rename by assumption. cbn [int_col k_name].
      rewrite (Cx n Hn). destruct (str_eqb c n); cbn; [apply orb_true_r|]. rewrite orb_true_r. reflexivity. }
    split; [exact Hn|]. apply F2_map_r. eapply F2_weaken; [|exact Kx]. intros r0 r I0 [L Q].
    split; [cbn [new_def t_cols]; rewrite !app_length, map_length, L; reflexivity|].
    intros n Dn. cbn [new_def t_cols]. rewrite cell_at_app by (rewrite map_length; exact L).
    rewrite has_col_rename by assumption. cbn [int_col k_name]. unfold has_time. cbn [existsb fst snd]. fold (has_time done t n).
    rewrite str_refl. destruct (str_eqb_spec c n) as [->|Nc].
    + rewrite (str_neq old n) by congruence. cbn [orb andb negb]. rewrite andb_false_r. cbn [orb]. rewrite (Q n Dn), DN. reflexivity.
    + assert (No : n <> old) by (intro X; subst; congruence).
      rewrite (str_neq old n) by congruence. rewrite (Cx n Dn). cbn [orb andb negb].
      rewrite cell_at_rename_other by congruence. apply Q, Dn.
  - destruct (K u dfu Du) as [df' [D' [C' K']]]. exists df'. split; [exact D'|]. split; [exact C'|].
    eapply F2_weaken; [|exact K']. intros r0 r I0 [L Q]. split; [exact L|]. intros n Hn.
    unfold has_time. cbn [existsb fst snd]. fold (has_time done u n). rewrite (str_neq t u) by congruence. cbn. apply Q, Hn.
Qed.

Lemma kept_start : forall d, full_rows d -> rows_kept [] d d.
Proof.
  intros d F t df D. exists df. split; [exact D|]. split; [auto|]. specialize (F t df).
  assert (G : forall r, In r (d_rows d t) -> length r = length (t_cols df)) by (intros r I; apply F; assumption).
  induction (d_rows d t) as [|r l IH]; constructor; [split; [apply G; left; reflexivity|reflexivity]|].
  apply IH; intros; [apply F; [assumption|right; assumption]|apply G; right; assumption].
Qed.

(** ADD COLUMN and CREATE INDEX *)
Lemma addcol_kept : forall done d0 d T t k df, rows_kept done d0 d -> ident T = t -> sget t (d_defs d) = Some df ->
  has_col (t_cols df) (k_name k) = false ->
  exists d', exec true d (SAddCol T k) = Ok d' /\ d_defs d' = sset t (mkTD (t_cols df ++ [k]) (t_uniq df)) (d_defs d) /\
    rows_kept done d0 d' /\ d_seq d' = d_seq d.
Proof.
  intros done d0 d T t k df K HT D H. cbn [exec]. rewrite HT. unfold table. rewrite D. cbn [bind]. rewrite H.
  eexists. split; [reflexivity|]. split; [reflexivity|]. split; [|reflexivity].
  intros u dfu Du. cbn [set_rows set_defs d_defs d_rows]. rewrite sget_sset. unfold upd.
  destruct (K u dfu Du) as [df' [D' [C' K']]]. destruct (str_eqb_spec u t) as [->|Nu]; [|exists df'; auto].
  rewrite D in D'. injection D' as <-. eexists. split; [reflexivity|]. cbn [t_cols].
  split; [intros c Hc; rewrite has_col_app, (C' c Hc); reflexivity|].
  apply F2_map_r. eapply F2_weaken; [|exact K']. intros r0 r I0 [L Q]. split; [rewrite !app_length, L; reflexivity|].
  intros c Hc. rewrite cell_at_app by exact L. rewrite (C' c Hc). apply Q, Hc.
Qed.
Definition index_ok (l : dict str tabledef) (s : stmt) : bool :=
  match s with SIndex _ t c => match sget (ident t) l with Some df => has_col (t_cols df) c | None => false end | _ => false end.
Lemma index_kept : forall done d0 b d, rows_kept done d0 d -> forallb (index_ok (d_defs d)) b = true ->
  exists d', apply_body b d = Ok d' /\ d_defs d' = d_defs d /\ rows_kept done d0 d' /\ d_seq d' = d_seq d.
Proof.
  intros done d0 b. induction b as [|s b IH]; intros d K H; [exists d; auto|]. cbn [forallb] in H. apply andb_prop in H. destruct H as [H1 H2].
  assert (X : exists d1, exec true d s = Ok d1 /\ d_defs d1 = d_defs d /\ d_rows d1 = d_rows d /\ d_seq d1 = d_seq d).
  { destruct s; try discriminate H1. cbn [exec]. destruct (sget (ident i) (d_idx d)); [eexists; split; [reflexivity|auto]|].
    unfold table. cbn [index_ok] in H1. destruct (sget (ident t) (d_defs d)) as [df|]; [|discriminate]. cbn [bind]. rewrite H1.
    eexists. split; [reflexivity|auto]. }
  destruct X as [d1 [X1 [X2 [X3 X4]]]]. destruct (IH d1) as [d' [Y1 [Y2 [Y3 Y4]]]].
  - unfold rows_kept. rewrite X2, X3. exact K.
  - rewrite X2. exact H2.
  - exists d'. split; [unfold apply_body in *; cbn [foldM]; rewrite X1; exact Y1|]. split; [congruence|]. split; [exact Y3|congruence].
Qed.
Lemma body_app : forall a b d, apply_body (a ++ b) d = let* d' := apply_body a d in apply_body b d'.
Proof.
  induction a as [|x a IH]; intros b d; [reflexivity|]. unfold apply_body in *. cbn [app foldM].
  destruct (exec true d x) as [d1|e]; [apply IH|reflexivity].
Qed.

(** ** The scripts *)
Definition triples : list (str * str * str) :=
  [(lit "ULog", lit "StartTimestamp", lit "StartTimestamp_old"); (lit "ULog", lit "LastTimestamp", lit "LastTimestamp_old");
   (lit "ULogMessageDropout", lit "Timestamp", lit "Timestamp_old"); (lit "ULogMessageDropout", lit "Duration", lit "Duration_old");
   (lit "ULogMessageLogging", lit "Timestamp", lit "Timestamp_old"); (lit "ULogMessageLoggingTagged", lit "Timestamp", lit "Timestamp_old");
   (lit "ULogChangedParameter", lit "Timestamp", lit "Timestamp_old")].
Definition time_body (l : list (str * str * str)) : list stmt := flat_map (fun x => triple (fst (fst x)) (snd (fst x)) (snd x)) l.
Lemma body4 : body script4 = Some (SForeignKeys false :: time_body triples ++ [SForeignKeys true]).
Proof. reflexivity. Qed.

(** the tables and the columns that are left to do fit together *)
Fixpoint plan (l0 : dict str tabledef) (done : list (str * str)) (defs : dict str tabledef) (l : list (str * str * str)) : bool :=
  match l with
  | [] => true
  | (T, c, old) :: l' =>
    let t := ident T in
    match sget t l0, sget t defs with
    | Some df0, Some df => has_col (t_cols df0) c && negb (has_col (t_cols df0) old) && negb (has_col (t_cols df) old) && negb (has_time done t c)
        && plan l0 ((t, c) :: done) (retime t c old defs) l'
    | _, _ => false
    end
  end.
Definition retimes (l : list (str * str * str)) (defs : dict str tabledef) : dict str tabledef :=
  fold_left (fun x p => retime (ident (fst (fst p))) (snd (fst p)) (snd p) x) l defs.
Definition dones (l : list (str * str * str)) (done : list (str * str)) : list (str * str) :=
  fold_left (fun x p => (ident (fst (fst p)), snd (fst p)) :: x) l done.
Lemma times_kept : forall d0 l done d, rows_kept done d0 d -> plan (d_defs d0) done (d_defs d) l = true ->
  (forall T c old df r, In (T, c, old) l -> sget (ident T) (d_defs d0) = Some df -> In r (d_rows d0 (ident T)) -> whole (cell_at (t_cols df) r c) = true) ->
  exists d', apply_body (time_body l) d = Ok d' /\ d_defs d' = retimes l (d_defs d) /\ rows_kept (dones l done) d0 d' /\ d_seq d' = d_seq d.
Proof.
  intros d0 l. induction l as [|[[T c] old] l IH]; intros done d K P W; [exists d; auto|].
  cbn [plan] in P. destruct (sget (ident T) (d_defs d0)) as [df0|] eqn:D0; [|discriminate].
  destruct (sget (ident T) (d_defs d)) as [df|] eqn:D; [|discriminate].
  apply andb_prop in P. destruct P as [P P5]. apply andb_prop in P. destruct P as [P P4]. apply andb_prop in P. destruct P as [P P3].
  apply andb_prop in P. destruct P as [P1 P2]. apply negb_true_iff in P2, P3, P4.
  destruct (triple_kept done d0 d T (ident T) c old df0 df K eq_refl D0 D P1 P2 P3 P4) as [d1 [X1 [X2 [X3 X4]]]].
  { intros r I. exact (W T c old df0 r (or_introl eq_refl) D0 I). }
  destruct (IH _ d1 X3) as [d' [Y1 [Y2 [Y3 Y4]]]].
  - rewrite X2. exact P5.
  - intros T' c' old' df' r I. apply (W T' c' old' df' r (or_intror I)).
  - exists d'. split; [|split; [|split]].
    + change (time_body ((T, c, old) :: l)) with (triple T c old ++ time_body l). rewrite body_app, X1. exact Y1.
    + rewrite Y2, X2. reflexivity.
    + exact Y3.
    + congruence.
Qed.

Lemma kept_ext : forall l l' d d', (forall t c, has_time l t c = has_time l' t c) -> rows_kept l d d' -> rows_kept l' d d'.
Proof.
  intros l l' d d' E K t df D. destruct (K t df D) as [df' [D' [C' K']]]. exists df'. split; [exact D'|]. split; [exact C'|].
  eapply F2_weaken; [|exact K']. intros r0 r _ [L Q]. split; [exact L|]. intros c Hc. rewrite <- E. apply Q, Hc.
Qed.
Lemma existsb_rev : forall {A} (f : A -> bool) l, existsb f (rev l) = existsb f l.
Proof.
  intros A f l. induction l as [|x l IH]; [reflexivity|]. cbn. rewrite existsb_app, IH. cbn. rewrite orb_false_r. apply orb_comm.
Qed.
Lemma dones_times : forall t c, has_time (dones triples []) t c = has_time times t c.
Proof. intros t c. change (dones triples []) with (rev times). unfold has_time. apply existsb_rev. Qed.

Lemma script_eq : forall files k l b d, files k = Some l -> body l = Some b ->
  apply_script files k d = let* d' := apply_body b d in Ok (set_ver k d').
Proof. intros files k l b d F B. unfold apply_script. rewrite F, B. reflexivity. Qed.
Lemma step3 : forall d0 d, rows_kept [] d0 d -> d_defs d = defs_at pyulog_files 2 ->
  exists d', apply_script pyulog_files 3 d = Ok d' /\ d_defs d' = defs_at pyulog_files 3 /\ rows_kept [] d0 d' /\ d_seq d' = d_seq d.
Proof.
  intros d0 d K D.
  assert (S : exists df, sget (lit "ulogfield") (defs_at pyulog_files 2) = Some df /\ has_col (t_cols df) (lit "ValueJson") = false /\
    sset (lit "ulogfield") (mkTD (t_cols df ++ [mkCD (lit "ValueJson") ANum None false]) (t_uniq df)) (defs_at pyulog_files 2) = defs_at pyulog_files 3).
  { eexists. split; [vm_compute; reflexivity|]. split; vm_compute; reflexivity. }
  destruct S as [df [S1 [S2 S3]]].
  destruct (addcol_kept [] d0 d (lit "ULogField") (lit "ulogfield") (mkCD (lit "ValueJson") ANum None false) df K eq_refl) as [d1 [X1 [X2 [X3 X4]]]];
    [rewrite D; exact S1|exact S2|].
  exists (set_ver 3 d1). split; [|split; [|split]].
  - assert (Q : apply_script pyulog_files 3 d =
      (let* d' := (let* d1 := exec true d (SAddCol (lit "ULogField") (mkCD (lit "ValueJson") ANum None false)) in Ok d1) in Ok (set_ver 3 d'))) by reflexivity.
    rewrite Q, X1. reflexivity.
  - cbn [set_ver d_defs]. rewrite X2, D. exact S3.
  - exact X3.
  - exact X4.
Qed.
Lemma step4 : forall d0 d, rows_kept [] d0 d -> d_defs d = defs_at pyulog_files 3 ->
  d_defs d0 = defs_at pyulog_files 2 \/ d_defs d0 = defs_at pyulog_files 3 ->
  (forall t c df r, In (t, c) times -> sget t (d_defs d0) = Some df -> In r (d_rows d0 t) -> whole (cell_at (t_cols df) r c) = true) ->
  exists d', apply_script pyulog_files 4 d = Ok d' /\ d_defs d' = defs_at pyulog_files 4 /\ rows_kept times d0 d' /\ d_seq d' = d_seq d.
Proof.
  intros d0 d K D D0 W. destruct (times_kept d0 triples [] d K) as [d1 [X1 [X2 [X3 X4]]]].
  - rewrite D. destruct D0 as [-> | ->]; vm_compute; reflexivity.
  - intros T c old df r I. apply W.
    assert (B : forallb (fun p => existsb (fun q => str_eqb (fst q) (ident (fst (fst p))) && str_eqb (snd q) (snd (fst p))) times) triples = true) by (vm_compute; reflexivity).
    rewrite forallb_forall in B. specialize (B _ I). apply existsb_exists in B. destruct B as [[t' c'] [J E]]. cbn [fst snd] in E.
    apply andb_prop in E. destruct E as [E1 E2]. apply str_dec in E1, E2. subst. exact J.
  - exists (set_ver 4 d1). split; [|split; [|split]].
    + rewrite (script_eq pyulog_files 4 script4 _ d eq_refl body4).
      change (SForeignKeys false :: time_body triples ++ [SForeignKeys true]) with ([SForeignKeys false] ++ time_body triples ++ [SForeignKeys true]).
      rewrite body_app. change (apply_body [SForeignKeys false] d) with (Ok d). cbn [bind]. rewrite body_app, X1. reflexivity.
    + cbn [set_ver d_defs]. rewrite X2, D. vm_compute. reflexivity.
    + apply (kept_ext _ _ _ _ dones_times). exact X3.
    + exact X4.
Qed.
Lemma step5 : forall done d0 d, rows_kept done d0 d -> d_defs d = defs_at pyulog_files 4 ->
  exists d', apply_script pyulog_files 5 d = Ok d' /\ d_defs d' = v5_defs /\ rows_kept done d0 d' /\ d_seq d' = d_seq d.
Proof.
  intros done d0 d K D. destruct (body script5) as [b|] eqn:B; [|discriminate].
  destruct (index_kept done d0 b d K) as [d1 [X1 [X2 [X3 X4]]]].
  - rewrite D. assert (Q : match body script5 with Some b => forallb (index_ok (defs_at pyulog_files 4)) b = true | None => False end) by (vm_compute; reflexivity).
    rewrite B in Q. exact Q.
  - exists (set_ver 5 d1). split; [|split; [|split]].
    + rewrite (script_eq pyulog_files 5 script5 b d eq_refl B), X1. reflexivity.
    + cbn [set_ver d_defs]. rewrite X2, D. vm_compute. reflexivity.
    + exact X3.
    + exact X4.
Qed.

Lemma float_int : forall z, - 2 ^ 53 <= z <= 2 ^ 53 -> f64_to_Z (f64_of_Z z) = Some z.
Proof.
  intros z Hz. unfold f64_of_Z. destruct (Z.abs z =? 0) eqn:A0; [assert (z = 0) by lia; subst; reflexivity|].
  set (a := Z.abs z) in *. assert (Ha : 0 < a) by lia. destruct (Z.log2_spec a Ha) as [L1 L2]. pose proof (Z.log2_nonneg a) as L0.
  set (e := Z.log2 a) in *.
  assert (He : e <= 53). { apply Z.log2_lt_pow2 in L2; [|lia]. destruct (Z_le_gt_dec e 53); [assumption|].
    assert (2 ^ 54 <= 2 ^ e) by (apply Z.pow_le_mono_r; lia). change (2 ^ 54) with 18014398509481984 in *. change (2 ^ 53) with 9007199254740992 in *. lia. }
  set (m := if e <=? 52 then a * 2 ^ (52 - e) else round_shift a (e - 52)).
  assert (M : 4503599627370496 <= m < 9007199254740992 /\ (e <= 52 -> m = a * 2 ^ (52 - e)) /\ (e = 53 -> m = 4503599627370496 /\ a = 9007199254740992)).
  { unfold m. destruct (Z.leb_spec e 52) as [E|E].
    - assert (P : 2 ^ e * 2 ^ (52 - e) = 4503599627370496) by (rewrite <- Z.pow_add_r by lia; replace (e + (52 - e)) with 52 by lia; reflexivity).
      assert (0 < 2 ^ (52 - e)) by (apply Z.pow_pos_nonneg; lia). rewrite Z.pow_succ_r in L2 by lia. split; [nia|]. split; [reflexivity|lia].
    - assert (e = 53) by lia. rewrite H in *. change (2 ^ 53) with 9007199254740992 in *. assert (a = 9007199254740992) by lia.
      rewrite H0. split; [vm_compute; split; [intro; discriminate|reflexivity]|]. split; [lia|]. intros _. split; reflexivity. }
  destruct M as [M1 [M2 M3]]. clearbody m. set (sg := if z <? 0 then 1 else 0).
  assert (B : (if z <? 0 then 9223372036854775808 else 0) + (1023 + e) * 4503599627370496 + (m - 4503599627370496) = f64_mk sg (1023 + e) (m - 4503599627370496))
    by (unfold f64_mk, sg; destruct (z <? 0); lia).
  rewrite B. destruct (f64_parts_mk sg (1023 + e) (m - 4503599627370496)) as [P1 [P2 P3]]; [unfold sg; destruct (z <? 0); auto|lia|lia|].
  unfold f64_to_Z. rewrite P1, P2, P3. cbv zeta.
  destruct (Z.eqb_spec (1023 + e) 2047); [lia|]. destruct (Z.eqb_spec (1023 + e) 0); [lia|].
  replace (m - 4503599627370496 + 4503599627370496) with m by lia.
  assert (Sg : (if sg =? 0 then 1 else -1) * a = z) by (unfold sg, a; destruct (Z.ltb_spec z 0); [change (1 =? 0) with false | change (0 =? 0) with true]; cbv iota; lia).
  destruct (Z.leb_spec 1075 (1023 + e)) as [E|E].
  - f_equal. rewrite <- Sg. f_equal. destruct (Z.eq_dec e 53) as [E53|E53].
    + destruct (M3 E53) as [-> ->]. rewrite E53. reflexivity.
    + assert (E52 : e = 52) by lia. rewrite M2 by lia. rewrite E52. change (2 ^ (1023 + 52 - 1075)) with 1. change (2 ^ (52 - 52)) with 1. lia.
  - replace (1075 - (1023 + e)) with (52 - e) by lia. rewrite M2 by lia.
    assert (0 < 2 ^ (52 - e)) by (apply Z.pow_pos_nonneg; lia). rewrite Z.mod_mul by lia. cbn [Z.eqb].
    rewrite Z.div_mul by lia. f_equal. exact Sg.
Qed.
