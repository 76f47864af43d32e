(** The exceptions of save. *)
From Verif Require Import Base Dict PyStr PyFloat PySort Struct ModelTypes ModelApi Sql Schema5 ModelDb SpecDb SpecStorable SpecRefused.
From Verif Require Import ProofsDb ProofsFrame ProofsSave ProofsStore ProofsReload ProofsFwd.

(** ** The parameters of one statement *)
Lemma bind_int_cases z : bind_int z = Ok (CInt z) \/ bind_int z = Err OverflowError.
Proof. unfold bind_int. destruct (_ && _); auto. Qed.
Lemma bind_text_cases s : bind_text s = Ok (CText s) \/ bind_text s = Err UnicodeEncodeError.
Proof. unfold bind_text. destruct (forallb _ _); auto. Qed.
Lemma bind_int_err z e : bind_int z = Err e -> e = OverflowError /\ ~ int64 z.
Proof.
  intros H. destruct (bind_int_cases z) as [X|X]; rewrite X in H; [discriminate|]. injection H as <-. split; [reflexivity|].
  intros I. rewrite bind_int_ok in X by exact I. discriminate.
Qed.
Lemma bind_text_err s e : bind_text s = Err e -> e = UnicodeEncodeError /\ ~ no_surrogate s.
Proof.
  intros H. destruct (bind_text_cases s) as [X|X]; rewrite X in H; [discriminate|]. injection H as <-. split; [reflexivity|].
  intros I. rewrite bind_text_ok in X by exact I. discriminate.
Qed.
Lemma bind_value_err v e : bind_value v = Err e -> (exists z, v = VInt z /\ bind_int z = Err e) \/ (exists s, v = VStr s /\ bind_text s = Err e).
Proof. destruct v; cbn; intros H; try discriminate; eauto. Qed.

Lemma mapM_err (l : list (res cell)) e : mapM (fun x => x) l = Err e -> In (Err e) l.
Proof.
  induction l as [|x l IH]; cbn [mapM]; [discriminate|]. destruct x as [c|e']; cbn [bind].
  - destruct (mapM _ l); cbn [bind]; [discriminate|]. intros H. right. apply IH. exact H.
  - intros H. injection H as ->. now left.
Qed.
Lemma in_mapM_Err (l : list (res cell)) v e : mapM (fun x => x) l = Ok v -> In (Err e) l -> False.
Proof.
  revert v. induction l as [|x l IH]; cbn [mapM]; intros v M H; [exact H|]. destruct x as [c|]; cbn [bind] in M; [|discriminate].
  destruct (mapM _ l) as [v'|] eqn:M'; cbn [bind] in M; [|discriminate]. destruct H as [H|H]; [discriminate|]. exact (IH v' eq_refl H).
Qed.
Lemma mapM_Err_In {A B} (f : A -> res B) l e : mapM f l = Err e -> exists x, In x l /\ f x = Err e.
Proof.
  induction l as [|x l IH]; cbn [mapM]; [discriminate|]. destruct (f x) as [y|e'] eqn:E; cbn [bind].
  - destruct (mapM f l); cbn [bind]; [discriminate|]. intros H. destruct (IH H) as (z & Hz & Ez). exists z. split; [now right|exact Ez].
  - intros H. exists x. split; [now left|]. injection H as ->. exact E.
Qed.
Lemma prep_err T names k vals e : prep T names k vals = Err e ->
  In (Err e) vals \/ exists v, mapM (fun x => x) vals = Ok v /\ new_row k (cols T) names v = Err e.
Proof. unfold prep. destruct (mapM _ vals) as [v|e'] eqn:M; cbn [bind]; intros H; [right; eauto|left]. injection H as ->. now apply mapM_err. Qed.

Ltac pe := intros H; apply prep_err in H as [H|(v & M & R)]; [exact H|exfalso]; cbv delta [v_offset v_dataset v_field v_dropout v_logged v_tagged v_format v_ffield v_info v_multi v_list v_elem v_param v_default v_change v_log] in M; cbv beta in M;
  repeat match type of M with
  | context [bind_int ?z] => destruct (bind_int_cases z) as [X|X]; rewrite X in M; clear X; try discriminate M
  | context [bind_text ?z] => destruct (bind_text_cases z) as [X|X]; rewrite X in M; clear X; try discriminate M
  | context [bind_value ?z] => let c := fresh "c" in destruct (bind_value z) as [c|]; [destruct c|]; try discriminate M
  end;
  cbn [mapM bind] in M; injection M as <-; discriminate R.
Lemma pe_offset pk k x e : prep (lit "ulogappendedoffsets") n_offset k (v_offset pk x) = Err e -> In (Err e) (v_offset pk x). Proof. pe. Qed.
Lemma pe_dataset pk k x e : prep (lit "ulogdataset") n_dataset k (v_dataset pk x) = Err e -> In (Err e) (v_dataset pk x). Proof. pe. Qed.
Lemma pe_field pk k x e : prep (lit "ulogfield") n_field k (v_field pk x) = Err e -> In (Err e) (v_field pk x). Proof. pe. Qed.
Lemma pe_dropout pk k x e : prep (lit "ulogmessagedropout") n_dropout k (v_dropout pk x) = Err e -> In (Err e) (v_dropout pk x). Proof. pe. Qed.
Lemma pe_logged pk k x e : prep (lit "ulogmessagelogging") n_logged k (v_logged pk x) = Err e -> In (Err e) (v_logged pk x). Proof. pe. Qed.
Lemma pe_tagged pk k x e : prep (lit "ulogmessageloggingtagged") n_tagged k (v_tagged pk x) = Err e -> In (Err e) (v_tagged pk x). Proof. pe. Qed.
Lemma pe_format pk k x e : prep (lit "ulogmessageformat") n_format k (v_format pk x) = Err e -> In (Err e) (v_format pk x). Proof. pe. Qed.
Lemma pe_ffield pk k x e : prep (lit "ulogmessageformatfield") n_ffield k (v_ffield pk x) = Err e -> In (Err e) (v_ffield pk x). Proof. pe. Qed.
Lemma pe_info pk k x e : prep (lit "ulogmessageinfo") n_info k (v_info pk x) = Err e -> In (Err e) (v_info pk x). Proof. pe. Qed.
Lemma pe_multi pk k x e : prep (lit "ulogmessageinfomultiple") n_multi k (v_multi pk x) = Err e -> In (Err e) (v_multi pk x). Proof. pe. Qed.
Lemma pe_list pk k x e : prep (lit "ulogmessageinfomultiplelist") n_list k (v_list pk x) = Err e -> In (Err e) (v_list pk x). Proof. pe. Qed.
Lemma pe_elem pk k x e : prep (lit "ulogmessageinfomultiplelistelement") n_elem k (v_elem pk x) = Err e -> In (Err e) (v_elem pk x). Proof. pe. Qed.
Lemma pe_param pk k x e : prep (lit "uloginitialparameter") n_param k (v_param pk x) = Err e -> In (Err e) (v_param pk x). Proof. pe. Qed.
Lemma pe_default pk k x e : prep (lit "ulogdefaultparameter") n_default k (v_default pk x) = Err e -> In (Err e) (v_default pk x). Proof. pe. Qed.
Lemma pe_change pk k x e : prep (lit "ulogchangedparameter") n_change k (v_change pk x) = Err e -> In (Err e) (v_change pk x). Proof. pe. Qed.
Lemma pe_log k sha u e : prep (lit "ulog") n_log k (v_log sha u) = Err e -> In (Err e) (v_log sha u). Proof. pe. Qed.

(** ** One statement *)
Lemma ins_err F s t T names vals df c a p i e : good (snd s) -> ident t = T -> sget T v5_defs = Some df -> In (T, (c, a, p)) links ->
  forallb (has_col (cols T)) names = true -> length names = length vals -> gives names vals c i -> has (snd s) p i ->
  ins F s t names vals = Err e ->
  prep T names (d_seq (snd s) T + 1) vals = Err e \/ F (fst s) = Some e \/
  (e = IntegrityError /\ exists r, prep T names (d_seq (snd s) T + 1) vals = Ok r /\ existsb (clash df r) (d_rows (snd s) T) = true).
Proof.
  intros G <- TD L N Le V H E. unfold ins in E. destruct (mapM (fun x => x) vals) as [v|e'] eqn:M; cbn [bind] in E.
  2:{ injection E as ->. left. unfold prep. rewrite M. reflexivity. }
  destruct (F (fst s)) as [e'|] eqn:Fs. { injection E as ->. auto. }
  unfold sql_insert in E. rewrite (table_v5 _ _ (gd_defs _ G)), TD in E. cbn [bind] in E.
  rewrite <- (cols_def _ _ TD), N, (mapM_Ok_length _ _ _ M), Le, Nat.eqb_refl in E. cbn [andb negb] in E.
  destruct (new_row _ _ _ _) as [r|e'] eqn:R; cbn [bind] in E.
  2:{ injection E as ->. left. unfold prep. rewrite M. exact R. }
  assert (P : prep (ident t) names (d_seq (snd s) (ident t) + 1) vals = Ok r) by (unfold prep; rewrite M; exact R).
  destruct (existsb _ _) eqn:C. { injection E as <-. right. right. eauto. }
  pose proof (prep_refers _ _ _ _ _ _ _ _ _ L V P) as Rf. rewrite (cols_def _ _ TD) in E.
  rewrite (fks_child (snd s) _ _ _ _ r i df (gd_defs _ G) L TD Rf H) in E. discriminate E.
Qed.
Lemma ins_has' F s t T names vals k s' c a p pk i : good (snd s) -> ident t = T -> In (T, (c, a, p)) links ->
  ins F s t names vals = Ok (k, s') -> gives names vals c i -> owns (snd s) pk p i ->
  exists r, adds pk (snd s) (snd s') (only T [r]) /\ prep T names (d_seq (snd s) T + 1) vals = Ok r /\ (keyed T = true -> at_ pk s' T k).
Proof.
  intros G HT L E V O. destruct (ins_child _ _ _ T _ _ _ _ _ _ _ pk _ G HT L E V O) as (r & P & A & Ow). exists r. split; [exact A|]. split; [exact P|].
  intros K. destruct (Ow K) as [-> O']. split; [apply (ad_good _ _ _ _ A)|]. split; [exact O'|].
  unfold has. rewrite (g_rows _ _ _ (ad_grows _ _ _ _ A)), only_same, row_ids_app. apply in_app_iff. right.
  unfold row_ids. cbn [flat_map]. rewrite (prep_id _ _ _ _ _ (link_keyed _ _ _ _ L K) P). now left.
Qed.

(** ** Sequences of statements *)
Section walk.
Variable F : fault.
Variable P : exn -> Prop.
Hypothesis HF : forall n e, F n = Some e -> P e.

Definition okw (pk : Z) (s : sst) (r : res sst) : Prop :=
  match r with Ok s' => exists N, adds pk (snd s) (snd s') N | Err e => P e end.
Lemma okw_bind pk p i s r k : at_ pk s p i -> okw pk s r -> (forall s', at_ pk s' p i -> okw pk s' (k s')) -> okw pk s (bind r k).
Proof.
  intros At H K. destruct r as [s'|e]; cbn [bind]; [|exact H]. destruct H as (N & A). specialize (K s' (at_adds _ _ _ _ _ _ A At)).
  destruct (k s') as [s''|e]; [|exact K]. destruct K as (N' & A'). eexists. eapply adds_trans; eauto.
Qed.
Lemma okw_fold {A} (f : sst -> A -> res sst) pk p i l : (forall s x, at_ pk s p i -> In x l -> okw pk s (f s x)) ->
  forall s, at_ pk s p i -> okw pk s (foldM f l s).
Proof.
  induction l as [|x l IH]; intros H s At; cbn [foldM].
  - exists (fun _ => []). apply adds_refl, At.
  - apply (okw_bind pk p i); [exact At|apply H; [exact At|now left]|]. intros s' At'. apply IH; [|exact At']. intros s0 y At0 Hy. apply H; [exact At0|now right].
Qed.
(** a statement whose table has no UNIQUE constraint, and what follows *)
Lemma okw_ins t T names vals df c a p i pk s k : ident t = T -> sget T v5_defs = Some df -> t_uniq df = [] -> In (T, (c, a, p)) links ->
  forallb (has_col (cols T)) names = true -> length names = length vals -> gives names vals c i -> at_ pk s p i ->
  (forall j e, prep T names j vals = Err e -> P e) ->
  (forall id s', at_ pk s' p i -> (keyed T = true -> at_ pk s' T id) -> okw pk s' (k (id, s'))) -> okw pk s (bind (ins F s t names vals) k).
Proof.
  intros HT TD U L N Le V (G & O & H) HP K. destruct (ins F s t names vals) as [[id s']|e] eqn:E; cbn [bind].
  - destruct (ins_has' F s t T names vals id s' c a p pk i G HT L E V O) as (r & A & _ & Kd).
    specialize (K id s' (at_adds _ _ _ _ _ _ A (conj G (conj O H))) Kd). destruct (k (id, s')) as [s''|e]; [|exact K]. destruct K as (N' & A'). eexists. eapply adds_trans; eauto.
  - destruct (ins_err F s t T names vals df c a p i e G HT TD L N Le V H E) as [X|[X|(-> & r & _ & C)]]; [exact (HP _ _ X)|exact (HF _ _ X)|].
    rewrite no_clash in C by exact U. discriminate C.
Qed.
Lemma okw_many {A} t T names (v : A -> list (res cell)) l df c a p i pk s : ident t = T -> sget T v5_defs = Some df -> t_uniq df = [] -> In (T, (c, a, p)) links ->
  forallb (has_col (cols T)) names = true -> (forall x, length names = length (v x)) -> (forall x, gives names (v x) c i) -> at_ pk s p i ->
  (forall x j e, prep T names j (v x) = Err e -> In (Err e) (v x)) -> (forall x e, In x l -> In (Err e) (v x) -> P e) ->
  okw pk s (ins_many F s t names (map v l)).
Proof.
  intros HT TD U L N Le V At Q HP. unfold ins_many. apply (okw_fold _ pk p i); [|exact At].
  intros s0 vals At0 Hv. apply in_map_iff in Hv as (x & <- & Hx).
  eapply (okw_ins t T names (v x) df c a p i pk s0); eauto.
  intros id s' At' _. cbn [snd]. exists (fun _ => []). apply adds_refl, At'.
Qed.
End walk.

(** ** The causes *)
Section causes.
Variables (F : fault) (json : bool) (sha : str) (u : ulog).
Definition cause (e : exn) : Prop := (exists n, F n = Some e) \/ refused_for json sha u e.
Lemma cause_F n e : F n = Some e -> cause e. Proof. left. eauto. Qed.
Lemma ci z e : bind_int z = Err e -> log_int u z -> cause e.
Proof. intros H L. destruct (bind_int_err _ _ H) as [-> N]. right. cbn. eauto. Qed.
Lemma ct s e : bind_text s = Err e -> log_text u s -> cause e.
Proof. intros H L. destruct (bind_text_err _ _ H) as [-> N]. right. cbn. eauto. Qed.
Lemma cv v e : bind_value v = Err e -> (forall z, v = VInt z -> log_int u z) -> (forall s, v = VStr s -> log_text u s) -> cause e.
Proof. intros H Z T. destruct (bind_value_err _ _ H) as [(z & -> & B)|(s & -> & B)]; [eapply ci|eapply ct]; eauto. Qed.
(** walks through the parameters of a statement *)
Ltac each H := cbn [In] in H; repeat (destruct H as [H|H]; [try discriminate H|]); try contradiction.

Lemma w_fields pk ds id l : In ds (u_data u) -> incl l (ds_fields ds) -> forall s, at_ pk s (lit "ulogdataset") id ->
  okw cause pk s (foldM (save_field F json ds id) l s).
Proof.
  intros Hd Hl s At. apply (okw_fold cause _ pk (lit "ulogdataset") id); [|exact At]. clear s At. intros s f At Hf. apply Hl in Hf. unfold save_field.
  destruct (sget (fd_name f) (ds_data ds)) as [col|] eqn:C; [|right; cbn; eapply lack_column; eauto].
  assert (Q : match (if json then match sget (lit "timestamp") (ds_data ds) with
      | None => Err KeyError
      | Some ts => if existsb (minus_inf col) (json_values ts col) then Err OperationalError else Ok (CText (lit "json")) end else Ok CNull) with Ok _ => True | Err e => cause e end).
  { destruct json eqn:J; [|exact I]. destruct (sget (lit "timestamp") (ds_data ds)) as [ts|] eqn:Ts.
    - destruct (existsb _ _) eqn:Ex; [|exact I]. right. cbn. split; [exact J|]. exists ds. split; [exact Hd|]. intros Jd.
      unfold json_dataset in Jd. rewrite Forall_forall in Jd. destruct (Jd f Hf) as (ts' & Ts' & Jf). rewrite Ts in Ts'. injection Ts' as <-.
      apply existsb_exists in Ex as (x & Hx & Hm). apply json_values_In in Hx as (a & t & b & E & N).
      apply minus_inf_iff in Hm. exact (Jf col C a t x b E N Hm).
    - right. cbn. eapply lack_times; eauto. intros E. rewrite E in Hf. destruct Hf. }
  match type of Q with match ?x with Ok _ => _ | Err _ => _ end => destruct x as [j|e]; cbn [bind]; [|exact Q] end. clear Q.
  eapply (okw_ins F cause cause_F (lit "ULogField") (lit "ulogfield") n_field (v_field id (f, col)) t_ulogfield (lit "DatasetId") AInt (lit "ulogdataset") id pk s);
    [reflexivity|reflexivity|reflexivity|apply in_field|reflexivity|reflexivity|apply gv_field|exact At| |].
  - intros k e H. apply pe_field in H. each H. eapply ct; [exact H|]. cbn [fst]. eapply lt_field; eauto.
  - intros k s' At' _. cbn [snd]. exists (fun _ => []). apply adds_refl, At'.
Qed.
Lemma w_datasets pk l : incl l (u_data u) -> forall s, at_ pk s (lit "ulog") pk ->
  (NoDup (map (fun ds => (ds_name ds, ds_multi ds)) (u_data u)) -> NoDup (map (fun ds => (ds_name ds, ds_multi ds)) l) /\ Forall (free pk s) l) ->
  okw cause pk s (foldM (save_dataset F json pk) l s).
Proof.
  induction l as [|ds l IH]; intros Hl s At Fr; cbn [foldM]. { exists (fun _ => []). apply adds_refl, At. }
  assert (Hd : In ds (u_data u)) by (apply Hl; now left). destruct (save_dataset F json pk s ds) as [s1|e] eqn:E; cbn [bind].
  - destruct (step_dataset F json pk s ds s1 (proj1 At) E) as (r & fr & A & R & _).
    assert (W : okw cause pk s1 (foldM (save_dataset F json pk) l s1)).
    { apply IH; [intros x Hx; apply Hl; now right|eapply at_adds; eauto|]. intros ND. destruct (Fr ND) as (Hs & Fl). cbn [map] in Hs.
      inversion Hs as [|? ? Hn Hs']; subst. inversion Fl as [|? ? Fr1 Fr2]; subst. split; [exact Hs'|].
      rewrite Forall_forall in Fr2 |- *. intros ds' Hd' r0 Hr Hp Hname Hm.
      rewrite (g_rows _ _ _ (ad_grows _ _ _ _ A)) in Hr. apply in_app_iff in Hr as [Hr|Hr].
      - exact (Fr2 ds' Hd' r0 Hr Hp Hname Hm).
      - unfold two in Hr. rewrite only_same, only_other in Hr by (intros X; vm_compute in X; discriminate). rewrite app_nil_r in Hr. destruct Hr as [<-|[]].
        unfold dataset_saved in R.
        rewrite (cell_text _ _ _ _ _ (lit "DatasetName") _ (ds_name ds) R eq_refl eq_refl ltac:(sel) ltac:(sel)) in Hname.
        rewrite (cell_int _ _ _ _ _ (lit "MultiId") _ (ds_multi ds) R eq_refl eq_refl ltac:(sel) ltac:(sel)) in Hm.
        injection Hm as Hm. apply (f_equal (fun c => match c with CText x => x | _ => [] end)) in Hname. cbv beta iota in Hname.
        apply Hn. apply in_map_iff. exists ds'. split; [congruence|exact Hd']. }
    destruct (foldM _ l s1) as [s2|e2]; [|exact W]. destruct W as (N & A2). eexists. eapply adds_trans; eauto.
  - unfold save_dataset in E. destruct At as (G & O & H).
    match type of E with bind ?x _ = _ => destruct x as [[id s1]|e1] eqn:E1; cbn [bind] in E end.
    + destruct (ins_has' F s (lit "ULogDataSet") (lit "ulogdataset") n_dataset (v_dataset pk ds) id s1 _ _ _ pk pk G eq_refl in_dataset E1 (gv_dataset pk ds) O) as (r & A & R & K).
      pose proof (w_fields pk ds id (ds_fields ds) Hd (incl_refl _) s1 (K eq_refl)) as W. cbn [fst snd] in E. rewrite E in W. exact W.
    + injection E as ->.
      destruct (ins_err F s (lit "ULogDataSet") (lit "ulogdataset") n_dataset (v_dataset pk ds) t_ulogdataset (lit "ULogId") AInt (lit "ulog") pk e G eq_refl eq_refl in_dataset eq_refl eq_refl (gv_dataset pk ds) H E1)
        as [X|[X|(-> & r & R & C)]].
      * apply pe_dataset in X. each X; [eapply ct; [exact X|]; now apply lt_dataset|..]; (eapply ci; [exact X|]; apply (li_dataset u ds); [exact Hd|cbn; auto]).
      * eapply cause_F; eauto.
      * right. cbn. intros ND. destruct (Fr ND) as (_ & Fl). inversion Fl as [|? ? Fr1 _]; subst.
        apply existsb_exists in C as (r0 & Hr & C).
        unfold clash in C. cbn [t_uniq t_ulogdataset existsb forallb t_cols] in C. rewrite orb_false_r, andb_true_r in C.
        apply andb_true_iff in C as [C1 C]. apply andb_true_iff in C as [C2 C3].
        change c_ulogdataset with (cols (lit "ulogdataset")) in C1, C2, C3.
        rewrite (cell_int _ _ _ _ _ (lit "ULogId") _ pk R eq_refl eq_refl ltac:(sel) ltac:(sel)) in C1.
        rewrite (cell_text _ _ _ _ _ (lit "DatasetName") _ (ds_name ds) R eq_refl eq_refl ltac:(sel) ltac:(sel)) in C2.
        rewrite (cell_int _ _ _ _ _ (lit "MultiId") _ (ds_multi ds) R eq_refl eq_refl ltac:(sel) ltac:(sel)) in C3.
        apply (Fr1 r0 Hr).
        -- unfold refers. cbn [ref_cell]. destruct (cell_at _ r0 (lit "ULogId")); try discriminate. cbn [cell_eqb] in C1. apply Z.eqb_eq in C1. now subst.
        -- destruct (cell_at _ r0 (lit "DatasetName")); try discriminate. cbn [cell_eqb] in C2. destruct (str_eqb_spec (ds_name ds) s0); [now subst|discriminate].
        -- destruct (cell_at _ r0 (lit "MultiId")); try discriminate. cbn [cell_eqb] in C3. apply Z.eqb_eq in C3. now subst.
Qed.
Lemma w_format pk nm s : In nm (u_formats u) -> at_ pk s (lit "ulog") pk -> okw cause pk s (save_format F pk s nm).
Proof.
  intros Hn At. unfold save_format.
  eapply (okw_ins F cause cause_F (lit "ULogMessageFormat") (lit "ulogmessageformat") n_format (v_format pk nm) t_ulogmessageformat (lit "ULogId") AInt (lit "ulog") pk pk s);
    [reflexivity|reflexivity|reflexivity|apply in_format|reflexivity|reflexivity|apply gv_format|exact At| |].
  - intros k e H. apply pe_format in H. each H. eapply ct; [exact H|]. now apply lt_format.
  - intros id s' _ Atk. cbn [fst snd].
    apply (okw_many F cause cause_F (lit "ULogMessageFormatField") (lit "ulogmessageformatfield") n_ffield (v_ffield id) (mf_fields (snd nm)) t_ulogmessageformatfield (lit "MessageId") AInt (lit "ulogmessageformat") id);
      [reflexivity|reflexivity|reflexivity|apply in_ffield|reflexivity|reflexivity|apply gv_ffield|exact (Atk eq_refl)|intros x j e; apply pe_ffield|].
    intros f e Hf H. each H; [eapply ct|eapply ci|eapply ct]; try exact H; [eapply lt_ffield|eapply li_format|eapply lt_ffield]; eauto; cbn; auto.
Qed.
Lemma w_list pk message kl il s : In kl (u_multi u) -> In il (enumerate (snd kl)) -> at_ pk s (lit "ulogmessageinfomultiple") message ->
  okw cause pk s (save_list F message s il).
Proof.
  intros Hk Hi At. destruct il as [i l]. apply enumerate_In in Hi as [Hi Hl]. unfold save_list. cbn [fst snd].
  eapply (okw_ins F cause cause_F (lit "ULogMessageInfoMultipleList") (lit "ulogmessageinfomultiplelist") n_list (v_list message i) t_ulogmessageinfomultiplelist (lit "MessageId") AText (lit "ulogmessageinfomultiple") message pk s);
    [reflexivity|reflexivity|reflexivity|apply in_list|reflexivity|reflexivity|apply gv_list|exact At| |].
  - intros k e H. apply pe_list in H. each H. eapply ci; [exact H|]. now apply (li_multi_at u kl).
  - intros id s' _ Atk. cbn [fst snd].
    apply (okw_many F cause cause_F (lit "ULogMessageInfoMultipleListElement") (lit "ulogmessageinfomultiplelistelement") n_elem (v_elem id) (enumerate l) t_ulogmessageinfomultiplelistelement (lit "ListId") AText (lit "ulogmessageinfomultiplelist") id);
      [reflexivity|reflexivity|reflexivity|apply in_elem|reflexivity|reflexivity|apply gv_elem|exact (Atk eq_refl)|intros x j e; apply pe_elem|].
    intros [j x] e Hx H. apply enumerate_In in Hx as [Hj Hx]. each H.
    + eapply ci; [exact H|]. cbn [fst]. now apply (li_list_at u kl l).
    + eapply cv; [exact H| |]; cbn [snd]; intros y ->; [eapply li_multi|eapply lt_multi]; eauto.
Qed.
Lemma w_multi pk kl s : In kl (u_multi u) -> at_ pk s (lit "ulog") pk -> okw cause pk s (save_multi F pk (u_multit u) s kl).
Proof.
  intros Hk At. unfold save_multi. destruct (sget (fst kl) (u_multit u)) as [ty|] eqn:Ty; [|right; cbn; eapply lack_multi; eauto].
  eapply (okw_ins F cause cause_F (lit "ULogMessageInfoMultiple") (lit "ulogmessageinfomultiple") n_multi (v_multi pk (fst kl, ty)) t_ulogmessageinfomultiple (lit "ULogId") AInt (lit "ulog") pk pk s);
    [reflexivity|reflexivity|reflexivity|apply in_multi|reflexivity|reflexivity|apply gv_multi|exact At| |].
  - intros k e H. apply pe_multi in H. each H; (eapply ct; [exact H|]); cbn [fst snd]; [now apply lt_multi_key|eapply lt_multi_type; eauto].
  - intros id s' _ Atk. cbn [fst snd]. apply (okw_fold cause _ pk (lit "ulogmessageinfomultiple") id); [|exact (Atk eq_refl)].
    intros s0 il At0 Hil. eapply w_list; eauto.
Qed.

Lemma w_rest pk s : at_ pk s (lit "ulog") pk ->
  (NoDup (map (fun ds => (ds_name ds, ds_multi ds)) (u_data u)) -> Forall (free pk s) (u_data u)) -> okw cause pk s (save_rest F json pk u s).
Proof.
  intros At Fr. unfold save_rest.
  (* offsets *)
  assert (W : okw cause pk s (ins_many F s (lit "ULogAppendedOffsets") n_offset (map (v_offset pk) (enumerate (u_offsets u))))).
  { apply (okw_many F cause cause_F (lit "ULogAppendedOffsets") (lit "ulogappendedoffsets") n_offset (v_offset pk) _ t_ulogappendedoffsets (lit "ULogId") AInt (lit "ulog") pk);
      [reflexivity|reflexivity|reflexivity|apply in_offset|reflexivity|reflexivity|apply gv_offset|exact At|intros x j e; apply pe_offset|].
    intros [i x] e Hx H. apply enumerate_In in Hx as [Hi Hx]. each H; (eapply ci; [exact H|]); cbn [fst snd]; [now apply li_offset_at|now apply li_offset]. }
  unfold v_offset, n_offset in W. destruct (ins_many F s (lit "ULogAppendedOffsets") _ _) as [s1|e1] eqn:E1; cbn [bind]; [|exact W]. clear W.
  destruct (ins_many_child F (lit "ULogAppendedOffsets") (lit "ulogappendedoffsets") n_offset (lit "ULogId") AInt (lit "ulog") pk pk (map (v_offset pk) (enumerate (u_offsets u))) eq_refl in_offset
    (ins_many_Forall _ (v_offset pk) _ (gv_offset pk)) s s1 (proj1 At) (proj1 (proj2 At)) E1) as (rs & A1 & _).
  pose proof (at_adds _ _ _ _ _ _ A1 At) as At1.
  match goal with |- okw _ _ _ ?r => assert (W : okw cause pk s1 r); [|destruct r; [destruct W; eexists; eapply adds_trans; eauto|exact W]] end.
  apply (okw_bind cause pk (lit "ulog") pk); [exact At1| |].
  { apply w_datasets; [apply incl_refl|exact At1|]. intros ND. split; [exact ND|]. eapply Forall_impl; [|exact (Fr ND)]. cbv beta.
    intros ds Hd r0 Hr. rewrite (g_rows _ _ _ (ad_grows _ _ _ _ A1)), only_other in Hr by (intros X; vm_compute in X; discriminate).
    rewrite app_nil_r in Hr. now apply Hd. }
  clear s s1 rs E1 A1 At At1 Fr. intros s At.
  apply (okw_bind cause pk (lit "ulog") pk); [exact At| |clear s At; intros s At].
  { apply (okw_many F cause cause_F (lit "ULogMessageDropout") (lit "ulogmessagedropout") n_dropout (v_dropout pk) _ t_ulogmessagedropout (lit "ULogId") AInt (lit "ulog") pk);
      [reflexivity|reflexivity|reflexivity|apply in_dropout|reflexivity|reflexivity|apply gv_dropout|exact At|intros x j e; apply pe_dropout|].
    intros x e Hx H. each H; (eapply ci; [exact H|]); apply (li_dropout u x); cbn; auto. }
  apply (okw_bind cause pk (lit "ulog") pk); [exact At| |clear s At; intros s At].
  { apply (okw_many F cause cause_F (lit "ULogMessageLogging") (lit "ulogmessagelogging") n_logged (v_logged pk) _ t_ulogmessagelogging (lit "ULogId") AInt (lit "ulog") pk);
      [reflexivity|reflexivity|reflexivity|apply in_logging|reflexivity|reflexivity|apply gv_logged|exact At|intros x j e; apply pe_logged|].
    intros x e Hx H. each H; [eapply ci; [exact H|]; apply (li_logged u x); cbn; auto..|eapply ct; [exact H|]; now apply lt_logged]. }
  apply (okw_bind cause pk (lit "ulog") pk); [exact At| |clear s At; intros s At].
  { apply (okw_fold cause _ pk (lit "ulog") pk); [|exact At]. clear s At. intros s tl At Htl.
    apply (okw_many F cause cause_F (lit "ULogMessageLoggingTagged") (lit "ulogmessageloggingtagged") n_tagged (fun x => v_tagged pk (fst tl, x)) _ t_ulogmessageloggingtagged (lit "ULogId") AInt (lit "ulog") pk);
      [reflexivity|reflexivity|reflexivity|apply in_tagged|reflexivity|reflexivity|intros x; apply gv_tagged|exact At|intros x j e; apply pe_tagged|].
    intros x e Hx H. each H; [eapply ci; [exact H|]; apply (li_tagged u tl x); cbn; auto..|eapply ct; [exact H|]; eapply lt_tagged; eauto]. }
  apply (okw_bind cause pk (lit "ulog") pk); [exact At| |clear s At; intros s At].
  { apply (okw_fold cause _ pk (lit "ulog") pk); [|exact At]. intros s0 nm At0 Hn. now apply w_format. }
  match goal with |- context [mapM ?f (u_info u)] => destruct (mapM f (u_info u)) as [rows|e] eqn:Er end; cbn [bind].
  2:{ right. assert (X : exists kv, In kv (u_info u) /\ sget (fst kv) (u_infot u) = None /\ e = KeyError).
      { apply mapM_Err_In in Er as (kv & Hk & E). cbv beta in E. exists kv. split; [exact Hk|].
        match type of E with match ?x with Some _ => _ | None => _ end = _ => destruct x eqn:Ty; [discriminate E|] end.
        split; [exact Ty|]. now injection E. }
      destruct X as (kv & Hk & Nk & ->). cbn. eapply lack_info; eauto. }
  destruct (infos_typed _ _ _ _ Er) as (infos & Ft & ->). clear Er.
  apply (okw_bind cause pk (lit "ulog") pk); [exact At| |clear s At; intros s At].
  { apply (okw_many F cause cause_F (lit "ULogMessageInfo") (lit "ulogmessageinfo") n_info (v_info pk) _ t_ulogmessageinfo (lit "ULogId") AInt (lit "ulog") pk);
      [reflexivity|reflexivity|reflexivity|apply in_info|reflexivity|reflexivity|apply gv_info|exact At|intros x j e; apply pe_info|].
    intros x e Hx H. destruct (F2_In_r _ _ _ Ft _ Hx) as (kv & Hkv & t & Et & ->). destruct kv as [k v]. cbn [fst snd] in *. each H.
    - eapply ct; [exact H|]. apply (lt_info_key u (k, v) Hkv).
    - eapply cv; [exact H| |]; cbn [snd]; intros y ->; [eapply li_info|eapply lt_info]; eauto.
    - eapply ct; [exact H|]. apply (lt_info_type u (k, v)); auto. }
  apply (okw_bind cause pk (lit "ulog") pk); [exact At| |clear s At; intros s At].
  { apply (okw_fold cause _ pk (lit "ulog") pk); [|exact At]. intros s0 kl At0 Hk. now apply w_multi. }
  apply (okw_bind cause pk (lit "ulog") pk); [exact At| |clear s At; intros s At].
  { apply (okw_many F cause cause_F (lit "ULogInitialParameter") (lit "uloginitialparameter") n_param (v_param pk) _ t_uloginitialparameter (lit "ULogId") AInt (lit "ulog") pk);
      [reflexivity|reflexivity|reflexivity|apply in_param|reflexivity|reflexivity|apply gv_param|exact At|intros x j e; apply pe_param|].
    intros [k v] e Hx H. each H.
    - eapply ct; [exact H|]. apply (lt_param_key u (k, v) Hx).
    - eapply cv; [exact H| |]; cbn [snd]; intros y ->; [eapply li_param|eapply lt_param]; eauto. }
  apply (okw_bind cause pk (lit "ulog") pk); [exact At| |clear s At; intros s At].
  { apply (okw_fold cause _ pk (lit "ulog") pk); [|exact At]. clear s At. intros s td At Htd.
    apply (okw_many F cause cause_F (lit "ULogDefaultParameter") (lit "ulogdefaultparameter") n_default (fun kv => v_default pk (fst td, fst kv, snd kv)) _ t_ulogdefaultparameter (lit "ULogId") AInt (lit "ulog") pk);
      [reflexivity|reflexivity|reflexivity|apply in_default|reflexivity|reflexivity|intros x; apply gv_default|exact At|intros x j e; apply pe_default|].
    intros [k v] e Hx H. each H.
    - eapply ci; [exact H|]. cbn [fst snd]. eapply li_default; eauto.
    - eapply ct; [exact H|]. cbn [fst snd]. apply (lt_default_key u td (k, v)); auto.
    - eapply cv; [exact H| |]; cbn [snd]; intros y ->; [eapply li_default_value|eapply lt_default]; eauto. }
  apply (okw_many F cause cause_F (lit "ULogChangedParameter") (lit "ulogchangedparameter") n_change (v_change pk) _ t_ulogchangedparameter (lit "ULogId") AInt (lit "ulog") pk);
    [reflexivity|reflexivity|reflexivity|apply in_change|reflexivity|reflexivity|apply gv_change|exact At|intros x j e; apply pe_change|].
  intros [tk v] e Hx H. each H.
  - eapply ci; [exact H|]. apply (li_changed u (tk, v) Hx).
  - eapply ct; [exact H|]. apply (lt_changed_key u (tk, v) Hx).
  - eapply cv; [exact H| |]; cbn [snd]; intros y ->; [eapply li_changed_value|eapply lt_changed]; eauto.
Qed.
End causes.
Lemma save_tx_err F json o d e o' d' : good d -> primary_key_from_sha256sum d (o_sha o) = Ok None ->
  save_tx F json o d = (Err e, o', d') -> cause F json (o_sha o) (o_log o) e.
Proof.
  intros G Hs E. unfold save_tx in E. set (u := o_log o) in *.
  destruct (ins F (O, d) (lit "ULog") _ _) as [[pk s1]|e1] eqn:E1.
  - destruct (ins_inv F (O, d) (lit "ULog") n_log (v_log (o_sha o) u) _ _ (gd_defs _ G) E1) as (df & r1 & I).
    pose proof (in_key _ _ _ _ _ _ _ _ _ I) as Kk. change (ident (lit "ULog")) with (lit "ulog") in Kk. change (keyed (lit "ulog")) with true in Kk. cbv iota in Kk. cbn [snd] in Kk.
    pose proof (in_row _ _ _ _ _ _ _ _ _ I) as R. change (ident (lit "ULog")) with (lit "ulog") in R.
    pose proof (in_grows _ _ _ _ _ _ _ _ _ I) as Gr. change (ident (lit "ULog")) with (lit "ulog") in Gr. cbn [snd] in Gr, R.
    assert (G1 : good (snd s1)). { eapply (good_ins F (O, d)); [exact G|exact I|]. intros c a p L. now apply no_link_ulog in L. }
    assert (W : okw (cause F json (o_sha o) u) pk s1 (save_rest F json pk u s1)).
    { apply w_rest.
      - split; [auto|]. split; [constructor|]. unfold has. rewrite (g_rows _ _ _ Gr), only_same, row_ids_app. apply in_app_iff. right.
        unfold row_ids. cbn [flat_map]. rewrite (prep_id _ _ _ _ _ par_log R). left. now symmetry.
      - intros _. apply Forall_forall. intros ds _ r0 Hr Rf _ _. rewrite (g_rows _ _ _ Gr), only_other, app_nil_r in Hr by (intros X; vm_compute in X; discriminate).
        pose proof (gd_fk _ G _ _ _ _ in_dataset) as Fk. rewrite Forall_forall in Fk. destruct (Fk r0 Hr) as (i & Hi & Ri).
        pose proof (good_id_bound _ _ _ G par_log Hi). unfold refers, ref_cell in Rf, Ri. rewrite Rf in Ri. injection Ri as Ri. lia. }
    destruct (save_rest F json pk u s1) as [s2|e2].
    + destruct (F (fst s2)) as [e3|] eqn:F2; [|discriminate E]. injection E as -> _ _. left. eauto.
    + injection E as -> _ _. exact W.
  - injection E as -> _ _. unfold ins in E1.
    destruct (mapM (fun x => x) _) as [v|e'] eqn:M; cbn [bind] in E1.
    2:{ injection E1 as ->. apply mapM_err in M. cbn [In] in M. repeat (destruct M as [M|M]; [try discriminate M|]); try contradiction;
        try (eapply ci; [exact M|]; apply li_head; cbn; auto; fail); try (eapply ct; [exact M|]; apply lt_head; cbn; auto; fail).
        destruct (bind_text_err _ _ M) as [-> N]. right. cbn. eauto. }
    cbn [fst] in E1. destruct (F O) as [e'|] eqn:F0. { injection E1 as ->. left. eauto. }
    cbn [snd] in E1. unfold sql_insert in E1. change (ident (lit "ULog")) with (lit "ulog") in E1. rewrite (table_v5 _ _ (gd_defs _ G)) in E1.
    change (sget (lit "ulog") v5_defs) with (Some t_ulog) in E1. cbn [bind] in E1.
    change (forallb (has_col (t_cols t_ulog)) _) with true in E1. rewrite (mapM_Ok_length _ _ _ M) in E1. cbn [andb negb length Nat.eqb] in E1.
    destruct (new_row _ _ _ _) as [r|e'] eqn:R; cbn [bind] in E1.
    2:{ assert (X : prep (lit "ulog") n_log (d_seq d (lit "ulog") + 1) (v_log (o_sha o) u) = Err e') by (unfold prep, v_log; rewrite M; exact R).
        pose proof X as Y. apply pe_log in X. exfalso. apply (in_mapM_Err _ _ _ M X). }
    assert (P : prep (lit "ulog") n_log (d_seq d (lit "ulog") + 1) (v_log (o_sha o) u) = Ok r) by (unfold prep, v_log; rewrite M; exact R).
    assert (C : existsb (clash t_ulog r) (d_rows d (lit "ulog")) = false).
    { destruct (find_sha d (o_sha o) G) as [[_ Ex]|(r0 & k & Hk & _)]; [|rewrite Hs in Hk; discriminate].
      etransitivity; [|exact Ex]. clear -P. induction (d_rows d (lit "ulog")) as [|r0 l IH]; [reflexivity|]. cbn [existsb]. now rewrite IH, (log_clash _ _ _ _ r0 P). }
    rewrite C in E1. unfold fks_ok in E1. rewrite no_refs_ok in E1 by reflexivity. discriminate E1.
Qed.
