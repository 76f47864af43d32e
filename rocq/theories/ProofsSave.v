(** What save writes. *)
From Verif Require Import Base Dict PyStr PyFloat PySort Struct ModelTypes ModelApi Sql Schema5 ModelDb SpecDb ProofsDb ProofsFrame.

(** ** The reference in a new row *)
Lemma new_row_cell k cs names v r c cd x : new_row k cs names v = Ok r -> find (fun y => str_eqb (k_name y) c) cs = Some cd ->
  k_key cd = false -> apply_aff (k_aff cd) (value_for names v (k_name cd)) = Ok x -> cell_at cs r c = x.
Proof.
  revert r. unfold new_row. induction cs as [|y cs IH]; intros r E F K X; [discriminate|].
  cbn [mapM] in E. destruct (if k_key y then _ else _) as [z|] eqn:Y; [|discriminate]. cbn [bind] in E.
  destruct (mapM _ cs) as [r'|] eqn:E'; [|discriminate]. cbn [bind] in E.
  apply (f_equal (fun q => match q with Ok w => w | Err _ => [] end)) in E. cbv beta iota in E. subst r.
  cbn [cell_at]. cbn [find] in F. destruct (str_eqb (k_name y) c) eqn:N.
  - injection F as <-. rewrite K, X in Y. now injection Y.
  - now apply IH.
Qed.
Definition gives (names : list str) (vals : list (res cell)) (c : str) (i : Z) : Prop :=
  forall v, mapM (fun x => x) vals = Ok v -> value_for names v c = CInt i.
Lemma prep_refers t c a p names k vals r i : In (t, (c, a, p)) links -> gives names vals c i -> prep t names k vals = Ok r -> refers t c a r i.
Proof.
  intros L V E. unfold prep in E. destruct (mapM _ vals) as [v|] eqn:M; [|discriminate]. cbn [bind] in E.
  specialize (V v M). unfold refers.
  eapply new_row_cell; [exact E|apply (link_col _ _ _ _ L)|reflexivity|]. cbn [k_aff k_name]. rewrite V.
  destruct (links_ref _ _ _ _ L) as [->| ->]; reflexivity.
Qed.

Fixpoint given (names : list str) (vals : list (res cell)) (c : str) : option (res cell) :=
  match names, vals with
  | m :: names', x :: vals' => if str_eqb m c then Some x else given names' vals' c
  | _, _ => None
  end.
Lemma gives_given names : forall vals c i, given names vals c = Some (Ok (CInt i)) -> gives names vals c i.
Proof.
  induction names as [|m names IH]; intros [|x vals] c i H v M; try discriminate.
  cbn [mapM] in M. destruct x as [y|]; [|discriminate]. cbn [bind] in M. destruct (mapM _ vals) as [v'|] eqn:M'; [|discriminate].
  cbn [bind] in M. injection M as <-. cbn [given] in H. cbn [value_for]. destruct (str_eqb m c); [now injection H as ->|].
  now apply (IH vals c i H).
Qed.

(** ** Additions to one log *)
Lemma grows_owns d d' N pk t i : grows d d' N -> owns d pk t i -> owns d' pk t i.
Proof.
  intros G. induction 1 as [|t c a p i r j Ho IH L Hr Hf Hj]; [constructor|].
  econstructor; eauto. rewrite (g_rows _ _ _ G). apply in_app_iff. now left.
Qed.
Record adds (pk : Z) (d d' : db) (N : str -> list row) : Prop := {
  ad_good : good d'; ad_grows : grows d d' N; ad_agree : forall pk', pk' <> pk -> agree d d' pk';
  ad_new : forall t i, In t parents -> In i (row_ids (cols t) (N t)) -> d_seq d t < i }.
Lemma adds_refl pk d : good d -> adds pk d d (fun _ => []).
Proof. intros G. split; auto; [apply grows_refl|intros; apply agree_refl|intros t i _ []]. Qed.
Lemma adds_trans pk d d' d'' N N' : adds pk d d' N -> adds pk d' d'' N' -> adds pk d d'' (fun t => N t ++ N' t).
Proof.
  intros [A1 A2 A3 A4] [B1 B2 B3 B4]. split; auto; [eapply grows_trans; eauto| |].
  - intros. eapply agree_trans; eauto.
  - intros t i P H. rewrite row_ids_app, in_app_iff in H. destruct H as [H|H]; [auto|]. specialize (B4 t i P H).
    rewrite (g_seq _ _ _ A2) in B4. destruct (keyed t); [pose proof (lenZ_nonneg (N t))|]; lia.
Qed.
Lemma adds_ext pk d d' N N' : (forall t, N t = N' t) -> adds pk d d' N -> adds pk d d' N'.
Proof. intros H [A1 A2 A3 A4]. split; auto; [eapply grows_ext; eauto|]. intros t i P. rewrite <- H. auto. Qed.
Lemma only_new t names d vals r i : prep t names (d_seq d t + 1) vals = Ok r -> forall t', In t' parents -> In i (row_ids (cols t') (only t [r] t')) -> d_seq d t' < i.
Proof.
  intros R t' P H. destruct (str_eqb_spec t' t) as [->|N]; [|rewrite only_other in H by auto; destruct H].
  rewrite only_same in H. cbn [row_ids flat_map] in H. rewrite (prep_id _ _ _ _ _ P R) in H. destruct H as [<-|[]]. lia.
Qed.
Lemma adds_owns pk d d' N t i : adds pk d d' N -> owns d pk t i -> owns d' pk t i.
Proof. intros A. eapply grows_owns, (ad_grows _ _ _ _ A). Qed.

Lemma ins_child F s t T names vals k s' c a p pk i : good (snd s) -> ident t = T -> In (T, (c, a, p)) links ->
  ins F s t names vals = Ok (k, s') -> gives names vals c i -> owns (snd s) pk p i ->
  exists r, prep T names (d_seq (snd s) T + 1) vals = Ok r /\ adds pk (snd s) (snd s') (only T [r]) /\
    (keyed T = true -> k = d_seq (snd s) T + 1 /\ owns (snd s') pk T k).
Proof.
  intros G <- L E V O. destruct (ins_inv _ _ _ _ _ _ _ (gd_defs _ G) E) as (df & r & I).
  exists r. pose proof (in_row _ _ _ _ _ _ _ _ _ I) as R. split; [exact R|].
  pose proof (prep_refers _ _ _ _ _ _ _ _ _ L V R) as Rf.
  pose proof (in_grows _ _ _ _ _ _ _ _ _ I) as Gr.
  split; [split|].
  - eapply good_ins; eauto. intros c' a' p' L'. pose proof (links_fun _ _ _ L L') as X. injection X as <- <- <-.
    unfold refers in Rf. rewrite Rf. destruct a; discriminate.
  - exact Gr.
  - intros pk' N. eapply agree_ins; [exact I|right; intros X; rewrite X in L; now apply no_link_ulog in L|].
    intros c' a' p' i' L' O' R'. pose proof (links_fun _ _ _ L L') as X. injection X as <- <- <-.
    assert (i = i') by (eapply owns_ref_inj; eauto). subst i'. apply N. eapply owns_unique; eauto.
  - intros t' j P'. eapply only_new; eauto.
  - intros K. pose proof (in_key _ _ _ _ _ _ _ _ _ I) as Ek. rewrite K in Ek. split; [exact Ek|].
    eapply owns_child; [eapply grows_owns; eauto|exact L| |exact Rf|].
    + rewrite (g_rows _ _ _ Gr), only_same. apply in_app_iff. right. now left.
    + rewrite Ek. eapply prep_id; [|exact R]. eapply link_keyed; eauto.
Qed.

Definition rows_for (T : str) (names : list str) (vals : list (list (res cell))) (rs : list row) : Prop :=
  Forall2 (fun v r => exists k, prep T names k v = Ok r) vals rs.
Lemma ins_many_child F t T names c a p pk i rows : ident t = T -> In (T, (c, a, p)) links ->
  Forall (fun vals => gives names vals c i) rows ->
  forall s s', good (snd s) -> owns (snd s) pk p i -> ins_many F s t names rows = Ok s' ->
  exists rs, adds pk (snd s) (snd s') (only T rs) /\ rows_for T names rows rs.
Proof.
  intros HT L HV. induction HV as [|vals rows V HV IH]; intros s s' G O E; unfold ins_many in E; cbn [foldM] in E.
  - injection E as <-. exists []. split; [|constructor]. eapply adds_ext; [|apply adds_refl; auto]. intros x. unfold only. now destruct (str_eqb x T).
  - destruct (ins F s t names vals) as [[k s1]|] eqn:E1; [|discriminate]. cbn [bind snd] in E.
    destruct (ins_child F s t T names vals k s1 c a p pk i G HT L E1 V O) as (r & R & A & _).
    destruct (IH s1 s' (ad_good _ _ _ _ A) (adds_owns _ _ _ _ _ _ A O) E) as (rs & A' & R').
    exists (r :: rs). split; [|constructor; eauto].
    eapply adds_ext; [|eapply adds_trans; eauto]. intros x. unfold only. now destruct (str_eqb x T).
Qed.
Lemma ins_many_Forall (f : list (res cell) -> Prop) {A} (g : A -> list (res cell)) l : (forall x, f (g x)) -> Forall f (map g l).
Proof. intros H. induction l; constructor; auto. Qed.


(** ** The values of every statement *)
Definition n_offset := [lit "SeriesIndex"; lit "Offset"; lit "ULogId"].
Definition v_offset (pk : Z) (io : Z * Z) : list (res cell) := [bind_int (fst io); bind_int (snd io); Ok (CInt pk)].
Definition n_dataset := [lit "DatasetName"; lit "MultiId"; lit "MessageId"; lit "TimestampIndex"; lit "ULogId"].
Definition v_dataset (pk : Z) (ds : dataset) : list (res cell) :=
  [bind_text (ds_name ds); bind_int (ds_multi ds); bind_int (ds_id ds); bind_int (ds_tsidx ds); Ok (CInt pk)].
Definition n_field := [lit "TopicName"; lit "DataType"; lit "ValueArray"; lit "DatasetId"].
Definition v_field (id : Z) (fc : fielddata * column) : list (res cell) :=
  [bind_text (fd_name (fst fc)); Ok (CText (ctype_name (fd_type (fst fc)))); Ok (CBlob (tobytes (snd fc))); Ok (CInt id)].
Definition n_dropout := [lit "Timestamp"; lit "Duration"; lit "ULogId"].
Definition v_dropout (pk : Z) (x : dropout) : list (res cell) := [bind_int (dr_ts x); bind_int (dr_dur x); Ok (CInt pk)].
Definition n_logged := [lit "LogLevel"; lit "Timestamp"; lit "Message"; lit "ULogId"].
Definition v_logged (pk : Z) (x : logmsg) : list (res cell) := [bind_int (lg_level x); bind_int (lg_ts x); bind_text (lg_msg x); Ok (CInt pk)].
Definition n_tagged := [lit "LogLevel"; lit "Timestamp"; lit "Tag"; lit "Message"; lit "ULogId"].
Definition v_tagged (pk : Z) (tx : Z * tagmsg) : list (res cell) :=
  [bind_int (tg_level (snd tx)); bind_int (tg_ts (snd tx)); bind_int (fst tx); bind_text (tg_msg (snd tx)); Ok (CInt pk)].
Definition n_format := [lit "Name"; lit "ULogId"].
Definition v_format (pk : Z) (nm : str * mformat) : list (res cell) := [bind_text (fst nm); Ok (CInt pk)].
Definition n_ffield := [lit "FieldType"; lit "ArraySize"; lit "Name"; lit "MessageId"].
Definition v_ffield (id : Z) (f : str * Z * str) : list (res cell) := [bind_text (fst (fst f)); bind_int (snd (fst f)); bind_text (snd f); Ok (CInt id)].
Definition n_info := [lit "Key"; lit "Value"; lit "Typename"; lit "ULogId"].
Definition v_info (pk : Z) (x : str * str * value) : list (res cell) :=
  [bind_text (fst (fst x)); bind_value (snd x); bind_text (snd (fst x)); Ok (CInt pk)].
Definition n_multi := [lit "Key"; lit "Typename"; lit "ULogId"].
Definition v_multi (pk : Z) (kt : str * str) : list (res cell) := [bind_text (fst kt); bind_text (snd kt); Ok (CInt pk)].
Definition n_list := [lit "SeriesIndex"; lit "MessageId"].
Definition v_list (id i : Z) : list (res cell) := [bind_int i; Ok (CInt id)].
Definition n_elem := [lit "SeriesIndex"; lit "Value"; lit "ListId"].
Definition v_elem (id : Z) (iv : Z * value) : list (res cell) := [bind_int (fst iv); bind_value (snd iv); Ok (CInt id)].
Definition n_param := [lit "Key"; lit "Value"; lit "ULogId"].
Definition v_param (pk : Z) (kv : str * value) : list (res cell) := [bind_text (fst kv); bind_value (snd kv); Ok (CInt pk)].
Definition n_default := [lit "DefaultType"; lit "Key"; lit "Value"; lit "ULogId"].
Definition v_default (pk : Z) (x : Z * str * value) : list (res cell) :=
  [bind_int (fst (fst x)); bind_text (snd (fst x)); bind_value (snd x); Ok (CInt pk)].
Definition n_change := [lit "Timestamp"; lit "Key"; lit "Value"; lit "ULogId"].
Definition v_change (pk : Z) (x : Z * str * value) : list (res cell) :=
  [bind_int (fst (fst x)); bind_text (snd (fst x)); bind_value (snd x); Ok (CInt pk)].

Ltac gv := intros; apply gives_given; reflexivity.
Lemma gv_offset pk x : gives n_offset (v_offset pk x) (lit "ULogId") pk. Proof. gv. Qed.
Lemma gv_dataset pk x : gives n_dataset (v_dataset pk x) (lit "ULogId") pk. Proof. gv. Qed.
Lemma gv_field pk x : gives n_field (v_field pk x) (lit "DatasetId") pk. Proof. gv. Qed.
Lemma gv_dropout pk x : gives n_dropout (v_dropout pk x) (lit "ULogId") pk. Proof. gv. Qed.
Lemma gv_logged pk x : gives n_logged (v_logged pk x) (lit "ULogId") pk. Proof. gv. Qed.
Lemma gv_tagged pk x : gives n_tagged (v_tagged pk x) (lit "ULogId") pk. Proof. gv. Qed.
Lemma gv_format pk x : gives n_format (v_format pk x) (lit "ULogId") pk. Proof. gv. Qed.
Lemma gv_ffield pk x : gives n_ffield (v_ffield pk x) (lit "MessageId") pk. Proof. gv. Qed.
Lemma gv_info pk x : gives n_info (v_info pk x) (lit "ULogId") pk. Proof. gv. Qed.
Lemma gv_multi pk x : gives n_multi (v_multi pk x) (lit "ULogId") pk. Proof. gv. Qed.
Lemma gv_list pk x : gives n_list (v_list pk x) (lit "MessageId") pk. Proof. gv. Qed.
Lemma gv_elem pk x : gives n_elem (v_elem pk x) (lit "ListId") pk. Proof. gv. Qed.
Lemma gv_param pk x : gives n_param (v_param pk x) (lit "ULogId") pk. Proof. gv. Qed.
Lemma gv_default pk x : gives n_default (v_default pk x) (lit "ULogId") pk. Proof. gv. Qed.
Lemma gv_change pk x : gives n_change (v_change pk x) (lit "ULogId") pk. Proof. gv. Qed.

(** ** The loops *)
(** rows with their keys, from [base] + 1 on, and the rows that refer to each *)
Inductive tree {A} (P : Z -> A -> row -> Prop) (Q : Z -> A -> list row -> Prop) : Z -> list A -> list row -> list row -> Prop :=
| tree_nil base : tree P Q base [] [] []
| tree_cons base x l r fr rs frs : P (base + 1) x r -> Q (base + 1) x fr -> tree P Q (base + 1) l rs frs ->
    tree P Q base (x :: l) (r :: rs) (fr ++ frs).
Definition two (t1 : str) (r1 : list row) (t2 : str) (r2 : list row) : str -> list row := fun t => only t1 r1 t ++ only t2 r2 t.
Lemma two_trans t1 r1 t2 r2 r1' r2' t : str_eqb t1 t2 = false -> two t1 r1 t2 r2 t ++ two t1 r1' t2 r2' t = two t1 (r1 ++ r1') t2 (r2 ++ r2') t.
Proof.
  intros H. unfold two, only. destruct (str_eqb_spec t t1) as [->|].
  - rewrite H. now rewrite !app_nil_r.
  - destruct (str_eqb t t2); cbn; now rewrite ?app_nil_r.
Qed.
Lemma two_nil t1 t2 t : two t1 [] t2 [] t = [].
Proof. unfold two, only. destruct (str_eqb t t1), (str_eqb t t2); reflexivity. Qed.
Lemma two_seq pk d d' t1 r1 t2 r2 : adds pk d d' (two t1 r1 t2 r2) -> str_eqb t1 t2 = false -> keyed t1 = true -> d_seq d' t1 = d_seq d t1 + lenZ r1.
Proof.
  intros A H K. rewrite (g_seq _ _ _ (ad_grows _ _ _ _ A)), K. unfold two, only. rewrite str_eqb_refl, H, app_nil_r. reflexivity.
Qed.
Lemma only_nil t t' : only t [] t' = [].
Proof. unfold only. now destruct (str_eqb t' t). Qed.
Lemma only_app t a b t' : only t a t' ++ only t b t' = only t (a ++ b) t'.
Proof. unfold only. now destruct (str_eqb t' t). Qed.

Lemma foldM_tree {A} (f : sst -> A -> res sst) P Q pk T T2 p i l : str_eqb T T2 = false -> keyed T = true ->
  (forall s x s', good (snd s) -> owns (snd s) pk p i -> f s x = Ok s' ->
     exists r fr, adds pk (snd s) (snd s') (two T [r] T2 fr) /\ P (d_seq (snd s) T + 1) x r /\ Q (d_seq (snd s) T + 1) x fr) ->
  forall s s', good (snd s) -> owns (snd s) pk p i -> foldM f l s = Ok s' ->
  exists rs frs, adds pk (snd s) (snd s') (two T rs T2 frs) /\ tree P Q (d_seq (snd s) T) l rs frs.
Proof.
  intros HT HK Step. induction l as [|x l IH]; intros s s' G O E; cbn [foldM] in E.
  - injection E as <-. exists [], []. split; [|constructor]. eapply adds_ext; [|apply adds_refl; auto]. intros t. symmetry. apply two_nil.
  - destruct (f s x) as [s1|] eqn:E1; [|discriminate]. cbn [bind] in E.
    destruct (Step s x s1 G O E1) as (r & fr & A1 & HP & HQ).
    destruct (IH s1 s' (ad_good _ _ _ _ A1) (adds_owns _ _ _ _ _ _ A1 O) E) as (rs & frs & A2 & R2).
    exists (r :: rs), (fr ++ frs). split.
    + eapply adds_ext; [|eapply adds_trans; eauto]. intros t. now apply (two_trans _ [r] _ fr rs frs t).
    + rewrite (two_seq _ _ _ _ _ _ _ A1 HT HK) in R2. constructor; auto.
Qed.

(** one dataset *)
Definition field_saved (ds : dataset) (id : Z) (fd : fielddata) (r : row) : Prop :=
  exists col k, sget (fd_name fd) (ds_data ds) = Some col /\ prep (lit "ulogfield") n_field k (v_field id (fd, col)) = Ok r.
Definition fields_saved (id : Z) (ds : dataset) (fr : list row) : Prop := Forall2 (field_saved ds id) (ds_fields ds) fr.
Definition dataset_saved (pk id : Z) (ds : dataset) (r : row) : Prop := prep (lit "ulogdataset") n_dataset id (v_dataset pk ds) = Ok r.
Lemma foldM_fields F json ds id pk l : forall s s', good (snd s) -> owns (snd s) pk (lit "ulogdataset") id ->
  foldM (save_field F json ds id) l s = Ok s' ->
  exists fr, adds pk (snd s) (snd s') (only (lit "ulogfield") fr) /\ Forall2 (field_saved ds id) l fr.
Proof.
  induction l as [|fd l IH]; intros s s' G O E; cbn [foldM] in E.
  - injection E as <-. exists []. split; [|constructor]. eapply adds_ext; [|apply adds_refl; auto]. intros x. now rewrite only_nil.
  - destruct (save_field F json ds id s fd) as [s1|] eqn:E1; [|discriminate]. cbn [bind] in E.
    unfold save_field in E1. destruct (sget (fd_name fd) (ds_data ds)) as [col|] eqn:C; [|discriminate].
    match type of E1 with bind ?x _ = _ => destruct x; [|discriminate] end. cbn [bind] in E1.
    match type of E1 with bind ?x _ = _ => destruct x as [[k s2]|] eqn:E2; [|discriminate] end. cbn [bind snd] in E1. injection E1 as ->.
    destruct (ins_child F s (lit "ULogField") (lit "ulogfield") n_field (v_field id (fd, col)) k s1 _ _ _ pk id G eq_refl in_field E2 (gv_field _ _) O) as (r & R & A & _).
    destruct (IH s1 s' (ad_good _ _ _ _ A) (adds_owns _ _ _ _ _ _ A O) E) as (fr & A' & R').
    exists (r :: fr). split; [|constructor; [exists col, (d_seq (snd s) (lit "ulogfield") + 1); auto|exact R']].
    eapply adds_ext; [|eapply adds_trans; eauto]. intros x. apply (only_app _ [r] fr).
Qed.
Lemma step_dataset F json pk s ds s' : good (snd s) -> save_dataset F json pk s ds = Ok s' ->
  exists r fr, adds pk (snd s) (snd s') (two (lit "ulogdataset") [r] (lit "ulogfield") fr) /\
    dataset_saved pk (d_seq (snd s) (lit "ulogdataset") + 1) ds r /\ fields_saved (d_seq (snd s) (lit "ulogdataset") + 1) ds fr.
Proof.
  intros G E. unfold save_dataset in E.
  match type of E with bind ?x _ = _ => destruct x as [[k s2]|] eqn:E2; [|discriminate] end. cbn [bind fst snd] in E.
  destruct (ins_child F s (lit "ULogDataSet") (lit "ulogdataset") n_dataset (v_dataset pk ds) k s2 _ _ _ pk pk G eq_refl in_dataset E2 (gv_dataset _ _) (owns_log _ pk)) as (r & R & A & K).
  destruct (K eq_refl) as [-> O].
  destruct (foldM_fields _ _ _ _ pk _ _ _ (ad_good _ _ _ _ A) O E) as (fr & A' & R').
  exists r, fr. split; [eapply adds_trans; eauto|]. now split.
Qed.

(** one message format *)
Definition format_saved (pk id : Z) (nm : str * mformat) (r : row) : Prop := prep (lit "ulogmessageformat") n_format id (v_format pk nm) = Ok r.
Definition ffields_saved (id : Z) (nm : str * mformat) (fr : list row) : Prop :=
  rows_for (lit "ulogmessageformatfield") n_ffield (map (v_ffield id) (mf_fields (snd nm))) fr.
Lemma step_format F pk s nm s' : good (snd s) -> save_format F pk s nm = Ok s' ->
  exists r fr, adds pk (snd s) (snd s') (two (lit "ulogmessageformat") [r] (lit "ulogmessageformatfield") fr) /\
    format_saved pk (d_seq (snd s) (lit "ulogmessageformat") + 1) nm r /\ ffields_saved (d_seq (snd s) (lit "ulogmessageformat") + 1) nm fr.
Proof.
  intros G E. unfold save_format in E.
  match type of E with bind ?x _ = _ => destruct x as [[k s2]|] eqn:E2; [|discriminate] end. cbn [bind fst snd] in E.
  destruct (ins_child F s (lit "ULogMessageFormat") (lit "ulogmessageformat") n_format (v_format pk nm) k s2 _ _ _ pk pk G eq_refl in_format E2 (gv_format _ _) (owns_log _ pk)) as (r & R & A & K).
  destruct (K eq_refl) as [-> O].
  destruct (ins_many_child F (lit "ULogMessageFormatField") (lit "ulogmessageformatfield") n_ffield _ _ _ pk _ _ eq_refl in_ffield
    (ins_many_Forall _ (v_ffield _) _ (gv_ffield _)) s2 s' (ad_good _ _ _ _ A) O E) as (fr & A' & R').
  exists r, fr. split; [eapply adds_trans; eauto|]. now split.
Qed.

(** one list of an info message, one info message with several values *)
Definition list_saved (message id : Z) (il : Z * list value) (r : row) : Prop :=
  prep (lit "ulogmessageinfomultiplelist") n_list id (v_list message (fst il)) = Ok r.
Definition elems_saved (id : Z) (il : Z * list value) (er : list row) : Prop :=
  rows_for (lit "ulogmessageinfomultiplelistelement") n_elem (map (v_elem id) (enumerate (snd il))) er.
Lemma step_list F message pk s il s' : good (snd s) -> owns (snd s) pk (lit "ulogmessageinfomultiple") message -> save_list F message s il = Ok s' ->
  exists r er, adds pk (snd s) (snd s') (two (lit "ulogmessageinfomultiplelist") [r] (lit "ulogmessageinfomultiplelistelement") er) /\
    list_saved message (d_seq (snd s) (lit "ulogmessageinfomultiplelist") + 1) il r /\ elems_saved (d_seq (snd s) (lit "ulogmessageinfomultiplelist") + 1) il er.
Proof.
  intros G OM E. unfold save_list in E.
  match type of E with bind ?x _ = _ => destruct x as [[k s2]|] eqn:E2; [|discriminate] end. cbn [bind fst snd] in E.
  destruct (ins_child F s (lit "ULogMessageInfoMultipleList") (lit "ulogmessageinfomultiplelist") n_list (v_list message (fst il)) k s2 _ _ _ pk message G eq_refl in_list E2 (gv_list _ _) OM) as (r & R & A & K).
  destruct (K eq_refl) as [-> O].
  destruct (ins_many_child F (lit "ULogMessageInfoMultipleListElement") (lit "ulogmessageinfomultiplelistelement") n_elem _ _ _ pk _ _ eq_refl in_elem
    (ins_many_Forall _ (v_elem _) _ (gv_elem _)) s2 s' (ad_good _ _ _ _ A) O E) as (fr & A' & R').
  exists r, fr. split; [eapply adds_trans; eauto|]. now split.
Qed.
Definition three (r1 r2 r3 : list row) : str -> list row :=
  fun t => only (lit "ulogmessageinfomultiple") r1 t ++ two (lit "ulogmessageinfomultiplelist") r2 (lit "ulogmessageinfomultiplelistelement") r3 t.
Lemma three_trans r1 r2 r3 r1' r2' r3' t : three r1 r2 r3 t ++ three r1' r2' r3' t = three (r1 ++ r1') (r2 ++ r2') (r3 ++ r3') t.
Proof.
  unfold three. unfold only at 1 2 3. destruct (str_eqb_spec t (lit "ulogmessageinfomultiple")) as [->|].
  - unfold two. rewrite !only_other by discriminate. now rewrite !app_nil_r.
  - cbn [app]. now apply two_trans.
Qed.
Definition multi_saved (pk id : Z) (types : dict str str) (kl : str * list (list value)) (r : row) : Prop :=
  exists ty, sget (fst kl) types = Some ty /\ prep (lit "ulogmessageinfomultiple") n_multi id (v_multi pk (fst kl, ty)) = Ok r.
Definition lists_saved (message base : Z) (kl : str * list (list value)) (lr er : list row) : Prop :=
  tree (list_saved message) elems_saved base (enumerate (snd kl)) lr er.
Inductive multis_saved (pk : Z) (types : dict str str) : Z -> Z -> list (str * list (list value)) -> list row -> list row -> list row -> Prop :=
| ms_nil base baseL : multis_saved pk types base baseL [] [] [] []
| ms_cons base baseL kl l r lr er rs lrs ers :
    multi_saved pk (base + 1) types kl r -> lists_saved (base + 1) baseL kl lr er ->
    multis_saved pk types (base + 1) (baseL + lenZ lr) l rs lrs ers ->
    multis_saved pk types base baseL (kl :: l) (r :: rs) (lr ++ lrs) (er ++ ers).
Lemma step_multi F pk types s kl s' : good (snd s) -> save_multi F pk types s kl = Ok s' ->
  exists r lr er, adds pk (snd s) (snd s') (three [r] lr er) /\
    multi_saved pk (d_seq (snd s) (lit "ulogmessageinfomultiple") + 1) types kl r /\
    lists_saved (d_seq (snd s) (lit "ulogmessageinfomultiple") + 1) (d_seq (snd s) (lit "ulogmessageinfomultiplelist")) kl lr er.
Proof.
  intros G E. unfold save_multi in E. destruct (sget (fst kl) types) as [ty|] eqn:Ty; [|discriminate].
  match type of E with bind ?x _ = _ => destruct x as [[k s2]|] eqn:E2; [|discriminate] end. cbn [bind fst snd] in E.
  destruct (ins_child F s (lit "ULogMessageInfoMultiple") (lit "ulogmessageinfomultiple") n_multi (v_multi pk (fst kl, ty)) k s2 _ _ _ pk pk G eq_refl in_multi E2 (gv_multi _ _) (owns_log _ pk)) as (r & R & A & K).
  destruct (K eq_refl) as [-> O].
  destruct (foldM_tree (save_list F (d_seq (snd s) (lit "ulogmessageinfomultiple") + 1)) (list_saved (d_seq (snd s) (lit "ulogmessageinfomultiple") + 1)) elems_saved pk
    (lit "ulogmessageinfomultiplelist") (lit "ulogmessageinfomultiplelistelement") _ _ (enumerate (snd kl)) eq_refl eq_refl
    (fun s0 x s0' G0 O0 E0 => step_list F _ pk s0 x s0' G0 O0 E0) s2 s' (ad_good _ _ _ _ A) O E) as (lr & er & A' & R').
  exists r, lr, er. split; [eapply adds_trans; eauto|]. split; [exists ty; auto|].
  rewrite (g_seq _ _ _ (ad_grows _ _ _ _ A)), only_other in R' by discriminate.
  change (keyed (lit "ulogmessageinfomultiplelist")) with true in R'. cbv iota in R'. change (lenZ (@nil row)) with 0 in R'. now rewrite Z.add_0_r in R'.
Qed.
Lemma three_seq pk d d' r1 r2 r3 : adds pk d d' (three r1 r2 r3) ->
  d_seq d' (lit "ulogmessageinfomultiple") = d_seq d (lit "ulogmessageinfomultiple") + lenZ r1 /\
  d_seq d' (lit "ulogmessageinfomultiplelist") = d_seq d (lit "ulogmessageinfomultiplelist") + lenZ r2.
Proof.
  intros A. rewrite !(g_seq _ _ _ (ad_grows _ _ _ _ A)).
  change (keyed (lit "ulogmessageinfomultiple")) with true. change (keyed (lit "ulogmessageinfomultiplelist")) with true. cbv iota.
  unfold three, two. rewrite !only_same.
  rewrite (only_other (lit "ulogmessageinfomultiple") r1 (lit "ulogmessageinfomultiplelist")) by discriminate.
  rewrite !(only_other (lit "ulogmessageinfomultiplelist") r2 (lit "ulogmessageinfomultiple")) by discriminate.
  rewrite !(only_other (lit "ulogmessageinfomultiplelistelement") r3) by discriminate.
  now rewrite !app_nil_r.
Qed.
Lemma foldM_multi F pk types l : forall s s', good (snd s) -> foldM (save_multi F pk types) l s = Ok s' ->
  exists rs lrs ers, adds pk (snd s) (snd s') (three rs lrs ers) /\
    multis_saved pk types (d_seq (snd s) (lit "ulogmessageinfomultiple")) (d_seq (snd s) (lit "ulogmessageinfomultiplelist")) l rs lrs ers.
Proof.
  induction l as [|x l IH]; intros s s' G E; cbn [foldM] in E.
  - injection E as <-. exists [], [], []. split; [|constructor]. eapply adds_ext; [|apply adds_refl; auto]. intros t. unfold three. now rewrite only_nil, two_nil.
  - destruct (save_multi F pk types s x) as [s1|] eqn:E1; [|discriminate]. cbn [bind] in E.
    destruct (step_multi _ _ _ s x s1 G E1) as (r & lr & er & A1 & HP & HQ).
    destruct (IH s1 s' (ad_good _ _ _ _ A1) E) as (rs & lrs & ers & A2 & R2).
    exists (r :: rs), (lr ++ lrs), (er ++ ers). split.
    + eapply adds_ext; [|eapply adds_trans; eauto]. intros t. apply (three_trans [r]).
    + destruct (three_seq _ _ _ _ _ _ A1) as [S1 S2]. rewrite S1, S2 in R2. econstructor; eauto.
Qed.

(** ** All statements after the first one *)
Lemma ins_many_nested {A} F t names (g : A -> list (list (res cell))) l s :
  foldM (fun s x => ins_many F s t names (g x)) l s = ins_many F s t names (flat_map g l).
Proof.
  unfold ins_many. revert s. induction l as [|x l IH]; intros s; cbn [foldM flat_map]; [reflexivity|].
  assert (H : forall a b s, foldM (fun s vals => let* r := ins F s t names vals in Ok (snd r)) (a ++ b) s =
     (let* s' := foldM (fun s vals => let* r := ins F s t names vals in Ok (snd r)) a s in foldM (fun s vals => let* r := ins F s t names vals in Ok (snd r)) b s')).
  { intros a b. induction a as [|y a IHa]; intros s0; cbn [app foldM]; [reflexivity|].
    destruct (ins F s0 t names y); cbn [bind]; auto. }
  rewrite H. destruct (foldM _ (g x) s); cbn [bind]; auto.
Qed.
Definition all_tagged (u : ulog) : list (Z * tagmsg) := flat_map (fun tl => map (fun x => (fst tl, x)) (snd tl)) (u_tagged u).
Definition all_defaults (u : ulog) : list (Z * str * value) := flat_map (fun td => map (fun kv => (fst td, fst kv, snd kv)) (snd td)) (u_defaults u).
Definition info_typed (u : ulog) (kv : str * value) (x : str * str * value) : Prop :=
  exists ty, sget (fst kv) (u_infot u) = Some ty /\ x = (fst kv, ty, snd kv).
Record saved (pk : Z) (d d' : db) (u : ulog) (N : str -> list row) : Prop := {
  sv_adds : adds pk d d' N;
  sv_log : N (lit "ulog") = [];
  sv_offset : rows_for (lit "ulogappendedoffsets") n_offset (map (v_offset pk) (enumerate (u_offsets u))) (N (lit "ulogappendedoffsets"));
  sv_dataset : tree (dataset_saved pk) fields_saved (d_seq d (lit "ulogdataset")) (u_data u) (N (lit "ulogdataset")) (N (lit "ulogfield"));
  sv_dropout : rows_for (lit "ulogmessagedropout") n_dropout (map (v_dropout pk) (u_dropouts u)) (N (lit "ulogmessagedropout"));
  sv_logged : rows_for (lit "ulogmessagelogging") n_logged (map (v_logged pk) (u_logged u)) (N (lit "ulogmessagelogging"));
  sv_tagged : rows_for (lit "ulogmessageloggingtagged") n_tagged (map (v_tagged pk) (all_tagged u)) (N (lit "ulogmessageloggingtagged"));
  sv_format : tree (format_saved pk) ffields_saved (d_seq d (lit "ulogmessageformat")) (u_formats u) (N (lit "ulogmessageformat")) (N (lit "ulogmessageformatfield"));
  sv_info : exists infos, Forall2 (info_typed u) (u_info u) infos /\ rows_for (lit "ulogmessageinfo") n_info (map (v_info pk) infos) (N (lit "ulogmessageinfo"));
  sv_multi : multis_saved pk (u_multit u) (d_seq d (lit "ulogmessageinfomultiple")) (d_seq d (lit "ulogmessageinfomultiplelist")) (u_multi u)
    (N (lit "ulogmessageinfomultiple")) (N (lit "ulogmessageinfomultiplelist")) (N (lit "ulogmessageinfomultiplelistelement"));
  sv_param : rows_for (lit "uloginitialparameter") n_param (map (v_param pk) (u_params u)) (N (lit "uloginitialparameter"));
  sv_default : rows_for (lit "ulogdefaultparameter") n_default (map (v_default pk) (all_defaults u)) (N (lit "ulogdefaultparameter"));
  sv_change : rows_for (lit "ulogchangedparameter") n_change (map (v_change pk) (u_changed u)) (N (lit "ulogchangedparameter")) }.

Lemma flat_map_map {A B C} (g : A -> list B) (f : B -> C) l : flat_map (fun x => map f (g x)) l = map f (flat_map g l).
Proof. induction l; cbn; [reflexivity|]. now rewrite map_app, IHl. Qed.
Lemma infos_typed u pk l rows :
  mapM (fun kv => match sget (fst kv) (u_infot u) with
                  | None => Err KeyError
                  | Some ty => Ok [bind_text (fst kv); bind_value (snd kv); bind_text ty; Ok (CInt pk)]
                  end) l = Ok rows ->
  exists infos, Forall2 (info_typed u) l infos /\ rows = map (v_info pk) infos.
Proof.
  intros M. apply mapM_F2 in M. induction M as [|kv row l rows E M (infos & H & ->)].
  - exists []. now split.
  - destruct (sget (fst kv) (u_infot u)) as [ty|] eqn:T; [|discriminate]. injection E as <-.
    exists ((fst kv, ty, snd kv) :: infos). split; [|reflexivity]. constructor; [|exact H]. exists ty. auto.
Qed.
Ltac dec_str :=
  repeat match goal with
  | |- context [str_eqb (lit ?a) (lit ?b)] =>
      let v := eval vm_compute in (str_eqb (lit a) (lit b)) in change (str_eqb (lit a) (lit b)) with v
  end; cbv iota; cbn [app]; rewrite ?app_nil_r.
Lemma adds_seq pk d d' N t : adds pk d d' N -> N t = [] -> d_seq d' t = d_seq d t.
Proof. intros A H. rewrite (g_seq _ _ _ (ad_grows _ _ _ _ A)), H. destruct (keyed t); cbn; lia. Qed.

Lemma save_rest_saved F json pk u s s' : good (snd s) -> save_rest F json pk u s = Ok s' -> exists N, saved pk (snd s) (snd s') u N.
Proof.
  intros G E. unfold save_rest in E.
  Ltac nxt E H := match type of E with bind ?x _ = _ => destruct x eqn:H; [|discriminate E]; cbn [bind] in E end.
  nxt E E1. nxt E E2. nxt E E3. nxt E E4. nxt E E5. nxt E E6. nxt E EI. nxt E E7. nxt E E8. nxt E E9. nxt E E10.
  destruct (ins_many_child F (lit "ULogAppendedOffsets") (lit "ulogappendedoffsets") n_offset _ _ _ pk _ _ eq_refl in_offset
    (ins_many_Forall _ (v_offset pk) _ (gv_offset _)) _ _ G (owns_log _ pk) E1) as (r1 & A1 & R1).
  destruct (foldM_tree (save_dataset F json pk) (dataset_saved pk) fields_saved pk (lit "ulogdataset") (lit "ulogfield") _ _ (u_data u) eq_refl eq_refl
    (fun s x s' G _ E => step_dataset F json pk s x s' G E) _ _ (ad_good _ _ _ _ A1) (owns_log _ pk) E2) as (r2 & q2 & A2 & R2).
  destruct (ins_many_child F (lit "ULogMessageDropout") (lit "ulogmessagedropout") n_dropout _ _ _ pk _ _ eq_refl in_dropout
    (ins_many_Forall _ (v_dropout pk) _ (gv_dropout _)) _ _ (ad_good _ _ _ _ A2) (owns_log _ pk) E3) as (r3 & A3 & R3).
  destruct (ins_many_child F (lit "ULogMessageLogging") (lit "ulogmessagelogging") n_logged _ _ _ pk _ _ eq_refl in_logging
    (ins_many_Forall _ (v_logged pk) _ (gv_logged _)) _ _ (ad_good _ _ _ _ A3) (owns_log _ pk) E4) as (r4 & A4 & R4).
  rewrite ins_many_nested in E5.
  replace (flat_map _ (u_tagged u)) with (map (v_tagged pk) (all_tagged u)) in E5
    by (unfold all_tagged; rewrite <- flat_map_map; apply flat_map_ext; intros; now rewrite map_map).
  destruct (ins_many_child F (lit "ULogMessageLoggingTagged") (lit "ulogmessageloggingtagged") n_tagged _ _ _ pk _ _ eq_refl in_tagged
    (ins_many_Forall _ (v_tagged pk) _ (gv_tagged _)) _ _ (ad_good _ _ _ _ A4) (owns_log _ pk) E5) as (r5 & A5 & R5).
  destruct (foldM_tree (save_format F pk) (format_saved pk) ffields_saved pk (lit "ulogmessageformat") (lit "ulogmessageformatfield") _ _ (u_formats u) eq_refl eq_refl
    (fun s x s' G _ E => step_format F pk s x s' G E) _ _ (ad_good _ _ _ _ A5) (owns_log _ pk) E6) as (r6 & q6 & A6 & R6).
  destruct (infos_typed _ _ _ _ EI) as (infos & HI & ->).
  destruct (ins_many_child F (lit "ULogMessageInfo") (lit "ulogmessageinfo") n_info _ _ _ pk _ _ eq_refl in_info
    (ins_many_Forall _ (v_info pk) _ (gv_info _)) _ _ (ad_good _ _ _ _ A6) (owns_log _ pk) E7) as (r7 & A7 & R7).
  destruct (foldM_multi _ _ _ _ _ _ (ad_good _ _ _ _ A7) E8) as (r8 & q8 & p8 & A8 & R8).
  destruct (ins_many_child F (lit "ULogInitialParameter") (lit "uloginitialparameter") n_param _ _ _ pk _ _ eq_refl in_param
    (ins_many_Forall _ (v_param pk) _ (gv_param _)) _ _ (ad_good _ _ _ _ A8) (owns_log _ pk) E9) as (r9 & A9 & R9).
  rewrite ins_many_nested in E10.
  replace (flat_map _ (u_defaults u)) with (map (v_default pk) (all_defaults u)) in E10
    by (unfold all_defaults; rewrite <- flat_map_map; apply flat_map_ext; intros; now rewrite map_map).
  destruct (ins_many_child F (lit "ULogDefaultParameter") (lit "ulogdefaultparameter") n_default _ _ _ pk _ _ eq_refl in_default
    (ins_many_Forall _ (v_default pk) _ (gv_default _)) _ _ (ad_good _ _ _ _ A9) (owns_log _ pk) E10) as (r10 & A10 & R10).
  destruct (ins_many_child F (lit "ULogChangedParameter") (lit "ulogchangedparameter") n_change _ _ _ pk _ _ eq_refl in_change
    (ins_many_Forall _ (v_change pk) _ (gv_change _)) _ _ (ad_good _ _ _ _ A10) (owns_log _ pk) E) as (r11 & A11 & R11).
  pose proof (adds_trans _ _ _ _ _ _ A1 A2) as B2. pose proof (adds_trans _ _ _ _ _ _ B2 A3) as B3.
  pose proof (adds_trans _ _ _ _ _ _ B3 A4) as B4. pose proof (adds_trans _ _ _ _ _ _ B4 A5) as B5.
  pose proof (adds_trans _ _ _ _ _ _ B5 A6) as B6. pose proof (adds_trans _ _ _ _ _ _ B6 A7) as B7.
  pose proof (adds_trans _ _ _ _ _ _ B7 A8) as B8. pose proof (adds_trans _ _ _ _ _ _ B8 A9) as B9.
  pose proof (adds_trans _ _ _ _ _ _ B9 A10) as B10. pose proof (adds_trans _ _ _ _ _ _ B10 A11) as B11. cbv beta in *.
  rewrite (adds_seq _ _ _ _ _ A1) in R2 by (unfold only; dec_str; reflexivity).
  rewrite (adds_seq _ _ _ _ _ B5) in R6 by (unfold two, only; dec_str; reflexivity).
  rewrite !(adds_seq _ _ _ _ _ B7) in R8 by (unfold two, only; dec_str; reflexivity).
  eexists. split; [exact B11|..]; unfold three, two, only; dec_str; try assumption; [reflexivity|].
  exists infos. auto.
Qed.

(** ** The transaction *)
Definition n_log := [lit "FileVersion"; lit "StartTimestamp"; lit "LastTimestamp"; lit "CompatFlags"; lit "IncompatFlags";
  lit "SyncCount"; lit "HasSync"; lit "SHA256Sum"].
Definition v_log (sha : str) (u : ulog) : list (res cell) :=
  [bind_int (u_version u); bind_int (u_start u); bind_int (u_last u); bind_text (u_compat u); bind_text (u_incompat u);
   bind_int (u_sync_cnt u); Ok (CInt (if u_has_sync u then 1 else 0)); bind_text sha].
Definition next_key (d : db) : Z := d_seq d (lit "ulog") + 1.
Record tx (d d' : db) (sha : str) (u : ulog) (r : row) (d1 : db) (N : str -> list row) : Prop := {
  tx_row : prep (lit "ulog") n_log (next_key d) (v_log sha u) = Ok r;
  tx_clash : existsb (clash t_ulog r) (d_rows d (lit "ulog")) = false;
  tx_log : adds (next_key d) d d1 (only (lit "ulog") [r]);
  tx_saved : saved (next_key d) d1 d' u N }.
Lemma save_tx_cases F json o d : good d ->
  (exists e, save_tx F json o d = (Err e, o, d)) \/ (exists e, save_tx F json o d = (Err e, set_pk (Some (next_key d)) o, d)) \/
  (exists r d1 N d', save_tx F json o d = (Ok tt, set_pk (Some (next_key d)) o, d') /\ tx d d' (o_sha o) (o_log o) r d1 N).
Proof.
  intros G. unfold save_tx. 
  destruct (ins F (O, d) (lit "ULog") _ _) as [[pk s]|e] eqn:E; [|left; exists e; reflexivity]. right.
  destruct (ins_inv F (O, d) _ _ _ _ _ (gd_defs _ G) E) as (df & r & I).
  pose proof (in_key _ _ _ _ _ _ _ _ _ I) as K. change (ident (lit "ULog")) with (lit "ulog") in K. change (keyed (lit "ulog")) with true in K.
  cbv iota in K. cbn [snd] in K. fold (next_key d) in K. subst pk.
  pose proof (in_def _ _ _ _ _ _ _ _ _ I) as D. change (ident (lit "ULog")) with (lit "ulog") in D.
  assert (df = t_ulog) as -> by (injection D; auto). clear D.
  pose proof (in_row _ _ _ _ _ _ _ _ _ I) as R. pose proof (in_clash _ _ _ _ _ _ _ _ _ I) as C. pose proof (in_grows _ _ _ _ _ _ _ _ _ I) as Gr.
  cbn [snd] in R, C, Gr. change (ident (lit "ULog")) with (lit "ulog") in *. fold (next_key d) in R.
  assert (A : adds (next_key d) d (snd s) (only (lit "ulog") [r])).
  { split; [| | |].
    - eapply (good_ins F (O, d)); [exact G|exact I|]. intros c a p L. now apply no_link_ulog in L.
    - exact Gr.
    - intros pk' N. eapply (agree_ins F (O, d)); [exact I| |].
      + left. destruct (is_ref (lit "ulog") (lit "Id") AInt pk' r) eqn:X; [|reflexivity]. exfalso. apply N.
        unfold is_ref in X. apply cell_is_ref in X; [|now left]. apply (id_cell (lit "ulog") r pk' par_log) in X.
        apply (prep_id _ _ _ _ _ par_log) in R. rewrite X in R. now injection R.
      + intros c a p i L. now apply no_link_ulog in L.
    - intros t' j P'. eapply only_new; eauto. }
  destruct (save_rest F json (next_key d) (o_log o) s) as [s'|e] eqn:E'; [|left; exists e; reflexivity].
  destruct (F (fst s')) as [e|]; [left; exists e; reflexivity|]. right.
  destruct (save_rest_saved _ _ _ _ _ _ (ad_good _ _ _ _ A) E') as (N & S').
  exists r, (snd s), N, (snd s'). split; [reflexivity|]. split; auto.
Qed.
