(** Deleting a log: which rows go. *)
From Verif Require Import Base Dict PyStr PyFloat PySort Struct ModelTypes Sql Schema5 ModelDb SpecDb ProofsDb.

(** ** The nested loops over the tables and columns go through the references to the table *)
Definition cut (t : str) (p : row -> bool) (d : db) : db := set_rows t (filter (fun r => negb (p r)) (d_rows d t)) d.
Definition hits (lk : str * (str * affinity * str)) (ids : list Z) (r : row) : bool :=
  existsb (fun i => is_ref (fst lk) (fst (fst (snd lk))) (snd (fst (snd lk))) i r) ids.
Definition links_to (t : str) : list (str * (str * affinity * str)) := filter (fun lk => str_eqb (snd (snd lk)) t) links.

Lemma foldM_flat {A B S} (f : S -> B -> res S) (g : A -> list B) l : forall s, foldM (fun s x => foldM f (g x) s) l s = foldM f (flat_map g l) s.
Proof.
  induction l as [|x l IH]; intros s; cbn; [reflexivity|]. rewrite foldM_app.
  destruct (foldM f (g x) s); cbn; auto.
Qed.
Lemma foldM_filter {A S} (f : S -> A -> res S) (p : A -> bool) l : forall s, foldM (fun s x => if p x then f s x else Ok s) l s = foldM f (filter p l) s.
Proof.
  induction l as [|x l IH]; intros s; cbn; [reflexivity|]. destruct (p x); cbn; [|apply IH].
  destruct (f s x); cbn; auto.
Qed.
Lemma v5_self : Forall (fun kv => sget (fst kv) v5_defs = Some (snd kv)) v5_defs.
Proof. repeat (apply Forall_cons; [reflexivity|]). apply Forall_nil. Qed.
Lemma v5_cascade : Forall (fun kv => Forall (fun c => match k_ref c with Some (_, false) => False | _ => True end) (t_cols (snd kv))) v5_defs.
Proof. repeat (apply Forall_cons; [cbn; repeat (apply Forall_cons; [exact I|]); apply Forall_nil|]). apply Forall_nil. Qed.

Lemma delete_where_S n d t p df : d_defs d = v5_defs -> sget t v5_defs = Some df ->
  delete_where (S n) d t p =
  foldM (fun d' lk => delete_where n d' (fst lk) (hits lk (row_ids (cols t) (filter p (d_rows d t))))) (links_to t) (cut t p d).
Proof.
  intros D T. cbn [delete_where]. rewrite table_v5, T by auto. cbn [bind]. rewrite (cols_def _ _ T), D.
  set (ids := row_ids (t_cols df) (filter p (d_rows d t))). fold (cut t p d).
  unfold links_to. rewrite <- links_all, <- foldM_filter. unfold refs_of. rewrite <- foldM_flat.
  apply foldM_ext. intros s [ct cdf] Hct. cbn [fst snd].
  assert (Hc : cols ct = t_cols cdf).
  { apply cols_def. pose proof v5_self as F. rewrite Forall_forall in F. apply (F _ Hct). }
  assert (Hcas : Forall (fun c => match k_ref c with Some (_, false) => False | _ => True end) (t_cols cdf)).
  { pose proof v5_cascade as F. rewrite Forall_forall in F. apply (F _ Hct). }
  rewrite <- foldM_flat. apply foldM_ext. intros s' c Hcol.
  rewrite Forall_forall in Hcas. specialize (Hcas c Hcol).
  destruct (k_ref c) as [[par [|]]|]; [|destruct Hcas|reflexivity].
  cbn [foldM fst snd]. destruct (str_eqb par t).
  - unfold hits, is_ref. cbn [fst snd]. rewrite Hc. destruct (delete_where _ _ _ _); reflexivity.
  - reflexivity.
Qed.

Lemma cut_defs t p d : d_defs (cut t p d) = d_defs d.
Proof. reflexivity. Qed.
Lemma cut_same t p d : d_rows (cut t p d) t = filter (fun r => negb (p r)) (d_rows d t).
Proof. unfold cut, set_rows, upd. cbn. now rewrite str_eqb_refl. Qed.
Lemma cut_other t p d t' : t' <> t -> d_rows (cut t p d) t' = d_rows d t'.
Proof. intros H. unfold cut, set_rows, upd. cbn. now rewrite str_eqb_neq. Qed.

(** the table has no references to it *)
Lemma del_leaf n d t p df : d_defs d = v5_defs -> sget t v5_defs = Some df -> links_to t = [] ->
  delete_where (S n) d t p = Ok (cut t p d).
Proof. intros D T L. rewrite (delete_where_S n d t p df) by auto. rewrite L. reflexivity. Qed.

Lemma del_one n d t p df lk : d_defs d = v5_defs -> sget t v5_defs = Some df -> links_to t = [lk] ->
  delete_where (S n) d t p = delete_where n (cut t p d) (fst lk) (hits lk (row_ids (cols t) (filter p (d_rows d t)))).
Proof. intros D T L. rewrite (delete_where_S n d t p df) by auto. rewrite L. cbn [foldM]. destruct (delete_where _ _ _ _); reflexivity. Qed.

Lemma del_list n d p : d_defs d = v5_defs -> (2 <= n)%nat ->
  delete_where n d (fst lk_list) p = Ok (cut (fst lk_elem) (hits lk_elem (row_ids (cols (fst lk_list)) (filter p (d_rows d (fst lk_list))))) (cut (fst lk_list) p d)).
Proof.
  intros D H. destruct n as [|[|n]]; [lia|lia|].
  rewrite (del_one (S n) d _ p t_ulogmessageinfomultiplelist lk_elem) by (auto; reflexivity).
  apply (del_leaf n _ _ _ t_ulogmessageinfomultiplelistelement); auto.
Qed.
Lemma del_multi n d p : d_defs d = v5_defs -> (3 <= n)%nat ->
  delete_where n d (fst lk_multi) p =
  (let D := row_ids (cols (fst lk_multi)) (filter p (d_rows d (fst lk_multi))) in
   let D' := row_ids (cols (fst lk_list)) (filter (hits lk_list D) (d_rows d (fst lk_list))) in
   Ok (cut (fst lk_elem) (hits lk_elem D') (cut (fst lk_list) (hits lk_list D) (cut (fst lk_multi) p d)))).
Proof.
  intros D H. destruct n as [|n]; [lia|].
  rewrite (del_one n d _ p t_ulogmessageinfomultiple lk_list) by (auto; reflexivity).
  rewrite del_list by (auto; lia). reflexivity.
Qed.
Lemma del_dataset n d p : d_defs d = v5_defs -> (2 <= n)%nat ->
  delete_where n d (fst lk_dataset) p = Ok (cut (fst lk_field) (hits lk_field (row_ids (cols (fst lk_dataset)) (filter p (d_rows d (fst lk_dataset))))) (cut (fst lk_dataset) p d)).
Proof.
  intros D H. destruct n as [|[|n]]; [lia|lia|].
  rewrite (del_one (S n) d _ p t_ulogdataset lk_field) by (auto; reflexivity).
  apply (del_leaf n _ _ _ t_ulogfield); auto.
Qed.
Lemma del_format n d p : d_defs d = v5_defs -> (2 <= n)%nat ->
  delete_where n d (fst lk_format) p = Ok (cut (fst lk_ffield) (hits lk_ffield (row_ids (cols (fst lk_format)) (filter p (d_rows d (fst lk_format))))) (cut (fst lk_format) p d)).
Proof.
  intros D H. destruct n as [|[|n]]; [lia|lia|].
  rewrite (del_one (S n) d _ p t_ulogmessageformat lk_ffield) by (auto; reflexivity).
  apply (del_leaf n _ _ _ t_ulogmessageformatfield); auto.
Qed.

(** all of it *)
Definition cut_log (d : db) (p : row -> bool) : db :=
  let D := row_ids (cols (lit "ulog")) (filter p (d_rows d (lit "ulog"))) in
  let ids lk X := row_ids (cols (fst lk)) (filter (hits lk X) (d_rows d (fst lk))) in
  let c lk X d := cut (fst lk) (hits lk X) d in
  c lk_default D (c lk_change D (c lk_param D
   (c lk_elem (ids lk_list (ids lk_multi D)) (c lk_list (ids lk_multi D) (c lk_multi D (c lk_info D (c lk_tagged D (c lk_logging D
    (c lk_ffield (ids lk_format D) (c lk_format D (c lk_dropout D (c lk_field (ids lk_dataset D) (c lk_dataset D (c lk_offset D
     (cut (lit "ulog") p d))))))))))))))).
Lemma del_log n d p : d_defs d = v5_defs -> (5 <= n)%nat -> delete_where n d (lit "ulog") p = Ok (cut_log d p).
Proof.
  intros D H. destruct n as [|n]; [lia|]. assert (Hn : exists m, n = S m) by (exists (pred n); lia). destruct Hn as (m & Em).
  rewrite (delete_where_S n d _ p t_ulog) by (auto; reflexivity).
  set (X := row_ids (cols (lit "ulog")) (filter p (d_rows d (lit "ulog")))).
  change (links_to (lit "ulog")) with [lk_offset; lk_dataset; lk_dropout; lk_format; lk_logging; lk_tagged; lk_info; lk_multi; lk_param; lk_change; lk_default].
  assert (Leaf : forall d lk df, d_defs d = v5_defs -> sget (fst lk) v5_defs = Some df -> links_to (fst lk) = [] ->
    delete_where n d (fst lk) (hits lk X) = Ok (cut (fst lk) (hits lk X) d)).
  { intros. rewrite Em. eapply del_leaf; eauto. }
  cbn [foldM].
  rewrite (Leaf _ lk_offset t_ulogappendedoffsets) by (auto; reflexivity). cbn [bind].
  rewrite del_dataset by (auto; lia). cbn [bind].
  rewrite (Leaf _ lk_dropout t_ulogmessagedropout) by (auto; reflexivity). cbn [bind].
  rewrite del_format by (auto; lia). cbn [bind].
  rewrite (Leaf _ lk_logging t_ulogmessagelogging) by (auto; reflexivity). cbn [bind].
  rewrite (Leaf _ lk_tagged t_ulogmessageloggingtagged) by (auto; reflexivity). cbn [bind].
  rewrite (Leaf _ lk_info t_ulogmessageinfo) by (auto; reflexivity). cbn [bind].
  rewrite del_multi by (auto; lia). cbv zeta. cbn [bind].
  rewrite (Leaf _ lk_param t_uloginitialparameter) by (auto; reflexivity). cbn [bind].
  rewrite (Leaf _ lk_change t_ulogchangedparameter) by (auto; reflexivity). cbn [bind].
  rewrite (Leaf _ lk_default t_ulogdefaultparameter) by (auto; reflexivity). cbn [bind].
  reflexivity.
Qed.

(** ** Which rows are cut *)
Definition doomed_ids (d : db) (pk : Z) (t : str) (D : list Z) : Prop :=
  forall i, In i D <-> owns d pk t i /\ In i (row_ids (cols t) (d_rows d t)).

Lemma hits_iff lk ids r : hits lk ids r = true <-> exists i, In i ids /\ is_ref (fst lk) (fst (fst (snd lk))) (snd (fst (snd lk))) i r = true.
Proof. unfold hits. apply existsb_exists. Qed.

Lemma owns_exists d pk t c a p i r : good d -> In (t, (c, a, p)) links -> In r (d_rows d t) -> owns d pk p i -> refers t c a r i ->
  In i (row_ids (cols p) (d_rows d p)).
Proof.
  intros G L Hr O R. pose proof (gd_fk _ G t c a p L) as F. rewrite Forall_forall in F. destruct (F r Hr) as (j & Hj & Rj).
  assert (i = j); [|congruence]. unfold refers in *. rewrite R in Rj.
  destruct (links_ref _ _ _ _ L) as [->| ->]; [now injection Rj|].
  apply owns_pos in O; [|exact G|eapply link_text_parent; eauto].
  apply (good_id_bound _ _ _ G (links_parent _ _ _ _ L)) in Hj.
  eapply ref_cell_inj; [| |exact Rj]; lia.
Qed.
Lemma hits_belongs d pk t c a p D r : good d -> In (t, (c, a, p)) links -> doomed_ids d pk p D -> In r (d_rows d t) ->
  (hits (t, (c, a, p)) D r = true <-> belongs d pk t r).
Proof.
  intros G L HD Hr. rewrite hits_iff. cbn [fst snd]. split.
  - intros (i & Hi & R). right. exists c, a, p, i. apply HD in Hi as [O _]. rewrite <- (is_ref_refers _ _ _ _ _ _ L). auto.
  - intros [[-> _]|(c' & a' & p' & i & L' & O & R)]; [destruct (no_link_ulog _ L)|].
    pose proof (links_fun _ _ _ L L') as E. injection E as <- <- <-.
    exists i. split; [|now apply (is_ref_refers _ _ _ _ _ _ L)].
    apply HD. split; auto. eapply owns_exists; eauto.
Qed.
Lemma doomed_child d pk t c a p D : good d -> In (t, (c, a, p)) links -> doomed_ids d pk p D ->
  doomed_ids d pk t (row_ids (cols t) (filter (hits (t, (c, a, p)) D) (d_rows d t))).
Proof.
  intros G L HD i. rewrite row_ids_In. split.
  - intros (r & Hr & Hi). apply filter_In in Hr as [Hr H]. rewrite hits_belongs in H by eauto.
    destruct H as [[-> _]|(c' & a' & p' & j & L' & O & R)]; [destruct (no_link_ulog _ L)|].
    split; [eapply owns_child; eauto|]. apply row_ids_In. eauto.
  - intros [O Hi]. inversion O as [E1 E2|t' c' a' p' j r k O' L' Hr R Hk E1 E2]; subst; [destruct (no_link_ulog _ L)|].
    exists r. split; [|exact Hk]. apply filter_In. split; auto. apply (hits_belongs d pk t c a p D); auto.
    right. exists c', a', p', j. auto.
Qed.
Lemma log_id r pk : (is_ref (lit "ulog") (lit "Id") AInt pk r = true <-> row_id (cols (lit "ulog")) r = Some pk).
Proof.
  unfold is_ref. rewrite cell_is_ref by now left. change (cols (lit "ulog")) with c_ulog. destruct r as [|x r].
  - split; discriminate.
  - change (cell_at c_ulog (x :: r) (lit "Id")) with x. change (row_id c_ulog (x :: r)) with (match x with CInt z => Some z | _ => None end).
    cbn [ref_cell]. split; [now intros ->|]. destruct x; try discriminate. now intros [= ->].
Qed.
Lemma doomed_log d pk p : (forall r, p r = true <-> row_id (cols (lit "ulog")) r = Some pk) ->
  doomed_ids d pk (lit "ulog") (row_ids (cols (lit "ulog")) (filter p (d_rows d (lit "ulog")))).
Proof.
  intros Hp i. rewrite row_ids_In. split.
  - intros (r & Hr & Hi). apply filter_In in Hr as [Hr H]. apply Hp in H. rewrite H in Hi. injection Hi as <-.
    split; [constructor|]. apply row_ids_In. eauto.
  - intros [O Hi]. inversion O as [E1 E2|t' c' a' p' j r k O' L' Hr R Hk E1 E2]; subst; [|destruct (no_link_ulog _ L')].
    apply row_ids_In in Hi as (r & Hr & Hi). exists r. split; auto. apply filter_In. split; auto. now apply Hp.
Qed.

Record cuts (d d' : db) (pk : Z) : Prop := {
  ct_defs : d_defs d' = d_defs d; ct_idx : d_idx d' = d_idx d; ct_ver : d_version d' = d_version d;
  ct_seq : d_seq d' = d_seq d;
  ct_rows : forall t, exists f, d_rows d' t = filter f (d_rows d t) /\ forall r, In r (d_rows d t) -> (f r = true <-> ~ belongs d pk t r) }.

Definition tables : list str := map fst v5_defs.
Lemma tables_links t x : In (t, x) links -> In t tables.
Proof.
  intros H. apply (in_map fst) in H. cbn [fst] in H. revert H.
  assert (E : incl (map fst links) tables).
  { assert (F : forallb (fun x => existsb (str_eqb x) tables) (map fst links) = true) by (vm_compute; reflexivity).
    intros y Hy. rewrite forallb_forall in F. specialize (F y Hy). apply existsb_exists in F as (z & Hz & Ez).
    apply str_eqb_eq in Ez. now subst z. }
  intros H. now apply E.
Qed.

Lemma negb_belongs (b : bool) P : (b = true <-> P) -> (negb b = true <-> ~ P).
Proof.
  intros E. destruct b; cbn; split; try discriminate.
  - intros H. exfalso. apply H, E. reflexivity.
  - intros _ X. apply E in X. discriminate.
  - reflexivity.
Qed.

Ltac lit_neq := let H := fresh in intros H; discriminate H.
Lemma cut_rows t p d t' : d_rows (cut t p d) t' = if str_eqb t' t then filter (fun r => negb (p r)) (d_rows d t) else d_rows d t'.
Proof. unfold cut, set_rows, upd. reflexivity. Qed.
Ltac cut_at := repeat (rewrite cut_rows;
  match goal with |- context [str_eqb ?a ?b] => let v := eval vm_compute in (str_eqb a b) in change (str_eqb a b) with v end; cbv iota).
Lemma cut_log_spec d pk p : good d -> (forall r, p r = true <-> row_id (cols (lit "ulog")) r = Some pk) -> cuts d (cut_log d p) pk.
Proof.
  intros G Hp. pose proof (doomed_log d pk p Hp) as D0. unfold cut_log. cbv zeta.
  set (D := row_ids (cols (lit "ulog")) (filter p (d_rows d (lit "ulog")))) in *.
  assert (Dd : doomed_ids d pk (fst lk_dataset) (row_ids (cols (fst lk_dataset)) (filter (hits lk_dataset D) (d_rows d (fst lk_dataset)))))
    by (apply doomed_child; auto; cbn; auto 20).
  assert (Df : doomed_ids d pk (fst lk_format) (row_ids (cols (fst lk_format)) (filter (hits lk_format D) (d_rows d (fst lk_format)))))
    by (apply doomed_child; auto; cbn; auto 20).
  assert (Dm : doomed_ids d pk (fst lk_multi) (row_ids (cols (fst lk_multi)) (filter (hits lk_multi D) (d_rows d (fst lk_multi)))))
    by (apply doomed_child; auto; cbn; auto 20).
  set (X1 := row_ids (cols (fst lk_dataset)) _) in *. set (X2 := row_ids (cols (fst lk_format)) _) in *. set (X3 := row_ids (cols (fst lk_multi)) _) in *.
  assert (Dl : doomed_ids d pk (fst lk_list) (row_ids (cols (fst lk_list)) (filter (hits lk_list X3) (d_rows d (fst lk_list)))))
    by (apply doomed_child; auto; cbn; auto 20).
  set (X4 := row_ids (cols (fst lk_list)) _) in *. clearbody D X1 X2 X3 X4.
  split; try reflexivity. intros t.
  destruct (in_dec (list_eq_dec Z.eq_dec) t tables) as [Ht|Ht].
  - unfold tables in Ht. cbn [map fst v5_defs In] in Ht.
    repeat (destruct Ht as [<-|Ht];
      [unfold lk_offset, lk_dataset, lk_field, lk_dropout, lk_format, lk_ffield, lk_logging, lk_tagged, lk_info, lk_multi, lk_list, lk_elem, lk_param, lk_change, lk_default in *;
       cbn [fst] in *; cut_at; eexists; split; [reflexivity|]; cbv beta; intros r Hr; apply negb_belongs;
       first [apply hits_belongs; auto; cbn [links In]; auto 20
             |rewrite Hp; split; [intros E; left; auto | intros [[_ E]|(c & a & p' & i & L & _)]; [exact E|destruct (no_link_ulog _ L)]]]|]).
    destruct Ht.
  - exists (fun _ => true). split.
    + rewrite filter_all by auto. unfold lk_offset, lk_dataset, lk_field, lk_dropout, lk_format, lk_ffield, lk_logging, lk_tagged, lk_info, lk_multi, lk_list, lk_elem, lk_param, lk_change, lk_default.
      cbn [fst]. repeat (rewrite cut_other; [|intros ->; apply Ht; cbn; auto 20]). reflexivity.
    + intros r _. split; auto. intros _ [[-> _]|(c & a & p' & i & L & _)]; apply Ht; [cbn; auto|eapply tables_links; eauto].
Qed.

Lemma sql_delete_log d pk : good d -> exists d', sql_delete d (lit "ULog") [(lit "Id", CInt pk)] = Ok d' /\ cuts d d' pk.
Proof.
  intros G. exists (cut_log d (where_ (t_cols t_ulog) [(lit "Id", CInt pk)])). split.
  - unfold sql_delete. rewrite table_v5 by apply (gd_defs _ G). change (sget (ident (lit "ULog")) v5_defs) with (Some t_ulog). cbn [bind].
    change (ident (lit "ULog")) with (lit "ulog"). rewrite (gd_defs _ G).
    apply del_log; [apply (gd_defs _ G)|vm_compute; lia].
  - apply cut_log_spec; [exact G|]. intros r. rewrite <- log_id. unfold where_. cbn [forallb fst snd]. now rewrite andb_true_r.
Qed.
