(** A log that fits the schema can be saved. *)
From Coq Require Import Sorted.
From Verif Require Import Base Dict PyStr PyFloat PySort Struct ModelTypes ModelApi Sql Schema5 ModelDb SpecDb SpecStorable ProofsDb ProofsFrame ProofsSave ProofsStore ProofsReload.

(** ** The rows *)
Lemma bind_int_ok z : int64 z -> bind_int z = Ok (CInt z).
Proof. unfold int64, bind_int. intros H. replace (_ && _) with true; [reflexivity|]. symmetry. apply andb_true_iff. split; [apply Z.leb_le|apply Z.ltb_lt]; lia. Qed.
Lemma bind_text_ok s : no_surrogate s -> bind_text s = Ok (CText s).
Proof.
  unfold no_surrogate, bind_text. intros H. replace (forallb _ _) with true; [reflexivity|]. symmetry. apply forallb_forall.
  rewrite Forall_forall in H. intros c Hc. specialize (H c Hc). apply negb_true_iff, andb_false_iff.
  destruct (Z.leb_spec 55296 c); [right; apply Z.leb_gt; lia|now left].
Qed.
Lemma bind_value_ok v : storable_value v -> exists c, bind_value v = Ok c.
Proof. destruct v; cbn; intros H; eauto. - rewrite bind_int_ok; eauto. - rewrite bind_text_ok; eauto. Qed.
Ltac pr := intros; unfold prep;
  repeat first [rewrite bind_int_ok by assumption | rewrite bind_text_ok by assumption]; eexists; reflexivity.
Lemma pr_offset pk k x : int64 (fst x) -> int64 (snd x) -> exists r, prep (lit "ulogappendedoffsets") n_offset k (v_offset pk x) = Ok r.
Proof. unfold v_offset. pr. Qed.
Lemma pr_dataset pk k x : no_surrogate (ds_name x) -> int64 (ds_multi x) -> int64 (ds_id x) -> int64 (ds_tsidx x) ->
  exists r, prep (lit "ulogdataset") n_dataset k (v_dataset pk x) = Ok r.
Proof. unfold v_dataset. pr. Qed.
Lemma pr_field pk k x : no_surrogate (fd_name (fst x)) -> exists r, prep (lit "ulogfield") n_field k (v_field pk x) = Ok r.
Proof. unfold v_field. pr. Qed.
Lemma pr_dropout pk k x : int64 (dr_ts x) -> int64 (dr_dur x) -> exists r, prep (lit "ulogmessagedropout") n_dropout k (v_dropout pk x) = Ok r.
Proof. unfold v_dropout. pr. Qed.
Lemma pr_logged pk k x : int64 (lg_level x) -> int64 (lg_ts x) -> no_surrogate (lg_msg x) ->
  exists r, prep (lit "ulogmessagelogging") n_logged k (v_logged pk x) = Ok r.
Proof. unfold v_logged. pr. Qed.
Lemma pr_tagged pk k x : int64 (tg_level (snd x)) -> int64 (tg_ts (snd x)) -> int64 (fst x) -> no_surrogate (tg_msg (snd x)) ->
  exists r, prep (lit "ulogmessageloggingtagged") n_tagged k (v_tagged pk x) = Ok r.
Proof. unfold v_tagged. pr. Qed.
Lemma pr_format pk k x : no_surrogate (fst x) -> exists r, prep (lit "ulogmessageformat") n_format k (v_format pk x) = Ok r.
Proof. unfold v_format. pr. Qed.
Lemma pr_ffield pk k x : no_surrogate (fst (fst x)) -> int64 (snd (fst x)) -> no_surrogate (snd x) ->
  exists r, prep (lit "ulogmessageformatfield") n_ffield k (v_ffield pk x) = Ok r.
Proof. unfold v_ffield. pr. Qed.
Lemma pr_info pk k x : no_surrogate (fst (fst x)) -> no_surrogate (snd (fst x)) -> storable_value (snd x) ->
  exists r, prep (lit "ulogmessageinfo") n_info k (v_info pk x) = Ok r.
Proof. intros ? ? H. destruct (bind_value_ok _ H) as (c & E). unfold v_info. rewrite E. pr. Qed.
Lemma pr_multi pk k x : no_surrogate (fst x) -> no_surrogate (snd x) -> exists r, prep (lit "ulogmessageinfomultiple") n_multi k (v_multi pk x) = Ok r.
Proof. unfold v_multi. pr. Qed.
Lemma pr_list pk k x : int64 x -> exists r, prep (lit "ulogmessageinfomultiplelist") n_list k (v_list pk x) = Ok r.
Proof. unfold v_list. pr. Qed.
Lemma pr_elem pk k x : int64 (fst x) -> storable_value (snd x) -> exists r, prep (lit "ulogmessageinfomultiplelistelement") n_elem k (v_elem pk x) = Ok r.
Proof.
  intros ? H. unfold v_elem. destruct (snd x) as [z|b|b|s|b]; cbn [bind_value]; cbn in H; [rewrite (bind_int_ok z H)|destruct b|destruct (f64_is_nan b)|rewrite (bind_text_ok s H)|]; pr.
Qed.
Lemma pr_param pk k x : no_surrogate (fst x) -> storable_value (snd x) -> exists r, prep (lit "uloginitialparameter") n_param k (v_param pk x) = Ok r.
Proof. intros ? H. destruct (bind_value_ok _ H) as (c & E). unfold v_param. rewrite E. pr. Qed.
Lemma pr_default pk k x : int64 (fst (fst x)) -> no_surrogate (snd (fst x)) -> storable_value (snd x) ->
  exists r, prep (lit "ulogdefaultparameter") n_default k (v_default pk x) = Ok r.
Proof. intros ? ? H. destruct (bind_value_ok _ H) as (c & E). unfold v_default. rewrite E. pr. Qed.
Lemma pr_change pk k x : int64 (fst (fst x)) -> no_surrogate (snd (fst x)) -> storable_value (snd x) ->
  exists r, prep (lit "ulogchangedparameter") n_change k (v_change pk x) = Ok r.
Proof. intros ? ? H. destruct (bind_value_ok _ H) as (c & E). unfold v_change. rewrite E. pr. Qed.
Lemma pr_log k sha u : int64 (u_version u) -> int64 (u_start u) -> int64 (u_last u) -> int64 (u_sync_cnt u) ->
  no_surrogate (u_compat u) -> no_surrogate (u_incompat u) -> no_surrogate sha ->
  exists r, prep (lit "ulog") n_log k (v_log sha u) = Ok r.
Proof. unfold v_log. pr. Qed.

(** ** One statement *)
Definition has (d : db) (p : str) (i : Z) : Prop := In i (row_ids (cols p) (d_rows d p)).
Lemma has_grows d d' N p i : grows d d' N -> has d p i -> has d' p i.
Proof. intros G H. unfold has. rewrite (g_rows _ _ _ G), row_ids_app. apply in_app_iff. now left. Qed.
(** the only reference of a table *)
Definition no_ref (cd : coldef) : bool := match k_ref cd with None => true | Some _ => false end.
Fixpoint lone (cs : list coldef) (c : str) : bool :=
  match cs with
  | [] => true
  | y :: cs' => if str_eqb (k_name y) c then forallb no_ref cs' else no_ref y && lone cs' c
  end.
Lemma links_lone t c a p : In (t, (c, a, p)) links -> lone (cols t) c = true.
Proof.
  intros H. assert (A : forallb (fun l : str * (str * affinity * str) => lone (cols (fst l)) (fst (fst (snd l)))) links = true) by (vm_compute; reflexivity).
  rewrite forallb_forall in A. exact (A _ H).
Qed.
Lemma no_refs_ok d cs : forall r, forallb no_ref cs = true -> mapM (fun p => fk_ok d (fst p) (snd p)) (combine cs r) = Ok (map (fun _ => tt) (combine cs r)).
Proof.
  induction cs as [|y cs IH]; intros [|x r] H; cbn [combine mapM map]; try reflexivity. cbn [forallb] in H. apply andb_true_iff in H as [H1 H2].
  cbn [fst snd]. unfold fk_ok at 1. unfold no_ref in H1. destruct (k_ref y); [discriminate|]. cbn [bind]. now rewrite IH.
Qed.
Lemma lone_ok d cs c cd : forall r, lone cs c = true -> find (fun y => str_eqb (k_name y) c) cs = Some cd ->
  fk_ok d cd (cell_at cs r c) = Ok tt -> exists l, mapM (fun p => fk_ok d (fst p) (snd p)) (combine cs r) = Ok l.
Proof.
  induction cs as [|y cs IH]; intros [|x r] L Fd K; cbn [combine mapM]; eauto. cbn [lone] in L. cbn [find] in Fd. cbn [cell_at] in K.
  cbn [fst snd]. destruct (str_eqb (k_name y) c).
  - injection Fd as ->. rewrite K. cbn [bind]. rewrite no_refs_ok by auto. cbn [bind]. eauto.
  - apply andb_true_iff in L as [L1 L2]. unfold fk_ok at 1. unfold no_ref in L1. destruct (k_ref y); [discriminate|]. cbn [bind].
    destruct (IH r L2 Fd K) as (l & ->). cbn [bind]. eauto.
Qed.
Lemma fks_child d t c a p r i df : d_defs d = v5_defs -> In (t, (c, a, p)) links -> sget t v5_defs = Some df -> refers t c a r i -> has d p i ->
  fks_ok d (t_cols df) r = Ok tt.
Proof.
  intros D L T R H. unfold fks_ok. pose proof (links_lone _ _ _ _ L) as Ln. pose proof (link_col _ _ _ _ L) as Lc. rewrite (cols_def _ _ T) in Ln, Lc.
  destruct (lone_ok d _ _ _ r Ln Lc) as (l & ->); [|reflexivity].
  unfold refers in R. rewrite (cols_def _ _ T) in R. rewrite R. unfold fk_ok. cbn [k_ref k_aff].
  destruct (parent_def p (links_parent _ _ _ _ L)) as (pdf & P). rewrite table_v5, P by auto. cbn [bind].
  unfold has in H. rewrite (cols_def _ _ P) in H.
  replace (existsb _ _) with true; [destruct a; reflexivity|]. symmetry. apply existsb_exists. exists i. split; auto.
  apply cell_is_ref; auto. eapply links_ref; eauto.
Qed.
Lemma ins_names_ok t df names vals v k r : sget t v5_defs = Some df -> forallb (has_col (cols t)) names = true -> length names = length vals ->
  mapM (fun x => x) vals = Ok v -> prep t names k vals = Ok r ->
  forallb (has_col (t_cols df)) names && Nat.eqb (length names) (length vals) = true /\ new_row k (t_cols df) names v = Ok r.
Proof.
  intros T N Le M P. rewrite <- (cols_def _ _ T), N, Le, Nat.eqb_refl. split; [reflexivity|]. unfold prep in P. rewrite M in P. exact P.
Qed.
Lemma ins_ok s t T names vals df c a p i : good (snd s) -> ident t = T -> sget T v5_defs = Some df -> In (T, (c, a, p)) links ->
  forallb (has_col (cols T)) names = true -> length names = length vals -> gives names vals c i -> has (snd s) p i ->
  (exists r, prep T names (d_seq (snd s) T + 1) vals = Ok r /\ existsb (clash df r) (d_rows (snd s) T) = false) ->
  exists k s', ins no_fault s t names vals = Ok (k, s').
Proof.
  intros G <- TD L N Le V H (r & P & C). pose proof (prep_refers _ _ _ _ _ _ _ _ _ L V P) as R.
  destruct (mapM (fun x => x) vals) as [v|] eqn:M; [|unfold prep in P; rewrite M in P; discriminate].
  destruct (ins_names_ok _ _ _ _ _ _ _ TD N Le M P) as [E1 E2].
  eapply ins_fwd; eauto; [apply (gd_defs _ G)|]. eapply fks_child; eauto. apply (gd_defs _ G).
Qed.
Lemma no_clash df r l : t_uniq df = [] -> existsb (clash df r) l = false.
Proof. intros H. induction l; [reflexivity|]. cbn. unfold clash at 1. rewrite H. exact IHl. Qed.
Lemma ins_ok' s t T names vals df c a p i : good (snd s) -> ident t = T -> sget T v5_defs = Some df -> t_uniq df = [] -> In (T, (c, a, p)) links ->
  forallb (has_col (cols T)) names = true -> length names = length vals -> gives names vals c i -> has (snd s) p i ->
  (forall k, exists r, prep T names k vals = Ok r) -> exists k s', ins no_fault s t names vals = Ok (k, s').
Proof. intros. eapply ins_ok; eauto. destruct (H8 (d_seq (snd s) T + 1)) as (r & Hr). exists r. split; auto. now apply no_clash. Qed.
Lemma ins_has s t T names vals k s' c a p pk i : good (snd s) -> ident t = T -> In (T, (c, a, p)) links ->
  ins no_fault s t names vals = Ok (k, s') -> gives names vals c i -> owns (snd s) pk p i -> keyed T = true ->
  has (snd s') T k /\ owns (snd s') pk T k.
Proof.
  intros G HT L E V O K. destruct (ins_child _ _ _ T _ _ _ _ _ _ _ pk _ G HT L E V O) as (r & P & A & Ow). destruct (Ow K) as [-> O']. split; [|exact O'].
  unfold has. rewrite (g_rows _ _ _ (ad_grows _ _ _ _ A)), only_same, row_ids_app. apply in_app_iff. right.
  unfold row_ids. cbn [flat_map]. rewrite (prep_id _ _ _ _ _ (link_keyed _ _ _ _ L K) P). now left.
Qed.
Lemma ins_many_ok pk t T names df c a p i rows : ident t = T -> sget T v5_defs = Some df -> t_uniq df = [] -> In (T, (c, a, p)) links ->
  forallb (has_col (cols T)) names = true ->
  Forall (fun vals => length names = length vals /\ gives names vals c i /\ forall k, exists r, prep T names k vals = Ok r) rows ->
  forall s, good (snd s) -> owns (snd s) pk p i -> has (snd s) p i ->
  exists s', ins_many no_fault s t names rows = Ok s'.
Proof.
  intros HT TD U L N HV. induction HV as [|vals rows (Le & V & P) HV IH]; intros s G O H; unfold ins_many; cbn [foldM]; eauto.
  destruct (ins_ok' s t T names vals df c a p i) as (k & s1 & E); auto. rewrite E. cbn [bind snd].
  destruct (ins_child _ _ _ T _ _ _ _ _ _ _ pk _ G HT L E V O) as (r & _ & A & _).
  apply IH; [apply (ad_good _ _ _ _ A)|eapply adds_owns; eauto|eapply has_grows; [apply (ad_grows _ _ _ _ A)|auto]].
Qed.
(** the same with the effect *)
Lemma ins_many_ok' {A} pk t T names df c a p i (v : A -> list (res cell)) l : ident t = T -> sget T v5_defs = Some df -> t_uniq df = [] -> In (T, (c, a, p)) links ->
  forallb (has_col (cols T)) names = true -> (forall x, length names = length (v x)) -> (forall x, gives names (v x) c i) ->
  (forall x k, In x l -> exists r, prep T names k (v x) = Ok r) ->
  forall s, good (snd s) -> owns (snd s) pk p i -> has (snd s) p i ->
  exists s' rs, ins_many no_fault s t names (map v l) = Ok s' /\ adds pk (snd s) (snd s') (only T rs).
Proof.
  intros HT TD U L N Le V P s G O H.
  destruct (ins_many_ok pk t T names df c a p i (map v l) HT TD U L N) with (s := s) as (s' & E); auto.
  - apply Forall_map, Forall_forall. intros x Hx. repeat split; auto.
  - destruct (ins_many_child no_fault t T names c a p pk i (map v l) HT L) with (s := s) (s' := s') as (rs & A' & _); auto.
    + apply ins_many_Forall. auto.
    + eauto.
Qed.

(** ** The datasets *)
Definition at_ (pk : Z) (s : sst) (p : str) (i : Z) : Prop := good (snd s) /\ owns (snd s) pk p i /\ has (snd s) p i.
Lemma at_adds pk s s' N p i : adds pk (snd s) (snd s') N -> at_ pk s p i -> at_ pk s' p i.
Proof. intros A (G & O & H). split; [apply (ad_good _ _ _ _ A)|]. split; [eapply adds_owns; eauto|]. eapply has_grows; [apply (ad_grows _ _ _ _ A)|auto]. Qed.

Lemma zset_notin (k k' y v : Z) acc : k <> k' -> (In (k, y) (zset k' v acc) <-> In (k, y) acc).
Proof.
  intros N. induction acc as [|[k0 y0] acc IH]; cbn [dset].
  - split; [intros [E|[]]; injection E as <- <-; now elim N|intros []].
  - destruct (Z.eqb_spec k' k0) as [->|M]; cbn [In].
    + split; (intros [E|H]; [injection E as <- <-; now elim N|now right]).
    + rewrite IH. reflexivity.
Qed.
Lemma zset_key (k v y : Z) acc : NoDup (map fst acc) -> (In (k, y) (zset k v acc) <-> y = v).
Proof.
  induction acc as [|[k0 y0] acc IH]; intros D; cbn [dset].
  - cbn [In]. split; [intros [E|[]]; now injection E|intros ->; now left].
  - cbn [map fst] in D. apply NoDup_cons_iff in D as [D1 D2]. destruct (Z.eqb_spec k k0) as [->|M]; cbn [In].
    + split; [intros [E|H]; [now injection E|]|intros ->; now left]. elim D1. apply in_map_iff. now exists (k0, y).
    + rewrite <- (IH D2). split; [intros [E|H]; [injection E as -> ->; now elim M|exact H]|auto].
Qed.
Lemma zset_keys_nodup (k v : Z) acc : NoDup (map fst acc) -> NoDup (map fst (zset k v acc)).
Proof.
  intros D. induction acc as [|[k0 y0] acc IH]; cbn [dset map fst].
  - constructor; [intros []|constructor].
  - cbn [map fst] in D. apply NoDup_cons_iff in D as [D1 D2]. destruct (Z.eqb_spec k k0) as [->|M]; cbn [map fst]; constructor; auto.
    intros H. apply in_map_iff in H as ([a y] & E & H). cbn [fst] in E. subst a.
    apply zset_notin in H; [|congruence]. apply D1. apply in_map_iff. now exists (k0, y).
Qed.
Lemma dict_of_In (l : list (Z * Z)) : forall acc k y, NoDup (map fst acc) ->
  (In (k, y) (fold_left (fun a kv => zset (fst kv) (snd kv) a) l acc) <->
   (exists a b, l = a ++ (k, y) :: b /\ ~ In k (map fst b)) \/ (In (k, y) acc /\ ~ In k (map fst l))).
Proof.
  induction l as [|[k0 y0] l IH]; intros acc k y D; cbn [fold_left map fst snd].
  - split; [intros H; right; split; [exact H|intros []]|intros [(a & b & E & _)|[H _]]; [now destruct a|exact H]].
  - rewrite (IH _ _ _ (zset_keys_nodup k0 y0 acc D)). split.
    + intros [(a & b & -> & N)|[H N]]; [left; now exists ((k0, y0) :: a), b|].
      destruct (Z.eq_dec k k0) as [->|M].
      * apply (zset_key _ _ _ _ D) in H as ->. left. exists [], l. now split.
      * right. apply zset_notin in H; [|exact M]. split; [exact H|]. intros [->|X]; [now elim M|now elim N].
    + intros [(a & b & E & N)|[H N]].
      * destruct a as [|p a]; cbn [app] in E; [|injection E as _ E; left; now exists a, b].
        injection E as -> -> ->. right. split; [|exact N]. now apply zset_key.
      * right. split; [|intros X; apply N; now right]. apply zset_notin; [|exact H]. intros ->. apply N. now left.
Qed.
(** the copies have the last value of every time *)
Lemma json_values_In ts c x : In x (json_values ts c) <->
  exists a t b, combine (c_raw ts) (c_raw c) = a ++ (t, x) :: b /\ ~ In t (map fst b).
Proof.
  unfold json_values. rewrite in_map_iff. split.
  - intros ([k y] & <- & H). cbn [snd]. apply dict_of_In in H; [|constructor]. destruct H as [(a & b & E & N)|[[] _]]. now exists a, k, b.
  - intros (a & t & b & E & N). exists (t, x). split; [reflexivity|]. apply dict_of_In; [constructor|]. left. now exists a, b.
Qed.
Lemma minus_inf_iff c x : minus_inf c x = true <-> np_elem (c_type c) x = VFloat 18442240474082181120.
Proof.
  unfold minus_inf. split.
  - destruct (np_elem (c_type c) x); try discriminate. intros E. apply Z.eqb_eq in E. now subst.
  - intros ->. apply Z.eqb_refl.
Qed.
Definition json_field (ds : dataset) (f : fielddata) : Prop :=
  exists ts, sget (lit "timestamp") (ds_data ds) = Some ts /\
    forall c, sget (fd_name f) (ds_data ds) = Some c ->
    forall before t x after, combine (c_raw ts) (c_raw c) = before ++ (t, x) :: after -> ~ In t (map fst after) ->
    np_elem (c_type c) x <> VFloat 18442240474082181120.
Lemma foldM_fields_ok json ds id pk l : Forall (fun f => no_surrogate (fd_name f) /\ exists c, sget (fd_name f) (ds_data ds) = Some c) l ->
  (json = true -> Forall (json_field ds) l) ->
  forall s, at_ pk s (lit "ulogdataset") id -> exists s', foldM (save_field no_fault json ds id) l s = Ok s'.
Proof.
  intros F. induction F as [|f l (Nf & c & C) F IH]; intros J s At; cbn [foldM]; eauto.
  unfold save_field at 1. rewrite C.
  assert (exists j, (if json then match sget (lit "timestamp") (ds_data ds) with
      | None => Err KeyError
      | Some ts => if existsb (minus_inf c) (json_values ts c) then Err OperationalError else Ok (CText (lit "json")) end else Ok CNull) = Ok j) as (j & ->).
  { destruct json; eauto. specialize (J eq_refl). apply Forall_cons_iff in J as [(ts & -> & Jf) _].
    destruct (existsb (minus_inf c) (json_values ts c)) eqn:Ex; eauto. exfalso.
    apply existsb_exists in Ex as (x & Hx & Hm). apply json_values_In in Hx as (a & t & b & E & N).
    apply minus_inf_iff in Hm. exact (Jf c C a t x b E N Hm). }
  cbn [bind]. destruct At as (G & O & H).
  destruct (ins_ok' s (lit "ULogField") (lit "ulogfield") n_field (v_field id (f, c)) t_ulogfield (lit "DatasetId") AInt (lit "ulogdataset") id) as (k & s1 & E);
    [exact G|reflexivity|reflexivity|reflexivity|apply in_field|reflexivity|reflexivity|apply gv_field|exact H|intros; now apply pr_field|].
  unfold v_field, n_field in E. cbn [fst snd] in E. rewrite E. cbn [bind snd].
  destruct (ins_child no_fault s (lit "ULogField") (lit "ulogfield") n_field (v_field id (f, c)) k s1 _ _ _ pk id G eq_refl in_field E (gv_field id (f, c)) O) as (r & _ & A & _).
  apply IH; [|eapply at_adds; eauto; now split]. intros Hj. specialize (J Hj). now apply Forall_cons_iff in J as [_ J].
Qed.

Definition free (pk : Z) (s : sst) (ds : dataset) : Prop := forall r0, In r0 (d_rows (snd s) (lit "ulogdataset")) ->
  refers (lit "ulogdataset") (lit "ULogId") AInt r0 pk -> cell_at (cols (lit "ulogdataset")) r0 (lit "DatasetName") = CText (ds_name ds) ->
  cell_at (cols (lit "ulogdataset")) r0 (lit "MultiId") = CInt (ds_multi ds) -> False.
Lemma save_dataset_ok json pk s ds : at_ pk s (lit "ulog") pk -> storable_dataset ds -> (json = true -> json_dataset ds) -> free pk s ds ->
  exists s', save_dataset no_fault json pk s ds = Ok s'.
Proof.
  intros (G & O & H) (Nn & I1 & I2 & I3 & Ft) J Fr. unfold save_dataset.
  destruct (ins_ok s (lit "ULogDataSet") (lit "ulogdataset") n_dataset (v_dataset pk ds) t_ulogdataset (lit "ULogId") AInt (lit "ulog") pk) as (k & s1 & E);
    [exact G|reflexivity|reflexivity|apply in_dataset|reflexivity|reflexivity|apply gv_dataset|exact H| |].
  { destruct (pr_dataset pk (d_seq (snd s) (lit "ulogdataset") + 1) ds Nn I1 I2 I3) as (r & P). exists r. split; [exact P|].
    destruct (existsb _ _) eqn:Ex; [|reflexivity]. exfalso. apply existsb_exists in Ex as (r0 & Hr & C).
    unfold clash in C. cbn [t_uniq t_ulogdataset existsb forallb t_cols] in C. rewrite orb_false_r, andb_true_r in C.
    apply andb_true_iff in C as [C1 C]. apply andb_true_iff in C as [C2 C3].
    change c_ulogdataset with (cols (lit "ulogdataset")) in C1, C2, C3.
    rewrite (cell_int _ _ _ _ _ (lit "ULogId") _ pk P eq_refl eq_refl ltac:(sel) ltac:(sel)) in C1.
    rewrite (cell_text _ _ _ _ _ (lit "DatasetName") _ (ds_name ds) P eq_refl eq_refl ltac:(sel) ltac:(sel)) in C2.
    rewrite (cell_int _ _ _ _ _ (lit "MultiId") _ (ds_multi ds) P eq_refl eq_refl ltac:(sel) ltac:(sel)) in C3.
    apply (Fr r0 Hr).
    - unfold refers. cbn [ref_cell]. destruct (cell_at _ r0 (lit "ULogId")); try discriminate. cbn [cell_eqb] in C1. apply Z.eqb_eq in C1. now subst.
    - destruct (cell_at _ r0 (lit "DatasetName")); try discriminate. cbn [cell_eqb] in C2. destruct (str_eqb_spec (ds_name ds) s0); [now subst|discriminate].
    - destruct (cell_at _ r0 (lit "MultiId")); try discriminate. cbn [cell_eqb] in C3. apply Z.eqb_eq in C3. now subst. }
  unfold n_dataset, v_dataset in E. rewrite E. cbn [bind fst snd].
  destruct (ins_child no_fault s (lit "ULogDataSet") (lit "ulogdataset") n_dataset (v_dataset pk ds) k s1 _ _ _ pk pk G eq_refl in_dataset E (gv_dataset pk ds) O) as (r & _ & A & _).
  destruct (ins_has s (lit "ULogDataSet") (lit "ulogdataset") n_dataset (v_dataset pk ds) k s1 _ _ _ pk pk G eq_refl in_dataset E (gv_dataset pk ds) O eq_refl) as [Hk Ok_].
  apply (foldM_fields_ok json ds k pk); auto.
  split; [apply (ad_good _ _ _ _ A)|auto].
Qed.
Lemma save_datasets_ok json pk l : Forall storable_dataset l -> (json = true -> Forall json_dataset l) ->
  NoDup (map (fun ds => (ds_name ds, ds_multi ds)) l) ->
  forall s, at_ pk s (lit "ulog") pk -> Forall (free pk s) l ->
  exists s' N, foldM (save_dataset no_fault json pk) l s = Ok s' /\ adds pk (snd s) (snd s') N.
Proof.
  intros F. induction F as [|ds l Fd F IH]; intros J Hs s At Fr; cbn [foldM].
  - exists s, (fun _ => []). split; [reflexivity|]. apply adds_refl. apply At.
  - cbn [map] in Hs. inversion Hs as [|? ? Hl Hs']; subst. inversion Fr as [|? ? Fr1 Fr2]; subst.
    destruct (save_dataset_ok json pk s ds At Fd) as (s1 & E); auto. { intros Hj. specialize (J Hj). now inversion J. }
    rewrite E. cbn [bind]. destruct (step_dataset no_fault json pk s ds s1 (proj1 At) E) as (r & fr & A & P & _).
    destruct (IH) with (s := s1) as (s' & N & E' & A'); auto.
    + intros Hj. specialize (J Hj). now inversion J.
    + eapply at_adds; eauto.
    + rewrite Forall_forall in Fr2 |- *. intros ds' Hd r0 Hr Hp Hn Hm.
      rewrite (g_rows _ _ _ (ad_grows _ _ _ _ A)) in Hr. apply in_app_iff in Hr as [Hr|Hr].
      * exact (Fr2 ds' Hd r0 Hr Hp Hn Hm).
      * unfold two in Hr. rewrite only_same, only_other in Hr by (intros X; vm_compute in X; discriminate). rewrite app_nil_r in Hr. destruct Hr as [<-|[]].
        unfold dataset_saved in P.
        rewrite (cell_text _ _ _ _ _ (lit "DatasetName") _ (ds_name ds) P eq_refl eq_refl ltac:(sel) ltac:(sel)) in Hn.
        rewrite (cell_int _ _ _ _ _ (lit "MultiId") _ (ds_multi ds) P eq_refl eq_refl ltac:(sel) ltac:(sel)) in Hm.
        injection Hm as Hm. apply (f_equal (fun c => match c with CText x => x | _ => [] end)) in Hn. cbv beta iota in Hn.
        apply Hl. apply in_map_iff. exists ds'. split; [congruence|exact Hd].
    + exists s'. eexists. split; [exact E'|]. eapply adds_trans; eauto.
Qed.

(** ** The other tables *)
Lemma enumerate_In {A} (l : list A) i x : In (i, x) (enumerate l) -> 0 <= i < lenZ l /\ In x l.
Proof.
  unfold enumerate, lenZ. intros H. split; [|eapply in_combine_r; eauto]. apply in_combine_l in H. apply in_map_iff in H as (n & <- & H). apply in_seq in H. lia.
Qed.
Lemma save_format_ok pk s nm : at_ pk s (lit "ulog") pk -> no_surrogate (fst nm) ->
  Forall (fun f => no_surrogate (fst (fst f)) /\ int64 (snd (fst f)) /\ no_surrogate (snd f)) (mf_fields (snd nm)) ->
  exists s', save_format no_fault pk s nm = Ok s'.
Proof.
  intros (G & O & H) Nn Ff. unfold save_format.
  destruct (ins_ok' s (lit "ULogMessageFormat") (lit "ulogmessageformat") n_format (v_format pk nm) t_ulogmessageformat (lit "ULogId") AInt (lit "ulog") pk) as (k & s1 & E);
    [exact G|reflexivity|reflexivity|reflexivity|apply in_format|reflexivity|reflexivity|apply gv_format|exact H|intros; now apply pr_format|].
  unfold n_format, v_format in E. rewrite E. cbn [bind fst snd].
  destruct (ins_child no_fault s (lit "ULogMessageFormat") (lit "ulogmessageformat") n_format (v_format pk nm) k s1 _ _ _ pk pk G eq_refl in_format E (gv_format pk nm) O) as (r & _ & A & _).
  destruct (ins_has s (lit "ULogMessageFormat") (lit "ulogmessageformat") n_format (v_format pk nm) k s1 _ _ _ pk pk G eq_refl in_format E (gv_format pk nm) O eq_refl) as [Hk Ok_].
  destruct (ins_many_ok' pk (lit "ULogMessageFormatField") (lit "ulogmessageformatfield") n_ffield t_ulogmessageformatfield (lit "MessageId") AInt (lit "ulogmessageformat") k (v_ffield k) (mf_fields (snd nm)))
    with (s := s1) as (s2 & rs & E2 & _);
    [reflexivity|reflexivity|reflexivity|apply in_ffield|reflexivity|reflexivity|apply gv_ffield| |apply (ad_good _ _ _ _ A)|exact Ok_|exact Hk|eauto].
  intros x k' Hx. rewrite Forall_forall in Ff. destruct (Ff x Hx) as (? & ? & ?). now apply pr_ffield.
Qed.
Lemma save_list_ok pk message s il : at_ pk s (lit "ulogmessageinfomultiple") message -> int64 (fst il) -> lenZ (snd il) <= 2 ^ 63 -> Forall storable_value (snd il) ->
  exists s', save_list no_fault message s il = Ok s'.
Proof.
  intros (G & O & H) Nn Le Ff. unfold save_list.
  destruct (ins_ok' s (lit "ULogMessageInfoMultipleList") (lit "ulogmessageinfomultiplelist") n_list (v_list message (fst il)) t_ulogmessageinfomultiplelist (lit "MessageId") AText (lit "ulogmessageinfomultiple") message) as (k & s1 & E);
    [exact G|reflexivity|reflexivity|reflexivity|apply in_list|reflexivity|reflexivity|apply gv_list|exact H|intros; now apply pr_list|].
  unfold n_list, v_list in E. rewrite E. cbn [bind fst snd].
  destruct (ins_child no_fault s (lit "ULogMessageInfoMultipleList") (lit "ulogmessageinfomultiplelist") n_list (v_list message (fst il)) k s1 _ _ _ pk message G eq_refl in_list E (gv_list message _) O) as (r & _ & A & _).
  destruct (ins_has s (lit "ULogMessageInfoMultipleList") (lit "ulogmessageinfomultiplelist") n_list (v_list message (fst il)) k s1 _ _ _ pk message G eq_refl in_list E (gv_list message _) O eq_refl) as [Hk Ok_].
  destruct (ins_many_ok' pk (lit "ULogMessageInfoMultipleListElement") (lit "ulogmessageinfomultiplelistelement") n_elem t_ulogmessageinfomultiplelistelement (lit "ListId") AText (lit "ulogmessageinfomultiplelist") k (v_elem k) (enumerate (snd il)))
    with (s := s1) as (s2 & rs & E2 & _);
    [reflexivity|reflexivity|reflexivity|apply in_elem|reflexivity|reflexivity|apply gv_elem| |apply (ad_good _ _ _ _ A)|exact Ok_|exact Hk|eauto].
  intros [i x] k' Hx. apply enumerate_In in Hx as [Hi Hx]. rewrite Forall_forall in Ff. apply pr_elem; cbn [fst snd]; [unfold int64; lia|auto].
Qed.
Lemma foldM_ok {A} (f : sst -> A -> res sst) pk p i l (P : A -> Prop) : Forall P l ->
  (forall s x, at_ pk s p i -> P x -> exists s' N, f s x = Ok s' /\ adds pk (snd s) (snd s') N) ->
  forall s, at_ pk s p i -> exists s' N, foldM f l s = Ok s' /\ adds pk (snd s) (snd s') N.
Proof.
  intros F H. induction F as [|x l Hx F IH]; intros s At; cbn [foldM].
  - exists s, (fun _ => []). split; [reflexivity|]. apply adds_refl, At.
  - destruct (H s x At Hx) as (s1 & N & -> & A1). cbn [bind]. destruct (IH s1 (at_adds _ _ _ _ _ _ A1 At)) as (s2 & N2 & -> & A2).
    exists s2. eexists. split; [reflexivity|]. eapply adds_trans; eauto.
Qed.
Lemma save_multi_ok pk (types : dict str str) s (kl : str * list (list value)) : at_ pk s (lit "ulog") pk -> (exists ty, sget (fst kl) types = Some ty /\ no_surrogate ty) -> no_surrogate (fst kl) -> lenZ (snd kl) <= 2 ^ 63 ->
  Forall (fun l => lenZ l <= 2 ^ 63 /\ Forall storable_value l) (snd kl) -> exists s', save_multi no_fault pk types s kl = Ok s'.
Proof.
  intros (G & O & H) (ty & Ty & Nty) Nn Le Ff. unfold save_multi. rewrite Ty.
  destruct (ins_ok' s (lit "ULogMessageInfoMultiple") (lit "ulogmessageinfomultiple") n_multi (v_multi pk (fst kl, ty)) t_ulogmessageinfomultiple (lit "ULogId") AInt (lit "ulog") pk) as (k & s1 & E);
    [exact G|reflexivity|reflexivity|reflexivity|apply in_multi|reflexivity|reflexivity|apply gv_multi|exact H|intros; now apply pr_multi|].
  unfold n_multi, v_multi in E. cbn [fst snd] in E. rewrite E. cbn [bind fst snd].
  destruct (ins_child no_fault s (lit "ULogMessageInfoMultiple") (lit "ulogmessageinfomultiple") n_multi (v_multi pk (fst kl, ty)) k s1 _ _ _ pk pk G eq_refl in_multi E (gv_multi pk _) O) as (r & _ & A & _).
  destruct (ins_has s (lit "ULogMessageInfoMultiple") (lit "ulogmessageinfomultiple") n_multi (v_multi pk (fst kl, ty)) k s1 _ _ _ pk pk G eq_refl in_multi E (gv_multi pk _) O eq_refl) as [Hk Ok_].
  destruct (foldM_ok (save_list no_fault k) pk (lit "ulogmessageinfomultiple") k (enumerate (snd kl)) (fun il => int64 (fst il) /\ lenZ (snd il) <= 2 ^ 63 /\ Forall storable_value (snd il))) with (s := s1) as (s2 & N & E2 & _).
  - apply Forall_forall. intros [i l] Hx. apply enumerate_In in Hx as [Hi Hx]. rewrite Forall_forall in Ff. destruct (Ff l Hx). cbn [fst snd]. split; [unfold int64; lia|auto].
  - intros s0 il At0 (P1 & P2 & P3). destruct (save_list_ok pk k s0 il At0 P1 P2 P3) as (s' & E').
    destruct (step_list no_fault k pk s0 il s' (proj1 At0) (proj1 (proj2 At0)) E') as (r0 & er & A0 & _). eauto.
  - split; [apply (ad_good _ _ _ _ A)|auto].
  - eauto.
Qed.

(** ** The whole transaction *)
Lemma sget_keys {A B} (e : dict str A) (ty : dict str B) k : map fst e = map fst ty -> In k (map fst e) -> exists t, sget k ty = Some t.
Proof.
  intros E H. rewrite E in H. destruct (sget k ty) as [t|] eqn:G; eauto. apply (dget_None _ str_eqb_spec) in G. now elim G.
Qed.
Lemma mapM_exists {A B} (f : A -> res B) l : (forall x, In x l -> exists y, f x = Ok y) -> exists ys, mapM f l = Ok ys.
Proof.
  induction l as [|x l IH]; intros H; cbn [mapM]; eauto. destruct (H x (or_introl eq_refl)) as (y & ->). cbn [bind].
  destruct IH as (ys & ->); [intros; apply H; now right|]. cbn [bind]. eauto.
Qed.
Lemma save_rest_ok json pk u s : at_ pk s (lit "ulog") pk -> Forall (free pk s) (u_data u) -> storable u ->
  (json = true -> Forall json_dataset (u_data u)) -> exists s', save_rest no_fault json pk u s = Ok s'.
Proof.
  intros At Fr FT J. unfold save_rest. destruct (st_offsets _ FT) as [Lo Fo].
  (* offsets *)
  destruct (ins_many_ok' pk (lit "ULogAppendedOffsets") (lit "ulogappendedoffsets") n_offset t_ulogappendedoffsets (lit "ULogId") AInt (lit "ulog") pk (v_offset pk) (enumerate (u_offsets u)))
    with (s := s) as (s1 & r1 & E1 & A1);
    [reflexivity|reflexivity|reflexivity|apply in_offset|reflexivity|reflexivity|apply gv_offset| |apply At|apply At|apply At|].
  { intros [i x] k Hx. apply enumerate_In in Hx as [Hi Hx]. rewrite Forall_forall in Fo. apply pr_offset; cbn [fst snd]; [unfold int64; lia|auto]. }
  unfold n_offset, v_offset in E1. rewrite E1. cbn [bind]. pose proof (at_adds _ _ _ _ _ _ A1 At) as At1.
  (* datasets *)
  destruct (save_datasets_ok json pk (u_data u) (st_data _ FT) J (st_once _ FT) s1 At1) as (s2 & N2 & E2 & A2).
  { eapply Forall_impl; [|exact Fr]. cbv beta. intros ds Hd r0 Hr. rewrite (g_rows _ _ _ (ad_grows _ _ _ _ A1)), only_other in Hr by (intros X; vm_compute in X; discriminate).
    rewrite app_nil_r in Hr. now apply Hd. }
  rewrite E2. cbn [bind]. pose proof (at_adds _ _ _ _ _ _ A2 At1) as At2. clear E1 E2 A1 A2 At1 Fr At s1 s r1 N2.
  (* dropouts *)
  destruct (ins_many_ok' pk (lit "ULogMessageDropout") (lit "ulogmessagedropout") n_dropout t_ulogmessagedropout (lit "ULogId") AInt (lit "ulog") pk (v_dropout pk) (u_dropouts u))
    with (s := s2) as (s3 & r3 & E3 & A3);
    [reflexivity|reflexivity|reflexivity|apply in_dropout|reflexivity|reflexivity|apply gv_dropout| |apply At2|apply At2|apply At2|].
  { intros x k Hx. pose proof (st_dropouts _ FT) as F. rewrite Forall_forall in F. destruct (F x Hx). now apply pr_dropout. }
  unfold n_dropout, v_dropout in E3. rewrite E3. cbn [bind]. pose proof (at_adds _ _ _ _ _ _ A3 At2) as At3. clear E3 A3 At2 s2 r3.
  (* messages *)
  destruct (ins_many_ok' pk (lit "ULogMessageLogging") (lit "ulogmessagelogging") n_logged t_ulogmessagelogging (lit "ULogId") AInt (lit "ulog") pk (v_logged pk) (u_logged u))
    with (s := s3) as (s4 & r4 & E4 & A4);
    [reflexivity|reflexivity|reflexivity|apply in_logging|reflexivity|reflexivity|apply gv_logged| |apply At3|apply At3|apply At3|].
  { intros x k Hx. pose proof (st_logged _ FT) as F. rewrite Forall_forall in F. destruct (F x Hx) as (? & ? & ?). now apply pr_logged. }
  unfold n_logged, v_logged in E4. rewrite E4. cbn [bind]. pose proof (at_adds _ _ _ _ _ _ A4 At3) as At4. clear E4 A4 At3 s3 r4.
  (* tagged messages *)
  rewrite (ins_many_nested no_fault (lit "ULogMessageLoggingTagged")).
  replace (flat_map _ (u_tagged u)) with (map (v_tagged pk) (all_tagged u)) by (unfold all_tagged; rewrite <- flat_map_map; apply flat_map_ext; intros tl; now rewrite map_map).
  destruct (ins_many_ok' pk (lit "ULogMessageLoggingTagged") (lit "ulogmessageloggingtagged") n_tagged t_ulogmessageloggingtagged (lit "ULogId") AInt (lit "ulog") pk (v_tagged pk) (all_tagged u))
    with (s := s4) as (s5 & r5 & E5 & A5);
    [reflexivity|reflexivity|reflexivity|apply in_tagged|reflexivity|reflexivity|apply gv_tagged| |apply At4|apply At4|apply At4|].
  { intros [t x] k Hx. pose proof (st_tagged _ FT) as F. rewrite Forall_forall in F. unfold all_tagged in Hx. apply in_flat_map in Hx as (tl & Htl & Hx).
    apply in_map_iff in Hx as (m & Em & Hm). injection Em as <- <-. pose proof (F tl Htl) as Fm. rewrite Forall_forall in Fm. destruct (Fm m Hm) as (? & ? & ? & ?). now apply pr_tagged. }
  unfold n_tagged in E5. rewrite E5. cbn [bind]. pose proof (at_adds _ _ _ _ _ _ A5 At4) as At5. clear E5 A5 At4 s4 r5.
  (* formats *)
  destruct (foldM_ok (save_format no_fault pk) pk (lit "ulog") pk (u_formats u)
     (fun nm => no_surrogate (fst nm) /\ Forall (fun f => no_surrogate (fst (fst f)) /\ int64 (snd (fst f)) /\ no_surrogate (snd f)) (mf_fields (snd nm)))) with (s := s5) as (s6 & N6 & E6 & A6).
  { exact (st_formats _ FT). }
  { intros s nm At (P1 & P2). destruct (save_format_ok pk s nm At P1 P2) as (s' & E'). destruct (step_format no_fault pk s nm s' (proj1 At) E') as (r & fr & A & _). eauto. }
  { exact At5. }
  rewrite E6. cbn [bind]. pose proof (at_adds _ _ _ _ _ _ A6 At5) as At6. clear E6 A6 At5 s5 N6.
  (* infos *)
  pose proof (st_info _ FT) as Fi. rewrite Forall_forall in Fi.
  match goal with |- context [mapM ?f (u_info u)] => assert (exists rows, mapM f (u_info u) = Ok rows) as (rows & Er); [set (g := f)|] end.
  { apply mapM_exists. intros kv Hkv. unfold g. destruct (Fi kv Hkv) as (_ & _ & t & Et & _).
    match goal with |- context [match ?x with Some _ => _ | None => _ end] => destruct x eqn:E' end; [eexists; reflexivity|].
    exfalso. pose proof (eq_trans (eq_sym E') Et) as X. discriminate X. }
  rewrite Er. cbn [bind]. destruct (infos_typed _ _ _ _ Er) as (infos & Ft & ->). clear Er.
  destruct (ins_many_ok' pk (lit "ULogMessageInfo") (lit "ulogmessageinfo") n_info t_ulogmessageinfo (lit "ULogId") AInt (lit "ulog") pk (v_info pk) infos)
    with (s := s6) as (s7 & r7 & E7 & A7);
    [reflexivity|reflexivity|reflexivity|apply in_info|reflexivity|reflexivity|apply gv_info| |apply At6|apply At6|apply At6|].
  { intros x k Hx. destruct (F2_In_r _ _ _ Ft _ Hx) as (kv & Hkv & t & Et & ->). destruct (Fi _ Hkv) as (? & ? & t' & Et' & ?).
    apply pr_info; cbn [fst snd]; auto. congruence. }
  unfold n_info in E7. rewrite E7. cbn [bind]. pose proof (at_adds _ _ _ _ _ _ A7 At6) as At7. clear E7 A7 At6 s6 r7 Ft infos Fi.
  (* multiple infos *)
  destruct (foldM_ok (save_multi no_fault pk (u_multit u)) pk (lit "ulog") pk (u_multi u)
     (fun kl => no_surrogate (fst kl) /\ typed (u_multit u) (fst kl) /\ lenZ (snd kl) <= 2 ^ 63 /\ Forall (fun l => lenZ l <= 2 ^ 63 /\ Forall storable_value l) (snd kl)))
     with (s := s7) as (s8 & N8 & E8 & A8).
  { exact (st_multi _ FT). }
  { intros s kl At (P1 & P2 & P3 & P4). destruct (save_multi_ok pk (u_multit u) s kl At P2 P1 P3 P4) as (s' & E'). destruct (step_multi no_fault pk _ s kl s' (proj1 At) E') as (r & fr & er & A & _). eauto. }
  { exact At7. }
  rewrite E8. cbn [bind]. pose proof (at_adds _ _ _ _ _ _ A8 At7) as At8. clear E8 A8 At7 s7 N8.
  (* parameters *)
  destruct (ins_many_ok' pk (lit "ULogInitialParameter") (lit "uloginitialparameter") n_param t_uloginitialparameter (lit "ULogId") AInt (lit "ulog") pk (v_param pk) (u_params u))
    with (s := s8) as (s9 & r9 & E9 & A9);
    [reflexivity|reflexivity|reflexivity|apply in_param|reflexivity|reflexivity|apply gv_param| |apply At8|apply At8|apply At8|].
  { intros x k Hx. pose proof (st_params _ FT) as F. rewrite Forall_forall in F. destruct (F x Hx) as (? & ?). now apply pr_param. }
  unfold n_param, v_param in E9. rewrite E9. cbn [bind]. pose proof (at_adds _ _ _ _ _ _ A9 At8) as At9. clear E9 A9 At8 s8 r9.
  (* defaults *)
  rewrite (ins_many_nested no_fault (lit "ULogDefaultParameter")).
  replace (flat_map _ (u_defaults u)) with (map (v_default pk) (all_defaults u)) by (unfold all_defaults; rewrite <- flat_map_map; apply flat_map_ext; intros tl; now rewrite map_map).
  destruct (ins_many_ok' pk (lit "ULogDefaultParameter") (lit "ulogdefaultparameter") n_default t_ulogdefaultparameter (lit "ULogId") AInt (lit "ulog") pk (v_default pk) (all_defaults u))
    with (s := s9) as (s10 & r10 & E10 & A10);
    [reflexivity|reflexivity|reflexivity|apply in_default|reflexivity|reflexivity|apply gv_default| |apply At9|apply At9|apply At9|].
  { intros [[t x] v] k Hx. pose proof (st_defaults _ FT) as F. rewrite Forall_forall in F. unfold all_defaults in Hx. apply in_flat_map in Hx as (tl & Htl & Hx).
    apply in_map_iff in Hx as (m & Em & Hm). injection Em as <- <- <-. pose proof (F tl Htl) as Fm. rewrite Forall_forall in Fm. destruct (Fm m Hm) as (? & ? & ?). now apply pr_default. }
  unfold n_default in E10. rewrite E10. cbn [bind]. pose proof (at_adds _ _ _ _ _ _ A10 At9) as At10. clear E10 A10 At9 s9 r10.
  (* changes *)
  destruct (ins_many_ok' pk (lit "ULogChangedParameter") (lit "ulogchangedparameter") n_change t_ulogchangedparameter (lit "ULogId") AInt (lit "ulog") pk (v_change pk) (u_changed u))
    with (s := s10) as (s11 & r11 & E11 & A11);
    [reflexivity|reflexivity|reflexivity|apply in_change|reflexivity|reflexivity|apply gv_change| |apply At10|apply At10|apply At10|].
  { intros x k Hx. pose proof (st_changed _ FT) as F. rewrite Forall_forall in F. destruct (F x Hx) as (? & ? & ?). now apply pr_change. }
  eauto.
Qed.

Lemma log_clash k sha u r r0 : prep (lit "ulog") n_log k (v_log sha u) = Ok r ->
  clash t_ulog r r0 = match cell_at (cols (lit "ulog")) r0 (lit "SHA256Sum") with CText s => str_eqb sha s | _ => false end.
Proof.
  intros P. unfold clash. cbn [t_uniq t_ulog existsb forallb t_cols]. rewrite orb_false_r, andb_true_r.
  change c_ulog with (cols (lit "ulog")).
  rewrite (cell_text _ _ _ _ _ (lit "SHA256Sum") _ sha P eq_refl eq_refl ltac:(sel) ltac:(sel)). reflexivity.
Qed.
Lemma cell_eqb_text c s : cell_eqb c (CText s) = match c with CText x => str_eqb s x | _ => false end.
Proof. destruct c; try reflexivity. cbn. destruct (str_eqb_spec s0 s), (str_eqb_spec s s0); congruence. Qed.
Lemma find_sha d sha : good d ->
  primary_key_from_sha256sum d sha = Ok None /\ existsb (fun r0 => match cell_at (cols (lit "ulog")) r0 (lit "SHA256Sum") with CText s => str_eqb sha s | _ => false end) (d_rows d (lit "ulog")) = false
  \/ exists r0 k, primary_key_from_sha256sum d sha = Ok (Some k) /\ In r0 (d_rows d (lit "ulog")) /\ row_id (cols (lit "ulog")) r0 = Some k /\
       cell_at (cols (lit "ulog")) r0 (lit "SHA256Sum") = CText sha.
Proof.
  intros G. unfold primary_key_from_sha256sum.
  rewrite (select_v5 d (lit "ULog") (lit "ulog") t_ulog) by (try reflexivity; apply (gd_defs _ G)). cbn [bind].
  assert (W : forall r, where_ (cols (lit "ulog")) [(lit "SHA256Sum", CText sha)] r =
    match cell_at (cols (lit "ulog")) r (lit "SHA256Sum") with CText s => str_eqb sha s | _ => false end).
  { intros r. unfold where_. cbn [forallb fst snd]. rewrite andb_true_r. unfold cell_is. change (aff_of (cols (lit "ulog")) (lit "SHA256Sum")) with AText. cbn [apply_aff]. apply cell_eqb_text. }
  destruct (filter _ (d_rows d (lit "ulog"))) as [|r0 l] eqn:Ef.
  - left. split; [reflexivity|]. apply not_true_is_false. intros Ex. apply existsb_exists in Ex as (r & Hr & Hs).
    rewrite <- W in Hs. pose proof (proj2 (filter_In (where_ (cols (lit "ulog")) [(lit "SHA256Sum", CText sha)]) r _) (conj Hr Hs)) as Hi. rewrite Ef in Hi. destruct Hi.
  - right. assert (Hi : In r0 (r0 :: l)) by now left. rewrite <- Ef in Hi. apply filter_In in Hi as [Hr Hs]. rewrite W in Hs.
    destruct (good_row_id d _ r0 G par_log Hr) as (z & Hz). exists r0, z. split; [|split; [auto|split; [auto|]]].
    + cbn [map project]. apply (id_cell _ _ _ par_log) in Hz. rewrite Hz. reflexivity.
    + destruct (cell_at (cols (lit "ulog")) r0 (lit "SHA256Sum")); try discriminate. destruct (str_eqb_spec sha s); [now subst|discriminate].
Qed.
(** a log that fits is saved when no log with its hash is there *)
Lemma save_storable json o d : good d -> storable (o_log o) -> no_surrogate (o_sha o) -> (json = true -> Forall json_dataset (u_data (o_log o))) ->
  primary_key_from_sha256sum d (o_sha o) = Ok None ->
  exists r d1 N d', save_tx no_fault json o d = (Ok tt, set_pk (Some (next_key d)) o, d') /\ tx d d' (o_sha o) (o_log o) r d1 N.
Proof.
  intros G FT Ns J Hs. assert (Q : (exists e o', save_tx no_fault json o d = (Err e, o', d)) \/
    exists r d1 N d', save_tx no_fault json o d = (Ok tt, set_pk (Some (next_key d)) o, d') /\ tx d d' (o_sha o) (o_log o) r d1 N).
  { destruct (save_tx_cases no_fault json o d G) as [(e & E)|[(e & E)|H]]; eauto. }
  destruct Q as [(e & o' & E)|Q]; [|exact Q]. exfalso.
  destruct (st_head _ FT) as (H1 & H2 & H3 & H4 & H5 & H6).
  destruct (pr_log (d_seq d (lit "ulog") + 1) (o_sha o) (o_log o) H1 H2 H3 H4 H5 H6 Ns) as (r & P).
  destruct (mapM (fun x => x) (v_log (o_sha o) (o_log o))) as [v|] eqn:M; [|unfold prep in P; rewrite M in P; discriminate].
  destruct (ins_names_ok (lit "ulog") t_ulog n_log (v_log (o_sha o) (o_log o)) v _ r eq_refl eq_refl eq_refl M P) as [E1 E2].
  assert (C : existsb (clash t_ulog r) (d_rows d (lit "ulog")) = false).
  { destruct (find_sha d (o_sha o) G) as [[_ Ex]|(r0 & k & Hk & _)]; [|rewrite Hs in Hk; discriminate].
    etransitivity; [|exact Ex]. clear -P. induction (d_rows d (lit "ulog")) as [|r0 l IH]; [reflexivity|]. cbn [existsb]. now rewrite IH, (log_clash _ _ _ _ r0 P). }
  assert (K : fks_ok d (t_cols t_ulog) r = Ok tt) by (unfold fks_ok; rewrite no_refs_ok by reflexivity; reflexivity).
  destruct (ins_fwd (O, d) (lit "ULog") n_log (v_log (o_sha o) (o_log o)) t_ulog v r (gd_defs _ G) eq_refl E1 M E2 C K) as (k & s1 & E3).
  unfold save_tx in E. unfold n_log, v_log in E3. rewrite E3 in E. clear E1 E2 C K.
  destruct (ins_inv no_fault (O, d) _ _ _ _ _ (gd_defs _ G) E3) as (df & r1 & I).
  pose proof (in_key _ _ _ _ _ _ _ _ _ I) as Kk. change (ident (lit "ULog")) with (lit "ulog") in Kk. change (keyed (lit "ulog")) with true in Kk. cbv iota in Kk. cbn [snd] in Kk.
  pose proof (in_row _ _ _ _ _ _ _ _ _ I) as R. change (ident (lit "ULog")) with (lit "ulog") in R.
  pose proof (in_grows _ _ _ _ _ _ _ _ _ I) as Gr. change (ident (lit "ULog")) with (lit "ulog") in Gr. cbn [snd] in Gr, R.
  assert (G1 : good (snd s1)). { eapply (good_ins no_fault (O, d)); [exact G|exact I|]. intros c a p L. now apply no_link_ulog in L. }
  destruct (save_rest_ok json k (o_log o) s1) as (s' & E'); auto.
  - split; [auto|]. split; [constructor|]. unfold has. rewrite (g_rows _ _ _ Gr), only_same, row_ids_app. apply in_app_iff. right.
    unfold row_ids. cbn [flat_map]. rewrite (prep_id _ _ _ _ _ par_log R). left. now symmetry.
  - apply Forall_forall. intros ds _ r0 Hr Rf _ _. rewrite (g_rows _ _ _ Gr), only_other, app_nil_r in Hr by (intros X; vm_compute in X; discriminate).
    pose proof (gd_fk _ G _ _ _ _ in_dataset) as Fk. rewrite Forall_forall in Fk. destruct (Fk r0 Hr) as (i & Hi & Ri).
    pose proof (good_id_bound _ _ _ G par_log Hi). unfold refers, ref_cell in Rf, Ri. rewrite Rf in Ri. injection Ri as Ri. lia.
  - rewrite E' in E. cbn [no_fault] in E. discriminate.
Qed.
(** what fits comes back as it was; what is storable need not *)
Lemma fits_storable u : fits_db u -> storable u.
Proof.
  intros FT. split.
  - exact (ft_head _ FT).
  - destruct (ft_offsets _ FT). split; [lia|auto].
  - eapply Forall_impl; [|exact (ft_data _ FT)]. intros ds [(I1 & I2 & I3) (Nn & Nf) _ _ Ty]. unfold storable_dataset. repeat (split; [auto|]).
    rewrite Forall_forall in *. intros f Hf. split; auto. destruct (Ty f Hf) as (c & Hc & _). eauto.
  - pose proof (ft_sorted _ FT) as Hs. induction Hs as [|ds l Hs IH Hl]; cbn [map]; constructor; auto.
    intros Hi. apply in_map_iff in Hi as (ds' & E & Hd). injection E as E1 E2. rewrite Forall_forall in Hl. destruct (Hl ds' Hd) as [C|[_ C]]; [|lia].
    rewrite E1, str_cmp_refl in C. discriminate.
  - eapply Forall_impl; [|exact (ft_dropouts _ FT)]. cbv beta. tauto.
  - exact (ft_logged _ FT).
  - eapply Forall_impl; [|exact (proj2 (ft_tagged _ FT))]. cbv beta. intros tl (I & _ & F). eapply Forall_impl; [|exact F]. cbv beta. tauto.
  - eapply Forall_impl; [|exact (proj2 (ft_formats _ FT))]. cbv beta. tauto.
  - destruct (ft_info _ FT) as (K & _ & F & Fty). rewrite Forall_forall in *. intros kv Hkv. destruct (F kv Hkv) as [A B]. split; [exact A|]. split.
    + destruct (snd kv); cbn in *; auto.
    + destruct (sget_keys _ _ (fst kv) K (in_map fst _ _ Hkv)) as (t & Et). exists t. split; [exact Et|]. apply (dget_In _ str_eqb_spec) in Et. exact (Fty _ Et).
  - destruct (ft_multi _ FT) as (K & _ & F & Fty). rewrite Forall_forall in *. intros kv Hkv. destruct (F kv Hkv) as (A & B & C). split; [exact A|]. split; [|split; [lia|]].
    + destruct (sget_keys _ _ (fst kv) K (in_map fst _ _ Hkv)) as (t & Et). exists t. split; [exact Et|]. apply (dget_In _ str_eqb_spec) in Et. exact (Fty _ Et).
    + eapply Forall_impl; [|exact C]. cbv beta. intros l (L & Fl). split; [lia|]. eapply Forall_impl; [|exact Fl]. intros v. destruct v; cbn; tauto.
  - eapply Forall_impl; [|exact (proj2 (ft_params _ FT))]. cbv beta. intros kv (A & B). split; [exact A|]. destruct (snd kv); cbn in *; auto.
  - eapply Forall_impl; [|exact (proj2 (ft_defaults _ FT))]. cbv beta. intros td (I & _ & _ & F). eapply Forall_impl; [|exact F]. cbv beta. intros kv (A & B).
    split; [exact I|]. split; [exact A|]. destruct (snd kv); cbn in *; auto.
  - eapply Forall_impl; [|exact (ft_changed _ FT)]. cbv beta. intros c (A & B & C). split; [exact A|]. split; [exact B|]. destruct (snd c); cbn in *; auto.
Qed.
Lemma save_ok json o d : good d -> fits_db (o_log o) -> no_surrogate (o_sha o) -> (json = true -> Forall json_dataset (u_data (o_log o))) ->
  primary_key_from_sha256sum d (o_sha o) = Ok None ->
  exists r d1 N d', save_tx no_fault json o d = (Ok tt, set_pk (Some (next_key d)) o, d') /\ tx d d' (o_sha o) (o_log o) r d1 N.
Proof. intros G FT. apply save_storable; auto using fits_storable. Qed.
