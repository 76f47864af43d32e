(** Several connections to one database. *)
From Verif Require Import Base Dict PyStr PyFloat PySort Struct ModelTypes ModelApi Sql Schema5 ModelDb ModelConc SpecDb SpecHist SpecConc
  ProofsDb ProofsDel ProofsFrame ProofsSave ProofsStore ProofsReload ProofsFwd ProofsHist.

(** ** The program on its own *)
Lemma Ok_inj {A} (x y : A) : Ok x = Ok y -> x = y.
Proof. now intros [= ->]. Qed.
Lemma alone_bind {A B} (p : prog A) (f : A -> prog B) d : alone (pbind p f) d = bind (alone p d) (fun a => alone (f a) d).
Proof. induction p as [[a|e]|q k IH]; cbn; auto. destruct (q d); cbn; auto. Qed.
Lemma alone_mapM {A B} (f : A -> prog B) d l : alone (pmapM f l) d = mapM (fun x => alone (f x) d) l.
Proof.
  induction l as [|x l IH]; [reflexivity|]. cbn [pmapM mapM]. rewrite alone_bind. destruct (alone (f x) d); [|reflexivity]. cbn [bind].
  rewrite alone_bind, IH. destruct (mapM _ l); reflexivity.
Qed.
Lemma alone_ask q d : alone (ask q) d = q d.
Proof. unfold ask. cbn. now destruct (q d). Qed.
Lemma bind_assoc {A B C} (x : res A) (f : A -> res B) (g : B -> res C) : bind (bind x f) g = bind x (fun a => bind (f a) g).
Proof. destruct x; reflexivity. Qed.
Lemma bind_ext {A B} (x : res A) (f g : A -> res B) : (forall a, f a = g a) -> bind x f = bind x g.
Proof. intros H. destruct x; cbn; auto. Qed.
Lemma alone_fetch pk name multi lazy d : alone (fetch_dataset_p pk name multi lazy) d = fetch_dataset d pk name multi lazy.
Proof.
  unfold fetch_dataset_p, fetch_dataset. rewrite alone_bind, alone_ask. apply bind_ext. intros [|[|id [|ts [|msg [|]]]] rest]; try reflexivity.
  rewrite alone_bind. cbn [alone]. apply bind_ext. intros i. rewrite alone_bind. cbn [alone]. apply bind_ext. intros t. rewrite alone_bind. cbn [alone]. apply bind_ext. intros m.
  destruct lazy; [reflexivity|]. rewrite alone_bind, alone_ask. apply bind_ext. intros fs. rewrite alone_bind. reflexivity.
Qed.
Lemma alone_part {B} t names pk (f : row -> res B) d : alone (part_p t names pk f) d = bind (of_log d t names pk) (mapM f).
Proof. unfold part_p. now rewrite alone_bind, alone_ask. Qed.
Lemma alone_lists i d : alone (fetch_lists_p i) d = fetch_lists d i.
Proof.
  unfold fetch_lists_p, fetch_lists. rewrite alone_bind, alone_ask. apply bind_ext. intros ls. rewrite alone_bind. cbn [alone]. apply bind_ext. intros ls'.
  rewrite alone_mapM. apply mapM_ext. intros [|id [|]] _; try reflexivity. unfold list_p. rewrite alone_bind, alone_ask. apply bind_ext. intros es.
  now rewrite alone_bind.
Qed.
Lemma alone_multi r d : alone (multi_p r) d = match r with
  | [i; k; t] => let* k := as_text k in let* t := as_text t in let* ls := fetch_lists d i in Ok (k, t, ls) | _ => Err Unmodelled end.
Proof.
  destruct r as [|i [|k [|t [|]]]]; try reflexivity. unfold multi_p. rewrite alone_bind. cbn [alone]. apply bind_ext. intros k'. rewrite alone_bind. cbn [alone]. apply bind_ext. intros t'.
  rewrite alone_bind, alone_lists. reflexivity.
Qed.
Lemma top_read r (f : Z * Z * Z * str * str * Z * Z * str -> res dbulog) :
  bind (read_top r) f = match r with
  | [v; st; la; co; ic; sc; hs; sh] =>
      let* v := as_int v in let* st := as_int st in let* la := as_int la in let* co := as_text co in
      let* ic := as_text ic in let* sc := as_int sc in let* hs := as_int hs in let* sh := as_text sh in
      f (v, st, la, co, ic, sc, hs, sh)
  | _ => Err Unmodelled end.
Proof.
  do 8 (destruct r as [|? r]; [reflexivity|]). destruct r; [|reflexivity]. cbn [read_top].
  rewrite !bind_assoc. apply bind_ext; intros ?. rewrite !bind_assoc. apply bind_ext; intros ?. rewrite !bind_assoc. apply bind_ext; intros ?. rewrite !bind_assoc. apply bind_ext; intros ?.
  rewrite !bind_assoc. apply bind_ext; intros ?. rewrite !bind_assoc. apply bind_ext; intros ?. rewrite !bind_assoc. apply bind_ext; intros ?. rewrite !bind_assoc. apply bind_ext; intros ?. reflexivity.
Qed.
Lemma alone_load o lazy d : alone (load_p o lazy) d = load d o lazy.
Proof.
  unfold load_p, load. destruct (o_pk o) as [pk|]; [|reflexivity].
  rewrite alone_bind, alone_ask. unfold exists_in_db. rewrite bind_assoc. apply bind_ext. intros rows. cbn [bind].
  destruct (negb _); [reflexivity|]. unfold top_p. rewrite alone_bind, alone_bind, alone_ask, bind_assoc. apply bind_ext. intros [|r rest]; [reflexivity|].
  cbn [alone]. rewrite top_read.
  do 8 (destruct r as [|? r]; [reflexivity|]). destruct r; [|reflexivity].
  do 8 (apply bind_ext; intros ?).
  unfold offsets_p. rewrite !alone_bind, alone_ask, bind_assoc. apply bind_ext. intros ?. rewrite alone_bind. cbn [alone]. rewrite bind_assoc. do 2 (apply bind_ext; intros ?).
  unfold data_p. rewrite !alone_bind, alone_part, !bind_assoc. apply bind_ext. intros ?. apply bind_ext. intros ?.
  rewrite alone_mapM. rewrite (mapM_ext _ (fun nm => fetch_dataset d (Some pk) (fst nm) (snd nm) lazy)) by (intros; apply alone_fetch). apply bind_ext; intros ?.
  do 3 (rewrite alone_bind, alone_part, bind_assoc; apply bind_ext; intros ?; apply bind_ext; intros ?).
  unfold formats_p. rewrite !alone_bind, alone_ask, bind_assoc. apply bind_ext; intros ?. cbn [alone]. apply bind_ext; intros ?.
  rewrite alone_bind, alone_part, bind_assoc. apply bind_ext; intros ?; apply bind_ext; intros ?.
  unfold multis_p. rewrite !alone_bind, alone_ask, bind_assoc. apply bind_ext; intros rs. rewrite alone_mapM.
  rewrite (mapM_ext (fun x => alone (multi_p x) d) _ rs (fun x _ => alone_multi x d)). apply bind_ext; intros ?.
  do 3 (rewrite alone_bind, alone_part, bind_assoc; apply bind_ext; intros ?; apply bind_ext; intros ?).
  reflexivity.
Qed.
Lemma alone_open k lazy d : alone (open_key_p k lazy) d = open_key d k lazy.
Proof. unfold open_key_p, open_key. rewrite alone_bind. cbn [ask alone bind]. destruct (_ <? _); [reflexivity|]. apply alone_load. Qed.

(** ** Histories with several connections *)
Lemma cstep_db w c w' e : good (w_db w) -> cstep w c = (w', e) ->
  (w_db w' = w_db w /\ e = Other) \/
  (exists r d1 N sha u, e = Saved (next_key (w_db w)) sha u /\ tx (w_db w) (w_db w') sha u r d1 N) \/
  (exists pk, e = Deleted pk /\ cuts (w_db w) (w_db w') pk).
Proof.
  intros G E. destruct c as [o|i F json]; [eapply step_db; eauto|]. cbn [cstep] in E.
  destruct (nth_error _ i) as [x|]; [|left; now injection E as <- <-]. destruct (o_pk x) eqn:P; [left; now injection E as <- <-|].
  destruct (save_tx_cases F json x (w_db w) G) as [(er & H)|[(er & H)|(r & d1 & N & d' & H & X)]]; rewrite H in E.
  - left. now injection E as <- <-.
  - left. now injection E as <- <-.
  - right. left. cbn [o_pk set_pk] in E. injection E as <- <-. exists r, d1, N, (o_sha x), (o_log x). auto.
Qed.
Lemma crun_inv cs : forall w es w' es', inv (w_db w) es -> crun w cs = (w', es') -> inv (w_db w') (es ++ es').
Proof.
  induction cs as [|o cs IH]; intros w es w' es' I E; cbn [crun] in E.
  - injection E as <- <-. now rewrite app_nil_r.
  - destruct (cstep w o) as [w1 e] eqn:S1. destruct (crun w1 cs) as [w2 es2] eqn:R. injection E as <- <-.
    replace (es ++ e :: es2) with ((es ++ [e]) ++ es2) by (rewrite <- app_assoc; reflexivity). apply (IH w1); auto.
    destruct (cstep_db _ _ _ _ (iv_good _ _ I) S1) as [[-> ->]|[(r & d1 & N & sha & u & -> & X)|(pk & -> & C)]].
    + now apply inv_other.
    + eapply inv_saved; eauto.
    + eapply inv_deleted; eauto.
Qed.
Lemma creached_inv d es : creached d es -> inv d es.
Proof. intros (d0 & objs & ops & w & Fr & R & <-). apply (crun_inv ops (mkW d0 objs) [] w es); auto. now apply inv_start. Qed.

(** ** A log that others delete *)
Definition gone (b d : db) (k : Z) : Prop :=
  forall t i, In t parents -> owns b k t i -> ~ In i (row_ids (cols t) (d_rows d t)) /\ i <= d_seq d t.
Lemma tx_new d d' sha u r d1 N t i : tx d d' sha u r d1 N -> In t parents -> In i (row_ids (cols t) (d_rows d' t)) -> In i (row_ids (cols t) (d_rows d t)) \/ d_seq d t < i.
Proof.
  intros X P H. pose proof (tx_log _ _ _ _ _ _ _ X) as A1. pose proof (sv_adds _ _ _ _ _ (tx_saved _ _ _ _ _ _ _ X)) as A2.
  rewrite (g_rows _ _ _ (ad_grows _ _ _ _ A2)), (g_rows _ _ _ (ad_grows _ _ _ _ A1)), !row_ids_app, !in_app_iff in H.
  destruct H as [[H|H]|H]; [auto| |]; right.
  - exact (ad_new _ _ _ _ A1 t i P H).
  - pose proof (ad_new _ _ _ _ A2 t i P H) as L. rewrite (g_seq _ _ _ (ad_grows _ _ _ _ A1)) in L. unfold lenZ in L. destruct (keyed t); lia.
Qed.
Lemma tx_seq d d' sha u r d1 N t : tx d d' sha u r d1 N -> d_seq d t <= d_seq d' t.
Proof.
  intros X. pose proof (tx_log _ _ _ _ _ _ _ X) as A1. pose proof (sv_adds _ _ _ _ _ (tx_saved _ _ _ _ _ _ _ X)) as A2.
  rewrite (g_seq _ _ _ (ad_grows _ _ _ _ A2)), (g_seq _ _ _ (ad_grows _ _ _ _ A1)). unfold lenZ. destruct (keyed t); lia.
Qed.
Lemma gone_tx b d d' k sha u r d1 N : gone b d k -> tx d d' sha u r d1 N -> gone b d' k.
Proof.
  intros Go X t i P O. destruct (Go t i P O) as [H1 H2]. split; [|pose proof (tx_seq _ _ _ _ _ _ _ t X); lia].
  intros H. destruct (tx_new _ _ _ _ _ _ _ _ _ X P H); [auto|lia].
Qed.
Lemma gone_cuts b d d' k pk : gone b d k -> cuts d d' pk -> gone b d' k.
Proof.
  intros Go C t i P O. destruct (Go t i P O) as [H1 H2]. rewrite (ct_seq _ _ _ C). split; auto.
  intros H. destruct (ct_rows _ _ _ C t) as (f & E & _). rewrite E in H. apply row_ids_filter in H as (r & Hr & _ & Er). apply H1. apply row_ids_In. eauto.
Qed.
Lemma cuts_gone_all b d d' k : good d -> agree b d k -> k <= d_seq d (lit "ulog") -> cuts d d' k -> gone b d' k.
Proof.
  intros G A K C t i P O. apply (agree_owns _ _ _ _ _ A) in O. rewrite (ct_seq _ _ _ C). destruct O as [|t c a p i0 r j Op L Hr R Ej].
  - split; [eapply cuts_gone; eauto|exact K].
  - split.
    + intros H. destruct (ct_rows _ _ _ C t) as (f & E & Hf). rewrite E in H. apply row_ids_filter in H as (r' & Hr' & Fr & Er).
      assert (r' = r) by (eapply row_unique; [apply (gd_nodup _ G t P)| | | |]; eauto). subst r'. apply Hf in Fr; auto. apply Fr. right. eauto 8.
    + apply (good_id_bound d t j G P). apply row_ids_In. eauto.
Qed.
Lemma gone_children b d k t c a p i : good b -> good d -> gone b d k -> owns b k p i -> In (t, (c, a, p)) links -> children d t c a i = [].
Proof.
  intros Gb G Go O L. pose proof (links_parent _ _ _ _ L) as P. destruct (Go p i P O) as [H _]. unfold children. apply filter_none. intros r Hr.
  apply not_true_is_false. intros E. apply (is_ref_refers _ _ _ _ _ _ L) in E. pose proof (gd_fk _ G _ _ _ _ L) as F. rewrite Forall_forall in F.
  destruct (F r Hr) as (j & Hj & Rj). apply H. assert (i = j) as ->; [|exact Hj].
  unfold refers in E, Rj. rewrite Rj in E. symmetry in E. pose proof (good_id_bound _ _ _ G P Hj) as Bj.
  destruct (str_eqb_spec p (lit "ulog")) as [->|Np].
  - destruct (links_ref _ _ _ _ L) as [->| ->]; [now injection E|]. exfalso. exact (link_text_parent _ _ _ L eq_refl).
  - apply (ref_cell_inj a); [pose proof (owns_pos _ _ _ _ Gb O Np); lia|lia|exact E].
Qed.
Lemma gone_log b d k : gone b d k -> log_rows d k = [].
Proof.
  intros Go. unfold log_rows. apply filter_none. intros r Hr. apply not_true_is_false. intros E. apply log_id in E.
  destruct (Go _ _ par_log (owns_log b k)) as [H _]. apply H. apply row_ids_In. eauto.
Qed.

Definition phase (b : db) (k : Z) (d : db) : Prop := good d /\ k <= d_seq d (lit "ulog") /\ (agree b d k \/ gone b d k).
Definition about (k : Z) (e : event) : Prop := match e with Saved k' _ _ => k' = k | Deleted k' => k' = k | Other => False end.
Lemma crun_phase b k cs : forall w w' es, phase b k (w_db w) -> crun w cs = (w', es) -> phase b k (w_db w').
Proof.
  induction cs as [|o cs IH]; intros w w' es H E; cbn [crun] in E; [now injection E as <- <-|].
  destruct (cstep w o) as [w1 e] eqn:S1. destruct (crun w1 cs) as [w2 es2] eqn:R. injection E as <- <-. apply (IH w1 w2 es2); auto. destruct H as (G & K & Ph).
  destruct (cstep_db _ _ _ _ G S1) as [[-> ->]|[(r & d1 & N & sha & u & -> & X)|(pk & -> & C)]].
  - split; auto.
  - split; [eapply tx_good; eauto|]. split; [pose proof (tx_seq _ _ _ _ _ _ _ (lit "ulog") X); lia|]. destruct Ph as [A|Go]; [left|right; eapply gone_tx; eauto].
    eapply agree_trans; [exact A|]. eapply tx_agree; eauto. unfold next_key. lia.
  - split; [eapply cuts_good; eauto|]. split; [now rewrite (ct_seq _ _ _ C)|]. destruct Ph as [A|Go]; [|right; eapply gone_cuts; eauto].
    destruct (Z.eq_dec k pk) as [->|Ne]; [right; eapply cuts_gone_all; eauto|left]. eapply agree_trans; [exact A|]. eapply cuts_agree; eauto.
Qed.
Lemma crun_agree b k cs : forall w w' es, good (w_db w) -> agree b (w_db w) k -> crun w cs = (w', es) -> Forall (fun e => ~ about k e) es ->
  good (w_db w') /\ agree b (w_db w') k.
Proof.
  induction cs as [|o cs IH]; intros w w' es G A E Q; cbn [crun] in E; [now injection E as <- <-|].
  destruct (cstep w o) as [w1 e] eqn:S1. destruct (crun w1 cs) as [w2 es2] eqn:R. injection E as <- <-. inversion Q as [|? ? Q1 Q2]; subst.
  destruct (cstep_db _ _ _ _ G S1) as [[E1 ->]|[(r & d1 & N & sha & u & -> & X)|(pk & -> & C)]]; apply (IH w1 w2 es2); auto.
  - now rewrite E1.
  - now rewrite E1.
  - eapply tx_good; eauto.
  - eapply agree_trans; [exact A|]. eapply tx_agree; [eauto|]. intros ->. now apply Q1.
  - eapply cuts_good; eauto.
  - eapply agree_trans; [exact A|]. eapply cuts_agree; [exact G|eauto|]. intros ->. now apply Q1.
Qed.
Lemma crun_version cs : forall w w' es, good (w_db w) -> crun w cs = (w', es) -> d_version (w_db w') = d_version (w_db w).
Proof.
  induction cs as [|o cs IH]; intros w w' es G E; cbn [crun] in E; [now injection E as <- <-|].
  destruct (cstep w o) as [w1 e] eqn:S1. destruct (crun w1 cs) as [w2 es2] eqn:R. injection E as <- <-.
  destruct (cstep_db _ _ _ _ G S1) as [[E1 ->]|[(r & d1 & N & sha & u & -> & X)|(pk & -> & C)]].
  - rewrite (IH w1 w2 es2); [now rewrite E1|now rewrite E1|auto].
  - rewrite (IH w1 w2 es2); [|eapply tx_good; eauto|auto]. now destruct (tx_same _ _ _ _ _ _ _ X).
  - rewrite (IH w1 w2 es2); [|eapply cuts_good; eauto|auto]. now rewrite (ct_ver _ _ _ C).
Qed.

(** ** Programs that ask for rows of one log *)
Section tame.
  Variables (b : db) (k : Z).
  Hypothesis Gb : good b.
  Fixpoint may {A} (p : prog A) (r : res A) : Prop :=
    match p with
    | Ret r' => r = r'
    | Ask q f => (exists rows, q b = Ok rows /\ may (f rows) r) \/ may (f []) r
    end.
  Fixpoint tame {A} (p : prog A) : Prop :=
    match p with
    | Ret _ => True
    | Ask q f => (forall d, good d -> agree b d k -> q d = q b) /\ (forall d, good d -> gone b d k -> q d = Ok []) /\
        (exists rows, q b = Ok rows /\ tame (f rows)) /\ tame (f [])
    end.
  Lemma may_bind {A B} (p : prog A) (f : A -> prog B) r : may (pbind p f) r ->
    (exists a, may p (Ok a) /\ may (f a) r) \/ (exists e, may p (Err e) /\ r = Err e).
  Proof.
    revert r. induction p as [[a|e]|q g IH]; intros r H; cbn in H |- *.
    - left. eauto.
    - right. eauto.
    - destruct H as [(rows & E & H)|H]; apply IH in H as [(a & H1 & H2)|(e & H1 & ->)].
      + left. exists a. split; [left; eauto|auto].
      + right. exists e. split; [left; eauto|auto].
      + left. exists a. split; [now right|auto].
      + right. exists e. split; [now right|auto].
  Qed.
  Lemma tame_bind {A B} (p : prog A) (f : A -> prog B) : tame p -> (forall a, may p (Ok a) -> tame (f a)) -> tame (pbind p f).
  Proof.
    revert f. induction p as [[a|e]|q g IH]; intros f H1 H2; cbn in *; auto.
    destruct H1 as (T1 & T2 & (rows & E & T3) & T4). split; auto. split; auto. split.
    - exists rows. split; auto. apply IH; auto. intros a Ha. apply H2. left. eauto.
    - apply IH; auto.
  Qed.
  Lemma tame_mapM {A B} (f : A -> prog B) l : (forall x, In x l -> tame (f x)) -> tame (pmapM f l).
  Proof.
    induction l as [|x l IH]; intros H; cbn [pmapM]; [exact I|]. apply tame_bind; [apply H; now left|]. intros y _. apply tame_bind; [|intros; exact I].
    apply IH. intros. apply H. now right.
  Qed.
  Lemma tame_among {A} (p : prog A) others : forall w n r w' es, tame p -> phase b k (w_db w) -> among p w others n = (r, w', es) -> may p r.
  Proof.
    induction p as [r0|q f IH]; intros w n r w' es T Ph E; cbn [among tame may] in *; [now injection E as <- _ _|].
    destruct T as (T1 & T2 & (rows & Eq & T3) & T4). destruct (crun w (others n)) as [w1 es1] eqn:C.
    pose proof (crun_phase _ _ _ _ _ _ Ph C) as Ph1. destruct Ph1 as (G1 & K1 & [A1|Go]).
    - rewrite (T1 _ G1 A1), Eq in E. destruct (among (f rows) w1 others (S n)) as [[r2 w2] es2] eqn:M. injection E as <- <- <-.
      left. exists rows. split; auto. apply (IH rows w1 (S n) r2 w2 es2); auto. split; auto.
    - rewrite (T2 _ G1 Go) in E. destruct (among (f []) w1 others (S n)) as [[r2 w2] es2] eqn:M. injection E as <- <- <-.
      right. apply (IH [] w1 (S n) r2 w2 es2); auto. split; auto.
  Qed.
  Lemma tame_apart {A} (p : prog A) others : forall w n r w' es, tame p -> good (w_db w) -> agree b (w_db w) k -> among p w others n = (r, w', es) ->
    Forall (fun e => ~ about k e) es -> r = alone p b.
  Proof.
    induction p as [r0|q f IH]; intros w n r w' es T G Ag E Q; cbn [among tame alone] in *; [now injection E as <- _ _|].
    destruct T as (T1 & T2 & (rows & Eq & T3) & T4). destruct (crun w (others n)) as [w1 es1] eqn:C.
    destruct (q (w_db w1)) as [rs|e] eqn:E1.
    - destruct (among (f rs) w1 others (S n)) as [[r2 w2] es2] eqn:M. injection E as <- <- <-. apply Forall_app in Q as [Q1 Q2].
      destruct (crun_agree _ _ _ _ _ _ G Ag C Q1) as [G1 A1]. rewrite (T1 _ G1 A1), Eq in E1. injection E1 as <-. rewrite Eq.
      apply (IH rows w1 (S n) _ w2 es2); auto.
    - injection E as <- <- <-. destruct (crun_agree _ _ _ _ _ _ G Ag C Q) as [G1 A1]. rewrite <- (T1 _ G1 A1), E1. reflexivity.
  Qed.

  Lemma tame_ask q : (forall d, good d -> agree b d k -> q d = q b) -> (forall d, good d -> gone b d k -> q d = Ok []) -> (exists rows, q b = Ok rows) -> tame (ask q).
  Proof. intros H1 H2 (rows & H3). cbn. split; auto. split; auto. split; auto. eauto. Qed.
  Lemma may_ask q a : may (ask q) (Ok a) -> q b = Ok a \/ a = [].
  Proof. cbn. intros [(rows & E & [= ->])|[= ->]]; auto. Qed.
  Lemma may_ask_err q e : ~ may (ask q) (Err e).
  Proof. cbn. intros [(rows & E & H)|H]; discriminate. Qed.
  Lemma tame_log names : forallb (has_col (cols (lit "ulog"))) names = true -> tame (ask (fun d => sql_select d (lit "ULog") names [(lit "Id", CInt k)])).
  Proof.
    intros H. apply tame_ask.
    - intros d G A. rewrite !select_log by (auto; apply gd_defs; auto). now rewrite (ag_log _ _ _ A).
    - intros d G Go. rewrite select_log by (auto; apply gd_defs; auto). now rewrite (gone_log _ _ _ Go).
    - rewrite select_log by (auto; apply gd_defs; auto). eauto.
  Qed.
  Lemma tame_link T t c a p names i : ident T = t -> In (t, (c, a, p)) links -> forallb (has_col (cols t)) names = true -> owns b k p i ->
    tame (ask (fun d => sql_select d T names [(c, CInt i)])).
  Proof.
    intros E L H O. apply tame_ask.
    - intros d G A. rewrite !(select_link _ T t c a p) by (auto; apply gd_defs; auto). now rewrite (ag_ch _ _ _ A _ _ _ _ _ O L).
    - intros d G Go. rewrite (select_link _ T t c a p) by (auto; apply gd_defs; auto). now rewrite (gone_children _ _ _ _ _ _ _ _ Gb G Go O L).
    - rewrite (select_link _ T t c a p) by (auto; apply gd_defs; auto). eauto.
  Qed.
  Lemma tame_part {B} T t names (f : row -> res B) : ident T = t -> In (t, (lit "ULogId", AInt, lit "ulog")) links -> forallb (has_col (cols t)) names = true ->
    tame (part_p T names k f).
  Proof. intros E L H. unfold part_p, of_log. apply tame_bind; [eapply tame_link; eauto; constructor|intros; exact I]. Qed.

  Lemma dataset_rows d name multi : good d ->
    sql_select d (lit "ULogDataset") [lit "Id"; lit "TimestampIndex"; lit "MessageId"] [(lit "DatasetName", CText name); (lit "MultiId", CInt multi); (lit "ULogId", CInt k)] =
      Ok (map (project (lit "ulogdataset") [lit "Id"; lit "TimestampIndex"; lit "MessageId"])
        (filter (where_ (cols (lit "ulogdataset")) [(lit "DatasetName", CText name); (lit "MultiId", CInt multi)]) (children d (lit "ulogdataset") (lit "ULogId") AInt k))).
  Proof.
    intros G. rewrite (select_v5 d _ (lit "ulogdataset") t_ulogdataset) by (auto; try apply gd_defs; auto; reflexivity).
    do 2 f_equal. unfold children. rewrite filter_filter. apply filter_ext. intros r. unfold where_. cbn [forallb fst snd].
    rewrite !andb_true_r, andb_assoc. reflexivity.
  Qed.
  Lemma tame_fetch name multi lazy : tame (fetch_dataset_p (Some k) name multi lazy).
  Proof.
    unfold fetch_dataset_p. apply tame_bind.
    - apply tame_ask.
      + intros d G A. rewrite !dataset_rows by auto. now rewrite (ag_ch _ _ _ A _ _ _ _ _ (owns_log b k) in_dataset).
      + intros d G Go. rewrite dataset_rows by auto. now rewrite (gone_children _ _ _ _ _ _ _ _ Gb G Go (owns_log b k) in_dataset).
      + rewrite dataset_rows by auto. eauto.
    - intros rows H. apply may_ask in H as [H| ->]; [|exact I]. rewrite dataset_rows in H by auto. apply Ok_inj in H. subst rows.
      destruct (filter _ _) as [|r l] eqn:E; [exact I|].
      assert (Hr : In r (children b (lit "ulogdataset") (lit "ULogId") AInt k)).
      { assert (X : In r (r :: l)) by now left. rewrite <- E in X. now apply filter_In in X as [X _]. }
      destruct (child_owned b k _ _ _ _ k r Gb in_dataset par_dataset (owns_log b k) Hr) as (z & Hz & _ & O).
      cbn [map]. unfold project. cbn [map]. rewrite Hz. cbn [as_int].
      apply tame_bind; [exact I|]. intros i Ei. cbn in Ei. injection Ei as ->.
      apply tame_bind; [exact I|]. intros ts _. apply tame_bind; [exact I|]. intros msg _. destruct lazy; [exact I|].
      apply tame_bind; [eapply (tame_link _ (lit "ulogfield")); eauto; tab|]. intros fs _. apply tame_bind; [exact I|]. intros; exact I.
  Qed.
  Lemma tame_lists z : owns b k (lit "ulogmessageinfomultiple") z -> tame (fetch_lists_p (CInt z)).
  Proof.
    intros O. unfold fetch_lists_p. apply tame_bind; [eapply (tame_link _ (lit "ulogmessageinfomultiplelist")); eauto; tab|]. intros ls H.
    apply tame_bind; [exact I|]. intros ls' H'. cbn in H'. symmetry in H'. apply tame_mapM. intros l Hl.
    apply may_ask in H as [H| ->]; [|injection H' as <-; destruct Hl].
    rewrite (select_link b _ (lit "ulogmessageinfomultiplelist") (lit "MessageId") AText (lit "ulogmessageinfomultiple") _ z (gd_defs _ Gb)) in H by tab. apply Ok_inj in H. subst ls.
    destruct (by_index_In _ _ _ H' Hl) as (i & Hi). apply in_map_iff in Hi as (r & Er & Hr).
    unfold project in Er. cbn [map] in Er. apply (f_equal (@tl cell)) in Er. cbn [tl] in Er. subst l.
    destruct (child_owned b k _ _ _ _ z r Gb in_list par_list O Hr) as (y & Hy & _ & O'). rewrite Hy. unfold list_p.
    apply tame_bind; [eapply (tame_link _ (lit "ulogmessageinfomultiplelistelement")); eauto; tab|]. intros; apply tame_bind; intros; exact I.
  Qed.
  Lemma gone_formats d : good d -> gone b d k -> join_formats d k = Ok [].
  Proof.
    intros G Go. unfold join_formats. rewrite (of_log_rows d k G _ (lit "ulogmessageformat")) by tab.
    now rewrite (gone_children _ _ _ _ _ _ _ _ Gb G Go (owns_log b k) in_format).
  Qed.
  Lemma formats_ok : exists rows, join_formats b k = Ok rows.
  Proof.
    unfold join_formats. rewrite (of_log_rows b k Gb _ (lit "ulogmessageformat")) by tab. cbn [bind].
    match goal with |- context [mapM ?f ?l] => assert (X : exists y, mapM f l = Ok y); [|destruct X as [y ->]; eexists; reflexivity] end.
    assert (H : forall r, In r (children b (lit "ulogmessageformat") (lit "ULogId") AInt k) -> exists z, cell_at (cols (lit "ulogmessageformat")) r (lit "Id") = CInt z).
    { intros r Hr. destruct (child_owned b k _ _ _ _ k r Gb in_format par_format (owns_log b k) Hr) as (z & Hz & _). eauto. }
    induction (children _ _ _ _ _) as [|r l IH]; [eexists; reflexivity|].
    destruct IH as [y Hy]; [intros; apply H; now right|]. destruct (H r) as (z & Hz); [now left|].
    cbn [map mapM]. unfold project at 1. cbn [map]. rewrite Hz.
    rewrite (select_link b _ (lit "ulogmessageformatfield") (lit "MessageId") AInt (lit "ulogmessageformat") _ z (gd_defs _ Gb)) by tab. cbn [bind]. rewrite Hy. eexists. reflexivity.
  Qed.
  Lemma tame_load o lazy : o_pk o = Some k -> tame (load_p o lazy).
  Proof.
    intros P. unfold load_p. rewrite P. apply tame_bind; [apply tame_log; reflexivity|]. intros rows _. destruct (negb _); [exact I|].
    apply tame_bind; [unfold top_p; apply tame_bind; [apply tame_log; reflexivity|intros [|r rest] _; exact I]|]. intros top _.
    apply tame_bind. { unfold offsets_p, of_log. apply tame_bind; [eapply (tame_link _ (lit "ulogappendedoffsets")); try tab; constructor|]. intros offs _. apply tame_bind; intros; exact I. }
    intros offs _. apply tame_bind. { unfold data_p. apply tame_bind; [eapply tame_part; [reflexivity|exact in_dataset|reflexivity]|]. intros names _. apply tame_mapM. intros; apply tame_fetch. }
    intros data _.
    apply tame_bind; [eapply tame_part; [reflexivity|exact in_dropout|reflexivity]|]. intros drops _.
    apply tame_bind; [eapply tame_part; [reflexivity|exact in_logging|reflexivity]|]. intros logs _.
    apply tame_bind; [eapply tame_part; [reflexivity|exact in_tagged|reflexivity]|]. intros tags _.
    apply tame_bind. { unfold formats_p. apply tame_bind; [|intros; exact I]. apply tame_ask; [|apply gone_formats|apply formats_ok].
      intros d G A. symmetry. apply join_formats_same; auto. apply (gd_defs _ G). }
    intros fmts _.
    apply tame_bind; [eapply tame_part; [reflexivity|exact in_info|reflexivity]|]. intros infos _.
    apply tame_bind. { unfold multis_p, of_log. apply tame_bind; [eapply (tame_link _ (lit "ulogmessageinfomultiple")); try tab; constructor|]. intros rows' H. apply tame_mapM. intros x Hx.
      apply may_ask in H as [H| ->]; [|destruct Hx].
      rewrite (select_link b _ (lit "ulogmessageinfomultiple") (lit "ULogId") AInt (lit "ulog") _ k (gd_defs _ Gb)) in H by tab. apply Ok_inj in H. subst rows'.
      apply in_map_iff in Hx as (r & <- & Hr).
      destruct (child_owned b k _ _ _ _ k r Gb in_multi par_multi (owns_log b k) Hr) as (z & Hz & _ & O).
      unfold project. cbn [map]. rewrite Hz. unfold multi_p. apply tame_bind; [exact I|]. intros ? _. apply tame_bind; [exact I|]. intros ? _.
      apply tame_bind; [now apply tame_lists|]. intros; exact I. }
    intros multis _.
    apply tame_bind; [eapply tame_part; [reflexivity|exact in_param|reflexivity]|]. intros pars _.
    apply tame_bind; [eapply tame_part; [reflexivity|exact in_default|reflexivity]|]. intros defs _.
    apply tame_bind; [eapply tame_part; [reflexivity|exact in_change|reflexivity]|]. intros chgs _.
    destruct top as [[[[[[[v st] la] co] ic] sc] hs] sh]. exact I.
  Qed.
End tame.

(** ** What is left of a log that is deleted while it is loaded *)
Definition pair_part (x y : str * str * list (list value)) : Prop :=
  fst y = fst x /\ (snd y = [] \/ Forall2 part (snd x) (snd y)).
Section cut.
  Variable b : db.
  Definition cut {A B} (R : A -> B -> Prop) (p : prog A) (q : prog B) : Prop :=
    forall x, alone p b = Ok x -> forall r, may b q r -> r = Err KeyError \/ r = Err TypeError \/ exists y, r = Ok y /\ R x y.
  Lemma cut_bind {A B C D} (R : A -> B -> Prop) (T : C -> D -> Prop) p q f g :
    cut R p q -> (forall x y, R x y -> cut T (f x) (g y)) -> cut T (pbind p f) (pbind q g).
  Proof.
    intros H1 H2 z E r M. rewrite alone_bind in E. destruct (alone p b) as [x|] eqn:Ex; [|discriminate]. cbn [bind] in E.
    apply may_bind in M as [(y & M1 & M2)|(e & M1 & ->)].
    - destruct (H1 x Ex _ M1) as [X|[X|(y' & [= <-] & X)]]; [discriminate|discriminate|]. exact (H2 x y X z E r M2).
    - destruct (H1 x Ex _ M1) as [X|[X|(y' & X & _)]]; [injection X as ->; auto|injection X as ->; auto|discriminate].
  Qed.
  Lemma cut_ret {A B} (R : A -> B -> Prop) (x : res A) (y : res B) : (forall a, x = Ok a -> exists c, y = Ok c /\ R a c) -> cut R (Ret x) (Ret y).
  Proof. intros H a E r M. cbn in E, M. subst r. right. right. apply H. auto. Qed.
  Lemma cut_same {A B} (R : A -> B -> Prop) (x : A) (y : B) : R x y -> cut R (Ret (Ok x)) (Ret (Ok y)).
  Proof. intros H. apply cut_ret. intros a [= <-]. eauto. Qed.
  Lemma cut_eq {A} (x : res A) : cut eq (Ret x) (Ret x).
  Proof. apply cut_ret. intros a ->. eauto. Qed.
  Lemma cut_key {A B} (R : A -> B -> Prop) p : cut R p (Ret (Err KeyError)).
  Proof. intros x _ r M. cbn in M. auto. Qed.
  Lemma cut_type {A B} (R : A -> B -> Prop) p : cut R p (Ret (Err TypeError)).
  Proof. intros x _ r M. cbn in M. auto. Qed.
  Lemma cut_ask q : cut part (ask q) (ask q).
  Proof.
    intros x E r M. rewrite alone_ask in E. right. right. destruct r as [y|e]; [|now apply may_ask_err in M].
    exists y. split; auto. apply may_ask in M as [M| ->]; [left; congruence|now right].
  Qed.
  Lemma part_mapM {A B} (f : A -> res B) l l' xs : part l l' -> mapM f l = Ok xs -> exists ys, mapM f l' = Ok ys /\ part xs ys.
  Proof. intros [->| ->] E; [exists xs; split; auto; now left|exists []; split; auto; now right]. Qed.
  Lemma part_index l l' xs : part l l' -> by_index l = Ok xs -> exists ys, by_index l' = Ok ys /\ part xs ys.
  Proof. intros [->| ->] E; [exists xs; split; auto; now left|exists []; split; auto; now right]. Qed.
  Lemma cut_part {B} t names pk (f : row -> res B) : cut part (part_p t names pk f) (part_p t names pk f).
  Proof. unfold part_p. eapply cut_bind; [apply cut_ask|]. intros l l' H. apply cut_ret. intros a. now apply part_mapM. Qed.
  Lemma cut_mapM {A B} (f : A -> prog B) (R : B -> B -> Prop) l : (forall x, cut R (f x) (f x)) -> cut (Forall2 R) (pmapM f l) (pmapM f l).
  Proof.
    intros H. induction l as [|x l IH]; cbn [pmapM]; [apply cut_same; constructor|]. eapply cut_bind; [apply H|]. intros y y' Hy.
    eapply cut_bind; [apply IH|]. intros ys ys' Hys. apply cut_same. now constructor.
  Qed.
  Definition thin (x y : dataset) : Prop := y = x \/ y = shell x.
  Lemma cut_fetch pk name multi lazy : cut thin (fetch_dataset_p pk name multi lazy) (fetch_dataset_p pk name multi lazy).
  Proof.
    unfold fetch_dataset_p. eapply cut_bind; [apply cut_ask|]. intros l l' [->| ->]; [|apply cut_key].
    destruct l as [|[|id [|ts [|msg [|]]]] rest]; try apply cut_key.
    eapply cut_bind; [apply cut_eq|]. intros i ? <-. eapply cut_bind; [apply cut_eq|]. intros t ? <-. eapply cut_bind; [apply cut_eq|]. intros m ? <-.
    destruct lazy; [apply cut_same; now left|]. eapply cut_bind; [apply cut_ask|]. intros fs fs' H.
    eapply cut_bind; [apply cut_ret; intros a Ea; eapply part_mapM; eauto|]. intros gs gs' [->| ->]; apply cut_same; [now left|now right].
  Qed.
  Lemma cut_lists i : cut (fun x y => y = [] \/ Forall2 part x y) (fetch_lists_p i) (fetch_lists_p i).
  Proof.
    unfold fetch_lists_p. eapply cut_bind; [apply cut_ask|]. intros l l' H. eapply cut_bind; [apply cut_ret; intros a Ea; eapply part_index; eauto|].
    intros ls ls' [->| ->].
    - intros x E r M. destruct (cut_mapM list_p part ls) with (x := x) (r := r) as [X|[X|(y & X & Y)]]; auto; [|right; right; eauto].
      intros [|id [|]]; try (apply cut_ret; discriminate). unfold list_p. eapply cut_bind; [apply cut_ask|]. intros es es' He.
      eapply cut_bind; [apply cut_ret; intros a Ea; eapply part_index; eauto|]. intros fs fs' Hf. apply cut_ret. intros a. now apply part_mapM.
    - intros x E r M. right. right. cbn in M. subst r. exists []. auto.
  Qed.
  Lemma cut_multi x : cut pair_part (multi_p x) (multi_p x).
  Proof.
    destruct x as [|i [|k [|t [|]]]]; try (apply cut_ret; discriminate). unfold multi_p.
    eapply cut_bind; [apply cut_eq|]. intros k' ? <-. eapply cut_bind; [apply cut_eq|]. intros t' ? <-. eapply cut_bind; [apply cut_lists|]. intros ls ls' H.
    apply cut_same. split; auto.
  Qed.
  Lemma F2_sset (R : list (list value) -> list (list value) -> Prop) d d' k v v' : Forall2 (fun x y => fst y = fst x /\ R (snd x) (snd y)) d d' -> R v v' ->
    Forall2 (fun x y => fst y = fst x /\ R (snd x) (snd y)) (sset k v d) (sset k v' d').
  Proof.
    intros H Hv. induction H as [|[k1 v1] [k2 v2] d d' [E1 E2] H IH]; [repeat constructor; auto|]. cbn [fst snd] in *. subst k2.
    unfold sset in *. cbn [dset]. destruct (str_eqb k k1); constructor; auto.
  Qed.
  Lemma multi_fold l l' : Forall2 pair_part l l' -> forall d d',
    Forall2 (fun kl kl' => fst kl' = fst kl /\ (snd kl' = [] \/ Forall2 part (snd kl) (snd kl'))) d d' ->
    Forall2 (fun kl kl' => fst kl' = fst kl /\ (snd kl' = [] \/ Forall2 part (snd kl) (snd kl')))
      (fold_left (fun (a : dict str (list (list value))) x => sset (fst (fst x)) (snd x) a) l d) (fold_left (fun a x => sset (fst (fst x)) (snd x) a) l' d').
  Proof.
    induction 1 as [|[[k t] v] [[k' t'] v'] l l' [E Hv] H IH]; intros d d' D; cbn [fold_left]; [exact D|]. cbn [fst snd] in *. injection E as -> ->.
    apply IH. apply (F2_sset (fun x y => y = [] \/ Forall2 part x y)); auto.
  Qed.
  Lemma multit_fold l l' : Forall2 pair_part l l' -> forall d : dict str str,
    fold_left (fun a x => sset (fst (fst x)) (snd (fst x)) a) l' d = fold_left (fun a x => sset (fst (fst x)) (snd (fst x)) a) l d.
  Proof.
    induction 1 as [|[[k t] v] [[k' t'] v'] l l' [E Hv] H IH]; intros d; cbn [fold_left]; [reflexivity|]. cbn [fst snd] in *. injection E as -> ->. apply IH.
  Qed.
  Lemma part_fold {A B} (f : list B -> A -> list B) l l' : part l l' -> part (fold_left f l []) (fold_left f l' []).
  Proof. intros [->| ->]; [now left|now right]. Qed.
  Lemma part_app {A} (l l' : list A) : part l l' -> part ([] ++ l) ([] ++ l').
  Proof. now cbn. Qed.

  Definition left_of (k : Z) (lazy : bool) (x y : dbulog) : Prop := o_pk y = Some k /\ o_lazy y = lazy /\ o_sha y = o_sha x /\ remains (o_log x) (o_log y).
  Lemma cut_load k lazy : cut (left_of k lazy) (load_p (mkObj (Some k) [] lazy ulog0) lazy) (load_p (mkObj (Some k) [] lazy ulog0) lazy).
  Proof.
    unfold load_p. cbn [o_pk o_log]. eapply cut_bind; [apply cut_ask|]. intros l l' [->| ->]; [|apply cut_key]. destruct (negb _); [apply cut_key|].
    eapply cut_bind. { unfold top_p. eapply cut_bind; [apply cut_ask|]. intros m m' [->| ->]; [|apply cut_type]. destruct m; [apply cut_type|apply cut_eq]. }
    intros top ? <-. eapply cut_bind. { unfold offsets_p. eapply cut_bind; [apply cut_ask|]. intros m m' H. eapply cut_bind; [apply cut_ret; intros a Ea; eapply part_index; eauto|].
      intros n n' H'. apply cut_ret. intros a. now apply part_mapM. }
    intros offs offs' Ho. eapply (cut_bind (fun x y => y = [] \/ Forall2 thin x y)). { unfold data_p. eapply cut_bind; [apply cut_part|]. intros m m' [->| ->].
      - intros x E r M. destruct (cut_mapM (fun nm => fetch_dataset_p (Some k) (fst nm) (snd nm) lazy) thin (ssort name_leb m)) with (x := x) (r := r) as [X|[X|(y & X & Y)]]; auto; [|right; right; eauto].
        intros; apply cut_fetch.
      - intros x E r M. right. right. cbn in M. subst r. exists []. auto. }
    intros data data' Hd. eapply cut_bind; [apply cut_part|]. intros drops drops' Hdr. eapply cut_bind; [apply cut_part|]. intros logs logs' Hl.
    eapply cut_bind; [apply cut_part|]. intros tags tags' Ht.
    eapply (cut_bind part). { unfold formats_p. eapply cut_bind; [apply cut_ask|]. intros m m' H. apply cut_ret. intros a. now apply part_mapM. }
    intros fmts fmts' Hf. eapply cut_bind; [apply cut_part|]. intros infos infos' Hi.
    eapply (cut_bind (fun x y => y = [] \/ Forall2 pair_part x y)). { unfold multis_p. eapply cut_bind; [apply cut_ask|]. intros m m' [->| ->].
      - intros x E r M. destruct (cut_mapM multi_p pair_part m) with (x := x) (r := r) as [X|[X|(y & X & Y)]]; auto; [|right; right; eauto]. apply cut_multi.
      - intros x E r M. right. right. cbn in M. subst r. exists []. auto. }
    intros multis multis' Hm. eapply cut_bind; [apply cut_part|]. intros pars pars' Hp. eapply cut_bind; [apply cut_part|]. intros defs defs' Hdf.
    eapply cut_bind; [apply cut_part|]. intros chgs chgs' Hc. destruct top as [[[[[[[v st] la] co] ic] sc] hs] sh]. apply cut_same.
    split; [reflexivity|]. split; [reflexivity|]. split; [reflexivity|]. cbn [o_log].
    split; cbn [u_version u_start u_last u_compat u_incompat u_sync_cnt u_has_sync u_corrupt u_subs u_filtered u_missing u_offsets u_data u_dropouts u_logged u_tagged
      u_formats u_info u_infot u_multi u_multit u_params u_defaults u_changed].
    - repeat (split; [reflexivity|]). reflexivity.
    - exact Ho.
    - exact Hd.
    - exact Hdr.
    - exact Hl.
    - exact (part_fold _ _ _ Ht).
    - exact (part_fold _ _ _ Hf).
    - split; exact (part_fold _ _ _ Hi).
    - destruct Hm as [->|Hm]; [now left|right]. apply multi_fold; auto. constructor.
    - destruct Hm as [->|Hm]; [now right|left]. now apply multit_fold.
    - exact (part_fold _ _ _ Hp).
    - exact (part_fold _ _ _ Hdf).
    - exact Hc.
  Qed.
End cut.

(** ** Opening a log among other operations *)
Lemma among_inv {A} (p : prog A) others : forall w n r w' es es', inv (w_db w) es -> among p w others n = (r, w', es') -> inv (w_db w') (es ++ es').
Proof.
  induction p as [r0|q f IH]; intros w n r w' es es' I E; cbn [among] in E; [injection E as _ <- <-; now rewrite app_nil_r|].
  destruct (crun w (others n)) as [w1 es1] eqn:C. pose proof (crun_inv _ _ _ _ _ I C) as I1. destruct (q (w_db w1)) as [rows|e].
  - destruct (among (f rows) w1 others (S n)) as [[r2 w2] es2] eqn:M. injection E as <- <- <-. rewrite app_assoc. eapply IH; eauto.
  - now injection E as _ <- <-.
Qed.
Lemma among_agree {A} b k (p : prog A) others : forall w n r w' es, good (w_db w) -> agree b (w_db w) k -> among p w others n = (r, w', es) ->
  Forall (fun e => ~ about k e) es -> good (w_db w') /\ agree b (w_db w') k.
Proof.
  induction p as [r0|q f IH]; intros w n r w' es G Ag E Q; cbn [among] in E; [now injection E as _ <- <-|].
  destruct (crun w (others n)) as [w1 es1] eqn:C. destruct (q (w_db w1)) as [rows|e].
  - destruct (among (f rows) w1 others (S n)) as [[r2 w2] es2] eqn:M. injection E as <- <- <-. apply Forall_app in Q as [Q1 Q2].
    destruct (crun_agree _ _ _ _ _ _ G Ag C Q1) as [G1 A1]. eapply IH; eauto.
  - injection E as _ <- <-. eapply crun_agree; eauto.
Qed.
Lemma among_open w k lazy others r w' es : good (w_db w) -> d_version (w_db w) = SCHEMA_VERSION -> among (open_key_p k lazy) w others 0 = (r, w', es) ->
  exists w1 es1 es2, crun w (others 0%nat) = (w1, es1) /\ among (load_p (mkObj (Some k) [] lazy ulog0) lazy) w1 others 1 = (r, w', es2) /\ es = es1 ++ es2.
Proof.
  intros G V E. unfold open_key_p, ask in E. cbn [pbind among] in E. destruct (crun w (others 0%nat)) as [w1 es1] eqn:C.
  rewrite (crun_version _ _ _ _ G C), V, Z.ltb_irrefl in E. destruct (among _ w1 others 1) as [[r2 w2] es2] eqn:M. injection E as <- <- <-.
  exists w1, es1, es2. auto.
Qed.
Lemma saved_once es es' k : NoDup (saved_keys (es ++ es')) -> In k (saved_keys es) -> forall sha u, ~ In (Saved k sha u) es'.
Proof.
  intros N H sha u H'. unfold saved_keys in N, H. rewrite flat_map_app in N.
  assert (X : In k (flat_map (fun e => match e with Saved pk _ _ => [pk] | _ => [] end) es')) by (apply in_flat_map; exists (Saved k sha u); split; [auto|now left]).
  clear -N H X. induction (flat_map _ es) as [|x l IH]; [destruct H|]. inversion N as [|? ? N1 N2]; subst. destruct H as [->|H]; [apply N1, in_or_app; auto|auto].
Qed.
Lemma stored_saved es : forall k, In k (map fst (stored_logs es)) -> In k (saved_keys es).
Proof.
  induction es as [|e es IH] using rev_ind; intros k H; [destruct H|]. rewrite stored_logs_snoc in H. rewrite saved_keys_snoc. apply in_app_iff.
  destruct e as [pk sha u|pk|]; cbn [note] in H.
  - rewrite map_app, in_app_iff in H. destruct H as [H|[<-|[]]]; [auto|right; now left].
  - left. apply IH. apply in_map_iff in H as (kv & <- & H). apply filter_In in H as [H _]. now apply in_map.
  - auto.
Qed.
Lemma tx_dup F json o d : good d -> has_hash d (o_sha o) -> exists e, save_tx F json o d = (Err e, o, d).
Proof.
  intros G (r0 & Hr & Es). unfold save_tx. destruct (ins F (O, d) (lit "ULog") _ _) as [[pk s]|e] eqn:E; [|exists e; reflexivity]. exfalso.
  destruct (ins_inv F (O, d) _ _ _ _ _ (gd_defs _ G) E) as (df & r & I).
  pose proof (in_def _ _ _ _ _ _ _ _ _ I) as D. change (ident (lit "ULog")) with (lit "ulog") in D.
  assert (df = t_ulog) as -> by (injection D; auto). clear D.
  pose proof (in_row _ _ _ _ _ _ _ _ _ I) as R. pose proof (in_clash _ _ _ _ _ _ _ _ _ I) as C.
  cbn [snd] in R, C. change (ident (lit "ULog")) with (lit "ulog") in *.
  pose proof (log_clash _ (o_sha o) (o_log o) r r0 R) as L. rewrite Es, str_eqb_refl in L.
  assert (T : existsb (clash t_ulog r) (d_rows d (lit "ulog")) = true) by (apply existsb_exists; eauto). rewrite T in C. discriminate.
Qed.
Lemma tx_dup_error json o d : good d -> has_hash d (o_sha o) -> fits_db (o_log o) -> no_surrogate (o_sha o) -> save_tx no_fault json o d = (Err IntegrityError, o, d).
Proof.
  intros G (r0 & Hr & Es) FT Ns. destruct (ft_head _ FT) as (H1 & H2 & H3 & H4 & H5 & H6).
  destruct (pr_log (d_seq d (lit "ulog") + 1) (o_sha o) (o_log o) H1 H2 H3 H4 H5 H6 Ns) as (r & P).
  destruct (mapM (fun x => x) (v_log (o_sha o) (o_log o))) as [v|] eqn:M; [|unfold prep in P; rewrite M in P; discriminate].
  destruct (ins_names_ok (lit "ulog") t_ulog n_log (v_log (o_sha o) (o_log o)) v _ r eq_refl eq_refl eq_refl M P) as [E1 E2].
  assert (C : existsb (clash t_ulog r) (d_rows d (lit "ulog")) = true).
  { apply existsb_exists. exists r0. split; auto. rewrite (log_clash _ (o_sha o) (o_log o) r r0 P). now rewrite Es, str_eqb_refl. }
  assert (L : length v = length (v_log (o_sha o) (o_log o))).
  { apply mapM_F2 in M. symmetry. clear -M. induction M; cbn; auto. }
  rewrite <- L in E1.
  assert (I : ins no_fault (O, d) (lit "ULog") n_log (v_log (o_sha o) (o_log o)) = Err IntegrityError).
  { unfold ins. rewrite M. cbn [bind]. cbn [fst no_fault snd]. unfold sql_insert. change (ident (lit "ULog")) with (lit "ulog"). rewrite table_v5 by apply (gd_defs _ G).
    change (sget (lit "ulog") v5_defs) with (Some t_ulog). cbn [bind]. rewrite E1. cbn [negb]. rewrite E2. cbn [bind]. rewrite C. reflexivity. }
  unfold save_tx. unfold n_log, v_log in I. rewrite I. reflexivity.
Qed.
