(** Histories of operations on a database. *)
From Coq Require Import Sorted.
From Verif Require Import Base Dict PyStr PyFloat PySort Struct ModelTypes ModelApi Sql Schema5 ModelDb SpecDb SpecHist
  ProofsDb ProofsDel ProofsFrame ProofsSave ProofsStore ProofsReload ProofsFwd SpecApi ProofsEq.

(** ** Deletion *)
Lemma row_ids_filter cs f rs i : In i (row_ids cs (filter f rs)) <-> exists r, In r rs /\ f r = true /\ row_id cs r = Some i.
Proof. rewrite row_ids_In. split; [intros (r & H & E); apply filter_In in H as [H1 H2]|intros (r & H1 & H2 & E)]; exists r; auto. split; auto. apply filter_In. auto. Qed.
Lemma NoDup_row_ids_filter cs f rs : NoDup (row_ids cs rs) -> NoDup (row_ids cs (filter f rs)).
Proof.
  induction rs as [|r rs IH]; intros H; [constructor|]. change (r :: rs) with ([r] ++ rs) in H. rewrite row_ids_app in H.
  assert (H2 : NoDup (row_ids cs rs)). { clear IH. induction (row_ids cs [r]) as [|x l IHl]; [exact H|]. inversion H; auto. }
  cbn [filter]. destruct (f r); [|auto]. change (r :: filter f rs) with ([r] ++ filter f rs). rewrite row_ids_app.
  unfold row_ids at 1 in H. unfold row_ids at 1. cbn [flat_map] in H |- *. destruct (row_id cs r) as [z|]; [|apply IH; auto].
  cbn [app] in H |- *. inversion H as [|? ? N1 N2]; subst. constructor; [|auto]. intros Hi. apply N1.
  apply row_ids_filter in Hi as (r' & Hr & _ & E). apply row_ids_In. eauto.
Qed.
Lemma cuts_good d d' pk : good d -> cuts d d' pk -> good d'.
Proof.
  intros G [C1 C2 C3 C4 C5]. split.
  - now rewrite C1, (gd_defs _ G).
  - rewrite C4. apply (gd_seq _ G).
  - intros t T. destruct (C5 t) as (f & -> & _). rewrite C4. pose proof (gd_ids _ G t T) as H. rewrite Forall_forall in *. intros r Hr. apply filter_In in Hr as [Hr _]. auto.
  - intros t T. destruct (C5 t) as (f & -> & _). apply NoDup_row_ids_filter, (gd_nodup _ G t T).
  - intros t c a p L. destruct (C5 t) as (f & -> & Hf). pose proof (gd_fk _ G _ _ _ _ L) as H. rewrite Forall_forall in *. intros r Hr. apply filter_In in Hr as [Hr Fr].
    destruct (H r Hr) as (i & Hi & R). exists i. split; auto. destruct (C5 p) as (g & -> & Hg). apply row_ids_filter.
    apply row_ids_In in Hi as (rp & Hp & Ep). exists rp. split; auto. split; auto. apply Hg; auto. intros B. apply Hf in Fr; auto. apply Fr.
    right. exists c, a, p, i. split; auto. split; auto. destruct B as [[-> E]|(c' & a' & p' & i' & L' & O & R')].
    + rewrite E in Ep. injection Ep as <-. constructor.
    + eapply owns_child; eauto.
  - intros t df T. destruct (C5 t) as (f & -> & _). apply ord_pairs_filter, (gd_uniq _ G t df T).
Qed.
Lemma cuts_agree d d' pk pk' : good d -> cuts d d' pk -> pk' <> pk -> agree d d' pk'.
Proof.
  intros G [C1 C2 C3 C4 C5] N. split.
  - unfold log_rows. destruct (C5 (lit "ulog")) as (f & -> & Hf). rewrite filter_filter. apply filter_ext_In'. intros r Hr.
    destruct (is_ref (lit "ulog") (lit "Id") AInt pk' r) eqn:R; [|reflexivity]. symmetry. apply Hf; auto.
    apply log_id in R. intros [[_ E]|(c' & a' & p' & i' & L' & _)]; [congruence|]. now apply no_link_ulog in L'.
  - intros p i t c a O L. unfold children. destruct (C5 t) as (f & -> & Hf). rewrite filter_filter. apply filter_ext_In'. intros r Hr.
    destruct (is_ref t c a i r) eqn:R; [|reflexivity]. symmetry. apply Hf; auto. apply (is_ref_refers _ _ _ _ _ _ L) in R.
    intros [[-> _]|(c' & a' & p' & i' & L' & O' & R')]; [now apply no_link_ulog in L|].
    pose proof (links_fun _ _ _ L L') as X. injection X as <- <- <-.
    assert (i = i') by (eapply owns_ref_inj; eauto). subst i'. apply N. eapply owns_unique; eauto.
Qed.
Lemma cuts_gone d d' pk : cuts d d' pk -> ~ In pk (row_ids (cols (lit "ulog")) (d_rows d' (lit "ulog"))).
Proof.
  intros [C1 C2 C3 C4 C5] H. destruct (C5 (lit "ulog")) as (f & E & Hf). rewrite E in H. apply row_ids_filter in H as (r & Hr & Fr & Er).
  apply Hf in Fr; auto. apply Fr. left. auto.
Qed.
Lemma cuts_others d d' pk i : cuts d d' pk -> i <> pk -> In i (row_ids (cols (lit "ulog")) (d_rows d' (lit "ulog"))) <-> In i (row_ids (cols (lit "ulog")) (d_rows d (lit "ulog"))).
Proof.
  intros [C1 C2 C3 C4 C5] N. destruct (C5 (lit "ulog")) as (f & -> & Hf). rewrite row_ids_filter, row_ids_In. split.
  - intros (r & Hr & _ & E). eauto.
  - intros (r & Hr & E). exists r. split; auto. split; auto. apply Hf; auto. intros [[_ E']|(c' & a' & p' & i' & L' & _)]; [congruence|]. now apply no_link_ulog in L'.
Qed.

(** ** A saved log *)
Lemma tx_good d d' sha u r d1 N : tx d d' sha u r d1 N -> good d'.
Proof. intros X. apply (ad_good _ _ _ _ (sv_adds _ _ _ _ _ (tx_saved _ _ _ _ _ _ _ X))). Qed.
Lemma tx_agree d d' sha u r d1 N pk' : tx d d' sha u r d1 N -> pk' <> next_key d -> agree d d' pk'.
Proof.
  intros X Hn. eapply agree_trans; [apply (ad_agree _ _ _ _ (tx_log _ _ _ _ _ _ _ X)); auto|].
  apply (ad_agree _ _ _ _ (sv_adds _ _ _ _ _ (tx_saved _ _ _ _ _ _ _ X))); auto.
Qed.
Lemma tx_ulog_rows d d' sha u r d1 N : tx d d' sha u r d1 N -> d_rows d' (lit "ulog") = d_rows d (lit "ulog") ++ [r].
Proof.
  intros X. rewrite (g_rows _ _ _ (ad_grows _ _ _ _ (sv_adds _ _ _ _ _ (tx_saved _ _ _ _ _ _ _ X)))), (sv_log _ _ _ _ _ (tx_saved _ _ _ _ _ _ _ X)), app_nil_r.
  rewrite (g_rows _ _ _ (ad_grows _ _ _ _ (tx_log _ _ _ _ _ _ _ X))), only_same. reflexivity.
Qed.
Lemma tx_id d d' sha u r d1 N : tx d d' sha u r d1 N -> row_id (cols (lit "ulog")) r = Some (next_key d).
Proof. intros X. eapply prep_id; [apply par_log|apply (tx_row _ _ _ _ _ _ _ X)]. Qed.
Lemma tx_ids d d' sha u r d1 N i : tx d d' sha u r d1 N ->
  In i (row_ids (cols (lit "ulog")) (d_rows d' (lit "ulog"))) <-> In i (row_ids (cols (lit "ulog")) (d_rows d (lit "ulog"))) \/ i = next_key d.
Proof.
  intros X. rewrite (tx_ulog_rows _ _ _ _ _ _ _ X), row_ids_app, in_app_iff. unfold row_ids at 2. cbn [flat_map]. rewrite (tx_id _ _ _ _ _ _ _ X). cbn [app In]. intuition congruence.
Qed.
Lemma tx_same d d' sha u r d1 N : tx d d' sha u r d1 N -> d_version d' = d_version d /\ d_idx d' = d_idx d /\ d_seq d' (lit "ulog") = next_key d.
Proof.
  intros X. pose proof (ad_grows _ _ _ _ (sv_adds _ _ _ _ _ (tx_saved _ _ _ _ _ _ _ X))) as G2. pose proof (ad_grows _ _ _ _ (tx_log _ _ _ _ _ _ _ X)) as G1.
  rewrite (g_ver _ _ _ G2), (g_ver _ _ _ G1), (g_idx _ _ _ G2), (g_idx _ _ _ G1). split; [reflexivity|]. split; [reflexivity|].
  rewrite (adds_seq _ _ _ _ _ (sv_adds _ _ _ _ _ (tx_saved _ _ _ _ _ _ _ X)) (sv_log _ _ _ _ _ (tx_saved _ _ _ _ _ _ _ X))).
  rewrite (g_seq _ _ _ G1). change (keyed (lit "ulog")) with true. cbv iota. rewrite only_same, lenZ_cons, lenZ_nil. unfold next_key. lia.
Qed.
Lemma tx_fresh d d' sha u r d1 N : good d -> tx d d' sha u r d1 N -> ~ In (next_key d) (row_ids (cols (lit "ulog")) (d_rows d (lit "ulog"))).
Proof. intros G X H. pose proof (good_id_bound _ _ _ G par_log H). unfold next_key in *. lia. Qed.

Lemma save_cases F json o d : good d ->
  (exists e o', save F json o d = (Err e, o', d) /\ o_sha o' = o_sha o /\ o_lazy o' = o_lazy o /\ o_log o' = o_log o) \/
  (exists r d1 N d', save F json o d = (Ok tt, set_pk (Some (next_key d)) o, d') /\ tx d d' (o_sha o) (o_log o) r d1 N /\
     o_pk o = None /\ primary_key_from_sha256sum d (o_sha o) = Ok None).
Proof.
  intros G. unfold save. destruct (o_pk o) as [k|] eqn:P; [left; exists KeyError, o; auto|].
  destruct (primary_key_from_sha256sum d (o_sha o)) as [[k|]|e] eqn:H; [left; eexists; eexists; split; [reflexivity|auto]| |left; exists e, o; auto].
  destruct (save_tx_cases F json o d G) as [(e & ->)|[(e & ->)|(r & d1 & N & d' & -> & X)]].
  - left. exists e, o. auto.
  - left. eexists. eexists. split; [reflexivity|auto].
  - right. exists r, d1, N, d'. auto.
Qed.
Lemma delete_cases F o d : good d ->
  (exists e, delete F o d = (Err e, o, d)) \/
  (exists pk d', o_pk o = Some pk /\ delete F o d = (Ok tt, set_pk None o, d') /\ cuts d d' pk).
Proof.
  intros G. unfold delete. destruct (o_pk o) as [pk|]; [|left; eauto]. destruct (F O); [left; eauto|].
  destruct (sql_delete_log d pk G) as (d' & -> & C). destruct (F 1%nat); [left; eauto|]. right. exists pk, d'. auto.
Qed.

(** ** The invariant of a history *)
Definition kept (d : db) (pk : Z) (sha : str) (u : ulog) : Prop :=
  exists d0 d1 d2 r N, good d0 /\ tx d0 d2 sha u r d1 N /\ pk = next_key d0 /\ agree d2 d pk.
Lemma kept_agree d d' pk sha u : kept d pk sha u -> agree d d' pk -> kept d' pk sha u.
Proof.
  intros (d0 & d1 & d2 & r & N & G0 & X & P & A) B. exists d0, d1, d2, r, N. split; [auto|]. split; [auto|]. split; [auto|].
  eapply agree_trans; eauto.
Qed.
Record inv (d : db) (es : list event) : Prop := {
  iv_good : good d;
  iv_version : d_version d = SCHEMA_VERSION;
  iv_keys : forall pk, In pk (row_ids (cols (lit "ulog")) (d_rows d (lit "ulog"))) <-> In pk (map fst (stored_logs es));
  iv_nodup : NoDup (map fst (stored_logs es));
  iv_log : Forall (fun kv => kept d (fst kv) (fst (snd kv)) (snd (snd kv))) (stored_logs es);
  iv_saved : Forall (fun k => k <= d_seq d (lit "ulog")) (saved_keys es);
  iv_once : NoDup (saved_keys es) }.

Lemma stored_logs_snoc es e : stored_logs (es ++ [e]) = note (stored_logs es) e.
Proof. unfold stored_logs. now rewrite fold_left_app. Qed.
Lemma saved_keys_snoc es e : saved_keys (es ++ [e]) = saved_keys es ++ match e with Saved pk _ _ => [pk] | _ => [] end.
Proof. unfold saved_keys. rewrite flat_map_app. cbn. now rewrite app_nil_r. Qed.
Lemma fresh_good d : fresh d -> good d.
Proof.
  intros [D V R Q]. split; auto.
  - intros. rewrite Q. lia.
  - intros t T. rewrite (R t). constructor.
  - intros t T. rewrite (R t). constructor.
  - intros t c a p L. rewrite (R t). constructor.
  - intros t df T. rewrite (R t). constructor.
Qed.
Lemma inv_start d : fresh d -> inv d [].
Proof.
  intros Fr. split.
  - apply fresh_good; auto.
  - apply (fr_version _ Fr).
  - intros pk. rewrite (fr_rows _ Fr). split; intros [].
  - constructor.
  - constructor.
  - constructor.
  - constructor.
Qed.
Lemma inv_other d es : inv d es -> inv d (es ++ [Other]).
Proof.
  intros [I1 I2 I3 I4 I5 I6 I7]. split; rewrite ?stored_logs_snoc, ?saved_keys_snoc, ?app_nil_r; auto.
Qed.
Lemma inv_saved d es d' sha u r d1 N : inv d es -> tx d d' sha u r d1 N -> inv d' (es ++ [Saved (next_key d) sha u]).
Proof.
  intros [I1 I2 I3 I4 I5 I6 I7] X. destruct (tx_same _ _ _ _ _ _ _ X) as (V & _ & Sq). pose proof (tx_fresh _ _ _ _ _ _ _ I1 X) as Nk.
  split; rewrite ?stored_logs_snoc, ?saved_keys_snoc; cbn [note].
  - eapply tx_good; eauto.
  - now rewrite V.
  - intros pk. rewrite (tx_ids _ _ _ _ _ _ _ pk X), map_app, in_app_iff, I3. cbn. intuition congruence.
  - rewrite map_app. cbn [map fst]. apply NoDup_snoc; auto. now rewrite <- I3.
  - apply Forall_app. split.
    + rewrite Forall_forall in I5 |- *. intros kv Hk. apply (kept_agree d); auto. eapply tx_agree; eauto. intros E. apply Nk. rewrite <- E. apply I3. now apply in_map.
    + constructor; [|constructor]. exists d, d1, d', r, N. split; [auto|]. split; [auto|]. split; [auto|]. apply agree_refl.
  - apply Forall_app. split; [|constructor; [lia|constructor]]. eapply Forall_impl; [|exact I6]. cbv beta. unfold next_key in Sq. lia.
  - apply NoDup_snoc; auto. intros H. rewrite Forall_forall in I6. specialize (I6 _ H). unfold next_key in I6. lia.
Qed.
Lemma inv_deleted d es d' pk : inv d es -> cuts d d' pk -> inv d' (es ++ [Deleted pk]).
Proof.
  intros [I1 I2 I3 I4 I5 I6 I7] C. split; rewrite ?stored_logs_snoc, ?saved_keys_snoc, ?app_nil_r; cbn [note].
  - eapply cuts_good; eauto.
  - now rewrite (ct_ver _ _ _ C).
  - intros i. rewrite in_map_iff. destruct (Z.eq_dec i pk) as [->|Ne].
    + split; [intros H; exfalso; exact (cuts_gone _ _ _ C H)|]. intros (kv & E & H). apply filter_In in H as [_ H]. rewrite E, Z.eqb_refl in H. discriminate.
    + rewrite (cuts_others _ _ _ i C Ne), I3, in_map_iff. split; intros (kv & E & H); exists kv; (split; [auto|]).
      * apply filter_In. split; auto. apply negb_true_iff, Z.eqb_neq. congruence.
      * now apply filter_In in H.
  - clear -I4. revert I4. generalize (stored_logs es) as m. induction m as [|kv m IH]; intros H; [constructor|]. inversion H as [|? ? H1 H2]; subst. cbn [filter].
    destruct (negb _); cbn [map]; auto. constructor; auto. intros Hi. apply H1. apply in_map_iff in Hi as (kv' & <- & Hi). apply filter_In in Hi as [Hi _]. now apply in_map.
  - rewrite Forall_forall in I5 |- *. intros kv Hk. apply filter_In in Hk as [Hk Ne]. apply negb_true_iff, Z.eqb_neq in Ne. apply (kept_agree d); auto. eapply cuts_agree; eauto.
  - now rewrite (ct_seq _ _ _ C).
  - auto.
Qed.
Lemma step_db w o w' e : good (w_db w) -> step w o = (w', e) ->
  (w_db w' = w_db w /\ e = Other) \/
  (exists r d1 N sha u, e = Saved (next_key (w_db w)) sha u /\ tx (w_db w) (w_db w') sha u r d1 N) \/
  (exists pk, e = Deleted pk /\ cuts (w_db w) (w_db w') pk).
Proof.
  intros G E. destruct o as [sha loaded lazy|pk lazy|i F json|i F|i lazy|i name multi lazy caching|i u]; unfold step in E.
  - left. destruct (open_file _ _ _ _); now injection E as <- <-.
  - left. destruct (open_key _ _ _); now injection E as <- <-.
  - destruct (nth_error _ i) as [x|]; [|left; now injection E as <- <-].
    destruct (save_cases F json x (w_db w) G) as [(er & o' & H & _)|(r & d1 & N & d' & H & X & _)]; rewrite H in E.
    + left. now injection E as <- <-.
    + right. left. cbn [o_pk set_pk] in E. injection E as <- <-. exists r, d1, N, (o_sha x), (o_log x). auto.
  - destruct (nth_error _ i) as [x|]; [|left; now injection E as <- <-].
    destruct (delete_cases F x (w_db w) G) as [(er & H)|(pk & d' & P & H & C)]; rewrite H in E.
    + left. now injection E as <- <-.
    + right. right. rewrite P in E. injection E as <- <-. exists pk. auto.
  - left. destruct (nth_error _ i) as [x|]; [|now injection E as <- <-]. destruct (load _ _ _); now injection E as <- <-.
  - left. destruct (nth_error _ i) as [x|]; [|now injection E as <- <-]. destruct (get_dataset_db _ _ _ _ _ _) as [[? ?]|]; now injection E as <- <-.
  - left. destruct (nth_error _ i) as [x|]; now injection E as <- <-.
Qed.
Lemma run_inv ops : forall w es w' es', inv (w_db w) es -> run w ops = (w', es') -> inv (w_db w') (es ++ es').
Proof.
  induction ops as [|o ops IH]; intros w es w' es' I E; cbn [run] in E.
  - injection E as <- <-. now rewrite app_nil_r.
  - destruct (step w o) as [w1 e] eqn:S1. destruct (run w1 ops) as [w2 es2] eqn:R. injection E as <- <-.
    replace (es ++ e :: es2) with ((es ++ [e]) ++ es2) by (rewrite <- app_assoc; reflexivity). apply (IH w1); auto.
    destruct (step_db _ _ _ _ (iv_good _ _ I) S1) as [[-> ->]|[(r & d1 & N & sha & u & -> & X)|(pk & -> & C)]].
    + now apply inv_other.
    + eapply inv_saved; eauto.
    + eapply inv_deleted; eauto.
Qed.

(** ** What can be read *)
Lemma log_absent d pk : good d -> ~ In pk (row_ids (cols (lit "ulog")) (d_rows d (lit "ulog"))) -> forall o lazy, o_pk o = Some pk -> load d o lazy = Err KeyError.
Proof.
  intros G H o lazy P. unfold load. rewrite P. unfold exists_in_db. rewrite (select_log d _ pk (gd_defs _ G)) by reflexivity.
  assert (log_rows d pk = []) as ->; [|reflexivity]. unfold log_rows. apply filter_none. intros r Hr.
  apply not_true_is_false. intros R. apply log_id in R. apply H. apply row_ids_In. eauto.
Qed.
Lemma kept_load d pk sha u lazy : good d -> kept d pk sha u -> fits_db u -> load d (mkObj (Some pk) [] lazy ulog0) lazy = Ok (mkObj (Some pk) sha lazy (loaded_as u lazy)).
Proof.
  intros G (d0 & d1 & d2 & r & N & G0 & X & -> & A) FT. rewrite <- (load_same d2 d _ (tx_good _ _ _ _ _ _ _ X) (gd_defs _ G) A) by reflexivity.
  eapply load_back; eauto.
Qed.
Lemma kept_row d pk sha u : kept d pk sha u -> exists r, log_rows d pk = [r] /\ cell_at (cols (lit "ulog")) r (lit "SHA256Sum") = CText sha /\ row_id (cols (lit "ulog")) r = Some pk.
Proof.
  intros (d0 & d1 & d2 & r & N & G0 & X & -> & A). exists r. rewrite <- (ag_log _ _ _ A). split; [eapply l_log; eauto|]. split; [|eapply tx_id; eauto].
  pose proof (tx_row _ _ _ _ _ _ _ X) as P. exact (cell_text _ _ _ _ _ (lit "SHA256Sum") _ sha P eq_refl eq_refl ltac:(sel) ltac:(sel)).
Qed.
Lemma open_key_load d pk lazy : d_version d = SCHEMA_VERSION -> open_key d pk lazy = load d (mkObj (Some pk) [] lazy ulog0) lazy.
Proof. intros V. unfold open_key. now rewrite V, Z.ltb_irrefl. Qed.

(** ** Hashes *)
Lemma sha_once d r r' sha : good d -> In r (d_rows d (lit "ulog")) -> In r' (d_rows d (lit "ulog")) ->
  cell_at (cols (lit "ulog")) r (lit "SHA256Sum") = CText sha -> cell_at (cols (lit "ulog")) r' (lit "SHA256Sum") = CText sha -> r = r'.
Proof.
  intros G H1 H2 E1 E2. pose proof (gd_uniq _ G (lit "ulog") t_ulog eq_refl) as U.
  assert (C : forall a b, cell_at (cols (lit "ulog")) a (lit "SHA256Sum") = CText sha -> cell_at (cols (lit "ulog")) b (lit "SHA256Sum") = CText sha -> clash t_ulog a b = true).
  { intros a b Ea Eb. unfold clash. cbn [t_uniq t_ulog existsb forallb t_cols]. change c_ulog with (cols (lit "ulog")). rewrite Ea, Eb. cbn [cell_eqb]. now rewrite str_eqb_refl. }
  destruct (ForallOrdPairs_In U _ _ H1 H2) as [E|[E|E]]; auto; rewrite C in E; auto; discriminate.
Qed.
Lemma hash_found d sha : good d -> has_hash d sha -> exists r k, primary_key_from_sha256sum d sha = Ok (Some k) /\ In r (d_rows d (lit "ulog")) /\
  row_id (cols (lit "ulog")) r = Some k /\ cell_at (cols (lit "ulog")) r (lit "SHA256Sum") = CText sha.
Proof.
  intros G (r & Hr & Er). destruct (find_sha d sha G) as [[_ E]|(r0 & k & H)]; [|eauto]. exfalso.
  assert (T : existsb (fun r0 => match cell_at (cols (lit "ulog")) r0 (lit "SHA256Sum") with CText s => str_eqb sha s | _ => false end) (d_rows d (lit "ulog")) = true).
  { apply existsb_exists. exists r. split; auto. now rewrite Er, str_eqb_refl. }
  rewrite T in E. discriminate.
Qed.
Lemma hash_absent d sha : good d -> ~ has_hash d sha -> primary_key_from_sha256sum d sha = Ok None.
Proof. intros G H. destruct (find_sha d sha G) as [[E _]|(r0 & k & _ & Hr & _ & Es)]; auto. elim H. exists r0. auto. Qed.
Lemma kept_hash d pk sha u : good d -> kept d pk sha u -> primary_key_from_sha256sum d sha = Ok (Some pk).
Proof.
  intros G K. destruct (kept_row _ _ _ _ K) as (r & E & Es & Ei). assert (Hr : In r (d_rows d (lit "ulog"))).
  { unfold log_rows in E. assert (In r [r]) by now left. rewrite <- E in H. now apply filter_In in H. }
  destruct (hash_found d sha G) as (r0 & k & H1 & H2 & H3 & H4); [exists r; auto|]. rewrite (sha_once d r0 r sha) in H3; auto. congruence.
Qed.
Lemma kept_has_hash d pk sha u : kept d pk sha u -> has_hash d sha.
Proof.
  intros K. destruct (kept_row _ _ _ _ K) as (r & E & Es & Ei). exists r. split; auto.
  unfold log_rows in E. assert (In r [r]) by now left. rewrite <- E in H. now apply filter_In in H.
Qed.
Lemma reached_inv d es : reached d es -> inv d es.
Proof. intros (d0 & objs & ops & w & Fr & R & <-). apply (run_inv ops (mkW d0 objs) [] w es); auto. now apply inv_start. Qed.
Lemma inv_kept d es k sha u : inv d es -> In (k, (sha, u)) (stored_logs es) -> kept d k sha u.
Proof. intros I H. pose proof (iv_log _ _ I) as F. rewrite Forall_forall in F. apply (F _ H). Qed.
Lemma inv_hash d es sha : inv d es -> has_hash d sha -> exists k u, In (k, (sha, u)) (stored_logs es).
Proof.
  intros I (r & Hr & Es). destruct (good_row_id d (lit "ulog") r (iv_good _ _ I) par_log Hr) as (k & Ek).
  assert (Hk : In k (map fst (stored_logs es))) by (apply (iv_keys _ _ I), row_ids_In; eauto).
  apply in_map_iff in Hk as ([k' [sha' u]] & E & Hk). cbn [fst] in E. subst k'.
  pose proof (inv_kept _ _ _ _ _ I Hk) as K. destruct (kept_row _ _ _ _ K) as (r' & El & Es' & Ei').
  assert (r' = r) as ->; [|exists k, u; congruence].
  assert (H : In r (log_rows d k)); [|rewrite El in H; now destruct H as [H|[]]].
  unfold log_rows. apply filter_In. split; auto. now apply log_id.
Qed.
