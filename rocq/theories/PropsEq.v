(** Property C57: == between logs from files and logs from a database. *)
From Verif Require Import Base Dict PyStr PyFloat PySort Struct ModelTypes ModelRead ModelApi Sql Schema5 ModelDb ModelEq
  Spec SpecApi SpecDb SpecHist ProofsDb ProofsHist ProofsEq ProofsCache Samples SamplesWrite PropsDb.

(** A ULog and a DatabaseULog, in either order: only the contents count, not key, handle, hash or lazy. *)
Theorem C57_mixed : forall u h o, wf_log u -> wf_log (o_log o) -> u_subs u = [] -> u_subs (o_log o) = [] ->
  (py_eq (PLog u) (PDb h o) = true <-> same_log u (o_log o)) /\ (py_eq (PDb h o) (PLog u) = true <-> same_log u (o_log o)).
Proof. intros u h o H1 H2 H3 H4. split; cbn [py_eq db_eq]; apply ulog_eqb_same; assumption. Qed.
Lemma key_eqb_iff a b : key_eqb a b = true <-> a = b.
Proof. destruct a, b; cbn [key_eqb]; try rewrite Z.eqb_eq; split; congruence. Qed.
(** Two DatabaseULogs: also the key, the handle, the lazy argument and the hash. *)
Theorem C57_database : forall h o h' o', wf_log (o_log o) -> wf_log (o_log o') -> u_subs (o_log o) = [] -> u_subs (o_log o') = [] ->
  (py_eq (PDb h o) (PDb h' o') = true <->
   o_pk o = o_pk o' /\ h = h' /\ o_lazy o = o_lazy o' /\ o_sha o = o_sha o' /\ same_log (o_log o) (o_log o')).
Proof.
  intros h o h' o' H1 H2 H3 H4. cbn [py_eq db_eq]. unfold db_attr_eqb.
  rewrite !andb_true_iff, key_eqb_iff, Z.eqb_eq, eqb_true_iff, str_eqb_eq, (ulog_eqb_same _ _ H1 H2 H3 H4). tauto.
Qed.
(** So == is symmetric on all of them. *)
Definition log_of (x : pyobj) : ulog := match x with PLog u => u | PDb _ o => o_log o end.
Theorem C57_symmetric : forall a b, wf_log (log_of a) -> wf_log (log_of b) -> u_subs (log_of a) = [] -> u_subs (log_of b) = [] ->
  py_eq a b = py_eq b a.
Proof.
  intros [u|h o] [v|h' o'] H1 H2 H3 H4; cbn [log_of] in *; try reflexivity; apply eq_true_iff_eq.
  - cbn [py_eq]. rewrite !ulog_eqb_same by assumption. split; apply same_log_sym.
  - rewrite !C57_database by assumption. split; intros (A & B & C & D & E); repeat (split; [congruence|]); now apply same_log_sym.
Qed.
(** After any history, a log opened by its key with lazy=False is equal to the log that was saved. *)
Theorem C57_saved : forall d k sha u h, fits_db u -> holds d k sha u ->
  u_corrupt u = false -> u_subs u = [] -> u_filtered u = [] -> u_missing u = [] ->
  exists o, open_key d k false = Ok o /\ py_eq (PLog u) (PDb h o) = true /\ py_eq (PDb h o) (PLog u) = true.
Proof.
  intros d k sha u h FT (es & R & H) H1 H2 H3 H4. destruct (C30_map _ _ R) as (M & _). specialize (M k sha u false H FT).
  eexists. split; [exact M|]. cbn [py_eq db_eq o_log]. split; apply (stored_eq u); assumption.
Qed.
Lemma loaded_as_wf u lazy : fits_db u -> wf_log (loaded_as u lazy).
Proof.
  intros [] . destruct ft_info as (I1 & I2 & _). destruct ft_multi as (M1 & M2 & _). destruct ft_defaults as (D1 & D2).
  split; unfold loaded_as, dkeys, stored, stored_dict;
    cbn [set_data u_info u_infot u_multi u_multit u_params u_defaults u_formats u_tagged u_filtered u_missing u_subs u_data];
    rewrite ?map_map; cbn [fst]; try (constructor; fail); try tauto; try (now rewrite <- I1); try (now rewrite <- M1).
  - apply Forall_map. eapply Forall_impl; [|exact D2]. cbv beta. intros [k m] (_ & _ & H & _). cbn [fst snd] in *. rewrite map_map. exact H.
  - destruct lazy; [apply Forall_map, Forall_forall; intros; constructor|]. eapply Forall_impl; [|exact ft_data]. cbv beta. intros ds []. rewrite fd_cols. auto.
Qed.
Lemma stored_not_nan v : fits_value v -> not_nan (stored_value v).
Proof. destruct v; cbn; auto. Qed.
Lemma loaded_as_no_nan u lazy : fits_db u -> no_nan (loaded_as u lazy).
Proof.
  intros []. destruct ft_info as (_ & _ & I & _). destruct ft_multi as (_ & _ & M & _). destruct ft_params as (_ & P). destruct ft_defaults as (_ & D).
  constructor; unfold loaded_as, stored, stored_dict; cbn [set_data u_info u_multi u_params u_defaults u_changed].
  - apply Forall_map. eapply Forall_impl; [|exact I]. cbv beta. intros kv [_ H]. now apply stored_not_nan.
  - eapply Forall_impl; [|exact M]. cbv beta. intros kv (_ & _ & H). eapply Forall_impl; [|exact H]. cbv beta. intros l [_ Hl].
    eapply Forall_impl; [|exact Hl]. exact text_not_nan.
  - apply Forall_map. eapply Forall_impl; [|exact P]. cbv beta. intros kv [_ H]. now apply stored_not_nan.
  - apply Forall_map. eapply Forall_impl; [|exact D]. cbv beta. intros td (_ & _ & _ & H). cbn [snd]. apply Forall_map.
    eapply Forall_impl; [|exact H]. cbv beta. intros kv [_ Hv]. now apply stored_not_nan.
  - apply Forall_map. eapply Forall_impl; [|exact ft_changed]. cbv beta. intros c (_ & _ & H). now apply stored_not_nan.
Qed.
(** Two objects opened by the same key through one handle with the same lazy argument are equal, whatever else happened
    to the database in between. *)
Theorem C57_opened_twice : forall d d' k sha u h lazy, fits_db u -> holds d k sha u -> holds d' k sha u ->
  exists o o', open_key d k lazy = Ok o /\ open_key d' k lazy = Ok o' /\ py_eq (PDb h o) (PDb h o') = true.
Proof.
  intros d d' k sha u h lazy FT (es & R & H) (es' & R' & H'). destruct (C30_map _ _ R) as (M & _). destruct (C30_map _ _ R') as (M' & _).
  specialize (M k sha u lazy H FT). specialize (M' k sha u lazy H' FT). do 2 eexists. split; [exact M|]. split; [exact M'|].
  apply C57_database; cbn [o_log o_pk o_lazy o_sha].
  1,2: apply loaded_as_wf; exact FT. 1,2: reflexivity. repeat (split; [reflexivity|]). apply same_log_refl, loaded_as_no_nan, FT.
Qed.
(** The object that saved a log and the one opened with lazy=False through the same handle: equal if the first was made
    with lazy=False, too; *)
Theorem C57_saver : forall d o h, good d -> SCHEMA_VERSION <= d_version d ->
  o_pk o = None -> o_lazy o = false -> fits_db (o_log o) -> no_surrogate (o_sha o) -> ~ has_hash d (o_sha o) ->
  u_corrupt (o_log o) = false -> u_subs (o_log o) = [] -> u_filtered (o_log o) = [] -> u_missing (o_log o) = [] ->
  exists k d' o2, save no_fault false o d = (Ok tt, set_pk (Some k) o, d') /\ open_key d' k false = Ok o2 /\
    py_eq (PDb h (set_pk (Some k) o)) (PDb h o2) = true.
Proof.
  intros d o h G V P L FT Ns Nh H1 H2 H3 H4. destruct (C29_round_trip d o false G V P FT Ns Nh ltac:(discriminate)) as (k & d' & E1 & E2).
  exists k, d'. eexists. split; [exact E1|]. split; [exact E2|]. cbn [py_eq db_eq]. unfold db_attr_eqb, set_pk. cbn [o_pk o_lazy o_sha o_log key_eqb].
  rewrite !Z.eqb_refl, L, str_eqb_refl. cbn [eqb andb]. apply stored_eq; assumption.
Qed.
(** finding: with the default lazy=True they are different, although each is equal to the ULog of the file; *)
Theorem C57_saver_refuted : forall d o h, good d -> SCHEMA_VERSION <= d_version d ->
  o_pk o = None -> o_lazy o = true -> fits_db (o_log o) -> no_surrogate (o_sha o) -> ~ has_hash d (o_sha o) ->
  exists k d' o2, save no_fault false o d = (Ok tt, set_pk (Some k) o, d') /\ open_key d' k false = Ok o2 /\
    py_eq (PDb h (set_pk (Some k) o)) (PDb h o2) = false.
Proof.
  intros d o h G V P L FT Ns Nh. destruct (C29_round_trip d o false G V P FT Ns Nh ltac:(discriminate)) as (k & d' & E1 & E2).
  exists k, d'. eexists. split; [exact E1|]. split; [exact E2|]. cbn [py_eq db_eq]. unfold db_attr_eqb, set_pk. cbn [o_pk o_lazy o_sha o_log key_eqb].
  rewrite !Z.eqb_refl, L. reflexivity.
Qed.
(** finding: through two handles of one database file, even the same open gives different objects. *)
Theorem C57_handles_refuted : forall h h' o, h <> h' -> py_eq (PDb h o) (PDb h' o) = false.
Proof. intros h h' o N. cbn [py_eq db_eq]. unfold db_attr_eqb. destruct (Z.eqb_spec h h'); [congruence|]. now rewrite andb_false_r. Qed.
(** The sample log in an empty database. *)
Example C57_ex : good d5 /\ SCHEMA_VERSION <= d_version d5 /\ fits_db s_obj /\ no_surrogate (o_sha s_new) /\ ~ has_hash d5 (o_sha s_new) /\
  u_corrupt s_obj = false /\ u_subs s_obj = [] /\ u_filtered s_obj = [] /\ u_missing s_obj = [] /\ u_data s_obj <> [] /\
  exists d, holds d 1 (lit "abc") s_obj.
Proof.
  repeat match goal with |- _ /\ _ => split end; try reflexivity; try discriminate; auto using fresh_good, d5_fresh, s_fits_db, d5_no_hash, s_holds.
  repeat constructor; cbn; lia.
Qed.
