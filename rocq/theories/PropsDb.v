(** Properties C29-C36: the database. *)
From Coq Require Import Sorted.
From Verif Require Import Base Dict PyStr PyFloat PySort Struct ModelTypes ModelApi Sql Schema5 ModelDb Spec SpecApi SpecDb SpecHist Samples SamplesWrite.
From Verif Require ModelRead ProofsRead.
From Verif Require Import ProofsDb ProofsDel ProofsFrame ProofsSave ProofsStore ProofsReload ProofsFwd ProofsEq ProofsHist ProofsCache.

(** ** Concrete cases *)
Definition d5 : db := mkDb v5_defs (fun _ => []) (fun _ => 0) [] 5.
Lemma d5_fresh : fresh d5.
Proof. constructor; reflexivity. Qed.
Ltac fdb := repeat first
  [ match goal with
    | |- _ /\ _ => split
    | |- int64 _ => unfold int64; cbn; lia
    | |- no_surrogate _ => unfold no_surrogate
    | |- NoDup _ => cbn; nodup
    | |- Forall _ [] => constructor
    | |- Forall _ (_ :: _) => constructor
    | |- Forall _ (lit _) => progress cbn
    | |- Forall _ _ => cbn; constructor
    end
  | progress cbn [fst snd fits_value fits_text mf_name mf_fields lg_level lg_ts lg_msg tg_tag tg_level tg_ts tg_msg dr_dur dr_ts]
  | reflexivity | discriminate | exact I | lia | (cbn; lia) ].
Lemma s_fits_db : fits_db s_obj.
Proof.
  assert (T : forall ds, In ds (u_data s_obj) -> fits_dataset ds).
  { intros ds H. cbn [s_obj u_data] in H. entries; subst ds; constructor; cbn [s_ds ds_multi ds_id ds_name ds_fields ds_tsidx ds_data].
    all: try (unfold flat_t; fdb; fail).
    all: unfold flat_t; repeat constructor; eexists; (split; [reflexivity|]); (split; [reflexivity|]); (split; [discriminate|]); repeat constructor; cbn; lia. }
  constructor; cbn [s_obj u_version u_start u_last u_sync_cnt u_compat u_incompat u_offsets u_info u_infot u_multi u_multit u_params u_defaults u_changed u_formats u_logged u_tagged u_dropouts].
  all: try (fdb; fail).
  - apply Forall_forall, T.
  - constructor; [constructor; constructor|]. constructor; [|constructor]. right. split; [reflexivity|cbn; lia].
Qed.
Definition s_new : dbulog := mkObj None (lit "abc") false s_obj.

(** ** C29: saving a log and loading it back *)
Theorem C29_round_trip : forall d o json, good d -> SCHEMA_VERSION <= d_version d ->
  o_pk o = None -> fits_db (o_log o) -> no_surrogate (o_sha o) -> ~ has_hash d (o_sha o) ->
  (json = true -> Forall json_dataset (u_data (o_log o))) ->
  exists k d', save no_fault json o d = (Ok tt, set_pk (Some k) o, d') /\
    open_key d' k false = Ok (mkObj (Some k) (o_sha o) false (stored (o_log o))).
Proof.
  intros d o json G V P FT Ns Nh J. destruct (save_ok json o d G FT Ns J (hash_absent _ _ G Nh)) as (r & d1 & N & d' & E & X).
  exists (next_key d), d'. split; [unfold save; now rewrite P, (hash_absent _ _ G Nh)|].
  unfold open_key. destruct (tx_same _ _ _ _ _ _ _ X) as (Vd & _). rewrite Vd. destruct (Z.ltb_spec (d_version d) SCHEMA_VERSION); [lia|].
  rewrite (load_back _ _ _ _ _ _ _ G X FT false). unfold loaded_as. now destruct (o_log o).
Qed.
(** What comes back compares equal to the log that was saved. *)
Theorem C29_equal : forall d o json, good d -> SCHEMA_VERSION <= d_version d ->
  o_pk o = None -> fits_db (o_log o) -> no_surrogate (o_sha o) -> ~ has_hash d (o_sha o) ->
  (json = true -> Forall json_dataset (u_data (o_log o))) ->
  u_corrupt (o_log o) = false -> u_subs (o_log o) = [] -> u_filtered (o_log o) = [] -> u_missing (o_log o) = [] ->
  exists k d' o', save no_fault json o d = (Ok tt, set_pk (Some k) o, d') /\ open_key d' k false = Ok o' /\
    o_sha o' = o_sha o /\ ulog_eqb (o_log o) (o_log o') = true.
Proof.
  intros d o json G V P FT Ns Nh J H1 H2 H3 H4. destruct (C29_round_trip d o json G V P FT Ns Nh J) as (k & d' & E1 & E2).
  exists k, d', (mkObj (Some k) (o_sha o) false (stored (o_log o))). repeat (split; auto). now apply stored_eq.
Qed.
Lemma d5_no_hash sha : ~ has_hash d5 sha.
Proof. intros (r & [] & _). Qed.
Example C29_ex : good d5 /\ SCHEMA_VERSION <= d_version d5 /\ o_pk s_new = None /\ fits_db (o_log s_new) /\ no_surrogate (o_sha s_new) /\
  ~ has_hash d5 (o_sha s_new) /\ Forall json_dataset (u_data (o_log s_new)) /\ u_corrupt (o_log s_new) = false /\
  u_subs (o_log s_new) = [] /\ u_filtered (o_log s_new) = [] /\ u_missing (o_log s_new) = [].
Proof.
  repeat match goal with |- _ /\ _ => split end; try reflexivity; try (cbn; lia); auto using fresh_good, d5_fresh, s_fits_db, d5_no_hash.
  - repeat constructor; cbn; lia.
  - repeat constructor; (eexists; split; [reflexivity|]); intros c E; injection E as <-; intros a t x b _ _; cbn; discriminate.
Qed.

(** Findings.  That a file was damaged is not stored ... *)
Theorem C29_corrupt_refuted : forall d o json, good d -> SCHEMA_VERSION <= d_version d ->
  o_pk o = None -> fits_db (o_log o) -> no_surrogate (o_sha o) -> ~ has_hash d (o_sha o) ->
  (json = true -> Forall json_dataset (u_data (o_log o))) -> wf_log (o_log o) -> u_subs (o_log o) = [] ->
  u_corrupt (o_log o) = true ->
  exists k d' o', save no_fault json o d = (Ok tt, set_pk (Some k) o, d') /\ open_key d' k false = Ok o' /\ ulog_eqb (o_log o) (o_log o') = false.
Proof.
  intros d o json G V P FT Ns Nh J W Hs Hc. destruct (C29_round_trip d o json G V P FT Ns Nh J) as (k & d' & E1 & E2).
  exists k, d', (mkObj (Some k) (o_sha o) false (stored (o_log o))). repeat (split; auto). cbn [o_log].
  apply not_true_is_false. intros E. apply ulog_eqb_same in E; auto using stored_wf. apply sl_corrupt in E. cbn in E. congruence.
Qed.
(** ... numbers of info messages with several parts come back as text ... *)
Definition saved_and_loaded (u : ulog) : res unit * res ulog :=
  let '(r, _, d') := save no_fault false (mkObj None (lit "abc") false u) d5 in (r, rmap o_log (open_key d' 1 false)).
Theorem C29_numbers_refuted : exists u u', saved_and_loaded u = (Ok tt, Ok u') /\
  u_multi u = [(lit "k", [[VInt 5]])] /\ u_multit u = [(lit "k", lit "int32_t")] /\ u_multi u' = [(lit "k", [[VStr (lit "5")]])] /\ ulog_eqb u u' = false.
Proof.
  exists (set_multi [(lit "k", [[VInt 5]])] (set_multit [(lit "k", lit "int32_t")] ulog0)). eexists.
  split; [vm_compute; reflexivity|]. split; [reflexivity|]. split; [reflexivity|]. split; vm_compute; reflexivity.
Qed.
(** ... formats without fields are lost ... *)
Theorem C29_formats_refuted : exists u u', saved_and_loaded u = (Ok tt, Ok u') /\
  u_formats u = [(lit "empty", mkFmt (lit "empty") [])] /\ u_formats u' = [] /\ ulog_eqb u u' = false.
Proof.
  exists (set_formats [(lit "empty", mkFmt (lit "empty") [])] ulog0). eexists.
  split; [vm_compute; reflexivity|]. split; [reflexivity|]. split; vm_compute; reflexivity.
Qed.
(** ... and these logs cannot be saved: with an integer beyond 63 bits, with two datasets of one
    name and instance. *)
Theorem C29_large_refuted : exists u, u_info u = [(lit "k", VInt (2 ^ 64 - 1))] /\ u_infot u = [(lit "k", lit "uint64_t")] /\
  fst (saved_and_loaded u) = Err OverflowError.
Proof.
  exists (set_info [(lit "k", VInt 18446744073709551615)] (set_infot [(lit "k", lit "uint64_t")] ulog0)).
  split; [reflexivity|]. split; [reflexivity|]. vm_compute. reflexivity.
Qed.
Theorem C29_datasets_refuted : exists u, u_data u = [s_ds 0 1 [1000] [5] [1] [2]; s_ds 0 2 [1500] [9] [3] [4]] /\
  fst (saved_and_loaded u) = Err IntegrityError.
Proof. exists (set_data [s_ds 0 1 [1000] [5] [1] [2]; s_ds 0 2 [1500] [9] [3] [4]] ulog0). split; [reflexivity|]. vm_compute. reflexivity. Qed.
(** Nor, with append_json, a log with a float of minus infinity. *)
Theorem C29_json_refuted : exists o r o' d', fits_db (o_log o) /\ save no_fault true o d5 = (r, o', d') /\ r = Err OperationalError /\
  fst (fst (save no_fault false o d5)) = Ok tt.
Proof.
  exists (mkObj None (lit "abc") false (set_data [mkDS 0 1 (lit "t") [mkFD (lit "timestamp") U64; mkFD (lit "x") F32] 0
     [(lit "timestamp", mkCol (NI 8 false) [5]); (lit "x", mkCol (NF 4) [4286578688])]] ulog0)). do 3 eexists.
  split; [|split; [vm_compute; reflexivity|split; [reflexivity|vm_compute; reflexivity]]].
  constructor; cbn [o_log set_data ulog0 u_version u_start u_last u_sync_cnt u_compat u_incompat u_offsets u_info u_infot u_multi u_multit u_params u_defaults u_changed u_formats u_logged u_tagged u_dropouts u_data].
  all: try (fdb; fail).
  - constructor; [|constructor]. constructor; cbn [ds_multi ds_id ds_name ds_fields ds_tsidx ds_data]; try (fdb; fail).
    repeat constructor; eexists; (split; [reflexivity|]); (split; [reflexivity|]); (split; [discriminate|]); repeat constructor; cbn; lia.
  - repeat constructor.
Qed.

(** ** C30: the database is a map *)
(** Whatever the operations were, with failing statements, edited objects and objects of other
    databases among them: every log that was saved and not deleted opens as what was saved, a key
    that holds no log raises KeyError, and no key is given twice, even after deletions. *)
Theorem C30_map : forall d es, reached d es ->
  (forall k sha u lazy, In (k, (sha, u)) (stored_logs es) -> fits_db u ->
     open_key d k lazy = Ok (mkObj (Some k) sha lazy (loaded_as u lazy))) /\
  (forall k lazy, ~ In k (map fst (stored_logs es)) -> open_key d k lazy = Err KeyError) /\
  NoDup (map fst (stored_logs es)) /\ NoDup (saved_keys es).
Proof.
  intros d es R. pose proof (reached_inv _ _ R) as I. split; [|split; [|split]].
  - intros k sha u lazy H FT. rewrite open_key_load by apply (iv_version _ _ I). eapply kept_load; eauto; [apply (iv_good _ _ I)|].
    eapply inv_kept; eauto.
  - intros k lazy H. rewrite open_key_load by apply (iv_version _ _ I). eapply log_absent; [apply (iv_good _ _ I)| |reflexivity].
    intros Hk. apply H. now apply (iv_keys _ _ I).
  - apply (iv_nodup _ _ I).
  - apply (iv_once _ _ I).
Qed.
(** A log that cannot be loaded in full is still there with its key and its hash. *)
Theorem C30_listed : forall d es, reached d es -> forall k, (exists sha u, In (k, (sha, u)) (stored_logs es)) <-> exists_in_db d k = Ok true.
Proof.
  intros d es R k. pose proof (reached_inv _ _ R) as I. unfold exists_in_db. rewrite (select_log d _ k (gd_defs _ (iv_good _ _ I))) by reflexivity. cbn [bind]. split.
  - intros (sha & u & H). destruct (kept_row _ _ _ _ (inv_kept _ _ _ _ _ I H)) as (r & -> & _). reflexivity.
  - intros H. destruct (log_rows d k) as [|r l] eqn:E; [discriminate|]. assert (Hr : In r (log_rows d k)) by (rewrite E; now left).
    apply filter_In in Hr as [Hr Hi]. apply log_id in Hi. assert (Hk : In k (map fst (stored_logs es))) by (apply (iv_keys _ _ I), row_ids_In; eauto).
    apply in_map_iff in Hk as ([k' [sha u]] & <- & Hk). eauto.
Qed.
(** One operation changes no other log: what opening any other key gives, exceptions included, is
    the same before and after. *)
Theorem C30_others : forall w o w' e k lazy, good (w_db w) -> step w o = (w', e) ->
  match e with Saved k' _ _ => k <> k' | Deleted k' => k <> k' | Other => True end ->
  open_key (w_db w') k lazy = open_key (w_db w) k lazy.
Proof.
  intros w o w' e k lazy G S H. unfold open_key. destruct (step_db _ _ _ _ G S) as [[-> _]|[(r & d1 & N & sha & u & -> & X)|(k' & -> & C)]]; [reflexivity| |].
  - destruct (tx_same _ _ _ _ _ _ _ X) as (-> & _). destruct (_ <? _); [reflexivity|]. symmetry. apply (load_same _ _ k G (gd_defs _ (tx_good _ _ _ _ _ _ _ X))); [|reflexivity].
    eapply tx_agree; eauto.
  - rewrite (ct_ver _ _ _ C). destruct (_ <? _); [reflexivity|]. symmetry. apply (load_same _ _ k G (gd_defs _ (cuts_good _ _ _ G C))); [|reflexivity]. eapply cuts_agree; eauto.
Qed.
Theorem C30_good : forall d es, reached d es -> good d /\ d_version d = SCHEMA_VERSION.
Proof. intros d es R. pose proof (reached_inv _ _ R) as I. split; [apply (iv_good _ _ I)|apply (iv_version _ _ I)]. Qed.
Definition ops1 : list op := [OFile (lit "abc") (Ok s_obj) false; OSave 0 no_fault false; OFile (lit "def") (Ok ulog0) false; OSave 1 no_fault false;
  ODelete 0 no_fault; OSave 0 no_fault false].
Example C30_ex : exists d es, reached d es /\ stored_logs es = [(2, (lit "def", ulog0)); (3, (lit "abc", s_obj))] /\ saved_keys es = [1; 2; 3].
Proof.
  destruct (run (mkW d5 []) ops1) as [w es] eqn:E. exists (w_db w), es. split; [exists d5, [], ops1, w; auto using d5_fresh|].
  assert (E2 : es = snd (run (mkW d5 []) ops1)) by now rewrite E. subst es. split; vm_compute; reflexivity.
Qed.

(** ** C31: delete removes the rows of its log *)
Theorem C31_delete : forall d o k, good d -> o_pk o = Some k -> exists d', delete no_fault o d = (Ok tt, set_pk None o, d') /\
  (forall t r, In r (d_rows d' t) <-> In r (d_rows d t) /\ ~ belongs d k t r) /\
  (forall t, exists f, d_rows d' t = filter f (d_rows d t) /\ forall r, In r (d_rows d t) -> (f r = true <-> ~ belongs d k t r)) /\
  d_defs d' = d_defs d /\ d_version d' = d_version d /\ d_idx d' = d_idx d.
Proof.
  intros d o k G P. destruct (sql_delete_log d k G) as (d' & E & C). exists d'. split; [unfold delete; now rewrite P, E|].
  split; [|split; [apply (ct_rows _ _ _ C)|split; [apply (ct_defs _ _ _ C)|split; [apply (ct_ver _ _ _ C)|apply (ct_idx _ _ _ C)]]]].
  intros t r. destruct (ct_rows _ _ _ C t) as (f & -> & Hf). rewrite filter_In. split; intros [H1 H2]; (split; [auto|]); now apply Hf.
Qed.
(** No orphans: after any operation every reference is to a row that exists ... *)
Theorem C31_no_orphans : forall d es, reached d es -> forall t c a p, In (t, (c, a, p)) links -> forall r, In r (d_rows d t) ->
  exists rp i, In rp (d_rows d p) /\ row_id (cols p) rp = Some i /\ refers t c a r i.
Proof.
  intros d es R t c a p L r Hr. pose proof (gd_fk _ (iv_good _ _ (reached_inv _ _ R)) _ _ _ _ L) as F. rewrite Forall_forall in F.
  destruct (F r Hr) as (i & Hi & Ri). apply row_ids_In in Hi as (rp & H1 & H2). eauto.
Qed.
(** ... and every row belongs to one log of the database, so that an empty database is left when
    all logs are deleted. *)
Lemma link_depth t c a p : In (t, (c, a, p)) links -> p = lit "ulog" \/ exists c' a' p', In (p, (c', a', p')) links /\ In p parents /\
  (p' = lit "ulog" \/ exists c2 a2, In (p', (c2, a2, lit "ulog")) links /\ In p' parents).
Proof.
  assert (B : forallb (fun l => let p := snd (snd l) in str_eqb p (lit "ulog") ||
    (existsb (str_eqb p) parents && existsb (fun l' => str_eqb (fst l') p && (let p' := snd (snd l') in str_eqb p' (lit "ulog") ||
      (existsb (str_eqb p') parents && existsb (fun l2 => str_eqb (fst l2) p' && str_eqb (snd (snd l2)) (lit "ulog")) links))) links)) links = true) by (vm_compute; reflexivity).
  assert (Pa : forall q, existsb (str_eqb q) parents = true -> In q parents) by (intros q Hq; apply existsb_exists in Hq as (x & Hx & E); apply str_eqb_eq in E; now subst x).
  intros H. rewrite forallb_forall in B. specialize (B _ H). cbv zeta in B. cbn [fst snd] in B. apply orb_true_iff in B as [B|B]; [left; now apply str_eqb_eq|right].
  apply andb_true_iff in B as [B1 B2]. apply existsb_exists in B2 as ([t' [[c' a'] p']] & L & B2). cbn [fst snd] in B2. apply andb_true_iff in B2 as [B2 B3]. apply str_eqb_eq in B2. subst t'.
  exists c', a', p'. split; [exact L|]. split; [auto|]. apply orb_true_iff in B3 as [B3|B3]; [left; now apply str_eqb_eq|right].
  apply andb_true_iff in B3 as [B3 B4]. apply existsb_exists in B4 as ([t2 [[c2 a2] p2]] & L2 & B4). cbn [fst snd] in B4. apply andb_true_iff in B4 as [B4 B5].
  apply str_eqb_eq in B4, B5. subst t2 p2. exists c2, a2. split; auto.
Qed.
Theorem C31_owned : forall d es t r, reached d es -> t = lit "ulog" \/ (exists c a p, In (t, (c, a, p)) links) -> In r (d_rows d t) ->
  exists k sha u, In (k, (sha, u)) (stored_logs es) /\ belongs d k t r.
Proof.
  intros d es t r R T Hr. pose proof (reached_inv _ _ R) as I. pose proof (iv_good _ _ I) as G.
  assert (K : forall k, In k (row_ids (cols (lit "ulog")) (d_rows d (lit "ulog"))) -> exists sha u, In (k, (sha, u)) (stored_logs es)).
  { intros k H. apply (iv_keys _ _ I) in H. apply in_map_iff in H as ([k' [sha u]] & <- & H). eauto. }
  assert (U : forall t c a p r, In (t, (c, a, p)) links -> In r (d_rows d t) -> exists i, In i (row_ids (cols p) (d_rows d p)) /\ refers t c a r i).
  { intros t' c' a' p' r' L H'. pose proof (gd_fk _ G _ _ _ _ L) as F. rewrite Forall_forall in F. auto. }
  destruct T as [->|(c & a & p & L)].
  - destruct (good_row_id d _ r G par_log Hr) as (k & Ek). destruct (K k) as (sha & u & H); [apply row_ids_In; eauto|].
    exists k, sha, u. split; auto. left. auto.
  - destruct (U _ _ _ _ _ L Hr) as (i & Hi & Ri). destruct (link_depth _ _ _ _ L) as [->|(c' & a' & p' & L' & Pp & D)].
    + destruct (K i Hi) as (sha & u & H). exists i, sha, u. split; auto. right. exists c, a, (lit "ulog"), i. repeat split; auto. constructor.
    + apply row_ids_In in Hi as (rp & Hp & Ep). destruct (U _ _ _ _ _ L' Hp) as (i' & Hi' & Ri').
      destruct D as [->|(c2 & a2 & L2 & Pp')].
      * destruct (K i' Hi') as (sha & u & H). exists i', sha, u. split; auto. right. exists c, a, p, i. repeat split; auto. eapply owns_child; eauto. constructor.
      * apply row_ids_In in Hi' as (rp' & Hp' & Ep'). destruct (U _ _ _ _ _ L2 Hp') as (k & Hk & Rk). destruct (K k Hk) as (sha & u & H).
        exists k, sha, u. split; auto. right. exists c, a, p, i. repeat split; auto. eapply owns_child; eauto. eapply owns_child; eauto. constructor.
Qed.
(** every table of the schema is one of these *)
Example C31_tables : Forall (fun td => fst td = lit "ulog" \/ exists c a p, In (fst td, (c, a, p)) links) v5_defs.
Proof.
  assert (B : forallb (fun td => str_eqb (fst td) (lit "ulog") || existsb (fun l => str_eqb (fst l) (fst td)) links) v5_defs = true) by (vm_compute; reflexivity).
  apply Forall_forall. intros td H. rewrite forallb_forall in B. specialize (B td H). apply orb_true_iff in B as [B|B].
  - left. now apply str_eqb_eq.
  - right. apply existsb_exists in B as ([t [[c a] p]] & L & B). apply str_eqb_eq in B. cbn [fst] in B. subst t. eauto.
Qed.
(** A delete that raises changes nothing. *)
Theorem C31_failed : forall F o d e o' d', good d -> delete F o d = (Err e, o', d') -> d' = d /\ o' = o.
Proof.
  intros F o d e o' d' G E. destruct (delete_cases F o d G) as [(e1 & H)|(pk & d1 & _ & H & _)]; rewrite H in E; [|discriminate].
  apply (f_equal (fun x => (snd x, snd (fst x)))) in E. cbn [fst snd] in E. now injection E.
Qed.
Example C31_ex : exists d', good d' /\ In 1 (row_ids (cols (lit "ulog")) (d_rows d' (lit "ulog"))) /\ belongs d' 1 (lit "ulog") (nth 0 (d_rows d' (lit "ulog")) []).
Proof.
  exists (w_db (fst (run (mkW d5 []) (firstn 2 ops1)))). split; [eapply (C30_good _ _ (ex_intro _ d5 (ex_intro _ [] (ex_intro _ (firstn 2 ops1) (ex_intro _ _ (conj d5_fresh (conj (surjective_pairing _) eq_refl)))))))|].
  split; [vm_compute; auto|left; split; vm_compute; reflexivity].
Qed.

(** ** C32: a failed save *)
(** The database is as before, and so are the contents and the hash of the object ... *)
Theorem C32_database_partial : forall F json o d e o' d', good d -> save F json o d = (Err e, o', d') ->
  d' = d /\ o_log o' = o_log o /\ o_sha o' = o_sha o /\ o_lazy o' = o_lazy o.
Proof.
  intros F json o d e o' d' G E. destruct (save_cases F json o d G) as [(e1 & o1 & H & H1 & H2 & H3)|(r & d1 & N & d2 & H & _)]; rewrite H in E; [|discriminate].
  apply (f_equal (fun x => (snd x, snd (fst x)))) in E. cbn [fst snd] in E. injection E as <- <-. auto.
Qed.
(** ... but the object is not unsaved any more: its key is that of the log that has the same hash,
    and delete() then removes that log ... *)
Theorem C32_duplicate_refuted : forall d es F json o k sha u, reached d es -> In (k, (sha, u)) (stored_logs es) -> o_pk o = None -> o_sha o = sha ->
  save F json o d = (Err KeyError, set_pk (Some k) o, d) /\
  exists d', delete no_fault (set_pk (Some k) o) d = (Ok tt, o, d') /\ open_key d' k false = Err KeyError.
Proof.
  intros d es F json o k sha u R H P Hs. pose proof (reached_inv _ _ R) as I. split.
  - unfold save. now rewrite P, Hs, (kept_hash _ _ _ _ (iv_good _ _ I) (inv_kept _ _ _ _ _ I H)).
  - destruct (sql_delete_log d k (iv_good _ _ I)) as (d' & E & C). exists d'. split; [unfold delete; cbn [o_pk set_pk]; rewrite E; unfold no_fault, set_pk; cbn; now rewrite <- P; destruct o|].
    unfold open_key. rewrite (ct_ver _ _ _ C), (iv_version _ _ I), Z.ltb_irrefl. eapply log_absent; [eapply cuts_good; eauto; apply (iv_good _ _ I)| |reflexivity].
    eapply cuts_gone; eauto.
Qed.
(** ... or the key that the next log to be saved gets. *)
Definition fail_at (k : nat) : fault := fun n => if Nat.eqb n k then Some OSError else None.
Theorem C32_stale_key_refuted : exists a b, o_pk a = None /\ o_pk b = None /\ o_sha a <> o_sha b /\
  let '(ra, a1, d1) := save (fail_at 1) false a d5 in
  let '(rb, b1, d2) := save no_fault false b d1 in
  let '(rc, a2, d3) := delete no_fault a1 d2 in
  ra = Err OSError /\ rb = Ok tt /\ o_pk b1 = Some 1 /\ rc = Ok tt /\ open_key d3 1 false = Err KeyError.
Proof.
  exists (mkObj None (lit "abc") false ulog0), (mkObj None (lit "def") false (set_params [(lit "P", VInt 5)] ulog0)).
  split; [reflexivity|]. split; [reflexivity|]. split; [discriminate|]. vm_compute. repeat split; reflexivity.
Qed.

(** ** C33: one entry per file hash *)
Theorem C33_hashes : forall d es, reached d es ->
  NoDup (map (fun kv => fst (snd kv)) (stored_logs es)) /\
  (forall k sha u, In (k, (sha, u)) (stored_logs es) -> primary_key_from_sha256sum d sha = Ok (Some k)) /\
  (forall sha, (forall k u, ~ In (k, (sha, u)) (stored_logs es)) -> primary_key_from_sha256sum d sha = Ok None).
Proof.
  intros d es R. pose proof (reached_inv _ _ R) as I. pose proof (iv_good _ _ I) as G.
  assert (H : forall k sha u, In (k, (sha, u)) (stored_logs es) -> primary_key_from_sha256sum d sha = Ok (Some k)).
  { intros k sha u H. eapply kept_hash; eauto. eapply inv_kept; eauto. }
  split; [|split; [exact H|]].
  - pose proof (iv_nodup _ _ I) as Nd. revert H Nd. generalize (stored_logs es) as m. induction m as [|[k [sha u]] m IH]; intros H Nd; cbn [map fst snd] in *; [constructor|].
    inversion Nd as [|? ? N1 N2]; subst. constructor; [|apply IH; auto; intros; eapply H; right; eassumption].
    intros Hi. apply in_map_iff in Hi as ([k' [sha' u']] & E & Hi). cbn [fst snd] in E. subst sha'.
    pose proof (H k sha u (or_introl eq_refl)) as E1. pose proof (H k' sha u' (or_intror Hi)) as E2. rewrite E1 in E2. injection E2 as <-.
    apply N1. apply (in_map fst) in Hi. exact Hi.
  - intros sha N. apply hash_absent; auto. intros Hh. destruct (inv_hash _ _ _ I Hh) as (k & u & Hk). now apply N in Hk.
Qed.
(** The rows themselves: no two with the same hash, and saving a duplicate raises KeyError. *)
Theorem C33_rows : forall d es, reached d es ->
  ForallOrdPairs (fun r r' => cell_at (cols (lit "ulog")) r (lit "SHA256Sum") <> cell_at (cols (lit "ulog")) r' (lit "SHA256Sum")) (d_rows d (lit "ulog")).
Proof.
  intros d es R. pose proof (reached_inv _ _ R) as I. pose proof (iv_good _ _ I) as G.
  assert (T : forall r, In r (d_rows d (lit "ulog")) -> exists sha, cell_at (cols (lit "ulog")) r (lit "SHA256Sum") = CText sha).
  { intros r Hr. destruct (good_row_id d _ r G par_log Hr) as (k & Ek).
    assert (Hk : In k (map fst (stored_logs es))) by (apply (iv_keys _ _ I), row_ids_In; eauto).
    apply in_map_iff in Hk as ([k' [sha u]] & E & Hk). cbn [fst] in E. subst k'.
    destruct (kept_row _ _ _ _ (inv_kept _ _ _ _ _ I Hk)) as (r' & El & Es' & Ei'). exists sha.
    assert (H : In r (log_rows d k)) by (unfold log_rows; apply filter_In; split; auto; now apply log_id). rewrite El in H. destruct H as [<-|[]]. exact Es'. }
  pose proof (gd_uniq _ G (lit "ulog") t_ulog eq_refl) as U. pose proof (gd_nodup _ G (lit "ulog") par_log) as _.
  assert (W : forall l, (forall r, In r l -> In r (d_rows d (lit "ulog"))) -> ForallOrdPairs (fun r r' => clash t_ulog r' r = false) l ->
    ForallOrdPairs (fun r r' => cell_at (cols (lit "ulog")) r (lit "SHA256Sum") <> cell_at (cols (lit "ulog")) r' (lit "SHA256Sum")) l); [|apply W; auto].
  induction l as [|r l IH]; intros Hl Hp; [constructor|]. inversion Hp as [|? ? H1 H2]; subst. constructor; [|apply IH; auto; intros; apply Hl; now right].
  rewrite Forall_forall in *. intros r' Hr' E. specialize (H1 r' Hr'). destruct (T r (Hl r (or_introl eq_refl))) as (sha & Es).
  unfold clash in H1. cbn [t_uniq t_ulog existsb forallb t_cols] in H1. change c_ulog with (cols (lit "ulog")) in H1. rewrite <- E, Es in H1. cbn [cell_eqb] in H1. rewrite str_eqb_refl in H1. discriminate H1.
Qed.
Theorem C33_duplicate : forall F json o d, good d -> o_pk o = None -> has_hash d (o_sha o) ->
  exists o', save F json o d = (Err KeyError, o', d).
Proof.
  intros F json o d G P H. destruct (hash_found d _ G H) as (r & k & E & _). exists (set_pk (Some k) o). unfold save. now rewrite P, E.
Qed.
Example C33_ex : exists d es, reached d es /\ map (fun kv => fst (snd kv)) (stored_logs es) = [lit "def"; lit "abc"].
Proof. destruct C30_ex as (d & es & R & E & _). exists d, es. split; auto. now rewrite E. Qed.

(** ** C34: the hash of the file *)
Theorem C34_hash : forall H f, (forall fuel s, hash_blocks fuel H [] f = Some s -> s = H f) /\
  exists n, forall fuel, (n < fuel)%nat -> hash_blocks fuel H [] f = Some (H f).
Proof.
  intros H f. split; [intros fuel s E; exact (hash_all _ _ _ _ _ E)|]. exists (length f). intros fuel Hf.
  destruct (hash_ends H (length f) f [] fuel) as (s & E); [unfold lenZ; lia|exact Hf|]. rewrite E. now rewrite (hash_all _ _ _ _ _ E).
Qed.
(** A file given by name: hash and log are those of the whole file. *)
Theorem C34_by_name_partial : forall fuel H cf d f lazy o, init_file fuel H cf d f None lazy = Some (Ok o) ->
  o_sha o = H f /\ produces cf f (Ok (o_log o)) /\ o_pk o = None /\ o_lazy o = lazy.
Proof.
  intros fuel H cf d f lazy o E. unfold init_file in E. destruct (_ <? _) eqn:V; [discriminate|]. destruct (hash_blocks fuel H [] f) as [s|] eqn:Eh; [|discriminate].
  apply hash_all in Eh. cbn [app] in Eh. subst s. destruct (ModelRead.load_at _ _ _ _ _) as [[u|e]|] eqn:L; [| |discriminate]; unfold open_file in E; rewrite V in E; cbn [bind] in E; [|discriminate].
  injection E as <-. cbn. split; auto. split; auto. exists fuel. exact L.
Qed.
Theorem C34_by_name_loads : forall H cf d f lazy r, SCHEMA_VERSION <= d_version d -> produces cf f r ->
  exists fuel, init_file fuel H cf d f None lazy = Some (rmap (fun u => mkObj None (H f) lazy u) r).
Proof.
  intros H cf d f lazy r V (n & Hn). destruct (C34_hash H f) as (_ & m & Hm). exists (n + S m)%nat. unfold init_file.
  destruct (Z.ltb_spec (d_version d) SCHEMA_VERSION); [lia|]. rewrite Hm by lia.
  assert (L : ModelRead.load_at (n + S m) cf f 0 ulog0 = Some r) by (apply (ProofsRead.load_mono cf f n); [exact Hn|lia]). rewrite L.
  unfold open_file. destruct (Z.ltb_spec (d_version d) SCHEMA_VERSION); [lia|]. now destruct r.
Qed.
(** With a database of an older schema nothing is opened, neither a log of the database nor a file. *)
Theorem C34_old_schema : forall d, d_version d < SCHEMA_VERSION ->
  (forall k lazy, open_key d k lazy = Err ValueError) /\ (forall sha r lazy, open_file d sha r lazy = Err ValueError) /\
  forall fuel H cf f handle lazy, init_file fuel H cf d f handle lazy = Some (Err ValueError).
Proof.
  intros d Hv. unfold open_key, open_file, init_file. destruct (Z.ltb_spec (d_version d) SCHEMA_VERSION); [|lia]. repeat split; reflexivity.
Qed.
Example C34_old_schema_ex : d_version db0 < SCHEMA_VERSION.
Proof. reflexivity. Qed.
(** Finding: given as an open file, at whatever position, no file can be loaded, as the hash has used
    it up. *)
Theorem C34_handle_refuted : forall H cf d f p lazy, SCHEMA_VERSION <= d_version d -> 0 <= p ->
  exists n, forall fuel, (n < fuel)%nat -> init_file fuel H cf d f (Some p) lazy = Some (Err TypeError).
Proof.
  intros H cf d f p lazy V Hp. destruct (C34_hash H (dropZ p f)) as (_ & n & Hn). exists n. intros fuel Hf. unfold init_file.
  destruct (Z.ltb_spec (d_version d) SCHEMA_VERSION); [lia|]. rewrite Hn by exact Hf. unfold ModelRead.load_at, ModelRead.read_header, ModelRead.rd.
  rewrite dropZ_all by lia. cbn. unfold open_file. destruct (Z.ltb_spec (d_version d) SCHEMA_VERSION); [lia|reflexivity].
Qed.
Example C34_ex : produces cf0 s_file (Ok s_obj) /\ exists fuel, init_file fuel (fun b => b) cf0 d5 s_file None true = Some (Ok (mkObj None s_file true s_obj)).
Proof. split; [exact s_obj_loaded|]. apply (C34_by_name_loads (fun b => b) cf0 d5 s_file true (Ok s_obj)); [discriminate|exact s_obj_loaded]. Qed.

(** ** C35: lazy loading and caching *)
(** An object opened by key, then any get_dataset calls, also while other operations change the
    database as long as it holds the log: a dataset that is asked for in full is the one that was
    saved, one asked for lazily is that or lacks the columns, and a name or an instance that the
    log does not have raises KeyError. *)
Theorem C35_get : forall k sha u d0 lazy0 o calls d name multi lazy caching, fits_db u ->
  holds d0 k sha u -> open_key d0 k lazy0 = Ok o -> Forall (fun c => holds (ca_db c) k sha u) calls -> holds d k sha u ->
  let r := get_dataset_db d (fold_left get_call calls o) name multi lazy caching in
  (forall ds, In ds (u_data u) -> ds_name ds = name -> ds_multi ds = multi ->
     exists x o', r = Ok (x, o') /\ (lazy = false -> x = ds) /\ (x = ds \/ x = shell ds)) /\
  ((forall ds, In ds (u_data u) -> ds_name ds = name -> ds_multi ds <> multi) -> r = Err KeyError).
Proof.
  intros k sha u d0 lazy0 o calls d name multi lazy caching FT (es0 & R0 & H0) E F (es & R & H).
  assert (St : o_pk o = Some k /\ cached (u_data u) (u_data (o_log o))).
  { destruct (C30_map _ _ R0) as (M & _). rewrite (M _ _ _ lazy0 H0 FT) in E. injection E as <-. split; [reflexivity|apply cached_start]. }
  clear E. assert (St' : o_pk (fold_left get_call calls o) = Some k /\ cached (u_data u) (u_data (o_log (fold_left get_call calls o)))).
  { revert o St. induction F as [|c calls (esc & Rc & Hc) F IH]; intros o [P C]; [auto|]. cbn [fold_left]. apply IH.
    pose proof (reached_inv _ _ Rc) as I. pose proof (get_cached _ _ _ _ _ (ca_name c) (ca_multi c) (ca_lazy c) (ca_caching c) (iv_good _ _ I) (inv_kept _ _ _ _ _ I Hc) FT P C) as G.
    unfold get_call. destruct (find _ _); [destruct G as (x & o' & -> & ? & ? & _); auto|rewrite G; auto]. }
  destruct St' as [P C]. pose proof (reached_inv _ _ R) as I.
  pose proof (get_cached _ _ _ _ _ name multi lazy caching (iv_good _ _ I) (inv_kept _ _ _ _ _ I H) FT P C) as G. cbv zeta. split.
  - intros ds Hi Hn Hm. assert (Ef : find (is_dataset name multi) (u_data u) = Some ds).
    { apply find_first; auto; [now apply is_dataset_true|]. intros y Hy Ey. apply is_dataset_true in Ey as [E1 E2].
      eapply (NoDup_map_inj (fun ds => (ds_name ds, ds_multi ds))); eauto; [exact (sorted_unique_names d u FT)|congruence]. }
    rewrite Ef in G. destruct G as (x & o' & E1 & _ & _ & E2 & E3). eauto.
  - intros N. destruct (find (is_dataset name multi) (u_data u)) as [ds|] eqn:Ef; [|exact G].
    apply find_some in Ef as [Hi Hd]. apply is_dataset_true in Hd as [E1 E2]. now elim (N ds Hi E1).
Qed.
Lemma s_holds : exists d, holds d 1 (lit "abc") s_obj.
Proof.
  exists (w_db (fst (run (mkW d5 []) (firstn 2 ops1)))). eexists. split; [exact (ex_intro _ d5 (ex_intro _ [] (ex_intro _ (firstn 2 ops1) (ex_intro _ _ (conj d5_fresh (conj (surjective_pairing _) eq_refl))))))|].
  vm_compute. auto.
Qed.
Example C35_ex : exists d o, fits_db s_obj /\ holds d 1 (lit "abc") s_obj /\ open_key d 1 true = Ok o /\ u_data (o_log o) <> u_data s_obj.
Proof.
  destruct s_holds as (d & es & R & H). destruct (C30_map _ _ R) as (M & _). exists d. eexists. split; [exact s_fits_db|]. split; [exists es; auto|]. split; [apply (M _ _ _ true H s_fits_db)|].
  cbn. discriminate.
Qed.
(** Finding: a log that is opened lazily, deleted and saved again has lost its samples. *)
Theorem C35_resave_refuted : forall d es k sha u, reached d es -> In (k, (sha, u)) (stored_logs es) -> fits_db u -> no_surrogate sha ->
  exists o d1 o1 d2 k2 o2, open_key d k true = Ok o /\ delete no_fault o d = (Ok tt, o1, d1) /\
    save no_fault false o1 d1 = (Ok tt, set_pk (Some k2) o1, d2) /\
    open_key d2 k2 false = Ok o2 /\ u_data (o_log o2) = map shell (u_data u).
Proof.
  intros d es k sha u R H FT Ns. destruct (C30_map _ _ R) as (M & _). pose proof (reached_inv _ _ R) as I.
  destruct (sql_delete_log d k (iv_good _ _ I)) as (d1 & E & C).
  assert (FT' : fits_db (set_data (map shell (u_data u)) (stored u))).
  { destruct FT. constructor; cbn [set_data stored u_version u_start u_last u_sync_cnt u_compat u_incompat u_offsets u_info u_infot u_multi u_multit u_params u_defaults u_changed u_formats u_logged u_tagged u_dropouts u_data]; auto.
    - unfold stored_dict. rewrite map_map. cbn [fst]. destruct ft_info as (I1 & I2 & I3 & I4). repeat split; auto. apply Forall_map. eapply Forall_impl; [|exact I3]. cbv beta. cbn [fst snd].
      intros kv [? Hv]. split; auto. destruct (snd kv); cbn [stored_value fits_value] in *; auto. unfold int64. destruct b; lia.
    - unfold stored_dict. rewrite map_map. cbn [fst]. destruct ft_params as (I1 & I3). split; auto. apply Forall_map. eapply Forall_impl; [|exact I3]. cbv beta. cbn [fst snd].
      intros kv [? Hv]. split; auto. destruct (snd kv); cbn [stored_value fits_value] in *; auto. unfold int64. destruct b; lia.
    - rewrite map_map. cbn [fst]. destruct ft_defaults as (I1 & I3). split; auto. apply Forall_map. eapply Forall_impl; [|exact I3]. cbv beta. cbn [fst snd].
      intros td (? & Hn & Nd & Hv). split; auto. unfold stored_dict. rewrite map_map. cbn [fst]. split; [intros Q; apply map_eq_nil in Q; auto|]. split; auto.
      apply Forall_map. eapply Forall_impl; [|exact Hv]. cbv beta. cbn [fst snd]. intros kv [? Hw]. split; auto. destruct (snd kv); cbn [stored_value fits_value] in *; auto. unfold int64. destruct b; lia.
    - apply Forall_map. eapply Forall_impl; [|exact ft_changed]. cbv beta. cbn [fst snd]. intros c (? & ? & Hw). split; auto. split; auto. destruct (snd c); cbn [stored_value fits_value] in *; auto. unfold int64. destruct b; lia.
    - apply Forall_map. eapply Forall_impl; [|exact ft_data]. cbv beta. intros ds []. constructor; cbn [shell ds_multi ds_id ds_name ds_fields ds_tsidx ds_data map]; auto; try constructor; try tauto; constructor.
    - clear -ft_sorted. induction ft_sorted as [|ds l Hs IH Hf]; cbn [map]; constructor; auto. apply Forall_map. exact Hf. }
  destruct (C29_round_trip d1 (mkObj None sha true (set_data (map shell (u_data u)) (stored u))) false) as (k2 & d2 & E1 & E2); auto.
  - eapply cuts_good; eauto. apply (iv_good _ _ I).
  - rewrite (ct_ver _ _ _ C), (iv_version _ _ I). lia.
  - cbn [o_sha]. intros Hh. assert (I1 : inv d1 (es ++ [Deleted k])) by (eapply inv_deleted; eauto).
    destruct (inv_hash _ _ _ I1 Hh) as (k3 & u3 & H3). rewrite stored_logs_snoc in H3. cbn [note] in H3. apply filter_In in H3 as [H3 H4]. cbn [fst] in H4.
    destruct (C33_hashes _ _ R) as (_ & Q & _). pose proof (Q _ _ _ H) as Q1. pose proof (Q _ _ _ H3) as Q2. rewrite Q1 in Q2. injection Q2 as <-. now rewrite Z.eqb_refl in H4.
  - discriminate.
  - exists (mkObj (Some k) sha true (loaded_as u true)), d1, (mkObj None sha true (loaded_as u true)), d2, k2. eexists.
    split; [apply M; auto|]. split; [unfold delete; cbn [o_pk]; now rewrite E|]. split; [exact E1|]. split; [exact E2|reflexivity].
Qed.

(** ** C36: loading again *)
(** Loading an opened log again leaves its dictionaries, its scalars and, if as lazily as before, its datasets alone ... *)
Theorem C36_load_partial : forall d k lazy0 o lazy o', open_key d k lazy0 = Ok o -> load d o lazy = Ok o' ->
  let a := o_log o in let b := o_log o' in
  o_pk o' = o_pk o /\ o_sha o' = o_sha o /\
  u_version b = u_version a /\ u_start b = u_start a /\ u_last b = u_last a /\ u_compat b = u_compat a /\ u_incompat b = u_incompat a /\
  u_has_sync b = u_has_sync a /\ u_sync_cnt b = u_sync_cnt a /\
  u_info b = u_info a /\ u_infot b = u_infot a /\ u_multi b = u_multi a /\ u_multit b = u_multit a /\ u_params b = u_params a /\ u_defaults b = u_defaults a /\
  (lazy0 = lazy -> u_data b = u_data a).
Proof.
  intros d k lazy0 o lazy o' E1 E2. unfold open_key in E1. destruct (_ <? _); [discriminate|].
  exact (load_again d (mkObj (Some k) [] lazy0 ulog0) o o' lazy0 lazy eq_refl E1 E2).
Qed.
(** ... but doubles its lists. *)
Theorem C36_lists_refuted : forall d k lazy0 o lazy o', open_key d k lazy0 = Ok o -> load d o lazy = Ok o' ->
  let a := o_log o in let b := o_log o' in
  u_changed b = u_changed a ++ u_changed a /\ u_logged b = u_logged a ++ u_logged a /\
  u_dropouts b = u_dropouts a ++ u_dropouts a /\ u_offsets b = u_offsets a ++ u_offsets a.
Proof.
  intros d k lazy0 o lazy o' E1 E2. unfold open_key in E1. destruct (_ <? _); [discriminate|].
  pose proof (load_pk _ _ _ _ E1) as P2. cbn [o_pk] in P2.
  exact (load_keeps_lists d (mkObj (Some k) [] lazy0 ulog0) o o o' lazy0 lazy (eq_sym P2) eq_refl E1 E2).
Qed.
Example C36_ex : exists d o o', open_key d 1 true = Ok o /\ load d o false = Ok o' /\ length (u_logged (o_log o)) = 1%nat /\ length (u_logged (o_log o')) = 2%nat.
Proof.
  pose (u := set_logged [mkLog 54 1001 (lit "hello")] ulog0). pose (d := snd (save no_fault false (mkObj None (lit "abc") false u) d5)).
  exists d. eexists. eexists. split; [vm_compute; reflexivity|]. split; [vm_compute; reflexivity|]. split; reflexivity.
Qed.

Definition all_db := (@C29_round_trip, @C29_equal, @C29_corrupt_refuted, @C29_numbers_refuted, @C29_formats_refuted, @C29_large_refuted, @C29_datasets_refuted, @C29_json_refuted, @C30_map, @C30_listed, @C30_others, @C30_good, @C31_delete, @C31_no_orphans, @C31_owned, @C31_failed, @C32_database_partial, @C32_duplicate_refuted, @C32_stale_key_refuted, @C33_hashes, @C33_rows, @C33_duplicate, @C34_hash, @C34_by_name_partial, @C34_by_name_loads, @C34_old_schema, @C34_handle_refuted, @C35_get, @C35_resave_refuted, @C36_load_partial, @C36_lists_refuted).
Print Assumptions all_db.
