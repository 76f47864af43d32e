(** C37-C40: migrations of the database schema. *)
From Coq Require Import Sorted.
From Verif Require Import Base Dict PyStr PyFloat Sql ModelSchema Schema5 ModelDb ModelMigrate SpecDb SpecHist SpecMigrate ProofsMigrate ProofsKeep.

Lemma up_in : forall v n k, In k (up_from v n) <-> v < k <= v + Z.of_nat n.
Proof.
  intros v n k. unfold up_from. rewrite in_map_iff. split.
  - intros [i [E I]]. apply in_seq in I. lia.
  - intros H. exists (Z.to_nat (k - v - 1)). split; [lia|]. apply in_seq. lia.
Qed.
Lemma up_sorted : forall n v, StronglySorted Z.lt (up_from v n).
Proof.
  induction n as [|n IH]; intros v; [constructor|]. rewrite up_cons. constructor; [apply IH|].
  apply Forall_forall. intros k I. apply up_in in I. lia.
Qed.
Lemma migrate_unfold : forall files target noop force file, accepted force file ->
  migrate_db files target noop force file =
    let v := d_version (contents file) in
    match migrate_loop files noop (Z.to_nat (target - v)) (v + 1) (plainS (contents file)) with
    | (s, Ok _, ids) => (Ok tt, Some (s_db (commit s)), ids)
    | (s, Err e, ids) => (Err e, Some (s_db (rollback s)), ids)
    end.
Proof.
  intros files target noop force file A. unfold migrate_db. rewrite (version_read _ _ A). reflexivity.
Qed.
Lemma migrate_accepted : forall files target noop force file d' ids,
  migrate_db files target noop force file = (Ok tt, d', ids) -> accepted force file.
Proof.
  intros files target noop force file d' ids H. unfold migrate_db in H.
  destruct (read_db_schema_version force file) as [v|e] eqn:R; [|discriminate]. exact (proj1 (version_read_inv _ _ _ R)).
Qed.

(** ** C37 *)
(** Whatever the scripts contain: a run without exception has started exactly the scripts above the
    version of the file and up to the target, in increasing order, and leaves the target version. *)
Theorem C37_order : forall files target force file d' ids,
  migrate_db files target false force file = (Ok tt, d', ids) ->
  StronglySorted Z.lt ids /\
  (forall k, In k ids <-> d_version (contents file) < k <= target) /\
  exists d, d' = Some d /\ d_version d = Z.max (d_version (contents file)) target.
Proof.
  intros files target force file d' ids H. pose proof (migrate_accepted _ _ _ _ _ _ _ H) as A.
  rewrite (migrate_unfold _ _ _ _ _ A) in H. cbv zeta in H. set (v := d_version (contents file)) in *.
  destruct (migrate_loop files false (Z.to_nat (target - v)) (v + 1) (plainS (contents file))) as [[s [[]|e]] l] eqn:L; [|discriminate].
  injection H as H1 H2. subst d' l. destruct (loop_done _ _ _ _ _ _ L) as [I V]. subst ids.
  split; [apply up_sorted|]. split; [intros k; rewrite up_in; lia|]. eexists. split; [reflexivity|].
  destruct V as [[V1 V2]|V]; [subst s; cbn; fold v; lia|]. cbn. rewrite V.
  destruct (Z.to_nat (target - v)) eqn:N; [|lia].
  cbn in L. injection L as L. subst s. cbn in V. fold v in V. lia.
Qed.

(** With scripts that leave transactions alone, the result is what the scripts do one after the
    other; and such a run succeeds whenever they do. *)
Theorem C37_applies : forall files target force file,
  (forall k l, d_version (contents file) < k <= target -> files k = Some l -> tidy l) -> accepted force file ->
  forall d,
  (exists ids, migrate_db files target false force file = (Ok tt, Some d, ids)) <->
  apply_scripts files (d_version (contents file)) (Z.to_nat (target - d_version (contents file))) (contents file) = Ok d.
Proof.
  intros files target force file T A d. rewrite (migrate_unfold _ _ _ _ _ A). cbv zeta. set (v := d_version (contents file)) in *.
  set (n := Z.to_nat (target - v)). assert (G : forall m, (m <= n)%nat -> forall k l, v < k <= v + Z.of_nat m -> files k = Some l -> tidy l)
    by (intros m Hm k l Hk; apply T; lia). split.
  - intros [ids H]. assert (Q : forall m, (m <= n)%nat -> exists dm, apply_scripts files v m (contents file) = Ok dm).
    { induction m as [|m IH]; intros Hm; [eexists; reflexivity|]. destruct IH as [dm Em]; [lia|].
      cbn [apply_scripts]. rewrite Em. cbn [bind]. destruct (apply_script files (v + Z.of_nat (S m)) dm) as [d1|e] eqn:E; [eauto|exfalso].
      pose proof (loop_applied files v m (n - m) (contents file) dm (G m ltac:(lia)) Em) as L.
      replace (m + (n - m))%nat with n in L by lia. rewrite L in H. clear L.
      destruct (n - m)%nat as [|j] eqn:J; [lia|]. cbn [migrate_loop] in H.
      replace (v + Z.of_nat m + 1) with (v + Z.of_nat (S m)) in H by lia.
      destruct (read_migration_file files (v + Z.of_nat (S m))) as [l|e'] eqn:R; [|discriminate].
      assert (T' : forall l', files (v + Z.of_nat (S m)) = Some l' -> tidy l') by (intros l'; apply (G (S m) Hm); lia).
      destruct (script_err files _ dm e l T' E R) as [s [X _]]. rewrite X in H. discriminate. }
    destruct (Q n (le_n n)) as [dn En]. pose proof (loop_applied files v n 0 (contents file) dn (G n (le_n n)) En) as L.
    rewrite Nat.add_0_r in L. rewrite L in H. cbn in H. injection H as H1 H2. subst. exact En.
  - intros E. pose proof (loop_applied files v n 0 (contents file) d (G n (le_n n)) E) as L.
    rewrite Nat.add_0_r in L. rewrite L. cbn. eexists. reflexivity.
Qed.

(** Running it again changes nothing; and a database that is newer, or up to date, is left alone. *)
Theorem C37_rerun : forall files target force file d ids files' force',
  migrate_db files target false force file = (Ok tt, Some d, ids) -> 0 < target ->
  migrate_db files' target false force' (Some d) = (Ok tt, Some d, []).
Proof.
  intros files target force file d ids files' force' H P. destruct (C37_order _ _ _ _ _ _ H) as [_ [_ [d1 [E V]]]].
  injection E as E. subst d1. rewrite migrate_unfold by (left; lia). cbn [contents].
  replace (Z.to_nat (target - d_version d)) with O by lia. reflexivity.
Qed.
Theorem C37_newer : forall files target force d, 0 < d_version d -> target <= d_version d ->
  migrate_db files target false force (Some d) = (Ok tt, Some d, []).
Proof.
  intros files target force d P L. rewrite migrate_unfold by (left; lia). cbn [contents].
  replace (Z.to_nat (target - d_version d)) with O by lia. reflexivity.
Qed.
(** A file that the tool did not make, or with a negative version, is refused and left alone. *)
Theorem C37_refused : forall files target noop force d, ~ accepted force (Some d) ->
  exists e, migrate_db files target noop force (Some d) = (Err e, Some d, []).
Proof.
  intros files target noop force d N. unfold migrate_db.
  destruct (read_db_schema_version force (Some d)) as [v|e] eqn:R; [|eauto].
  destruct N. exact (proj1 (version_read_inv _ _ _ R)).
Qed.

(** The scripts of pyulog make the database that the other properties start from, with an index for
    each column that refers to another table. *)
Definition covers (a b : dict str str) : bool := forallb (fun y => existsb (fun x => str_eqb (fst x) (fst y) && str_eqb (snd x) (snd y)) a) b.
Lemma covers_In a b n t : covers a b = true -> In (n, t) b -> In (n, t) a.
Proof.
  unfold covers. rewrite forallb_forall. intros H I. specialize (H _ I). apply existsb_exists in H as ([n' t'] & I' & E).
  cbn [fst snd] in E. apply andb_true_iff in E as [E1 E2]. apply str_eqb_eq in E1, E2. subst. exact I'.
Qed.
Lemma pyulog_tidy : forall k l, pyulog_files k = Some l -> tidy l.
Proof.
  intros k l H b B. assert (X : forall l, match body l with Some b => forallb plain b = true | None => True end -> tidy l).
  { intros l' H' b' B'. rewrite B' in H'. exact H'. }
  revert b B. apply X. clear X. unfold pyulog_files in H.
  repeat match type of H with (if ?c then _ else _) = _ => destruct c; [injection H as H; subst l; vm_compute; reflexivity|] end.
  discriminate.
Qed.
Theorem C37_create : forall force, exists d,
  migrate_db pyulog_files SCHEMA_VERSION false force None = (Ok tt, Some d, [1; 2; 3; 4; 5]) /\ fresh d /\
  length (d_idx d) = length (reference_indexes v5_defs) /\ forall n t, In (n, t) (d_idx d) <-> In (n, t) (reference_indexes v5_defs).
Proof.
  intros force.
  assert (C : match apply_scripts pyulog_files 0 5 db0 with
              | Ok d => d_defs d = v5_defs /\ length (d_idx d) = length (reference_indexes v5_defs) /\
                  covers (d_idx d) (reference_indexes v5_defs) = true /\ covers (reference_indexes v5_defs) (d_idx d) = true
              | Err _ => False end) by (vm_compute; repeat split).
  destruct (apply_scripts pyulog_files 0 5 db0) as [d|e] eqn:E; [|contradiction]. destruct C as (C & C1 & C2 & C3).
  exists d. assert (M : exists ids, migrate_db pyulog_files SCHEMA_VERSION false force None = (Ok tt, Some d, ids)).
  { apply C37_applies; [intros k l _; apply pyulog_tidy|exact I|exact E]. }
  destruct M as [ids M]. split.
  - rewrite (migrate_unfold _ _ _ _ None I) in M |- *. cbn [contents] in *. cbv zeta in *.
    pose proof (loop_applied pyulog_files 0 5 0 db0 d (fun k l _ => pyulog_tidy k l) E) as L.
    change (Z.to_nat (SCHEMA_VERSION - d_version db0)) with (5 + 0)%nat in *. change (d_version db0 + 1) with (0 + 1) in *.
    rewrite L in *. reflexivity.
  - assert (Em : empty d) by (refine (scripts_empty _ _ _ db0 _ _ E); intro; split; reflexivity).
    split; [constructor; [exact C|exact (scripts_version _ _ _ _ _ E eq_refl)|apply Em|apply Em]|].
    split; [exact C1|]. intros n t. split; intros I; [exact (covers_In _ _ _ _ C3 I)|exact (covers_In _ _ _ _ C2 I)].
Qed.

(** The other half of the claim fails for the oldest databases: one at version 1 with a log in it
    cannot be migrated. PRAGMA foreign_keys=off in script 2 does nothing inside the transaction, so
    DROP TABLE ULog fails on the rows that refer to it. *)
Definition v1_log : res db :=
  let* d := apply_scripts pyulog_files 0 1 db0 in
  let* kd := sql_insert d (lit "ULog") [lit "FileVersion"; lit "SyncCount"] [CInt 1; CInt 0] in
  let* kd := sql_insert (snd kd) (lit "ULogAppendedOffsets") [lit "SeriesIndex"; lit "Offset"; lit "ULogId"] [CInt 0; CInt 7; CInt (fst kd)] in
  Ok (snd kd).
Theorem C37_populated_refuted : exists d, v1_log = Ok d /\ d_version d = 1 /\
  forall force, migrate_db pyulog_files SCHEMA_VERSION false force (Some d) = (Err IntegrityError, Some d, [2]).
Proof.
  assert (C : match v1_log with
              | Ok d => d_version d = 1 /\ apply_script pyulog_files 2 d = Err IntegrityError
              | Err _ => False end) by (vm_compute; split; reflexivity).
  destruct v1_log as [d|e]; [|contradiction]. destruct C as [V E]. exists d. split; [reflexivity|]. split; [exact V|].
  intros force. rewrite migrate_unfold by (left; cbn; lia). cbn [contents]. rewrite V. cbv zeta.
  change (Z.to_nat (SCHEMA_VERSION - 1)) with 4%nat. change (1 + 1) with 2. cbn [migrate_loop].
  destruct (read_migration_file pyulog_files 2) as [l|e] eqn:R; [|vm_compute in R; discriminate].
  destruct (script_err pyulog_files 2 d _ l (pyulog_tidy 2) E R) as [s [X1 X2]]. rewrite X1, X2. reflexivity.
Qed.

(** ** C38 *)
(** If scripts v+1 to k-1 work and script k does not, for whatever reason, then migrate_db raises and
    the file holds what the scripts before k made, at version k-1. *)
Theorem C38_failure : forall files target force file k d e,
  accepted force file -> d_version (contents file) < k <= target ->
  (forall i l, d_version (contents file) < i <= k -> files i = Some l -> tidy l) ->
  apply_scripts files (d_version (contents file)) (Z.to_nat (k - 1 - d_version (contents file))) (contents file) = Ok d ->
  apply_script files k d = Err e ->
  exists ids, migrate_db files target false force file = (Err e, Some d, ids) /\ d_version d = k - 1 /\
    (forall i, d_version (contents file) < i < k -> In i ids) /\ (forall i, In i ids -> d_version (contents file) < i <= k).
Proof.
  intros files target force file k d e A K T E F. rewrite (migrate_unfold _ _ _ _ _ A). cbv zeta.
  set (v := d_version (contents file)) in *. set (n := Z.to_nat (k - 1 - v)) in *.
  assert (V : d_version d = v + Z.of_nat n) by (apply (scripts_version _ _ _ _ _ E); reflexivity).
  replace (Z.to_nat (target - v)) with (n + S (Z.to_nat (target - k)))%nat by lia.
  rewrite (loop_applied files v n _ (contents file) d); [|intros i l Hi; apply T; lia|exact E].
  cbn [migrate_loop]. replace (v + Z.of_nat n + 1) with k by lia.
  destruct (read_migration_file files k) as [l|e'] eqn:R.
  - destruct (script_err files k d e l (fun l' => T k l' ltac:(lia)) F R) as [s [X1 X2]]. rewrite X1. rewrite X2.
    eexists. split; [reflexivity|]. split; [lia|]. split.
    + intros i Hi. apply in_or_app. left. apply up_in. lia.
    + intros i Hi. apply in_app_or in Hi. destruct Hi as [Hi|[Hi|[]]]; [apply up_in in Hi; lia|lia].
  - rewrite (script_unread files k d e' R) in F. injection F as F. subst e'.
    eexists. split; [reflexivity|]. split; [lia|]. rewrite app_nil_r. split; intros i Hi; [apply up_in; lia|apply up_in in Hi; lia].
Qed.
(** Conversely every exception after the version check comes from such a script. *)
Theorem C38_only : forall files target force file f e ids,
  accepted force file ->
  (forall i l, d_version (contents file) < i <= target -> files i = Some l -> tidy l) ->
  migrate_db files target false force file = (Err e, f, ids) ->
  exists k d, d_version (contents file) < k <= target /\ f = Some d /\
    apply_scripts files (d_version (contents file)) (Z.to_nat (k - 1 - d_version (contents file))) (contents file) = Ok d /\
    apply_script files k d = Err e.
Proof.
  intros files target force file f e ids A T H. set (v := d_version (contents file)) in *.
  assert (D : forall n, (n <= Z.to_nat (target - v))%nat ->
    (exists d, apply_scripts files v n (contents file) = Ok d) \/
    exists m d e, (m < n)%nat /\ apply_scripts files v m (contents file) = Ok d /\ apply_script files (v + Z.of_nat (S m)) d = Err e).
  { induction n as [|n IH]; intros Hn; [left; eexists; reflexivity|]. destruct IH as [[d E]|[m [d [e' [Hm E]]]]]; [lia| |].
    - destruct (apply_script files (v + Z.of_nat (S n)) d) as [d1|e'] eqn:F.
      + left. exists d1. cbn [apply_scripts]. rewrite E. exact F.
      + right. exists n, d, e'. auto.
    - right. exists m, d, e'. split; [lia|exact E]. }
  destruct (D _ (le_n _)) as [[d E]|[m [d [e' [Hm [E F]]]]]].
  - apply (proj2 (C37_applies files target force file T A d)) in E. destruct E as [ids' E]. rewrite E in H. discriminate.
  - assert (N : Z.to_nat (v + Z.of_nat (S m) - 1 - v) = m) by lia.
    destruct (C38_failure files target force file (v + Z.of_nat (S m)) d e' A) as [ids' [M _]].
    + fold v. lia.
    + fold v. intros i l Hi. apply T. lia.
    + fold v. rewrite N. exact E.
    + exact F.
    + rewrite M in H. injection H as H1 H2 H3. subst. exists (v + Z.of_nat (S m)), d. split; [lia|]. split; [reflexivity|].
      rewrite N. auto.
Qed.

(** Not so for scripts with a transaction of their own: what they committed stays. *)
Definition a_table : tabledef := mkTD [mkCD (lit "Id") AInt None true] [].
Definition two_parts (k : Z) : option (list stmt) :=
  Some [SBegin; SCreate (lit "a") a_table; SCommit; SBegin; SAddCol (lit "none") (mkCD (lit "x") AInt None false); SCommit].
Theorem C38_transactions_refuted : exists d, migrate_db two_parts 1 false false None = (Err OperationalError, Some d, [1]) /\
  d_version d = 0 /\ d_defs d <> d_defs db0.
Proof. eexists. split; [reflexivity|]. split; [reflexivity|]. discriminate. Qed.

(** When the very first script fails on a missing file, the file now exists at version 0 and
    migrate_db refuses it from then on unless it is forced. *)
Theorem C38_retry_refuted : forall files target e, 0 < target -> (forall l, files 1 = Some l -> tidy l) ->
  apply_script files 1 db0 = Err e ->
  exists ids, migrate_db files target false false None = (Err e, Some db0, ids) /\
    forall files', migrate_db files' target false false (Some db0) = (Err FileExistsError, Some db0, []).
Proof.
  intros files target e P T F. destruct (C38_failure files target false None 1 db0 e I) as [ids [M _]].
  - cbn. lia.
  - cbn. intros i l Hi. replace i with 1 by lia. apply T.
  - reflexivity.
  - exact F.
  - exists ids. split; [exact M|reflexivity].
Qed.
(** A case: the third script is missing. *)
Definition two_files (k : Z) : option (list stmt) := if k <=? 2 then pyulog_files k else None.
Example C38_case : exists d, apply_scripts two_files 0 2 db0 = Ok d /\ apply_script two_files 3 d = Err FileNotFoundError /\
  forall i l, 0 < i <= 3 -> two_files i = Some l -> tidy l.
Proof.
  assert (C : match apply_scripts two_files 0 2 db0 with Ok _ => True | Err _ => False end) by (vm_compute; exact I).
  destruct (apply_scripts two_files 0 2 db0) as [d|e]; [|contradiction]. exists d. split; [reflexivity|]. split; [reflexivity|].
  intros i l _ H. unfold two_files in H. destruct (i <=? 2); [exact (pyulog_tidy _ _ H)|discriminate].
Qed.

(** ** C39 *)
(** After a crash at any point the file holds what a number of whole scripts made, either with the
    version of the last of them, or, if the crash came between COMMIT and the version, with the
    version before it. So the version may be one behind, and no script is applied in part. *)
Theorem C39_crash_partial : forall files target d k, 0 <= d_version d ->
  (forall i l, d_version d < i <= target -> files i = Some l -> tidy l) ->
  let r := killed_after k files target d in
  exists m d1, d_version d + Z.of_nat m <= Z.max (d_version d) target /\
    apply_scripts files (d_version d) m d = Ok d1 /\ d_version d1 = d_version d + Z.of_nat m /\
    (r = d1 \/
     exists d2, apply_script files (d_version d1 + 1) d1 = Ok d2 /\ d_version d1 + 1 <= target /\
       r = set_ver (d_version r) d2 /\ d_version r = d_version d1).
Proof.
  intros files target d k P T r. unfold r, killed_after.
  destruct (killed_loop files (Z.to_nat (target - d_version d)) (d_version d) d k) as [m [d1 [Hm [E C]]]]; [intros i l Hi; apply T; lia|].
  change (plainS d) with (connect d) in C. set (q := durable _) in *.
  pose proof (scripts_version _ _ _ _ _ E eq_refl) as V.
  exists m, d1. split; [lia|]. split; [exact E|]. split; [exact V|].
  destruct C as [C|[Hlt [l [b [C1 [C2 C3]]]]]]; [left; exact C|right]. rewrite V. exists (set_ver (d_version d + Z.of_nat m + 1) q).
  split; [unfold apply_script; rewrite C1, C2, C3; reflexivity|]. split; [lia|]. split; [destruct q; reflexivity|].
  rewrite <- V. exact (body_version _ _ _ C3).
Qed.

(** The full claim fails: after script 1 and before its version is written there are tables at
    version 0, and running migrate_db again refuses the file; after script 3 likewise, and running it
    again fails because the column is already there. *)
Definition stmts_of (k : Z) : nat := match read_migration_file pyulog_files k with Ok l => length l | Err _ => O end.
Theorem C39_refuted :
  (let r := killed_after (stmts_of 1 - 1) pyulog_files SCHEMA_VERSION db0 in
   d_version r = 0 /\ apply_scripts pyulog_files 0 1 db0 = Ok (set_ver 1 r) /\
   migrate_db pyulog_files SCHEMA_VERSION false false (Some r) = (Err FileExistsError, Some r, [])) /\
  (exists d r, apply_scripts pyulog_files 0 2 db0 = Ok d /\ r = killed_after (stmts_of 3 - 1) pyulog_files SCHEMA_VERSION d /\
   d_version r = 2 /\ apply_script pyulog_files 3 d = Ok (set_ver 3 r) /\
   migrate_db pyulog_files SCHEMA_VERSION false false (Some r) = (Err OperationalError, Some r, [3])).
Proof.
  split.
  - cbv zeta. split; [vm_compute; reflexivity|]. split; [vm_compute; reflexivity|].
    unfold migrate_db, read_db_schema_version.
    replace (d_version (killed_after (stmts_of 1 - 1) pyulog_files SCHEMA_VERSION db0)) with 0 by (vm_compute; reflexivity). reflexivity.
  - assert (C : match apply_scripts pyulog_files 0 2 db0 with
                | Ok d => let r := killed_after (stmts_of 3 - 1) pyulog_files SCHEMA_VERSION d in
                  d_version r = 2 /\ apply_script pyulog_files 3 d = Ok (set_ver 3 r) /\ apply_script pyulog_files 3 r = Err OperationalError
                | Err _ => False end) by (vm_compute; repeat split; reflexivity).
    destruct (apply_scripts pyulog_files 0 2 db0) as [d|e]; [|contradiction]. cbv zeta in C. destruct C as [C1 [C2 C3]].
    eexists d, _. split; [reflexivity|]. split; [reflexivity|]. split; [exact C1|]. split; [exact C2|].
    set (r := killed_after _ _ _ _) in *. rewrite migrate_unfold by (left; lia). cbn [contents]. rewrite C1. cbv zeta.
    change (Z.to_nat (SCHEMA_VERSION - 2)) with 3%nat. change (2 + 1) with 3. cbn [migrate_loop].
    destruct (read_migration_file pyulog_files 3) as [l|e] eqn:R; [|vm_compute in R; discriminate].
    destruct (script_err pyulog_files 3 r _ l (pyulog_tidy 3) C3 R) as [s [X1 X2]]. rewrite X1, X2. reflexivity.
Qed.

(** ** C40 *)
Theorem C40_noop : forall files target force d, exists r, migrate_db files target true force (Some d) = (r, Some d, []).
Proof.
  intros files target force d. unfold migrate_db. destruct (read_db_schema_version force (Some d)) as [v|e]; [|eauto].
  destruct (migrate_loop files true (Z.to_nat (target - v)) (v + 1) (connect d)) as [[s r] ids] eqn:L.
  destruct (loop_noop _ _ _ _ _ _ _ L) as [L1 L2]. subst s ids. destruct r as [[]|e]; eexists; reflexivity.
Qed.
(** A missing file on the other hand is created, empty, and migrate_db refuses it afterwards. *)
Theorem C40_missing_refuted : forall files target, exists r,
  migrate_db files target true false None = (r, Some db0, []) /\
  forall noop files', migrate_db files' target noop false (Some db0) = (Err FileExistsError, Some db0, []).
Proof.
  intros files target. unfold migrate_db at 1. cbn [read_db_schema_version].
  destruct (migrate_loop files true (Z.to_nat (target - 0)) (0 + 1) (connect db0)) as [[s r] ids] eqn:L.
  destruct (loop_noop _ _ _ _ _ _ _ L) as [L1 L2]. subst s ids.
  destruct r as [[]|e]; (eexists; split; [reflexivity|intros; reflexivity]).
Qed.
(** What noop does report is what a run would meet when the files are read: it raises exactly if a file
    is missing or badly delimited. *)
Theorem C40_reads : forall files target force d, accepted force (Some d) ->
  (fst (fst (migrate_db files target true force (Some d))) = Ok tt <->
   forall k, d_version d < k <= target -> exists l b, files k = Some l /\ body l = Some b).
Proof.
  intros files target force d A. rewrite (migrate_unfold _ _ _ _ _ A). cbn [contents]. cbv zeta.
  assert (L : forall n v, (snd (fst (migrate_loop files true n (v + 1) (plainS d))) = Ok tt <->
    forall k, v < k <= v + Z.of_nat n -> exists l b, files k = Some l /\ body l = Some b)).
  { induction n as [|n IH]; intros v; cbn [migrate_loop].
    - split; [intros _ k Hk; lia|reflexivity].
    - rewrite read_file. destruct (files (v + 1)) as [l|] eqn:F.
      + destruct (body l) as [b|] eqn:B.
        * rewrite IH. split; intros H k Hk; [|apply H; lia].
          destruct (Z.eq_dec k (v + 1)) as [->|N]; [eauto|apply H; lia].
        * split; [discriminate|]. intros H. destruct (H (v + 1) ltac:(lia)) as [l' [b' [H1 H2]]]. congruence.
      + split; [discriminate|]. intros H. destruct (H (v + 1) ltac:(lia)) as [l' [b' [H1 H2]]]. congruence. }
  specialize (L (Z.to_nat (target - d_version d)) (d_version d)).
  destruct (migrate_loop files true (Z.to_nat (target - d_version d)) (d_version d + 1) (plainS d)) as [[s r] ids].
  cbn [fst snd] in L. assert (Q : (fst (fst (match (s, r, ids) with (s, Ok _, ids) => (Ok tt, Some (s_db (commit s)), ids) | (s, Err e, ids) => (Err e, Some (s_db (rollback s)), ids) end)) = Ok tt) <-> r = Ok tt).
  { destruct r as [[]|e]; cbn; split; auto. }
  cbv iota in Q. rewrite Q, L. split; intros H k Hk; apply H; lia.
Qed.

(** ** C53 *)
(** A database at version 2, 3 or 4, whatever it holds, is brought to version 5; every row stays, with
    its cells; times, which were REAL before version 4, become the integers they are; keys are not reused. *)
Theorem C53_kept : forall force d, 2 <= d_version d <= 4 -> d_defs d = defs_at pyulog_files (d_version d) -> full_rows d ->
  (d_version d < 4 -> forall t c df r, In (t, c) times -> sget t (d_defs d) = Some df -> In r (d_rows d t) -> whole (cell_at (t_cols df) r c) = true) ->
  exists d' ids, migrate_db pyulog_files SCHEMA_VERSION false force (Some d) = (Ok tt, Some d', ids) /\
    d_defs d' = v5_defs /\ d_version d' = 5 /\ d_seq d' = d_seq d /\
    rows_kept (if d_version d <? 4 then times else []) d d'.
Proof.
  intros force d V D F W. pose proof (kept_start d F) as K0.
  assert (X : exists d', apply_scripts pyulog_files (d_version d) (Z.to_nat (SCHEMA_VERSION - d_version d)) d = Ok d' /\ d_defs d' = v5_defs /\ d_seq d' = d_seq d /\
    rows_kept (if d_version d <? 4 then times else []) d d').
  { assert (C : d_version d = 2 \/ d_version d = 3 \/ d_version d = 4) by lia. destruct C as [C|[C|C]]; rewrite C in *.
    - destruct (step3 d d K0 D) as [d1 [A1 [D1 [K1 Q1]]]].
      destruct (step4 d d1 K1 D1 (or_introl D) (W ltac:(lia))) as [d2 [A2 [D2 [K2 Q2]]]].
      destruct (step5 _ d d2 K2 D2) as [d3 [A3 [D3 [K3 Q3]]]]. exists d3.
      change (Z.to_nat (SCHEMA_VERSION - 2)) with 3%nat. cbn [apply_scripts bind].
      change (2 + Z.of_nat 1) with 3. rewrite A1. cbn [bind]. change (2 + Z.of_nat 2) with 4. rewrite A2. cbn [bind]. change (2 + Z.of_nat 3) with 5.
      split; [exact A3|]. split; [exact D3|]. split; [congruence|exact K3].
    - destruct (step4 d d K0 D (or_intror D) (W ltac:(lia))) as [d2 [A2 [D2 [K2 Q2]]]].
      destruct (step5 _ d d2 K2 D2) as [d3 [A3 [D3 [K3 Q3]]]]. exists d3.
      change (Z.to_nat (SCHEMA_VERSION - 3)) with 2%nat. cbn [apply_scripts bind].
      change (3 + Z.of_nat 1) with 4. rewrite A2. cbn [bind]. change (3 + Z.of_nat 2) with 5.
      split; [exact A3|]. split; [exact D3|]. split; [congruence|exact K3].
    - destruct (step5 _ d d K0 D) as [d3 [A3 [D3 [K3 Q3]]]]. exists d3.
      change (Z.to_nat (SCHEMA_VERSION - 4)) with 1%nat. cbn [apply_scripts bind]. change (4 + Z.of_nat 1) with 5.
      split; [exact A3|]. split; [exact D3|]. split; [congruence|exact K3]. }
  destruct X as [d' [A [X1 [X2 X3]]]].
  assert (M : exists ids, migrate_db pyulog_files SCHEMA_VERSION false force (Some d) = (Ok tt, Some d', ids)).
  { apply C37_applies; [intros k l _; apply pyulog_tidy|left; lia|exact A]. }
  destruct M as [ids M]. exists d', ids. split; [exact M|]. split; [exact X1|]. split; [|auto].
  rewrite (scripts_version _ _ _ _ _ A eq_refl). change SCHEMA_VERSION with 5. lia.
Qed.
(** Times up to 2^53 come back exactly: what a REAL column stored for the integer [z] becomes [z]. *)
Theorem C53_times : forall z, - 2 ^ 53 <= z <= 2 ^ 53 ->
  exists x, apply_aff AReal (CInt z) = Ok x /\ whole x = true /\ as_int x = CInt z.
Proof.
  intros z Hz. eexists. split; [reflexivity|]. cbn [whole as_int]. rewrite (float_int z Hz). split; [reflexivity|]. f_equal.
  change (2 ^ 53) with 9007199254740992 in Hz. lia.
Qed.
(** A case: a database at version 3 with one log, saved with a REAL start time. *)
Definition v3_log : res db :=
  let* d := apply_scripts pyulog_files 0 3 db0 in
  let* kd := sql_insert d (lit "ULog") [lit "SHA256Sum"; lit "StartTimestamp"; lit "LastTimestamp"] [CText (lit "ab"); CInt 112500176; CInt 121560176] in
  Ok (snd kd).
Example C53_case : exists d, v3_log = Ok d /\ d_version d = 3 /\ d_defs d = defs_at pyulog_files 3 /\ length (d_rows d (lit "ulog")) = 1%nat /\
  forall r, In r (d_rows d (lit "ulog")) -> length r = length (t_cols (match sget (lit "ulog") (d_defs d) with Some df => df | None => a_table end)) /\
    Forall (fun c => whole (cell_at (t_cols (match sget (lit "ulog") (d_defs d) with Some df => df | None => a_table end)) r c) = true)
      [lit "StartTimestamp"; lit "LastTimestamp"].
Proof.
  assert (C : match v3_log with Ok d => d_version d = 3 /\ d_defs d = defs_at pyulog_files 3 /\ length (d_rows d (lit "ulog")) = 1%nat /\
    forallb (fun r => Nat.eqb (length r) (length (t_cols (match sget (lit "ulog") (d_defs d) with Some df => df | None => a_table end))) &&
      forallb (fun c => whole (cell_at (t_cols (match sget (lit "ulog") (d_defs d) with Some df => df | None => a_table end)) r c)) [lit "StartTimestamp"; lit "LastTimestamp"])
      (d_rows d (lit "ulog")) = true | Err _ => False end) by (vm_compute; repeat split; reflexivity).
  destruct v3_log as [d|e]; [|contradiction]. exists d. destruct C as [C1 [C2 [C3 C4]]]. split; [reflexivity|].
  split; [exact C1|]. split; [exact C2|]. split; [exact C3|]. intros r I. rewrite forallb_forall in C4. specialize (C4 r I).
  apply andb_prop in C4. destruct C4 as [C4 C5]. split; [apply Nat.eqb_eq; exact C4|]. apply Forall_forall. rewrite forallb_forall in C5. exact C5.
Qed.

Definition all_migrate := (@C37_order, @C37_applies, @C37_rerun, @C37_newer, @C37_refused, @C37_create, @C37_populated_refuted,
  @C38_failure, @C38_only, @C38_transactions_refuted, @C38_retry_refuted, @C39_crash_partial, @C39_refuted,
  @C40_noop, @C40_missing_refuted, @C40_reads, @C53_kept, @C53_times).
Print Assumptions all_migrate.
(** Only the versions 0 to 5 are known: a database with a higher version is left as it is, one with a negative version is
    refused and left as it is. *)
Theorem C38_unknown_version : forall files noop force d,
  (SCHEMA_VERSION <= d_version d -> migrate_db files SCHEMA_VERSION noop force (Some d) = (Ok tt, Some d, [])) /\
  (d_version d < 0 -> migrate_db files SCHEMA_VERSION noop force (Some d) = (Err ValueError, Some d, [])).
Proof.
  intros files noop force d. unfold migrate_db, read_db_schema_version. unfold SCHEMA_VERSION. split; intros V.
  - destruct (Z.eqb_spec (d_version d) 0); [lia|]. cbn [andb]. destruct (Z.ltb_spec (d_version d) 0); [lia|]. replace (Z.to_nat (5 - d_version d)) with 0%nat by lia. reflexivity.
  - destruct (Z.eqb_spec (d_version d) 0); [lia|]. cbn [andb]. destruct (Z.ltb_spec (d_version d) 0); [reflexivity|lia].
Qed.
