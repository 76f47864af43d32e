(** C39: the exact law of a killed migration, and what a run after it does. *)
From Verif Require Import Base Dict PyStr Sql ModelSchema ModelDb ModelMigrate SpecMigrate ProofsMigrate ProofsKeep PropsMigrate.

(** ** C39: the state after any number of statements *)
(** the number of statements sent for the scripts v+1, ..., v+n: those of the files and one for each version *)
Fixpoint sent (files : Z -> option (list stmt)) (v : Z) (n : nat) : nat :=
  match n with
  | O => O
  | S n' => sent files v n' + match files (v + Z.of_nat n) with Some l => length l + 1 | None => 0 end
  end.

Lemma body_shape l b : body l = Some b -> l = SBegin :: b ++ [SCommit].
Proof.
  unfold body. destruct l as [|[] r]; try discriminate. destruct (rev r) as [|[] q] eqn:E; try discriminate. intros H. injection H as <-.
  f_equal. rewrite <- (rev_involutive r), E. reflexivity.
Qed.
Lemma sent_front files : forall n v l, files (v + 1) = Some l -> sent files v (S n) = (length l + 1 + sent files (v + 1) n)%nat.
Proof.
  induction n as [|n IH]; intros v l F.
  - cbn [sent]. replace (v + Z.of_nat 1) with (v + 1) by lia. rewrite F. lia.
  - change (sent files v (S (S n))) with (sent files v (S n) + match files (v + Z.of_nat (S (S n)))%Z with Some l => length l + 1 | None => 0 end)%nat.
    rewrite (IH v l F). cbn [sent]. replace (v + Z.of_nat (S (S n))) with (v + 1 + Z.of_nat (S n)) by lia. lia.
Qed.
Lemma ran_script files v d d1 l b rest k : files (v + 1) = Some l -> body l = Some b -> forallb plain b = true -> apply_body b d = Ok d1 ->
  (length l + 1 <= k)%nat ->
  fst (run_stmts (firstn k ((SBegin :: b ++ [SCommit; SVersion (v + 1)]) ++ rest)) (plainS d)) = fst (run_stmts (firstn (k - (length l + 1)) rest) (plainS (set_ver (v + 1) d1))).
Proof.
  intros F B P E H. assert (L : length (SBegin :: b ++ [SCommit; SVersion (v + 1)]) = (length l + 1)%nat).
  { rewrite (body_shape _ _ B). cbn [length]. rewrite !app_length. cbn [length]. lia. }
  rewrite firstn_app, firstn_all2 by lia. rewrite L, run_stmts_app.
  change (run_stmts (SBegin :: b ++ [SCommit; SVersion (v + 1)]) (plainS d)) with (run_stmts (b ++ [SCommit; SVersion (v + 1)]) (mkSess d (Some d) true)).
  destruct (run_body b d d P) as (x & X1 & X2). rewrite run_stmts_app, X1, E. rewrite (X2 d1 E). cbn [run_stmts run_stmt s_open commit s_db s_fk]. reflexivity.
Qed.
Lemma law_loop files : forall m n v d k d1, (forall i l, v < i <= v + Z.of_nat n -> files i = Some l -> tidy l) -> (m <= n)%nat ->
  apply_scripts files v m d = Ok d1 -> (sent files v m <= k)%nat ->
  fst (run_stmts (firstn k (all_stmts files n (v + 1))) (plainS d)) =
  fst (run_stmts (firstn (k - sent files v m) (all_stmts files (n - m) (v + Z.of_nat m + 1))) (plainS d1)).
Proof.
  induction m as [|m IH]; intros n v d k d1 T Hm A K.
  - cbn [apply_scripts] in A. injection A as <-. cbn [sent]. rewrite !Nat.sub_0_r. replace (v + Z.of_nat 0 + 1) with (v + 1) by lia. reflexivity.
  - rewrite scripts_front in A. destruct (apply_script files (v + 1) d) as [x|e] eqn:X; [|discriminate]. cbn [bind] in A. destruct n as [|n]; [lia|].
    unfold apply_script in X. destruct (files (v + 1)) as [l|] eqn:F; [|discriminate]. destruct (body l) as [b|] eqn:B; [|discriminate].
    destruct (apply_body b d) as [y|e] eqn:Y; [|discriminate]. cbn [bind] in X. injection X as <-.
    rewrite (sent_front files m v l F) in *. cbn [all_stmts]. rewrite read_file, F, B.
    rewrite (ran_script files v d y l b _ k F B) by (first [exact Y|lia|apply (T (v + 1) l); [lia|exact F|exact B]]).
    rewrite (IH n (v + 1) (set_ver (v + 1) y) (k - (length l + 1))%nat d1); [|intros i l' Hi; apply T; lia|lia|exact A|lia].
    replace (k - (length l + 1) - sent files (v + 1) m)%nat with (k - (length l + 1 + sent files (v + 1) m))%nat by lia.
    replace (v + 1 + Z.of_nat m + 1) with (v + Z.of_nat (S m) + 1) by lia. reflexivity.
Qed.

(** A migration killed after [k] statements, where the scripts up to v+m can be applied and give [d1], and their
    statements are all sent: the file is [d1], unless the next script has committed and its version is not yet written;
    that is the case for exactly one [k], and then the file is what the script makes with the version before it. *)
Theorem C39_law : forall files target d m d1 k,
  let v := d_version d in
  (forall i l, v < i <= target -> files i = Some l -> tidy l) ->
  v + Z.of_nat m <= target -> apply_scripts files v m d = Ok d1 -> (sent files v m <= k)%nat ->
  (v + Z.of_nat m = target \/ (exists e, apply_script files (v + Z.of_nat m + 1) d1 = Err e) \/ (k + 1 < sent files v (S m))%nat ->
   killed_after k files target d = d1) /\
  (forall d2, v + Z.of_nat m < target -> apply_script files (v + Z.of_nat m + 1) d1 = Ok d2 -> (k + 1 = sent files v (S m))%nat ->
   killed_after k files target d = set_ver (v + Z.of_nat m) d2).
Proof.
  intros files target d m d1 k v T Hm A K. unfold killed_after. fold v. change (connect d) with (plainS d).
  rewrite (law_loop files m (Z.to_nat (target - v)) v d k d1) by (first [lia|exact A|intros i l Hi; apply T; lia]).
  set (j := (k - sent files v m)%nat). set (w := v + Z.of_nat m) in *.
  assert (Sj : forall l, files (w + 1) = Some l -> sent files v (S m) = (sent files v m + (length l + 1))%nat).
  { intros l F. cbn [sent]. replace (v + Z.of_nat (S m)) with (w + 1) by lia. now rewrite F. }
  assert (V : d_version d1 = w) by exact (scripts_version _ _ _ _ _ A eq_refl).
  split.
  - intros C. destruct (Z.to_nat (target - v) - m)%nat as [|n] eqn:N; [cbn [all_stmts]; rewrite firstn_nil; reflexivity|].
    cbn [all_stmts]. rewrite read_file. destruct (files (w + 1)) as [l|] eqn:F; [|rewrite firstn_nil; reflexivity].
    destruct (body l) as [b|] eqn:B; [|rewrite firstn_nil; reflexivity]. assert (P : forallb plain b = true) by (apply (T (w + 1) l); [lia|exact F|exact B]).
    destruct (apply_body b d1) as [y|e] eqn:Y.
    + destruct C as [C|[(e & C)|C]]; [lia|unfold apply_script in C; rewrite F, B, Y in C; discriminate|].
      rewrite (Sj l eq_refl) in C. assert (length l = S (S (length b))) by (rewrite (body_shape _ _ B); cbn [length]; rewrite app_length; cbn [length]; lia).
      assert (Hj : (j <= S (length b))%nat) by (unfold j; lia).
      change ((SBegin :: b ++ [SCommit; SVersion (w + 1)]) ++ all_stmts files n (w + 1 + 1)) with (SBegin :: (b ++ [SCommit; SVersion (w + 1)]) ++ all_stmts files n (w + 1 + 1)).
      rewrite <- app_assoc. destruct j as [|j']; [reflexivity|]. cbn [firstn run_stmts run_stmt plainS s_open s_db s_fk].
      rewrite firstn_app. replace (j' - length b)%nat with O by lia. cbn [firstn]. rewrite app_nil_r.
      destruct (run_body_part (firstn j' b) d1 d1 (forallb_firstn _ _ _ P)) as (x & ->). reflexivity.
    + destruct (firstn_app_cases j (SBegin :: b ++ [SCommit; SVersion (w + 1)]) (all_stmts files n (w + 1 + 1))) as [[Hj Ej]|[i [Ej Hj]]]; rewrite Ej.
      * destruct (killed_script (w + 1) d1 b j P) as [Q|(x & Q & _)]; [exact Q|congruence].
      * rewrite run_stmts_app. change (run_stmts (SBegin :: b ++ [SCommit; SVersion (w + 1)]) (plainS d1)) with (run_stmts (b ++ [SCommit; SVersion (w + 1)]) (mkSess d1 (Some d1) true)).
        destruct (run_body b d1 d1 P) as (x & X1 & _). rewrite run_stmts_app, X1, Y. reflexivity.
  - intros d2 Ht A2 K2. destruct (Z.to_nat (target - v) - m)%nat as [|n] eqn:N; [lia|]. cbn [all_stmts]. rewrite read_file.
    unfold apply_script in A2. destruct (files (w + 1)) as [l|] eqn:F; [|discriminate]. destruct (body l) as [b|] eqn:B; [|discriminate].
    assert (P : forallb plain b = true) by (apply (T (w + 1) l); [lia|exact F|exact B]).
    destruct (apply_body b d1) as [y|e] eqn:Y; [|discriminate]. cbn [bind] in A2. injection A2 as <-.
    rewrite (Sj l eq_refl) in K2. assert (length l = S (S (length b))) by (rewrite (body_shape _ _ B); cbn [length]; rewrite app_length; cbn [length]; lia).
    assert (j = S (S (length b))) as -> by (unfold j; lia).
    change ((SBegin :: b ++ [SCommit; SVersion (w + 1)]) ++ all_stmts files n (w + 1 + 1)) with (SBegin :: (b ++ [SCommit; SVersion (w + 1)]) ++ all_stmts files n (w + 1 + 1)).
    rewrite <- app_assoc, firstn_cons. cbn [run_stmts run_stmt plainS s_open s_db s_fk].
    rewrite firstn_app, firstn_all2 by lia. replace (S (length b) - length b)%nat with 1%nat by lia. cbn [app firstn].
    destruct (run_body b d1 d1 P) as (x & X1 & X2). rewrite run_stmts_app, X1, Y, (X2 y Y). cbn [run_stmts run_stmt s_open commit s_db s_fk fst durable].
    rewrite <- V, <- (body_version _ _ _ Y). destruct y; reflexivity.
Qed.

(** ** C39: the run after the crash, for the scripts of pyulog *)
Definition is_index (x : stmt) : bool := match x with SIndex _ _ _ => true | _ => false end.
Definition has_idx (d : db) (x : stmt) : Prop := match x with SIndex i _ _ => sget (ident i) (d_idx d) <> None | _ => False end.
Lemma index_has d x d' : is_index x = true -> exec true d x = Ok d' -> has_idx d' x /\ forall y, has_idx d y -> has_idx d' y.
Proof.
  destruct x as [| | | | | | |i t c| | | |]; try discriminate. intros _ E. cbn [exec] in E. destruct (sget (ident i) (d_idx d)) eqn:G.
  - injection E as <-. split; [cbn [has_idx]; congruence|auto].
  - destruct (table d (ident t)) as [df|e]; [|discriminate]. cbn [bind] in E. destruct (has_col (t_cols df) c); [|discriminate]. injection E as <-.
    split.
    + unfold has_idx, set_idx. cbn [d_idx]. rewrite dget_app, G. cbn [dget]. rewrite str_eqb_refl. discriminate.
    + intros y. destruct y as [| | | | | | |j u e| | | |]; cbn [has_idx]; try tauto. unfold set_idx. cbn [d_idx]. intros N. destruct (sget (ident j) (d_idx d)) as [z|] eqn:J; [|contradiction].
      rewrite dget_app, J. discriminate.
Qed.
Lemma indices_has : forall b d d', forallb is_index b = true -> foldM (exec true) b d = Ok d' -> Forall (has_idx d') b /\ forall y, has_idx d y -> has_idx d' y.
Proof.
  induction b as [|x b IH]; intros d d' F E; [injection E as <-; split; [constructor|auto]|]. cbn [forallb] in F. apply andb_prop in F. destruct F as (F1 & F2).
  cbn [foldM] in E. destruct (exec true d x) as [d1|e] eqn:X; [|discriminate]. destruct (index_has _ _ _ F1 X) as (A & B). destruct (IH d1 d' F2 E) as (C & D).
  split; [constructor; [apply D; exact A|exact C]|]. intros y Y. apply D, B, Y.
Qed.
Lemma indices_same : forall b d, Forall (has_idx d) b -> foldM (exec true) b d = Ok d.
Proof.
  induction b as [|x b IH]; intros d F; [reflexivity|]. inversion F as [|? ? A C]; subst. cbn [foldM]. replace (exec true d x) with (Ok d); [apply IH; exact C|].
  destruct x as [| | | | | | |i t c| | | |]; cbn [has_idx] in A; try contradiction. cbn [exec]. destruct (sget (ident i) (d_idx d)); [reflexivity|contradiction].
Qed.

(** the migration of version [v] to [v + 1] that is killed between COMMIT and the version *)
Definition just_before_version (v : Z) (d r : db) : Prop := r = killed_after (sent pyulog_files v 1 - 1) pyulog_files SCHEMA_VERSION d.
Lemma behind v d d2 r : d_version d = v -> v < 5 -> just_before_version v d r -> apply_script pyulog_files (v + 1) d = Ok d2 -> r = set_ver v d2.
Proof.
  intros V L -> A. destruct (C39_law pyulog_files SCHEMA_VERSION d O d (sent pyulog_files v 1 - 1)) as (_ & K).
  - intros i l _. apply pyulog_tidy.
  - change SCHEMA_VERSION with 5. lia.
  - reflexivity.
  - cbn [sent]. lia.
  - rewrite V in K. replace (v + Z.of_nat 0) with v in K by lia. apply K; [exact L|exact A|].
    unfold apply_script in A. cbn [sent]. replace (v + Z.of_nat 1) with (v + 1) by lia. destruct (pyulog_files (v + 1)); [lia|discriminate].
Qed.
Lemma rerun_fails v force r e : d_version r = v -> 0 < v < 5 -> apply_script pyulog_files (v + 1) r = Err e -> (exists l, read_migration_file pyulog_files (v + 1) = Ok l) ->
  migrate_db pyulog_files SCHEMA_VERSION false force (Some r) = (Err e, Some r, [v + 1]).
Proof.
  intros V L A (l & R). rewrite migrate_unfold by (left; lia). cbn [contents]. rewrite V. cbv zeta. change SCHEMA_VERSION with 5.
  replace (Z.to_nat (5 - v)) with (S (Z.to_nat (4 - v))) by lia. cbn [migrate_loop]. rewrite R.
  destruct (script_err pyulog_files (v + 1) r e l (pyulog_tidy (v + 1)) A R) as (s & X1 & X2). rewrite X1, X2. reflexivity.
Qed.
(** From version 2 or 3, whatever the database holds: it is stuck.  All is stored, but every further run fails at once
    and changes nothing, and with the version that is left no program that checks it works with the file. *)
Theorem C39_stuck : forall force d r, d_version d = 2 \/ d_version d = 3 -> d_defs d = defs_at pyulog_files (d_version d) -> full_rows d ->
  (d_version d = 3 -> forall t c df x, In (t, c) times -> sget t (d_defs d) = Some df -> In x (d_rows d t) -> whole (cell_at (t_cols df) x c) = true) ->
  just_before_version (d_version d) d r ->
  d_version r = d_version d /\ d_defs r = defs_at pyulog_files (d_version d + 1) /\ rows_kept (if d_version d =? 2 then [] else times) d r /\
  migrate_db pyulog_files SCHEMA_VERSION false force (Some r) = (Err OperationalError, Some r, [d_version d + 1]).
Proof.
  intros force d r [V|V] D F W J; rewrite V in *.
  - destruct (step3 d d (kept_start d F) D) as (d2 & A & D2 & K2 & _). rewrite (behind 2 d d2 r V ltac:(lia) J A).
    split; [reflexivity|]. split; [exact D2|]. split; [exact K2|]. apply (rerun_fails 2); [reflexivity|lia| |eexists; vm_compute; reflexivity].
    change (2 + 1) with 3. unfold apply_script. change (pyulog_files 3) with (Some script3).
    assert (B : body script3 = Some [SAddCol (lit "ULogField") (mkCD (lit "ValueJson") ANum None false)]) by reflexivity. cbv iota. rewrite B. unfold apply_body.
    assert (Q : match sget (ident (lit "ULogField")) (defs_at pyulog_files 3) with Some df => has_col (t_cols df) (lit "ValueJson") = true | None => False end) by (vm_compute; reflexivity).
    rewrite <- D2 in Q.
    assert (X : exec true (set_ver 2 d2) (SAddCol (lit "ULogField") (mkCD (lit "ValueJson") ANum None false)) = Err OperationalError).
    { unfold exec. cbv zeta. unfold table. change (d_defs (set_ver 2 d2)) with (d_defs d2).
      destruct (sget (ident (lit "ULogField")) (d_defs d2)) as [df|]; [|contradiction]. unfold bind.
      replace (has_col (t_cols df) (k_name (mkCD (lit "ValueJson") ANum None false))) with true by (symmetry; exact Q). reflexivity. }
    cbn [foldM]. rewrite X. reflexivity.
  - destruct (step4 d d (kept_start d F) D (or_intror D) (W eq_refl)) as (d2 & A & D2 & K2 & _). rewrite (behind 3 d d2 r V ltac:(lia) J A).
    split; [reflexivity|]. split; [exact D2|]. split; [exact K2|]. apply (rerun_fails 3); [reflexivity|lia| |eexists; vm_compute; reflexivity].
    change (3 + 1) with 4. unfold apply_script. change (pyulog_files 4) with (Some script4).
    assert (B : exists b, body script4 = Some (SForeignKeys false :: SRenameCol (lit "ULog") (lit "StartTimestamp") (lit "StartTimestamp_old") :: b)) by (eexists; reflexivity).
    destruct B as (b & B). cbv iota. rewrite B. unfold apply_body.
    assert (Q : match sget (ident (lit "ULog")) (defs_at pyulog_files 4) with Some df => has_col (t_cols df) (lit "StartTimestamp_old") = true | None => False end) by (vm_compute; reflexivity).
    rewrite <- D2 in Q.
    assert (X : exec true (set_ver 3 d2) (SRenameCol (lit "ULog") (lit "StartTimestamp") (lit "StartTimestamp_old")) = Err OperationalError).
    { unfold exec. cbv zeta. unfold table. change (d_defs (set_ver 3 d2)) with (d_defs d2).
      destruct (sget (ident (lit "ULog")) (d_defs d2)) as [df|]; [|contradiction]. cbn [bind]. rewrite Q. cbn [negb]. rewrite Bool.andb_false_r. reflexivity. }
    cbn [foldM]. change (exec true (set_ver 3 d2) (SForeignKeys false)) with (Ok (set_ver 3 d2)). cbn [bind]. rewrite X. reflexivity.
Qed.
(** From version 4 the next run completes the migration, and the result is that of a run that was not killed. *)
Theorem C39_resumed : forall force d r, d_version d = 4 -> d_defs d = defs_at pyulog_files 4 -> full_rows d -> just_before_version 4 d r ->
  d_version r = 4 /\ exists d', migrate_db pyulog_files SCHEMA_VERSION false force (Some d) = (Ok tt, Some d', [5]) /\
    migrate_db pyulog_files SCHEMA_VERSION false force (Some r) = (Ok tt, Some d', [5]).
Proof.
  intros force d r V D F J. destruct (step5 [] d d (kept_start d F) D) as (d2 & A & D2 & _). rewrite (behind 4 d d2 r V ltac:(lia) J A). split; [reflexivity|].
  assert (B : exists b, body script5 = Some b /\ forallb is_index b = true) by (eexists; split; reflexivity). destruct B as (b & B & I).
  assert (S : forall x, apply_script pyulog_files 5 x = (let* y := foldM (exec true) b x in Ok (set_ver 5 y))).
  { intros x. unfold apply_script. change (pyulog_files 5) with (Some script5). cbv iota. rewrite B. reflexivity. }
  assert (A' : apply_script pyulog_files 5 (set_ver 4 d2) = Ok d2).
  { rewrite S in *. clear B S D2. destruct (foldM (exec true) b d) as [y|e] eqn:Y; [|discriminate]. cbn [bind] in A. injection A as <-.
    destruct (indices_has b d y I Y) as (H & _). rewrite (indices_same b (set_ver 4 (set_ver 5 y))); [destruct y; reflexivity|].
    revert H. apply Forall_impl. intros x. destruct x; auto. }
  exists d2. assert (M : forall x, d_version x = 4 -> apply_script pyulog_files 5 x = Ok d2 -> migrate_db pyulog_files SCHEMA_VERSION false force (Some x) = (Ok tt, Some d2, [5])).
  { intros x Vx Ax. assert (M : exists ids, migrate_db pyulog_files SCHEMA_VERSION false force (Some x) = (Ok tt, Some d2, ids)).
    { apply C37_applies; [intros k l _; apply pyulog_tidy|left; lia|]. cbn [contents]. rewrite Vx. change (Z.to_nat (SCHEMA_VERSION - 4)) with 1%nat. cbn [apply_scripts bind]. exact Ax. }
    destruct M as (ids & M). rewrite M. f_equal. unfold migrate_db in M. rewrite (version_read force (Some x)) in M by (left; lia). cbn [contents] in M. rewrite Vx in M.
    change (Z.to_nat (SCHEMA_VERSION - 4)) with 1%nat in M. destruct (migrate_loop pyulog_files false 1 (4 + 1) (connect x)) as [[s r'] i] eqn:L. destruct r' as [[]|e]; [|discriminate].
    apply (f_equal snd) in M. cbn [snd] in M. subst ids. exact (proj1 (loop_done _ _ _ _ _ _ L)). }
  split; apply M; [exact V|exact A|reflexivity|exact A'].
Qed.
(** Databases that hold a log and meet the conditions, at the versions 2, 3 and 4. *)
Definition held (v : Z) : db :=
  let defs := defs_at pyulog_files v in
  let row := match sget (lit "ulog") defs with
             | Some df => match new_row 1 (t_cols df) [lit "SHA256Sum"; lit "StartTimestamp"; lit "LastTimestamp"] [CText (lit "ab"); CInt 5; CInt 7] with Ok r => r | Err _ => [] end
             | None => [] end in
  mkDb defs (fun t => if str_eqb t (lit "ulog") then [row] else []) (fun t => if str_eqb t (lit "ulog") then 1 else 0) [] v.
Example C39_case : forall v, In v [2; 3; 4] -> d_version (held v) = v /\ d_defs (held v) = defs_at pyulog_files v /\ full_rows (held v) /\
  length (d_rows (held v) (lit "ulog")) = 1%nat /\
  forall t c df x, In (t, c) times -> sget t (d_defs (held v)) = Some df -> In x (d_rows (held v) t) -> whole (cell_at (t_cols df) x c) = true.
Proof.
  intros v Hv. split; [reflexivity|]. split; [reflexivity|].
  assert (R : match sget (lit "ulog") (defs_at pyulog_files v) with
              | Some df => forallb (fun x => Nat.eqb (length x) (length (t_cols df)) && whole (cell_at (t_cols df) x (lit "StartTimestamp")) && whole (cell_at (t_cols df) x (lit "LastTimestamp")))
                             (d_rows (held v) (lit "ulog")) = true
              | None => False end).
  { destruct Hv as [<-|[<-|[<-|[]]]]; vm_compute; reflexivity. }
  assert (U : forall t x, In x (d_rows (held v) t) -> t = lit "ulog").
  { intros t x I. unfold held in I. cbn [d_rows] in I. destruct (str_eqb_spec t (lit "ulog")) as [E|]; [exact E|destruct I]. }
  split.
  - intros t df x G I. pose proof (U t x I) as Ut. subst t. change (d_defs (held v)) with (defs_at pyulog_files v) in G. rewrite G in R. rewrite forallb_forall in R. specialize (R x I).
    apply andb_prop in R. destruct R as (R & _). apply andb_prop in R. destruct R as (R & _). apply Nat.eqb_eq. exact R.
  - split; [reflexivity|]. intros t c df x T G I. pose proof (U t x I). subst t. change (d_defs (held v)) with (defs_at pyulog_files v) in G. rewrite G in R. rewrite forallb_forall in R.
    specialize (R x I). apply andb_prop in R. destruct R as (R & R2). apply andb_prop in R. destruct R as (_ & R1).
    unfold times in T. cbn [In] in T. destruct T as [T|[T|T]]; [injection T as <-; exact R1|injection T as <-; exact R2|].
    exfalso. repeat destruct T as [T|T]; try discriminate T; exact T.
Qed.
(** the statements of script 3 number three and one for the version: killed after the third *)
Example C39_case_law : sent pyulog_files 2 1 = 4%nat /\ sent pyulog_files 2 2 = (4 + length script4 + 1)%nat /\
  killed_after 2 pyulog_files SCHEMA_VERSION (held 2) = held 2 /\ d_version (killed_after 3 pyulog_files SCHEMA_VERSION (held 2)) = 2 /\
  d_version (killed_after 4 pyulog_files SCHEMA_VERSION (held 2)) = 3.
Proof. split; [|split; [|split; [|split]]]; vm_compute; reflexivity. Qed.
