(** Lemmas about migrations. *)
From Verif Require Import Base Dict PyStr Sql ModelSchema ModelDb ModelMigrate SpecMigrate.

Definition plainS (d : db) : sess := mkSess d None true.

Lemma run_stmts_app : forall a b s,
  run_stmts (a ++ b) s = match run_stmts a s with (s', Ok _) => run_stmts b s' | (s', Err e) => (s', Err e) end.
Proof.
  induction a as [|x a IH]; intros b s; cbn; [reflexivity|].
  destruct (run_stmt s x) as [s'|e]; [apply IH|reflexivity].
Qed.

Lemma body_inv : forall l b, body l = Some b -> l = SBegin :: b ++ [SCommit].
Proof.
  intros l b H. destruct l as [|x r]; [discriminate|]. destruct x; try discriminate. unfold body in H.
  destruct (rev r) as [|y t] eqn:E; [discriminate|]. destruct y; try discriminate.
  injection H as H. subst b. f_equal. rewrite <- (rev_involutive r), E. reflexivity.
Qed.

Lemma delimited : forall l, starts_begin l && ends_commit l = match body l with Some _ => true | None => false end.
Proof.
  intros [|x r]; [reflexivity|]. destruct x; try reflexivity. unfold starts_begin, ends_commit, body. cbn [rev andb].
  destruct (rev r) as [|y t]; [reflexivity|]. destruct y; reflexivity.
Qed.

Lemma read_file : forall files k, read_migration_file files k =
  match files k with
  | None => Err FileNotFoundError
  | Some l => match body l with None => Err ValueError | Some b => Ok (SBegin :: b ++ [SCommit; SVersion k]) end
  end.
Proof.
  intros files k. unfold read_migration_file. destruct (files k) as [l|]; [|reflexivity].
  pose proof (delimited l) as D. destruct (body l) as [b|] eqn:E.
  - apply andb_prop in D. destruct D as [D1 D2]. rewrite D1, D2. cbn [negb].
    rewrite (body_inv _ _ E). cbn [app]. rewrite <- app_assoc. reflexivity.
  - destruct (starts_begin l); [|reflexivity]. destruct (ends_commit l); [discriminate|reflexivity].
Qed.

Lemma run_plain : forall x d o, plain x = true ->
  run_stmt (mkSess d (Some o) true) x = match exec true d x with Ok d' => Ok (mkSess d' (Some o) true) | Err e => Err e end.
Proof. intros x d o H. destruct x; try discriminate H; cbn -[exec]; try reflexivity; destruct (exec true d _); reflexivity. Qed.

Lemma run_body : forall b d o, forallb plain b = true ->
  exists d', run_stmts b (mkSess d (Some o) true) =
    (mkSess d' (Some o) true, match apply_body b d with Ok _ => Ok tt | Err e => Err e end) /\
    (forall d'', apply_body b d = Ok d'' -> d' = d'').
Proof.
  induction b as [|x b IH]; intros d o H.
  - exists d. split; [reflexivity|]. intros d'' E. injection E as E. exact E.
  - cbn [forallb] in H. apply andb_prop in H. destruct H as [Hx Hb].
    unfold apply_body. cbn [run_stmts foldM]. rewrite (run_plain _ _ _ Hx).
    destruct (exec true d x) as [d1|e].
    + destruct (IH d1 o Hb) as [d' [E1 E2]]. exists d'. split; [exact E1|exact E2].
    + exists d. split; [reflexivity|]. intros d'' E. discriminate.
Qed.

(** one script *)
Lemma script_ok : forall files k d d' l, (forall l, files k = Some l -> tidy l) ->
  apply_script files k d = Ok d' -> read_migration_file files k = Ok l ->
  executescript l (plainS d) = (plainS d', Ok tt).
Proof.
  intros files k d d' l T A R. rewrite read_file in R. unfold apply_script in A.
  destruct (files k) as [l0|]; [|discriminate]. destruct (body l0) as [b|] eqn:B; [|discriminate].
  apply (f_equal (fun r => match r with Ok x => x | Err _ => l end)) in R. cbv beta iota in R. subst l.
  unfold executescript, plainS. cbn [commit s_db s_fk run_stmts run_stmt s_open].
  destruct (run_body b d d (T l0 eq_refl b B)) as [d1 [E1 E2]].
  rewrite run_stmts_app, E1. destruct (apply_body b d) as [d2|e]; [|discriminate].
  rewrite (E2 d2 eq_refl). cbn [bind] in A. injection A as A. subst d'. reflexivity.
Qed.
Lemma script_err : forall files k d e l, (forall l, files k = Some l -> tidy l) ->
  apply_script files k d = Err e -> read_migration_file files k = Ok l ->
  exists s, executescript l (plainS d) = (s, Err e) /\ s_db (rollback s) = d.
Proof.
  intros files k d e l T A R. rewrite read_file in R. unfold apply_script in A.
  destruct (files k) as [l0|]; [|discriminate]. destruct (body l0) as [b|] eqn:B; [|discriminate].
  apply (f_equal (fun r => match r with Ok x => x | Err _ => l end)) in R. cbv beta iota in R. subst l.
  unfold executescript, plainS. cbn [commit s_db s_fk run_stmts run_stmt s_open].
  destruct (run_body b d d (T l0 eq_refl b B)) as [d1 [E1 E2]].
  rewrite run_stmts_app, E1. destruct (apply_body b d) as [d2|e']; [discriminate|].
  cbn [bind] in A. injection A as A. subst e'. eexists. split; [reflexivity|]. reflexivity.
Qed.
Lemma script_read : forall files k d d', apply_script files k d = Ok d' -> exists l, read_migration_file files k = Ok l.
Proof.
  intros files k d d' A. rewrite read_file. unfold apply_script in A.
  destruct (files k) as [l0|]; [|discriminate]. destruct (body l0) as [b|]; [|discriminate]. eexists; reflexivity.
Qed.
Lemma script_unread : forall files k d e, read_migration_file files k = Err e -> apply_script files k d = Err e.
Proof.
  intros files k d e R. rewrite read_file in R. unfold apply_script.
  destruct (files k) as [l0|]; [|congruence]. destruct (body l0) as [b|]; [discriminate|congruence].
Qed.
Lemma script_version : forall files k d d', apply_script files k d = Ok d' -> d_version d' = k.
Proof.
  intros files k d d' A. unfold apply_script in A. destruct (files k) as [l0|]; [|discriminate].
  destruct (body l0) as [b|]; [|discriminate]. destruct (apply_body b d) as [d2|e]; [|discriminate].
  cbn [bind] in A. injection A as A. subst d'. reflexivity.
Qed.
Lemma scripts_version : forall files v n d d', apply_scripts files v n d = Ok d' -> d_version d = v -> d_version d' = v + Z.of_nat n.
Proof.
  intros files v [|n] d d' A V.
  - injection A as A. subst d'. cbn. lia.
  - cbn [apply_scripts] in A. destruct (apply_scripts files v n d) as [d1|e]; [|discriminate]. exact (script_version _ _ _ _ A).
Qed.

Lemma up_S : forall v n, up_from v (S n) = up_from v n ++ [v + Z.of_nat (S n)].
Proof.
  intros v n. unfold up_from. rewrite seq_S, map_app. f_equal. cbn [map]. f_equal. lia.
Qed.
Lemma up_cons : forall v n, up_from v (S n) = v + 1 :: up_from (v + 1) n.
Proof.
  intros v n. unfold up_from. cbn [seq map]. f_equal; [lia|]. rewrite <- seq_shift, map_map. apply map_ext. intros. lia.
Qed.

(** the loop, once the first scripts have been applied *)
Lemma loop_applied : forall files v n m d d',
  (forall k l, v < k <= v + Z.of_nat n -> files k = Some l -> tidy l) ->
  apply_scripts files v n d = Ok d' ->
  migrate_loop files false (n + m) (v + 1) (plainS d) =
    let '(s, r, ids) := migrate_loop files false m (v + Z.of_nat n + 1) (plainS d') in (s, r, up_from v n ++ ids).
Proof.
  intros files v n. induction n as [|n IH]; intros m d d' T A.
  - injection A as A. subst d'. cbn [plus]. replace (v + Z.of_nat 0 + 1) with (v + 1) by lia.
    destruct (migrate_loop files false m (v + 1) (plainS d)) as [[s r] ids]. reflexivity.
  - cbn [apply_scripts] in A. destruct (apply_scripts files v n d) as [d1|e] eqn:E; [|discriminate]. cbn [bind] in A.
    replace (S n + m)%nat with (n + S m)%nat by lia. rewrite (IH (S m) d d1); [|intros k l Hk; apply T; lia|exact E].
    cbn [migrate_loop]. destruct (script_read _ _ _ _ A) as [l R].
    replace (v + Z.of_nat n + 1) with (v + Z.of_nat (S n)) by lia. rewrite R.
    rewrite (script_ok files (v + Z.of_nat (S n)) d1 d' l); [|intros l'; apply T; lia|exact A|exact R].
    destruct (migrate_loop files false m (v + Z.of_nat (S n) + 1) (plainS d')) as [[s r] ids].
    rewrite up_S, <- app_assoc. reflexivity.
Qed.

(** whatever the scripts: a run without error runs them all and leaves the version of the last *)
Lemma loop_done : forall files n v s s' ids, migrate_loop files false n (v + 1) s = (s', Ok tt, ids) ->
  ids = up_from v n /\ (n = O /\ s' = s \/ d_version (s_db s') = v + Z.of_nat n).
Proof.
  intros files n. induction n as [|n IH]; intros v s s' ids H.
  - cbn in H. injection H as H1 H2. subst. auto.
  - cbn [migrate_loop] in H. destruct (read_migration_file files (v + 1)) as [l|e] eqn:R; [|discriminate].
    destruct (executescript l s) as [s1 [u|e]] eqn:X; [|discriminate].
    destruct (migrate_loop files false n (v + 1 + 1) s1) as [[s2 r] ids'] eqn:L.
    injection H as H1 H2 H3. subst. destruct (IH _ _ _ _ L) as [I1 I2]. subst ids'. split; [rewrite up_cons; reflexivity|].
    right. destruct I2 as [[I2 I3]|I2]; [|lia]. subst. cbn [Z.of_nat Pos.of_succ_nat].
    rewrite read_file in R. destruct (files (v + 1)) as [l0|]; [|discriminate]. destruct (body l0) as [b|]; [|discriminate].
    apply (f_equal (fun r => match r with Ok x => x | Err _ => l end)) in R. cbv beta iota in R. subst l.
    change (SBegin :: b ++ [SCommit; SVersion (v + 1)]) with ((SBegin :: b) ++ [SCommit; SVersion (v + 1)]) in X.
    unfold executescript in X. rewrite run_stmts_app in X. destruct (run_stmts (SBegin :: b) (commit s)) as [s3 [u3|e3]]; [|discriminate].
    cbn in X. destruct (s_open s3); [|discriminate]. injection X as X X'. subst s1. reflexivity.
Qed.

Lemma loop_noop : forall files n id s s' r ids, migrate_loop files true n id s = (s', r, ids) -> s' = s /\ ids = [].
Proof.
  intros files n. induction n as [|n IH]; intros id s s' r ids H; cbn [migrate_loop] in H.
  - injection H as H1 H2 H3. subst. auto.
  - destruct (read_migration_file files id); [exact (IH _ _ _ _ _ H)|]. injection H as H1 H2 H3. subst. auto.
Qed.

Lemma version_read : forall force file, accepted force file -> read_db_schema_version force file = Ok (d_version (contents file)).
Proof.
  intros force [d|] A; [|reflexivity]. cbn in *. destruct A as [A|[A1 A2]].
  - destruct (d_version d =? 0) eqn:E; [lia|]. cbn. destruct (d_version d <? 0) eqn:E'; [lia|reflexivity].
  - rewrite A1, A2. reflexivity.
Qed.
Lemma version_read_inv : forall force file v, read_db_schema_version force file = Ok v ->
  accepted force file /\ v = d_version (contents file).
Proof.
  intros force [d|] v A; cbn in *; [|injection A as A; auto].
  destruct (d_version d =? 0) eqn:E; destruct force; cbn in A; try discriminate;
    (destruct (d_version d <? 0) eqn:E'; [discriminate|]; injection A as A; split; [|auto]); lia.
Qed.

(** ** Crashes *)
Lemma firstn_app_cases : forall {A} k (a b : list A),
  (k <= length a)%nat /\ firstn k (a ++ b) = firstn k a \/
  exists j, firstn k (a ++ b) = a ++ firstn j b /\ k = (length a + j)%nat.
Proof.
  intros A k a b. destruct (le_lt_dec k (length a)) as [H|H].
  - left. split; [exact H|]. rewrite firstn_app. replace (k - length a)%nat with O by lia. cbn. apply app_nil_r.
  - right. exists (k - length a)%nat. split; [|lia]. rewrite firstn_app, firstn_all2 by lia. reflexivity.
Qed.
Lemma run_body_part : forall b d o, forallb plain b = true ->
  exists d', fst (run_stmts b (mkSess d (Some o) true)) = mkSess d' (Some o) true.
Proof. intros b d o H. destruct (run_body b d o H) as [d' [E _]]. exists d'. rewrite E. reflexivity. Qed.
Lemma forallb_firstn : forall {A} (f : A -> bool) k l, forallb f l = true -> forallb f (firstn k l) = true.
Proof.
  intros A f k. induction k as [|k IH]; intros [|x l] H; try reflexivity. cbn in *.
  apply andb_prop in H. destruct H as [H1 H2]. rewrite H1, (IH l H2). reflexivity.
Qed.

(** killed in the middle of one script *)
Lemma killed_script : forall k d b j, forallb plain b = true ->
  let r := durable (fst (run_stmts (firstn j (SBegin :: b ++ [SCommit; SVersion k])) (plainS d))) in
  r = d \/ exists d1, apply_body b d = Ok d1 /\ (r = d1 \/ r = set_ver k d1).
Proof.
  intros k d b j P r. unfold r. clear r. destruct j as [|j]; [left; reflexivity|].
  cbn [firstn run_stmts run_stmt plainS s_open s_db s_fk].
  destruct (firstn_app_cases j b [SCommit; SVersion k]) as [[Hj Ej]|[i [Ej Hj]]]; rewrite Ej.
  - destruct (run_body_part (firstn j b) d d (forallb_firstn _ _ _ P)) as [x X]. rewrite X. left. reflexivity.
  - rewrite run_stmts_app. destruct (run_body b d d P) as [x [X1 X2]]. rewrite X1.
    destruct (apply_body b d) as [d1|e] eqn:E; [|left; reflexivity]. rewrite (X2 d1 eq_refl).
    destruct i as [|[|i]]; cbn.
    + left. reflexivity.
    + right. exists d1. auto.
    + rewrite firstn_nil. cbn. right. exists d1. auto.
Qed.

Lemma scripts_front : forall files n v d, apply_scripts files v (S n) d =
  let* d1 := apply_script files (v + 1) d in apply_scripts files (v + 1) n d1.
Proof.
  intros files n. induction n as [|n IH]; intros v d.
  - cbn [apply_scripts bind]. replace (v + Z.of_nat 1) with (v + 1) by lia. destruct (apply_script files (v + 1) d); reflexivity.
  - change (apply_scripts files v (S (S n)) d) with (let* d' := apply_scripts files v (S n) d in apply_script files (v + Z.of_nat (S (S n))) d').
    rewrite IH. destruct (apply_script files (v + 1) d) as [d1|e]; [|reflexivity]. cbn [bind apply_scripts].
    destruct (apply_scripts files (v + 1) n d1) as [d2|e]; [|reflexivity]. cbn [bind]. f_equal. lia.
Qed.

Lemma killed_loop : forall files n v d k, (forall i l, v < i <= v + Z.of_nat n -> files i = Some l -> tidy l) ->
  let r := durable (fst (run_stmts (firstn k (all_stmts files n (v + 1))) (plainS d))) in
  exists m d1, (m <= n)%nat /\ apply_scripts files v m d = Ok d1 /\
    (r = d1 \/ (m < n)%nat /\ exists l b, files (v + Z.of_nat m + 1) = Some l /\ body l = Some b /\ apply_body b d1 = Ok r).
Proof.
  intros files n. induction n as [|n IH]; intros v d k T r.
  - exists O, d. split; [lia|]. split; [reflexivity|]. left. unfold r. cbn. rewrite firstn_nil. reflexivity.
  - unfold r. clear r. cbn [all_stmts]. rewrite read_file.
    destruct (files (v + 1)) as [l|] eqn:F; [|exists O, d; rewrite firstn_nil; split; [lia|]; split; [reflexivity|]; left; reflexivity].
    destruct (body l) as [b|] eqn:B; [|exists O, d; rewrite firstn_nil; split; [lia|]; split; [reflexivity|]; left; reflexivity].
    assert (P : forallb plain b = true) by (apply (T (v + 1) l); [lia|exact F|exact B]).
    destruct (firstn_app_cases k (SBegin :: b ++ [SCommit; SVersion (v + 1)]) (all_stmts files n (v + 1 + 1))) as [[Hj Ej]|[i [Ej Hj]]]; rewrite Ej.
    + destruct (killed_script (v + 1) d b k P) as [K|[d1 [E [K|K]]]]; rewrite K.
      * exists O, d. split; [lia|]. split; [reflexivity|]. left. reflexivity.
      * exists O, d. split; [lia|]. split; [reflexivity|]. right. split; [lia|]. exists l, b.
        replace (v + Z.of_nat 0 + 1) with (v + 1) by lia. auto.
      * exists 1%nat, (set_ver (v + 1) d1). split; [lia|]. split; [|left; reflexivity].
        cbn [apply_scripts bind]. replace (v + Z.of_nat 1) with (v + 1) by lia. unfold apply_script. rewrite F, B, E. reflexivity.
    + rewrite run_stmts_app. destruct (run_body b d d P) as [x [X1 X2]].
      change (run_stmts (SBegin :: b ++ [SCommit; SVersion (v + 1)]) (plainS d)) with
        (run_stmts (b ++ [SCommit; SVersion (v + 1)]) (mkSess d (Some d) true)). rewrite run_stmts_app, X1.
      destruct (apply_body b d) as [d1|e] eqn:E.
      * rewrite (X2 d1 eq_refl). cbn [run_stmts run_stmt s_open commit s_db s_fk].
        assert (A : apply_script files (v + 1) d = Ok (set_ver (v + 1) d1)) by (unfold apply_script; rewrite F, B, E; reflexivity).
        destruct (IH (v + 1) (set_ver (v + 1) d1) i) as [m [d2 [Hm [E2 C]]]]; [intros j l' Hl; apply T; lia|].
        exists (S m), d2. split; [lia|]. split; [rewrite scripts_front, A; exact E2|].
        destruct C as [C|[C1 [l' [b' [C2 C3]]]]]; [left; exact C|right]. split; [lia|]. exists l', b'.
        replace (v + Z.of_nat (S m) + 1) with (v + 1 + Z.of_nat m + 1) by lia. auto.
      * cbn [fst durable s_open]. exists O, d. split; [lia|]. split; [reflexivity|]. left. reflexivity.
Qed.

(** ** Empty databases *)
Definition empty (d : db) : Prop := forall t, d_rows d t = [] /\ d_seq d t = 0.
Lemma upd_empty : forall {A} (f : str -> A) t (x y : A), (forall t', f t' = y) -> x = y -> forall t', upd f t x t' = y.
Proof. intros A f t x y F X t'. unfold upd. destruct (str_eqb t' t); auto. Qed.
Lemma foldM_inv : forall {A B} (P : A -> Prop) (f : A -> B -> res A) l a a',
  (forall a b a', P a -> f a b = Ok a' -> P a') -> P a -> foldM f l a = Ok a' -> P a'.
Proof.
  intros A B P f l. induction l as [|x l IH]; intros a a' F H E; cbn [foldM] in E.
  - injection E as E. subst. exact H.
  - destruct (f a x) as [a1|e] eqn:E1; [|discriminate]. exact (IH _ _ F (F _ _ _ H E1) E).
Qed.
Lemma empty_sets : forall d x y z, empty d -> empty (set_defs x d) /\ empty (set_idx y d) /\ empty (set_ver z d).
Proof. intros d x y z H. split; [exact H|split; exact H]. Qed.
Lemma empty_rows : forall d t l, empty d -> l = [] -> empty (set_rows t l d).
Proof. intros d t l H L t'. split; [|apply H]. apply upd_empty; [intro; apply H|exact L]. Qed.
Lemma empty_seq : forall d t z, empty d -> z = 0 -> empty (set_seq t z d).
Proof. intros d t l H L t'. split; [apply H|]. apply upd_empty; [intro; apply H|exact L]. Qed.
Lemma delete_empty : forall fuel d t p d', empty d -> delete_where fuel d t p = Ok d' -> empty d'.
Proof.
  induction fuel as [|fuel IH]; intros d t p d' H E; [discriminate|]. cbn [delete_where] in E.
  destruct (table d t) as [df|e]; [|discriminate]. cbn [bind] in E.
  refine (foldM_inv empty _ _ _ _ _ _ E);
    [|apply empty_rows; [exact H|]; match goal with |- filter _ ?l = [] => replace l with (@nil row) by (symmetry; apply H) end; reflexivity].
  intros a ct a' Ha Ea. refine (foldM_inv empty _ _ _ _ _ Ha Ea).
  intros x c x' Hx Ex. cbv beta in Ex. destruct (k_ref c) as [[par cas]|]; [|injection Ex as Ex; subst; exact Hx].
  destruct (str_eqb par t); [|injection Ex as Ex; subst; exact Hx].
  destruct cas; [exact (IH _ _ _ _ Hx Ex)|]. rewrite (proj1 (Hx (fst ct))) in Ex. cbn in Ex. injection Ex as Ex. subst. exact Hx.
Qed.
Lemma exec_empty : forall fk d s d', empty d -> exec fk d s = Ok d' -> empty d'.
Proof.
  intros fk d s d' H E. destruct s; cbn [exec] in E;
    try (destruct (table d (ident t)) as [df|e]; [|discriminate]; cbn [bind] in E);
    try (injection E as E; subst; exact H).
  - destruct (sget (ident t) (d_defs d)); injection E as E; subst; [exact H|].
    apply empty_seq; [|reflexivity]. apply empty_rows; [exact H|reflexivity].
  - destruct (table d (ident dst)) as [ddf|e]; [|discriminate]. destruct (table d (ident src)) as [sdf|e]; [|discriminate].
    cbn [bind] in E. rewrite (proj1 (H (ident src))) in E. destruct names as [l|].
    + cbn in E. injection E as E. subst. exact H.
    + destruct (Nat.eqb _ _); [|discriminate]. cbn in E. injection E as E. subst. exact H.
  - destruct (sget (ident t) (d_defs d)); [|injection E as E; subst; exact H].
    destruct fk.
    + destruct (delete_where _ d (ident t) _) as [d1|e] eqn:D; [|discriminate]. cbn [bind] in E. injection E as E. subst.
      apply empty_sets; [exact []|exact 0|]. apply empty_seq; [|reflexivity]. apply empty_rows; [|reflexivity].
      exact (delete_empty _ _ _ _ _ H D).
    + cbn [bind] in E. injection E as E. subst.
      apply empty_sets; [exact []|exact 0|]. apply empty_seq; [|reflexivity]. apply empty_rows; [|reflexivity]. exact H.
  - destruct (table d (ident old)) as [df|e]; [|discriminate]. cbn [bind] in E. destruct (sget (ident new) (d_defs d)); [discriminate|].
    injection E as E. subst. intro t'. cbn. split.
    + apply upd_empty; [|reflexivity]. apply upd_empty; [intro; apply H|apply H].
    + apply upd_empty; [|reflexivity]. apply upd_empty; [intro; apply H|apply H].
  - destruct (_ && _); [|discriminate]. injection E as E. subst. exact H.
  - destruct (has_col _ _); [discriminate|]. injection E as E. subst. apply empty_rows; [exact H|]. rewrite (proj1 (H (ident t))). reflexivity.
  - destruct (_ && _); [|discriminate]. rewrite (proj1 (H (ident t))) in E. cbn in E. injection E as E. subst. apply empty_rows; [exact H|reflexivity].
  - destruct (sget (ident i) (d_idx d)); [injection E as E; subst; exact H|].
    destruct (table d (ident t)) as [df|e]; [|discriminate]. cbn [bind] in E. destruct (has_col _ _); [|discriminate]. injection E as E. subst. exact H.
Qed.
Lemma scripts_empty : forall files v n d d', empty d -> apply_scripts files v n d = Ok d' -> empty d'.
Proof.
  intros files v n d. induction n as [|n IH]; intros d' H E; cbn [apply_scripts] in E.
  - injection E as E. subst. exact H.
  - destruct (apply_scripts files v n d) as [d1|e]; [|discriminate]. cbn [bind] in E. unfold apply_script in E.
    destruct (files _) as [l|]; [|discriminate]. destruct (body l) as [b|]; [|discriminate].
    destruct (apply_body b d1) as [d2|e] eqn:B; [|discriminate]. cbn [bind] in E. injection E as E. subst.
    apply (empty_sets d2 [] [] _). refine (foldM_inv empty _ _ _ _ _ (IH _ H eq_refl) B). intros a s a'. apply exec_empty.
Qed.

(** statements other than the pragma keep the version *)
Lemma delete_version : forall fuel d t p d', delete_where fuel d t p = Ok d' -> d_version d' = d_version d.
Proof.
  induction fuel as [|fuel IH]; intros d t p d' E; [discriminate|]. cbn [delete_where] in E.
  destruct (table d t) as [df|e]; [|discriminate]. cbn [bind] in E.
  refine (foldM_inv (fun x => d_version x = d_version d) _ _ _ _ _ _ E); [|reflexivity].
  intros a ct a' Ha Ea. refine (foldM_inv (fun x => d_version x = d_version d) _ _ _ _ _ Ha Ea).
  intros x c x' Hx Ex. cbv beta in Ex. destruct (k_ref c) as [[par cas]|]; [|injection Ex as Ex; subst; exact Hx].
  destruct (str_eqb par t); [|injection Ex as Ex; subst; exact Hx].
  destruct cas; [rewrite (IH _ _ _ _ Ex); exact Hx|]. destruct (existsb _ _); [discriminate|]. injection Ex as Ex. subst. exact Hx.
Qed.
Lemma copy_version : forall df t names vals d d', copy_row df t names d vals = Ok d' -> d_version d' = d_version d.
Proof.
  intros df t names vals d d' E. unfold copy_row in E. destruct (mapM _ _) as [r|e]; [|discriminate]. cbn [bind] in E.
  destruct (_ || _); [injection E as E; subst; reflexivity|]. destruct (fks_ok _ _ _); [|discriminate]. cbn [bind] in E.
  destruct (row_id (t_cols df) r); injection E as E; subst; reflexivity.
Qed.
Lemma exec_version : forall fk d s d', exec fk d s = Ok d' -> d_version d' = d_version d.
Proof.
  intros fk d s d' E. destruct s; cbn [exec] in E;
    try (destruct (table d (ident t)) as [df|e]; [|discriminate]; cbn [bind] in E);
    try (injection E as E; subst; reflexivity).
  - destruct (sget (ident t) (d_defs d)); injection E as E; subst; reflexivity.
  - destruct (table d (ident dst)) as [ddf|e]; [|discriminate]. destruct (table d (ident src)) as [sdf|e]; [|discriminate].
    cbn [bind] in E. destruct (match names with Some _ => _ | None => _ end) as [rows|e]; [|discriminate]. cbn [bind] in E.
    refine (foldM_inv (fun x => d_version x = d_version d) _ _ _ _ _ eq_refl E).
    intros a b a' Ha Ea. rewrite (copy_version _ _ _ _ _ _ Ea). exact Ha.
  - destruct (sget (ident t) (d_defs d)); [|injection E as E; subst; reflexivity]. destruct fk.
    + destruct (delete_where _ d (ident t) _) as [d1|e] eqn:D; [|discriminate]. cbn [bind] in E. injection E as E. subst.
      exact (delete_version _ _ _ _ _ D).
    + cbn [bind] in E. injection E as E. subst. reflexivity.
  - destruct (table d (ident old)) as [df|e]; [|discriminate]. cbn [bind] in E. destruct (sget (ident new) (d_defs d)); [discriminate|].
    injection E as E. subst. reflexivity.
  - destruct (_ && _); [|discriminate]. injection E as E. subst. reflexivity.
  - destruct (has_col _ _); [discriminate|]. injection E as E. subst. reflexivity.
  - destruct (_ && _); [|discriminate]. destruct (mapM _ _); [|discriminate]. cbn [bind] in E. injection E as E. subst. reflexivity.
  - destruct (sget (ident i) (d_idx d)); [injection E as E; subst; reflexivity|].
    destruct (table d (ident t)) as [df|e]; [|discriminate]. cbn [bind] in E.
    destruct (has_col _ _); [|discriminate]. injection E as E. subst. reflexivity.
Qed.
Lemma body_version : forall b d d', apply_body b d = Ok d' -> d_version d' = d_version d.
Proof.
  intros b d d' E. refine (foldM_inv (fun x => d_version x = d_version d) _ _ _ _ _ eq_refl E).
  intros a s a' Ha Ea. rewrite (exec_version _ _ _ _ Ea). exact Ha.
Qed.
