(** Proofs about the scripts of ulog_migratedb. *)
From Verif Require Import Base Dict PyStr Utf8 Sql ModelDb ModelMigrate ModelTypes ModelCommand SpecCommand SpecMigrate ModelScripts SpecScripts ProofsCommand.

Lemma py_space_iff c : py_space c = true <-> space c.
Proof. unfold py_space, space. cbn [In]. lia. Qed.
Lemma drop_spaces_spec s : exists a, s = a ++ drop_spaces s /\ Forall space a /\ forall c r, drop_spaces s = c :: r -> ~ space c.
Proof.
  induction s as [|c s (a & E & F & H)]; [exists []; repeat split; [constructor|discriminate]|]. cbn [drop_spaces]. destruct (py_space c) eqn:P.
  - exists (c :: a). split; [cbn [app]; now rewrite <- E|]. split; [constructor; [now apply py_space_iff|exact F]|exact H].
  - exists []. split; [reflexivity|]. split; [constructor|]. intros x r Q. injection Q as <- <-. intros S. apply py_space_iff in S. congruence.
Qed.
Lemma drop_spaces_app a s : Forall space a -> drop_spaces (a ++ s) = drop_spaces s.
Proof. induction 1 as [|c a H _ IH]; [reflexivity|]. cbn [app drop_spaces]. apply py_space_iff in H. now rewrite H. Qed.
Lemma drop_spaces_head c s : ~ space c -> drop_spaces (c :: s) = c :: s.
Proof. intros H. cbn [drop_spaces]. destruct (py_space c) eqn:P; [|reflexivity]. apply py_space_iff in P. contradiction. Qed.
Lemma strip_parts s : exists a c, s = a ++ py_strip s ++ c /\ Forall space a /\ Forall space c.
Proof.
  unfold py_strip. destruct (drop_spaces_spec s) as (a & E & F & _). destruct (drop_spaces_spec (rev (drop_spaces s))) as (c & E2 & F2 & _).
  exists a, (rev c). split; [|split; [exact F|apply Forall_rev; exact F2]]. rewrite E at 1. f_equal.
  rewrite <- rev_app_distr, <- E2. symmetry. apply rev_involutive.
Qed.
Lemma strip_solid a b c : Forall space a -> Forall space c -> (exists x r, b = x :: r /\ ~ space x) -> (exists y l, b = l ++ [y] /\ ~ space y) -> py_strip (a ++ b ++ c) = b.
Proof.
  intros Fa Fc (x & r & E1 & N1) (y & l & E2 & N2). unfold py_strip. rewrite drop_spaces_app by exact Fa.
  assert (drop_spaces (b ++ c) = b ++ c) as -> by (rewrite E1; apply drop_spaces_head; exact N1).
  rewrite rev_app_distr, drop_spaces_app by (apply Forall_rev; exact Fc). rewrite E2, rev_app_distr. cbn [rev app]. rewrite drop_spaces_head by exact N2.
  cbn [rev]. now rewrite rev_involutive.
Qed.
Lemma ends_with_iff p s : ends_with p s = true <-> exists r, s = r ++ p.
Proof.
  unfold ends_with. rewrite starts_with_iff. split.
  - intros (r & E). exists (rev r). apply (f_equal (@rev Z)) in E. rewrite rev_involutive, rev_app_distr, rev_involutive in E. exact E.
  - intros (r & ->). exists (rev r). apply rev_app_distr.
Qed.
Lemma delimited_iff t : delimited t <-> starts_with (lit "BEGIN;") (py_strip t) = true /\ ends_with (lit "COMMIT;") (py_strip t) = true.
Proof.
  rewrite starts_with_iff, ends_with_iff. split.
  - intros (a & b & c & -> & Fa & Fc & (x & Ex) & (y & Ey)). rewrite strip_solid; [split; [exists x; exact Ex|exists y; exact Ey]|exact Fa|exact Fc| |].
    + exists 66. eexists. split; [exact Ex|]. unfold space. cbn [In]. lia.
    + exists 59, (y ++ lit "COMMIT"). split; [rewrite Ey, <- app_assoc; reflexivity|]. unfold space. cbn [In]. lia.
  - intros (X & Y). destruct (strip_parts t) as (a & c & E & Fa & Fc). exists a, (py_strip t), c. auto.
Qed.

Lemma newlines_unified : forall s t, unified s t <-> newlines s = t.
Proof.
  assert (A : forall s t, unified s t -> newlines s = t).
  { induction 1 as [|s t _ IH|s t N _ IH|c s t N _ IH]; cbn [newlines].
    - reflexivity.
    - cbn [Z.eqb Pos.eqb]. now rewrite IH.
    - cbn [Z.eqb Pos.eqb]. f_equal. destruct s as [|d r]; [inversion IH; reflexivity|]. destruct (Z.eqb_spec d 10) as [->|]; [destruct (N r eq_refl)|exact IH].
    - destruct (Z.eqb_spec c 13); [contradiction|now rewrite IH]. }
  intros s t. split; [apply A|]. intros <-. remember (length s) as n eqn:En. assert (Hn : (length s <= n)%nat) by lia. clear En. revert s Hn.
  induction n as [|n IH]; intros s Hn.
  - destruct s; [constructor|cbn in Hn; lia].
  - destruct s as [|c s]; [constructor|]. cbn [newlines length] in *. destruct (Z.eqb_spec c 13) as [->|N].
    + destruct s as [|d r]; [apply un_cr; [discriminate|constructor]|]. destruct (Z.eqb_spec d 10) as [->|N].
      * apply un_crlf. apply IH. cbn in Hn. lia.
      * apply un_cr; [intros q E; congruence|]. apply IH. lia.
    + apply un_other; [exact N|]. apply IH. lia.
Qed.

(** ** Names *)
Lemma format_braceless arg s : braceless s -> forall r, py_format None arg (s ++ r) = (let* x := py_format None arg r in Ok (s ++ x)).
Proof.
  intros (A & B) r. induction s as [|c s IH];  [cbn [app]; destruct (py_format None arg r); reflexivity|].
  cbn [app py_format]. destruct (Z.eqb_spec c 123) as [->|]; [destruct A; left; reflexivity|]. destruct (Z.eqb_spec c 125) as [->|]; [destruct B; left; reflexivity|].
  rewrite IH by (intros H; solve [apply A; right; exact H|apply B; right; exact H]). destruct (py_format None arg r); reflexivity.
Qed.
Lemma format_inside arg name r : braceless name -> forall acc, py_format (Some acc) arg (name ++ 125 :: r) =
  (let* v := format_field arg (rev acc ++ name) in let* x := py_format None arg r in Ok (v ++ x)).
Proof.
  intros (A & B). induction name as [|c name IH]; intros acc.
  - cbn [app py_format]. rewrite app_nil_r. reflexivity.
  - cbn [app py_format]. destruct (Z.eqb_spec c 125) as [->|]; [destruct B; left; reflexivity|]. destruct (Z.eqb_spec c 123) as [->|]; [destruct A; left; reflexivity|].
    rewrite IH by (intros H; solve [apply A; right; exact H|apply B; right; exact H]). cbn [rev]. now rewrite <- app_assoc.
Qed.
Lemma format_field_at arg name r : braceless name -> py_format None arg (123 :: name ++ 125 :: r) =
  (let* v := format_field arg name in let* x := py_format None arg r in Ok (v ++ x)).
Proof.
  intros H. cbn [py_format]. change (123 =? 123) with true. cbn iota. destruct name as [|c name].
  - cbn [app]. change (125 =? 123) with false. cbn iota. apply (format_inside arg [] r); exact H.
  - cbn [app]. destruct (Z.eqb_spec c 123) as [->|]; [destruct H as (A & _); destruct A; left; reflexivity|]. apply (format_inside arg (c :: name) r H []).
Qed.
Lemma format_tail arg : py_format None arg (lit "pyulog.{migration_id}.sql") = Ok (lit "pyulog." ++ arg ++ lit ".sql").
Proof.
  change (lit "pyulog.{migration_id}.sql") with (lit "pyulog." ++ (123 :: lit "migration_id" ++ 125 :: lit ".sql")).
  assert (P : forall s, existsb (fun c => (c =? 123) || (c =? 125)) s = false -> braceless s).
  { intros s H. split; intros I; apply Bool.not_true_iff_false in H; apply H; apply existsb_exists; [exists 123|exists 125]; auto. }
  rewrite format_braceless by (apply P; reflexivity). rewrite format_field_at by (apply P; reflexivity). reflexivity.
Qed.
(** with scripts from [dir], the script [id] is looked for in [dir'] *)
Definition reads_in (dir dir' : str) (id : Z) : Prop := exists path, migration_filename dir id = Ok path /\ script_path dir' id path.
Lemma filename_braceless dir id : dir <> [] -> braceless dir -> reads_in dir dir id.
Proof.
  intros Hd Hb. unfold reads_in, migration_filename. destruct (join_path_spec dir (lit "pyulog.{migration_id}.sql") Hd) as [((d & E) & ->)|(N & ->)].
  - rewrite format_braceless by exact Hb. rewrite format_tail. cbn [bind]. eexists. split; [reflexivity|]. left. split; [exists d; exact E|reflexivity].
  - rewrite format_braceless by exact Hb. rewrite (format_braceless (str_of_Z id) [47]) by (split; intros [E|[]]; discriminate). rewrite format_tail. cbn [bind].
    eexists. split; [reflexivity|]. right. split; [exact N|reflexivity].
Qed.
Lemma str_of_Z_end id : 0 <= id -> exists l c, str_of_Z id = l ++ [c] /\ c <> 47.
Proof.
  intros H. destruct (exists_last (l := str_of_Z id)) as (l & c & E).
  - rewrite str_of_Z_nonneg by exact H. apply (str_of_nonneg_spec id H).
  - exists l, c. split; [exact E|]. intros ->. apply (dec_47 id). rewrite E. apply in_or_app. right. now left.
Qed.
Lemma braceless_id : braceless (lit "migration_id").
Proof. split; intros H; cbn in H; repeat destruct H as [H|H]; discriminate || exact H. Qed.
Lemma filename_field a name b id : braceless a -> braceless name -> name <> lit "migration_id" -> ~ Exists (fun c => In c [33; 46; 58; 91]) name ->
  migration_filename (a ++ 123 :: name ++ 125 :: b) id = Err (if forallb is_digit name then IndexError else KeyError).
Proof.
  intros Ha Hn Hm Hx. unfold migration_filename.
  assert (J : exists r, join_path (a ++ 123 :: name ++ 125 :: b) (lit "pyulog.{migration_id}.sql") = a ++ 123 :: name ++ 125 :: r).
  { assert (Hd : a ++ 123 :: name ++ 125 :: b <> []) by (destruct a; discriminate).
    destruct (join_path_spec (a ++ 123 :: name ++ 125 :: b) (lit "pyulog.{migration_id}.sql") Hd) as [(_ & ->)|(_ & ->)]; eexists; rewrite <- app_assoc; cbn [app]; rewrite <- app_assoc; reflexivity. }
  destruct J as (r & ->). rewrite format_braceless, format_field_at by assumption. unfold format_field at 1.
  destruct (str_eqb_spec name (lit "migration_id")) as [|_]; [contradiction|].
  replace (existsb (fun c => existsb (Z.eqb c) [33; 46; 58; 91]) name) with false.
  - destruct (forallb is_digit name); reflexivity.
  - symmetry. apply Bool.not_true_iff_false. intros Q. apply Hx. apply existsb_exists in Q. destruct Q as (c & I & Q). apply Exists_exists. exists c. split; [exact I|].
    apply existsb_exists in Q. destruct Q as (x & I' & Q). apply Z.eqb_eq in Q. now subst x.
Qed.
(** ** Any name of a directory *)
Lemma format_named id s t : named id s t -> forall r, py_format None (str_of_Z id) (s ++ r) = (let* x := py_format None (str_of_Z id) r in Ok (t ++ x)).
Proof.
  intros H r. induction H as [|c s t A B H IH|c s t A H IH|s t H IH].
  - cbn [app]. destruct (py_format None (str_of_Z id) r); reflexivity.
  - cbn [app py_format]. destruct (Z.eqb_spec c 123); [contradiction|]. destruct (Z.eqb_spec c 125); [contradiction|]. rewrite IH. destruct (py_format None (str_of_Z id) r); reflexivity.
  - destruct A as [-> | ->]; cbn [app py_format]; [change (123 =? 123) with true|change (125 =? 123) with false; change (125 =? 125) with true]; cbn iota; rewrite IH; destruct (py_format None (str_of_Z id) r); reflexivity.
  - rewrite <- app_assoc. change (lit "{migration_id}" ++ s ++ r) with (123 :: lit "migration_id" ++ 125 :: (s ++ r)). rewrite format_field_at by exact braceless_id.
    replace (format_field (str_of_Z id) (lit "migration_id")) with (Ok (str_of_Z id)) by reflexivity. cbn [bind]. rewrite IH. destruct (py_format None (str_of_Z id) r); [|reflexivity]. cbn [bind]. now rewrite <- app_assoc.
Qed.
Lemma last_cons {A} (x y : A) s d : s <> [] -> (x :: s = d ++ [y]) -> exists d', s = d' ++ [y].
Proof. intros Hs E. destruct d as [|z d]; [injection E as -> ->; congruence|]. exists d. exact (f_equal (@tl A) E). Qed.
Lemma named_nil id s t : named id s t -> 0 <= id -> (s = [] <-> t = []).
Proof.
  intros H Hi. destruct H; split; intros E; try discriminate; try reflexivity.
  destruct (str_of_Z_end id Hi) as (l & c & El & _). rewrite El in E. destruct l; discriminate.
Qed.
Lemma slash_app (a b : str) : b <> [] -> ((exists d, a ++ b = d ++ [47]) <-> exists d, b = d ++ [47]).
Proof.
  intros Hb. destruct (exists_last Hb) as (b' & x & ->). split; intros (d & E).
  - rewrite app_assoc in E. apply app_inj_tail in E. destruct E as (_ & ->). eauto.
  - apply app_inj_tail in E. destruct E as (_ & ->). exists (a ++ b'). now rewrite app_assoc.
Qed.
Lemma slash_one (a : str) c : (exists d, a ++ [c] = d ++ [47]) <-> c = 47.
Proof. split; [intros (d & E); apply app_inj_tail in E; tauto|intros ->; eauto]. Qed.
Lemma named_slash id s t : named id s t -> 0 <= id -> ((exists d, s = d ++ [47]) <-> exists d, t = d ++ [47]).
Proof.
  intros H Hi. induction H as [|c s t A B H IH|c s t A H IH|s t H IH]; [reflexivity|..]; pose proof (named_nil _ _ _ H Hi) as N; destruct (list_eq_dec Z.eq_dec s []) as [->|Hs].
  - rewrite (proj1 N eq_refl). reflexivity.
  - assert (Ht : t <> []) by tauto. rewrite (slash_app [c] s Hs), (slash_app [c] t Ht). exact IH.
  - rewrite (proj1 N eq_refl). rewrite (slash_one [c] c : (exists d, [c; c] = d ++ [47]) <-> _), (slash_one [] c : (exists d, [c] = d ++ [47]) <-> _). reflexivity.
  - assert (Ht : t <> []) by tauto. rewrite (slash_app [c; c] s Hs), (slash_app [c] t Ht). exact IH.
  - rewrite (proj1 N eq_refl), !app_nil_r. destruct (str_of_Z_end id Hi) as (l & c & E & Nc). rewrite E, (slash_one l c).
    split; [intros (d & Q)|intros; contradiction]. change (lit "{migration_id}") with (lit "{migration_id" ++ [125]) in Q. apply app_inj_tail in Q. destruct Q as (_ & Q). discriminate.
  - assert (Ht : t <> []) by tauto. rewrite (slash_app (lit "{migration_id}") s Hs), (slash_app (str_of_Z id) t Ht). exact IH.
Qed.
Lemma filename_named dir dir' id : dir <> [] -> named id dir dir' -> 0 <= id -> reads_in dir dir' id.
Proof.
  intros Hd Hn Hi. unfold reads_in, migration_filename. pose proof (named_slash _ _ _ Hn Hi) as W.
  destruct (join_path_spec dir (lit "pyulog.{migration_id}.sql") Hd) as [((d & E) & ->)|(N & ->)].
  - rewrite (format_named _ _ _ Hn), format_tail. cbn [bind]. eexists. split; [reflexivity|]. left. split; [apply W; exists d; exact E|reflexivity].
  - rewrite (format_named _ _ _ Hn). rewrite (format_braceless (str_of_Z id) [47]) by (split; intros [E|[]]; discriminate). rewrite format_tail. cbn [bind].
    eexists. split; [reflexivity|]. right. split; [|reflexivity]. intros d Q. destruct (proj2 W (ex_intro _ d Q)) as (d' & Q'). exact (N d' Q').
Qed.
Lemma format_open arg name r : braceless name -> ~ Exists (fun c => In c [33; 58; 91]) name -> forall acc, ~ Exists (fun c => In c [33; 58; 91]) acc ->
  py_format (Some acc) arg (name ++ 123 :: r) = Err ValueError.
Proof.
  intros (A & B) Hx. induction name as [|c name IH]; intros acc Ha.
  - cbn [app py_format]. change (123 =? 125) with false. change (123 =? 123) with true. cbn iota.
    replace (existsb (fun c => existsb (Z.eqb c) [33; 58; 91]) acc) with false; [reflexivity|].
    symmetry. apply Bool.not_true_iff_false. intros Q. apply Ha. apply existsb_exists in Q. destruct Q as (c & I & Q). apply Exists_exists. exists c. split; [exact I|].
    apply existsb_exists in Q. destruct Q as (x & I' & Q). apply Z.eqb_eq in Q. now subst x.
  - cbn [app py_format]. destruct (Z.eqb_spec c 125) as [->|]; [destruct B; left; reflexivity|]. destruct (Z.eqb_spec c 123) as [->|]; [destruct A; left; reflexivity|].
    apply IH; [intros H; apply A; right; exact H|intros H; apply B; right; exact H|intros H; apply Hx; now right|].
    intros H. apply Exists_cons in H. destruct H as [H|H]; [apply Hx; now left|exact (Ha H)].
Qed.
Lemma filename_stray a a' b id : named id a a' -> stray b -> migration_filename (a ++ b) id = Err ValueError.
Proof.
  intros Hn Hb. unfold migration_filename.
  assert (J : exists r, join_path (a ++ b) (lit "pyulog.{migration_id}.sql") = a ++ b ++ r /\ exists c r', r = c :: r' /\ c <> 125 /\ exists t, r = t ++ lit "{migration_id}.sql" /\ braceless t /\ ~ Exists (fun c => In c [33; 58; 91]) t /\ t <> []).
  { assert (Hd : a ++ b <> []) by (destruct Hb as [(x & -> & _)|(x & -> & _)]; destruct a; discriminate).
    assert (K : braceless (lit "pyulog.") /\ ~ Exists (fun c => In c [33; 58; 91]) (lit "pyulog.") /\ braceless (47 :: lit "pyulog.") /\ ~ Exists (fun c => In c [33; 58; 91]) (47 :: lit "pyulog.")).
    { assert (K1 : forall l, forallb (fun c => negb (existsb (Z.eqb c) [33; 58; 91; 123; 125])) l = true -> braceless l /\ ~ Exists (fun c => In c [33; 58; 91]) l).
      { intros l H. rewrite forallb_forall in H. split; [split; intros I; apply H in I; discriminate|]. intros E. apply Exists_exists in E. destruct E as (c & I & E). apply H in I. destruct E as [<-|[<-|[<-|[]]]]; discriminate. }
      destruct (K1 (lit "pyulog.") eq_refl), (K1 (47 :: lit "pyulog.") eq_refl). auto. }
    destruct K as (K1 & K2 & K3 & K4).
    destruct (join_path_spec (a ++ b) (lit "pyulog.{migration_id}.sql") Hd) as [(_ & ->)|(_ & ->)]; eexists; (split; [rewrite <- app_assoc; reflexivity|]).
    - exists 112, (lit "yulog.{migration_id}.sql"). split; [reflexivity|]. split; [discriminate|]. exists (lit "pyulog."). split; [reflexivity|]. repeat split; try apply K1; [exact K2|discriminate].
    - exists 47, (lit "pyulog.{migration_id}.sql"). split; [reflexivity|]. split; [discriminate|]. exists (47 :: lit "pyulog."). split; [reflexivity|]. repeat split; try apply K3; [exact K4|discriminate]. }
  destruct J as (r & -> & c & r' & Er & Hc & t & Et & Ht1 & Ht2 & Ht3). rewrite (format_named _ _ _ Hn).
  replace (py_format None (str_of_Z id) (b ++ r)) with (@Err str ValueError); [reflexivity|]. symmetry. destruct Hb as [(x & -> & Hx1 & Hx2)|(x & -> & Hx)].
  - rewrite Et. cbn [app py_format]. change (123 =? 123) with true. cbn iota. rewrite app_assoc.
    change (lit "{migration_id}.sql") with (123 :: lit "migration_id}.sql").
    assert (Hb : braceless (x ++ t)) by (destruct Hx1, Ht1; split; intros I; apply in_app_or in I; tauto).
    assert (He : ~ Exists (fun c => In c [33; 58; 91]) (x ++ t)) by (intros E; apply Exists_app in E; tauto).
    destruct (x ++ t) as [|y l] eqn:El.
    + apply app_eq_nil in El. destruct El as (_ & ->). congruence.
    + cbn [app]. destruct (Z.eqb_spec y 123) as [->|_]; [destruct Hb as (B & _); destruct B; left; reflexivity|].
      change (y :: l ++ 123 :: lit "migration_id}.sql") with ((y :: l) ++ 123 :: lit "migration_id}.sql"). apply format_open; [exact Hb|exact He|]. intros E. inversion E.
  - rewrite Er. cbn [app py_format]. change (125 =? 123) with false. change (125 =? 125) with true. cbn iota.
    destruct x as [|y x]; cbn [app]; [destruct (Z.eqb_spec c 125); [contradiction|reflexivity]|]. destruct (Z.eqb_spec y 125) as [->|]; [destruct (Hx 125 x eq_refl eq_refl)|reflexivity].
Qed.
Lemma within_fun dir base p q : within dir base p -> within dir base q -> p = q.
Proof. intros [((d & E) & ->)|(N & ->)] [((d' & E') & ->)|(N' & ->)]; try reflexivity; [destruct (N' d E)|destruct (N d' E')]. Qed.

(** ** One script *)
Lemma read_text_of k path t : text_of k path t -> read_text k path = Ok t.
Proof.
  intros (s & U & H). apply newlines_unified in U. unfold read_text, file_of in *. destruct H as [->|(b & -> & D)]; [now rewrite U|]. rewrite D. cbn [bind]. now rewrite U.
Qed.
Lemma script_none sql k dir dir' id : reads_in dir dir' id -> script_at sql k dir' id None -> read_migration_text k dir id = Err FileNotFoundError.
Proof.
  intros (q & E & Q) H. inversion H as [path P F D| |]; subst. rewrite (within_fun _ _ _ _ Q P) in E.
  unfold read_migration_text. rewrite E. cbn [bind]. unfold read_text. unfold file_of in F. rewrite F, D. reflexivity.
Qed.
Lemma script_text sql k dir dir' id l : reads_in dir dir' id -> script_at sql k dir' id (Some l) ->
  (l = [] /\ read_migration_text k dir id = Err ValueError) \/
  (exists path t b, l = SBegin :: b ++ [SCommit] /\ script_path dir' id path /\ text_of k path t /\ read_migration_text k dir id = Ok (path, with_version t id) /\ sql (with_version t id) = l ++ [SVersion id]).
Proof.
  intros (q & E & Q) H. inversion H as [|path t P T N|path t b P T N S]; subst; rewrite (within_fun _ _ _ _ Q P) in E.
  - left. split; [reflexivity|]. unfold read_migration_text. rewrite E. cbn [bind]. rewrite (read_text_of _ _ _ T). cbn [bind]. rewrite delimited_iff in N.
    destruct (starts_with _ _); [|reflexivity]. destruct (ends_with _ _); [tauto|reflexivity].
  - right. exists path, t, b. split; [reflexivity|]. split; [exact P|]. split; [exact T|]. split.
    + unfold read_migration_text. rewrite E. cbn [bind]. rewrite (read_text_of _ _ _ T). cbn [bind]. apply delimited_iff in N. destruct N as (-> & ->). reflexivity.
    + rewrite S. cbn [app]. rewrite <- app_assoc. reflexivity.
Qed.

(** ** The loop *)
Lemma loop_same sql k dir fd noop files : forall n id s, (forall i, id <= i < id + Z.of_nat n -> reads_in dir (fd i) i /\ script_at sql k (fd i) i (files i)) ->
  fst (scripts_loop sql k dir noop n id s) = fst (migrate_loop files noop n id s).
Proof.
  induction n as [|n IH]; intros id s H; [reflexivity|]. cbn [scripts_loop migrate_loop].
  assert (IH' : forall s', fst (scripts_loop sql k dir noop n (id + 1) s') = fst (migrate_loop files noop n (id + 1) s')) by (intros; apply IH; intros; apply H; lia).
  destruct (H id ltac:(lia)) as (Hr & Hi). unfold read_migration_file. destruct (files id) as [l|].
  - destruct (script_text _ _ _ _ _ _ Hr Hi) as [(-> & ->)|(path & t & b & El & _ & _ & E & S)]; [reflexivity|]. rewrite E. cbv beta iota.
    assert (Hs : starts_begin l = true) by (rewrite El; reflexivity).
    assert (He : ends_commit l = true) by (rewrite El; unfold ends_commit; cbn [rev]; rewrite rev_app_distr; reflexivity).
    rewrite Hs, He, S. cbn [negb]. destruct noop.
    + specialize (IH' s). destruct (scripts_loop sql k dir true n (id + 1) s) as [[s1 r1] l1]. destruct (migrate_loop files true n (id + 1) s) as [[s2 r2] l2]. exact IH'.
    + destruct (executescript (l ++ [SVersion id]) s) as [s' [[]|e]]; [|reflexivity].
      specialize (IH' s'). destruct (scripts_loop sql k dir false n (id + 1) s') as [[s1 r1] l1]. destruct (migrate_loop files false n (id + 1) s') as [[s2 r2] l2]. exact IH'.
  - rewrite (script_none _ _ _ _ _ Hr Hi). reflexivity.
Qed.

Lemma loop_noop sql k dir : dir <> [] -> braceless dir -> forall n id s l, scripts_from k dir (id + Z.of_nat n - 1) id l ->
  scripts_loop sql k dir true n id s = (s, Ok tt, flat_map (fun '(p, t) => [executing p; t]) l).
Proof.
  intros Hd Hb. induction n as [|n IH]; intros id s l H.
  - inversion H; [reflexivity|lia].
  - inversion H as [? L|? path t r L P T D R]; subst; [lia|]. cbn [scripts_loop]. destruct (filename_braceless dir id Hd Hb) as (q & E & Q). rewrite (within_fun _ _ _ _ Q P) in E.
    unfold read_migration_text. rewrite E. cbn [bind]. rewrite (read_text_of _ _ _ T). cbn [bind]. apply delimited_iff in D. destruct D as (-> & ->). cbn [negb].
    rewrite (IH (id + 1) s r) by (replace (id + 1 + Z.of_nat n - 1) with (id + Z.of_nat (S n) - 1) by lia; exact R). reflexivity.
Qed.
Lemma loop_run sql k dir : dir <> [] -> braceless dir -> forall n id s l, scripts_from k dir (id + Z.of_nat n - 1) id l ->
  let '(_, r, ls) := scripts_loop sql k dir false n id s in
  exists a b, l = a ++ b /\ ls = map (fun x => executing (fst x)) a /\ (r = Ok tt -> b = []).
Proof.
  intros Hd Hb. induction n as [|n IH]; intros id s l H.
  - inversion H; [exists [], []; auto|lia].
  - inversion H as [? L|? path t r L P T D R]; subst; [lia|]. cbn [scripts_loop]. destruct (filename_braceless dir id Hd Hb) as (q & E & Q). rewrite (within_fun _ _ _ _ Q P) in E.
    unfold read_migration_text. rewrite E. cbn [bind]. rewrite (read_text_of _ _ _ T). cbn [bind]. apply delimited_iff in D. destruct D as (-> & ->). cbn [negb].
    destruct (executescript _ s) as [s' [[]|e]].
    + specialize (IH (id + 1) s' r). replace (id + 1 + Z.of_nat n - 1) with (id + Z.of_nat (S n) - 1) in IH by lia. specialize (IH R).
      destruct (scripts_loop sql k dir false n (id + 1) s') as [[s2 r2] l2]. destruct IH as (a & b & -> & -> & F). exists ((path, with_version t id) :: a), b. auto.
    + exists [(path, with_version t id)], r. repeat split. discriminate.
Qed.
Lemma isdir_nonempty k d : isdir k d = true -> d <> [].
Proof. intros H ->. discriminate. Qed.
Lemma script_dir_is md sd dir : script_dir md sd dir -> match sd with Some d => d | None => join_path md (lit "sql") end = dir.
Proof. destruct sd as [d|]; cbn [script_dir]; [now intros ->|]. intros (N & W). apply (within_fun _ _ _ _ (join_path_spec md (lit "sql") N) W). Qed.
