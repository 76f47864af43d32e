(** Lemmas for C32 and C36: what a second load adds, and the key left by a failed save. *)
From Verif Require Import Base Dict PyStr PyFloat PySort Struct ModelTypes Sql Schema5 ModelDb SpecDb SpecHist.
From Verif Require Import ProofsDb ProofsDel ProofsSave ProofsHist ProofsCache.

(** ** Lists grouped by a key *)
Lemma add_tagged_get t l : forall a, zget t (fold_left add_tagged l a) =
  match filter (fun m => tg_tag m =? t) l with
  | [] => zget t a
  | lt => Some (match zget t a with Some m => m | None => [] end ++ lt)
  end.
Proof.
  induction l as [|m l IH]; intros a; [reflexivity|]. cbn [fold_left filter]. rewrite IH. unfold add_tagged at 1 2.
  destruct (Z.eqb_spec (tg_tag m) t) as [->|Ne].
  - rewrite (dget_dset_eq Z.eqb Zeqb_spec). destruct (filter _ l); [reflexivity|]. now rewrite <- app_assoc.
  - rewrite (dget_dset_neq Z.eqb Zeqb_spec) by congruence. reflexivity.
Qed.
Lemma add_tagged_keys l : forall a b, dkeys a = dkeys b -> dkeys (fold_left add_tagged l a) = dkeys (put_all Z.eqb tg_tag (fun _ => tt) l b).
Proof.
  induction l as [|m l IH]; intros a b E; [exact E|]. cbn. apply IH. unfold add_tagged. rewrite !(dkeys_dset Z.eqb Zeqb_spec).
  assert (M : dmem Z.eqb (tg_tag m) a = dmem Z.eqb (tg_tag m) b); [|rewrite M, E; reflexivity]. unfold dmem.
  destruct (zget (tg_tag m) a) eqn:Ga; destruct (zget (tg_tag m) b) eqn:Gb; auto.
  - apply (dget_None Z.eqb Zeqb_spec) in Gb. rewrite <- E in Gb. apply (dget_In Z.eqb Zeqb_spec) in Ga. apply (in_map fst) in Ga. contradiction.
  - apply (dget_None Z.eqb Zeqb_spec) in Ga. rewrite E in Ga. apply (dget_In Z.eqb Zeqb_spec) in Gb. apply (in_map fst) in Gb. contradiction.
Qed.
Definition shape {K V} (a : dict K V) : dict K unit := map (fun kv => (fst kv, tt)) a.
Lemma shape_keys {K V} (a : dict K V) : dkeys a = dkeys (shape a).
Proof. unfold dkeys, shape. now rewrite map_map. Qed.
Lemma dget_map {K V W} (eqb : K -> K -> bool) (f : V -> W) (k : K) (a : dict K V) :
  dget eqb k (map (fun kv => (fst kv, f (snd kv))) a) = match dget eqb k a with Some v => Some (f v) | None => None end.
Proof. induction a as [|[j v] a IH]; [reflexivity|]. cbn. destruct (eqb k j); [reflexivity|exact IH]. Qed.
Lemma add_tagged_twice l : fold_left add_tagged l (fold_left add_tagged l []) = map (fun tl => (fst tl, snd tl ++ snd tl)) (fold_left add_tagged l []).
Proof.
  set (D := fold_left add_tagged l []).
  assert (K0 : dkeys D = dkeys (put_all Z.eqb tg_tag (fun _ => tt) l [])) by (apply add_tagged_keys; reflexivity).
  assert (E : dkeys (fold_left add_tagged l D) = dkeys D).
  { rewrite (add_tagged_keys l D (put_all Z.eqb tg_tag (fun _ => tt) l []) K0), K0. apply (put_all_keys Z.eqb Zeqb_spec). intros x Hx. now apply (put_all_has Z.eqb Zeqb_spec). }
  apply (dict_ext Z.eqb Zeqb_spec).
  - rewrite E. unfold dkeys. rewrite map_map. reflexivity.
  - rewrite E, K0. apply (put_all_NoDup Z.eqb Zeqb_spec). constructor.
  - intros t. rewrite (dget_map Z.eqb (fun l => l ++ l)). rewrite add_tagged_get. subst D. rewrite add_tagged_get. destruct (filter _ l); reflexivity.
Qed.
Lemma tagged_full l t x : In (t, x) (fold_left add_tagged l []) -> x <> [].
Proof.
  intros H. assert (Nd : NoDup (dkeys (fold_left add_tagged l []))).
  { rewrite (add_tagged_keys l [] [] eq_refl). apply (put_all_NoDup Z.eqb Zeqb_spec). constructor. }
  apply (In_dget Z.eqb Zeqb_spec) in H; [|exact Nd]. rewrite add_tagged_get in H. destruct (filter _ l); [discriminate|]. injection H as <-. discriminate.
Qed.

(** the format of a name with the fields [fs] after those of [old] *)
Definition more_fields (n : str) (old : option mformat) (fs : list (str * Z * str)) : option mformat :=
  match fs, old with
  | [], _ => old
  | _, Some m => Some (mkFmt (mf_name m) (mf_fields m ++ fs))
  | _, None => Some (mkFmt n fs)
  end.
Lemma add_field_get (n : str) l : forall a, sget n (fold_left add_field l a) = more_fields n (sget n a) (map snd (filter (fun nf : str * (str * Z * str) => str_eqb (fst nf) n) l)).
Proof.
  induction l as [|nf l IH]; intros a; [reflexivity|]. cbn [fold_left filter]. rewrite IH. unfold add_field at 1.
  destruct (str_eqb (fst nf) n) eqn:Q; destruct (str_eqb_spec (fst nf) n) as [Eq|Ne]; try discriminate Q; clear Q.
  - rewrite Eq. generalize (filter (fun nf0 : str * (str * Z * str) => str_eqb (fst nf0) n) l). intros fl. destruct (sget n a) as [m|]; rewrite (dget_dset_eq str_eqb str_eqb_spec); destruct fl; cbn; rewrite <- ?app_assoc, ?app_nil_r; reflexivity.
  - destruct (sget (fst nf) a); rewrite (dget_dset_neq str_eqb str_eqb_spec) by congruence; reflexivity.
Qed.
Lemma add_field_keys l : forall (a : dict str mformat) (b : dict str unit), dkeys a = dkeys b -> dkeys (fold_left add_field l a) = dkeys (@put_all str unit str_eqb (str * (str * Z * str)) fst (fun _ => tt) l b).
Proof.
  induction l as [|m l IH]; intros a b E; [exact E|]. cbn. apply IH.
  assert (M : dmem str_eqb (fst m) a = dmem str_eqb (fst m) b).
  { unfold dmem. destruct (sget (fst m) a) eqn:Ga; destruct (sget (fst m) b) eqn:Gb; auto.
    - apply (dget_None str_eqb str_eqb_spec) in Gb. change (~ In (fst m) (@dkeys str unit b)) in Gb. rewrite <- E in Gb. apply (dget_In str_eqb str_eqb_spec) in Ga. apply (in_map fst) in Ga. contradiction.
    - apply (dget_None str_eqb str_eqb_spec) in Ga. change (~ In (fst m) (@dkeys str mformat a)) in Ga. rewrite E in Ga. apply (dget_In str_eqb str_eqb_spec) in Gb. apply (in_map fst) in Gb. contradiction. }
  unfold add_field. destruct (sget (fst m) a); rewrite !(dkeys_dset str_eqb str_eqb_spec); (destruct (dmem str_eqb (fst m) a); destruct (dmem str_eqb (fst m) b); try discriminate M; [exact E|exact (f_equal (fun x => x ++ [fst m]) E)]).
Qed.
Definition twice_format (m : mformat) : mformat := mkFmt (mf_name m) (mf_fields m ++ mf_fields m).
Lemma add_field_twice l : fold_left add_field l (fold_left add_field l []) = map (fun nm => (fst nm, twice_format (snd nm))) (fold_left add_field l []).
Proof.
  set (D := fold_left add_field l []).
  assert (K0 : dkeys D = dkeys (@put_all str unit str_eqb (str * (str * Z * str)) fst (fun _ => tt) l [])) by (apply add_field_keys; reflexivity).
  assert (E : dkeys (fold_left add_field l D) = dkeys D).
  { rewrite (add_field_keys l D _ K0), K0. apply (put_all_keys str_eqb str_eqb_spec). intros x Hx. now apply (put_all_has str_eqb str_eqb_spec). }
  apply (dict_ext str_eqb str_eqb_spec).
  - refine (eq_trans E _). unfold dkeys. rewrite map_map. reflexivity.
  - refine (eq_ind_r (@NoDup str) _ (eq_trans E K0)). apply (put_all_NoDup str_eqb str_eqb_spec). constructor.
  - intros t. rewrite (dget_map str_eqb twice_format). rewrite add_field_get. subst D. rewrite add_field_get. destruct (map snd _); reflexivity.
Qed.
Lemma formats_full l n m : In (n, m) (fold_left add_field l []) -> mf_fields m <> [].
Proof.
  intros H. assert (Nd : NoDup (dkeys (fold_left add_field l []))).
  { refine (eq_ind_r (@NoDup str) _ (add_field_keys l [] [] eq_refl)). apply (put_all_NoDup str_eqb str_eqb_spec). constructor. }
  apply (In_dget str_eqb str_eqb_spec) in H; [|exact Nd]. rewrite add_field_get in H. destruct (map snd _); [discriminate|]. injection H as <-. discriminate.
Qed.

(** ** A second load *)
Lemma load_again_grouped d o1 r1 r lazy1 lazy : o_log o1 = ulog0 -> load d o1 lazy1 = Ok r1 -> load d r1 lazy = Ok r ->
  let a := o_log r1 in let b := o_log r in
  o_lazy r1 = lazy1 /\ o_lazy r = lazy /\
  u_corrupt b = u_corrupt a /\ u_subs b = u_subs a /\ u_filtered b = u_filtered a /\ u_missing b = u_missing a /\
  u_tagged b = map (fun tl => (fst tl, snd tl ++ snd tl)) (u_tagged a) /\ Forall (fun tl => snd tl <> []) (u_tagged a) /\
  u_formats b = map (fun nm => (fst nm, twice_format (snd nm))) (u_formats a) /\ Forall (fun nm => mf_fields (snd nm) <> []) (u_formats a).
Proof.
  intros U E1 E2. pose proof (load_pk _ _ _ _ E1) as P.
  unfold load in E1, E2. rewrite P in E2. rewrite U in E1. destruct (o_pk o1) as [pk|]; [|discriminate].
  destruct (exists_in_db d pk) as [e|]; [|discriminate]. cbn [bind] in *. destruct e; [|discriminate]. cbn [negb] in *.
  destruct (sql_select d (lit "ULog") _ _) as [top|]; [|discriminate]. cbn [bind] in *.
  destruct top as [|[|v [|st [|la [|co [|ic [|sc [|hs [|sh [|? ?]]]]]]]]] ?]; try discriminate.
  destruct (as_int v); [cbn [bind] in *|discriminate]. destruct (as_int st); [cbn [bind] in *|discriminate]. destruct (as_int la); [cbn [bind] in *|discriminate].
  destruct (as_text co); [cbn [bind] in *|discriminate]. destruct (as_text ic); [cbn [bind] in *|discriminate]. destruct (as_int sc); [cbn [bind] in *|discriminate].
  destruct (as_int hs); [cbn [bind] in *|discriminate]. destruct (as_text sh); [cbn [bind] in *|discriminate].
  repeat (match type of E1 with bind ?x _ = _ => destruct x as [?|]; [cbn [bind] in E1, E2|discriminate E1] end;
    match type of E2 with bind (mapM _ (ssort _ _)) _ = _ => match type of E2 with bind ?x _ = _ => destruct x as [?|]; [cbn [bind] in E2|discriminate E2] end | _ => idtac end).
  apply (f_equal (fun r => match r with Ok x => x | Err _ => o1 end)) in E1, E2. cbv beta iota in E1, E2. subst r r1.
  cbn [o_log o_lazy u_corrupt u_subs u_filtered u_missing u_tagged u_formats ulog0].
  repeat match goal with |- _ /\ _ => split end; auto.
  - apply add_tagged_twice.
  - apply Forall_forall. intros [t x] Hx. exact (tagged_full _ _ _ Hx).
  - apply add_field_twice.
  - apply Forall_forall. intros [t x] Hx. exact (formats_full _ _ _ Hx).
Qed.

Lemma double_nil {A} (l : list A) : l = l ++ l -> l = [].
Proof. intros E. apply (f_equal (@length A)) in E. rewrite app_length in E. destruct l; [reflexivity|cbn in E; lia]. Qed.

(** ** Any number of loads *)
Definition times {A} (n : nat) (l : list A) : list A := concat (repeat l n).
Arguments times : simpl never.
Lemma times_S {A} n (l : list A) : times (S n) l = times n l ++ l.
Proof. unfold times. induction n as [|n IH]; [cbn; now rewrite app_nil_r|]. cbn [repeat concat] in *. rewrite IH at 1. now rewrite app_assoc. Qed.
Lemma times_1 {A} (l : list A) : times 1 l = l.
Proof. unfold times. cbn. apply app_nil_r. Qed.
Definition times_format (n : nat) (m : mformat) : mformat := mkFmt (mf_name m) (times n (mf_fields m)).
Lemma add_tagged_times n l : fold_left add_tagged l (map (fun tl => (fst tl, times (S n) (snd tl))) (fold_left add_tagged l [])) =
  map (fun tl => (fst tl, times (S (S n)) (snd tl))) (fold_left add_tagged l []).
Proof.
  set (D := fold_left add_tagged l []). set (X := map _ D).
  assert (KX : dkeys X = dkeys D) by (unfold X, dkeys; rewrite map_map; reflexivity).
  assert (K0 : dkeys D = dkeys (put_all Z.eqb tg_tag (fun _ => tt) l [])) by (apply add_tagged_keys; reflexivity).
  assert (E : dkeys (fold_left add_tagged l X) = dkeys D).
  { rewrite (add_tagged_keys l X (put_all Z.eqb tg_tag (fun _ => tt) l []) (eq_trans KX K0)), K0. apply (put_all_keys Z.eqb Zeqb_spec). intros x Hx. now apply (put_all_has Z.eqb Zeqb_spec). }
  apply (dict_ext Z.eqb Zeqb_spec).
  - rewrite E. unfold dkeys. rewrite map_map. reflexivity.
  - rewrite E, K0. apply (put_all_NoDup Z.eqb Zeqb_spec). constructor.
  - intros t. rewrite (dget_map Z.eqb (times (S (S n)))). rewrite add_tagged_get. unfold X. rewrite (dget_map Z.eqb (times (S n))). subst D.
    rewrite add_tagged_get. destruct (filter _ l); [reflexivity|]. cbn [app dget]. now rewrite (times_S (S n)).
Qed.
Lemma add_field_times n l : fold_left add_field l (map (fun nm => (fst nm, times_format (S n) (snd nm))) (fold_left add_field l [])) =
  map (fun nm => (fst nm, times_format (S (S n)) (snd nm))) (fold_left add_field l []).
Proof.
  set (D := fold_left add_field l []). set (X := map _ D).
  assert (KX : dkeys X = dkeys D) by (unfold X, dkeys; rewrite map_map; reflexivity).
  assert (K0 : dkeys D = dkeys (@put_all str unit str_eqb (str * (str * Z * str)) fst (fun _ => tt) l [])) by (apply add_field_keys; reflexivity).
  assert (E : dkeys (fold_left add_field l X) = dkeys D).
  { rewrite (add_field_keys l X _ (eq_trans KX K0)), K0. apply (put_all_keys str_eqb str_eqb_spec). intros x Hx. now apply (put_all_has str_eqb str_eqb_spec). }
  apply (dict_ext str_eqb str_eqb_spec).
  - refine (eq_trans E _). unfold dkeys. rewrite map_map. reflexivity.
  - refine (eq_ind_r (@NoDup str) _ (eq_trans E K0)). apply (put_all_NoDup str_eqb str_eqb_spec). constructor.
  - intros t. rewrite (dget_map str_eqb (times_format (S (S n)))). rewrite add_field_get. unfold X. rewrite (dget_map str_eqb (times_format (S n))). subst D.
    rewrite add_field_get. unfold times_format. destruct (map snd _); cbn [more_fields mf_name mf_fields sget]; [reflexivity|]. now rewrite (times_S (S n)).
Qed.
(** the object after [n] loads beside the one after the first *)
Definition loads (n : nat) (a b : dbulog) : Prop :=
  o_pk b = o_pk a /\ o_sha b = o_sha a /\
  u_corrupt (o_log b) = u_corrupt (o_log a) /\ u_start (o_log b) = u_start (o_log a) /\ u_last (o_log b) = u_last (o_log a) /\
  u_info (o_log b) = u_info (o_log a) /\ u_infot (o_log b) = u_infot (o_log a) /\ u_multi (o_log b) = u_multi (o_log a) /\ u_multit (o_log b) = u_multit (o_log a) /\
  u_params (o_log b) = u_params (o_log a) /\ u_defaults (o_log b) = u_defaults (o_log a) /\
  u_version (o_log b) = u_version (o_log a) /\ u_compat (o_log b) = u_compat (o_log a) /\ u_incompat (o_log b) = u_incompat (o_log a) /\
  u_has_sync (o_log b) = u_has_sync (o_log a) /\ u_sync_cnt (o_log b) = u_sync_cnt (o_log a) /\
  u_subs (o_log b) = u_subs (o_log a) /\ u_filtered (o_log b) = u_filtered (o_log a) /\ u_missing (o_log b) = u_missing (o_log a) /\
  u_changed (o_log b) = times n (u_changed (o_log a)) /\ u_logged (o_log b) = times n (u_logged (o_log a)) /\
  u_dropouts (o_log b) = times n (u_dropouts (o_log a)) /\ u_offsets (o_log b) = times n (u_offsets (o_log a)) /\
  u_tagged (o_log b) = map (fun tl => (fst tl, times n (snd tl))) (u_tagged (o_log a)) /\
  u_formats (o_log b) = map (fun nm => (fst nm, times_format n (snd nm))) (u_formats (o_log a)).
Lemma loads_1 a : loads 1 a a.
Proof.
  unfold loads. rewrite !times_1. repeat split.
  - rewrite <- (map_id (u_tagged (o_log a))) at 1. apply map_ext. intros [t l]. cbn [fst snd]. now rewrite times_1.
  - rewrite <- (map_id (u_formats (o_log a))) at 1. apply map_ext. intros [t [nm l]]. unfold times_format. cbn [fst snd mf_name mf_fields]. now rewrite times_1.
Qed.
Lemma loads_step d o1 r1 om r lazy1 lazy n : o_log o1 = ulog0 -> load d o1 lazy1 = Ok r1 -> loads (S n) r1 om -> load d om lazy = Ok r ->
  loads (S (S n)) r1 r /\ (lazy = lazy1 -> u_data (o_log r) = u_data (o_log r1)) /\ o_lazy r = lazy.
Proof.
  intros U E1 L E2. pose proof (load_pk _ _ _ _ E1) as P. destruct L as (L1 & L2 & L3 & L4 & L5 & L6 & L7 & L8 & L9 & L10 & L11 & L12 & L13 & L14 & L15 & L16 & L17 & L18 & L19 & L20 & L21 & L22 & L23 & L24 & L25).
  unfold load in E1, E2. rewrite L1, P in E2. rewrite U in E1. destruct (o_pk o1) as [pk|]; [|discriminate].
  destruct (exists_in_db d pk) as [e|]; [|discriminate]. cbn [bind] in *. destruct e; [|discriminate]. cbn [negb] in *.
  destruct (sql_select d (lit "ULog") _ _) as [top|]; [|discriminate]. cbn [bind] in *.
  destruct top as [|[|v [|st [|la [|co [|ic [|sc [|hs [|sh [|? ?]]]]]]]]] ?]; try discriminate.
  destruct (as_int v); [cbn [bind] in *|discriminate]. destruct (as_int st); [cbn [bind] in *|discriminate]. destruct (as_int la); [cbn [bind] in *|discriminate].
  destruct (as_text co); [cbn [bind] in *|discriminate]. destruct (as_text ic); [cbn [bind] in *|discriminate]. destruct (as_int sc); [cbn [bind] in *|discriminate].
  destruct (as_int hs); [cbn [bind] in *|discriminate]. destruct (as_text sh); [cbn [bind] in *|discriminate].
  destruct (bool_dec lazy1 lazy) as [->|Nl].
  - repeat (match type of E1 with bind ?x _ = _ => destruct x as [?|]; [cbn [bind] in E1, E2|discriminate E1] end).
    apply (f_equal (fun r => match r with Ok x => x | Err _ => o1 end)) in E1, E2. cbv beta iota in E1, E2. subst r r1.
    unfold loads. cbn in *. rewrite ?L3, ?L4, ?L5, ?L6, ?L7, ?L8, ?L9, ?L10, ?L11, ?L17, ?L18, ?L19, ?L20, ?L21, ?L22, ?L23, ?L24, ?L25.
    repeat match goal with |- _ /\ _ => split end; auto using add_defaults_twice, add_tagged_times, add_field_times;
      first [rewrite (times_S (S n)); reflexivity|apply (put_all_twice str_eqb str_eqb_spec); constructor].
  - repeat (match type of E1 with bind ?x _ = _ => destruct x as [?|]; [cbn [bind] in E1, E2|discriminate E1] end;
      match type of E2 with bind (mapM _ (ssort _ _)) _ = _ => match type of E2 with bind ?x _ = _ => destruct x as [?|]; [cbn [bind] in E2|discriminate E2] end | _ => idtac end).
    apply (f_equal (fun r => match r with Ok x => x | Err _ => o1 end)) in E1, E2. cbv beta iota in E1, E2. subst r r1.
    unfold loads. cbn in *. rewrite ?L3, ?L4, ?L5, ?L6, ?L7, ?L8, ?L9, ?L10, ?L11, ?L17, ?L18, ?L19, ?L20, ?L21, ?L22, ?L23, ?L24, ?L25.
    repeat match goal with |- _ /\ _ => split end; auto using add_defaults_twice, add_tagged_times, add_field_times;
      first [rewrite (times_S (S n)); reflexivity|apply (put_all_twice str_eqb str_eqb_spec); constructor|intros X; symmetry in X; contradiction].
Qed.

Lemma load_succeeds d o1 om r lazy : load d o1 lazy = Ok r -> o_pk om = o_pk o1 -> exists r', load d om lazy = Ok r'.
Proof.
  intros E1 P. unfold load in *. rewrite P. destruct (o_pk o1) as [pk|]; [|discriminate].
  destruct (exists_in_db d pk) as [e|]; [|discriminate]. cbn [bind] in *. destruct e; [|discriminate]. cbn [negb] in *.
  destruct (sql_select d (lit "ULog") _ _) as [top|]; [|discriminate]. cbn [bind] in *.
  destruct top as [|[|v [|st [|la [|co [|ic [|sc [|hs [|sh [|? ?]]]]]]]]] ?]; try discriminate.
  destruct (as_int v); [cbn [bind] in *|discriminate]. destruct (as_int st); [cbn [bind] in *|discriminate]. destruct (as_int la); [cbn [bind] in *|discriminate].
  destruct (as_text co); [cbn [bind] in *|discriminate]. destruct (as_text ic); [cbn [bind] in *|discriminate]. destruct (as_int sc); [cbn [bind] in *|discriminate].
  destruct (as_int hs); [cbn [bind] in *|discriminate]. destruct (as_text sh); [cbn [bind] in *|discriminate].
  repeat (match type of E1 with bind ?x _ = _ => destruct x as [?|]; [cbn [bind] in E1; cbn [bind]|discriminate E1] end). eauto.
Qed.
