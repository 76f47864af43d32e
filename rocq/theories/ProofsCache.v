(** Hashing, caching, loading again. *)
From Coq Require Import Sorted.
From Verif Require Import Base Dict PyStr PyFloat PySort Struct ModelTypes ModelApi Sql Schema5 ModelDb SpecDb SpecHist
  ProofsDb ProofsDel ProofsFrame ProofsSave ProofsStore ProofsReload ProofsFwd SpecApi ProofsEq ProofsHist.

(** ** The log that comes back equals the log that was saved *)
Lemma same_dict_map {K V} (eqb : K -> K -> bool) (R : V -> V -> Prop) (g : V -> V) (d : dict K V) :
  Forall (fun kv => R (snd kv) (g (snd kv))) d -> same_dict eqb R d (map (fun kv => (fst kv, g (snd kv))) d).
Proof.
  intros H k. induction H as [|[k' v] d H1 H IH]; [exact I|]. cbn [map fst snd] in *. unfold dget in *. cbn in *. destruct (eqb k k'); [exact H1|exact IH].
Qed.
Lemma stored_value_same v : not_nan v -> same_value v (stored_value v).
Proof. intros H. destruct v; cbn [stored_value]; try (now apply same_value_refl). apply (sv_num _ _ (Fin ((if b then 1 else 0) * 2 ^ 1074))); reflexivity. Qed.
Lemma fits_not_nan v : fits_value v -> not_nan v.
Proof. destruct v; cbn; auto. Qed.
Lemma text_not_nan v : fits_text v -> not_nan v.
Proof. destruct v; cbn; auto; intros []. Qed.
Lemma fits_wf u : fits_db u -> u_subs u = [] -> NoDup (u_filtered u) -> NoDup (u_missing u) -> wf_log u.
Proof.
  intros [] Hs Hf Hm. destruct ft_info as (I1 & I2 & _). destruct ft_multi as (M1 & M2 & _). destruct ft_defaults as (D1 & D2).
  split; unfold dkeys; auto; try tauto.
  - now rewrite <- I1.
  - now rewrite <- M1.
  - eapply Forall_impl; [|exact D2]. cbv beta. tauto.
  - rewrite Hs. constructor.
  - eapply Forall_impl; [|exact ft_data]. cbv beta. intros ds []. rewrite fd_cols. auto.
Qed.
Lemma stored_wf u : wf_log u -> wf_log (stored u).
Proof.
  intros []. split; cbn [stored u_info u_infot u_multi u_multit u_params u_defaults u_formats u_tagged u_filtered u_missing u_subs u_data]; auto; try constructor;
    unfold stored_dict, dkeys in *; rewrite ?map_map; cbn [fst]; auto.
  apply Forall_map. eapply Forall_impl; [|exact wf_defaults']. cbv beta. intros [k m] H. cbn [snd] in *. rewrite map_map. exact H.
Qed.
Lemma stored_same u : fits_db u -> u_corrupt u = false -> u_filtered u = [] -> u_missing u = [] -> same_log u (stored u).
Proof.
  intros [] Hc Hf Hm. decompose [and] ft_info. decompose [and] ft_multi. decompose [and] ft_params. decompose [and] ft_defaults.
  constructor; cbn [stored u_corrupt u_start u_last u_info u_infot u_multi u_multit u_params u_defaults u_changed u_formats u_logged u_tagged u_dropouts u_data u_filtered u_missing u_version u_compat u_incompat u_offsets u_has_sync u_sync_cnt];
    auto; rewrite ?Hf, ?Hm; try (intros x; tauto);
    try (apply (same_dict_refl str_eqb eq str_eqb_spec), Forall_forall; auto; fail);
    try (apply (same_dict_refl Z.eqb eq Zeqb_spec), Forall_forall; auto; fail).
  - apply same_dict_map. eapply Forall_impl; [|eassumption]. cbv beta. intros kv [_ H']. now apply stored_value_same, fits_not_nan.
  - apply (same_dict_refl str_eqb _ str_eqb_spec). eapply Forall_impl; [|eassumption]. cbv beta. intros kv (_ & _ & H').
    apply Forall2_refl. eapply Forall_impl; [|exact H']. cbv beta. intros l [_ Hl]. apply Forall2_refl. eapply Forall_impl; [|exact Hl]. intros. now apply same_value_refl, text_not_nan.
  - apply same_dict_map. eapply Forall_impl; [|eassumption]. cbv beta. intros kv [_ H']. now apply stored_value_same, fits_not_nan.
  - apply same_dict_map. eapply Forall_impl; [|eassumption]. cbv beta. intros td (_ & _ & _ & H').
    apply same_dict_map. eapply Forall_impl; [|exact H']. cbv beta. intros kv [_ Hv]. now apply stored_value_same, fits_not_nan.
  - clear -ft_changed. induction ft_changed as [|c l (_ & _ & Hv) F IH]; cbn [map]; constructor; auto. cbn [fst snd]. split; auto. now apply stored_value_same, fits_not_nan.
  - apply Forall2_refl, Forall_forall. intros. apply same_dataset_refl.
Qed.
Lemma stored_eq u : fits_db u -> u_corrupt u = false -> u_subs u = [] -> u_filtered u = [] -> u_missing u = [] -> ulog_eqb u (stored u) = true.
Proof.
  intros Ft Hc Hs Hf Hm. apply ulog_eqb_same; auto; [|apply stored_wf|apply stored_same; auto]; apply fits_wf; auto; rewrite ?Hf, ?Hm; constructor.
Qed.

(** ** The hash of a file *)
Lemma hash_all fuel H : forall seen rest s, hash_blocks fuel H seen rest = Some s -> s = H (seen ++ rest).
Proof.
  induction fuel as [|n IH]; intros seen rest s E; [discriminate|]. cbn [hash_blocks] in E. destruct (str_eqb_spec (takeZ 4096 rest) []) as [Z0|N].
  - injection E as <-. f_equal. destruct rest; [now rewrite Z0|discriminate Z0].
  - apply IH in E. rewrite E, <- app_assoc. now rewrite takeZ_dropZ_app.
Qed.
Lemma hash_ends H : forall n rest seen fuel, lenZ rest <= Z.of_nat n -> (n < fuel)%nat -> exists s, hash_blocks fuel H seen rest = Some s.
Proof.
  induction n as [|n IH]; intros rest seen fuel L F; (destruct fuel as [|fuel]; [lia|]); cbn [hash_blocks].
  - rewrite (lenZ_0_nil rest) by (pose proof (lenZ_nonneg rest); lia). eexists. reflexivity.
  - destruct (str_eqb_spec (takeZ 4096 rest) []) as [|Ne]; [eauto|]. apply IH; [|lia]. rewrite lenZ_dropZ by lia.
    destruct rest; [now elim Ne|]. rewrite lenZ_cons in *. pose proof (lenZ_nonneg rest). lia.
Qed.

(** ** get_dataset *)
Lemma NoDup_map_inj {A B} (f : A -> B) l x y : NoDup (map f l) -> In x l -> In y l -> f x = f y -> x = y.
Proof.
  induction l as [|z l IH]; intros Nd Hx Hy E; [destruct Hx|]. cbn [map] in Nd. inversion Nd as [|? ? N1 N2]; subst.
  destruct Hx as [->|Hx], Hy as [->|Hy]; auto; exfalso; apply N1; [rewrite E|rewrite <- E]; now apply in_map.
Qed.
Lemma find_first {A} (p : A -> bool) l x : In x l -> p x = true -> (forall y, In y l -> p y = true -> y = x) -> find p l = Some x.
Proof.
  induction l as [|y l IH]; intros Hi Hp U; [destruct Hi|]. cbn [find]. destruct (p y) eqn:Py.
  - rewrite (U y) by (auto; now left). reflexivity.
  - destruct Hi as [->|Hi]; [congruence|]. apply IH; auto. intros; apply U; auto. now right.
Qed.
Lemma is_dataset_true name multi ds : is_dataset name multi ds = true <-> ds_name ds = name /\ ds_multi ds = multi.
Proof.
  unfold is_dataset. rewrite andb_true_iff, Z.eqb_eq. destruct (str_eqb_spec (ds_name ds) name); intuition congruence.
Qed.
Definition cached (l0 l : list dataset) : Prop := Forall2 (fun ds x => x = ds \/ x = shell ds) l0 l.
Lemma cached_key ds x name multi : x = ds \/ x = shell ds -> is_dataset name multi x = is_dataset name multi ds.
Proof. intros [->| ->]; reflexivity. Qed.
Lemma cached_find name multi l0 l : cached l0 l ->
  (find (is_dataset name multi) l0 = None /\ find (is_dataset name multi) l = None) \/
  exists ds x, find (is_dataset name multi) l0 = Some ds /\ find (is_dataset name multi) l = Some x /\ (x = ds \/ x = shell ds).
Proof.
  induction 1 as [|ds x l0 l H C IH]; cbn [find]; auto. rewrite (cached_key _ _ name multi H). destruct (is_dataset name multi ds); [|exact IH].
  right. exists ds, x. auto.
Qed.
Lemma cached_replace name multi l0 l ds y : cached l0 l -> find (is_dataset name multi) l0 = Some ds -> y = ds \/ y = shell ds ->
  cached l0 (replace_first (is_dataset name multi) y l).
Proof.
  induction 1 as [|ds0 x l0 l H C IH]; intros F Hy; [discriminate|]. cbn [find replace_first] in *. rewrite (cached_key _ _ name multi H).
  destruct (is_dataset name multi ds0).
  - injection F as ->. constructor; auto.
  - constructor; auto. now apply IH.
Qed.
Lemma cached_start u lazy : cached (u_data u) (u_data (loaded_as u lazy)).
Proof.
  unfold loaded_as. cbn. destruct lazy; [|apply Forall2_refl, Forall_forall; auto].
  induction (u_data u); cbn [map]; constructor; auto.
Qed.
Lemma kept_fetch d pk sha u name multi lazy : good d -> kept d pk sha u -> fits_db u ->
  fetch_dataset d (Some pk) name multi lazy =
  match find (is_dataset name multi) (u_data u) with Some ds => Ok (if lazy then shell ds else ds) | None => Err KeyError end.
Proof.
  intros G (d0 & d1 & d2 & r & N & G0 & X & -> & A) FT.
  rewrite <- (fetch_dataset_same d2 d _ (tx_good _ _ _ _ _ _ _ X) (gd_defs _ G) A).
  destruct (find (is_dataset name multi) (u_data u)) as [ds|] eqn:F.
  - apply find_some in F as [Hi Hd]. apply is_dataset_true in Hd as [<- <-]. eapply l_dataset; eauto.
  - eapply l_absent; eauto. intros Hi. apply in_map_iff in Hi as (ds & E & Hi). pose proof (find_none _ _ F _ Hi) as Hn.
    assert (is_dataset name multi ds = true) by (apply is_dataset_true; split; congruence). congruence.
Qed.
Lemma get_cached d pk sha u o name multi lazy caching : good d -> kept d pk sha u -> fits_db u -> o_pk o = Some pk -> cached (u_data u) (u_data (o_log o)) ->
  match find (is_dataset name multi) (u_data u) with
  | None => get_dataset_db d o name multi lazy caching = Err KeyError
  | Some ds => exists x o', get_dataset_db d o name multi lazy caching = Ok (x, o') /\
      o_pk o' = Some pk /\ cached (u_data u) (u_data (o_log o')) /\ (lazy = false -> x = ds) /\ (x = ds \/ x = shell ds)
  end.
Proof.
  intros G K FT P C. pose proof (kept_fetch d pk sha u name multi lazy G K FT) as Fe. unfold get_dataset_db. rewrite P, Fe.
  destruct (cached_find name multi _ _ C) as [[E1 E2]|(ds & x & E1 & E2 & Hx)]; rewrite E1, E2 in *; cbn [bind]; [reflexivity|].
  destruct caching; cbn [andb].
  - destruct (lazy || _) eqn:L.
    + exists x, o. split; [reflexivity|]. split; auto. split; auto. split; auto. intros ->. cbn [orb] in L. destruct Hx as [->|Hx]; auto. rewrite Hx in L. cbn in L. discriminate.
    + exists (if lazy then shell ds else ds). eexists. split; [reflexivity|]. cbn [o_pk set_log o_log]. split; auto. split; [|split].
      * cbn. eapply cached_replace; eauto. destruct lazy; auto.
      * intros ->. reflexivity.
      * destruct lazy; auto.
  - exists (if lazy then shell ds else ds), o. split; [reflexivity|]. split; auto. split; auto. split; [intros ->; reflexivity|destruct lazy; auto].
Qed.

(** ** Loading again *)
Lemma load_keeps_lists d o1 r1 o r lazy1 lazy : o_pk o1 = o_pk o -> o_log o1 = ulog0 -> load d o1 lazy1 = Ok r1 -> load d o lazy = Ok r ->
  u_changed (o_log r) = u_changed (o_log o) ++ u_changed (o_log r1) /\
  u_logged (o_log r) = u_logged (o_log o) ++ u_logged (o_log r1) /\
  u_dropouts (o_log r) = u_dropouts (o_log o) ++ u_dropouts (o_log r1) /\
  u_offsets (o_log r) = u_offsets (o_log o) ++ u_offsets (o_log r1).
Proof.
  intros P U E1 E2. unfold load in E1, E2. rewrite P, U in E1. destruct (o_pk o) as [pk|]; [|discriminate].
  destruct (exists_in_db d pk) as [e|]; [|discriminate]. cbn [bind] in *. destruct e; [|discriminate]. cbn [negb] in *.
  destruct (sql_select d (lit "ULog") _ _) as [top|]; [|discriminate]. cbn [bind] in *.
  destruct top as [|[|v [|st [|la [|co [|ic [|sc [|hs [|sh [|? ?]]]]]]]]] ?]; try discriminate.
  destruct (as_int v); [cbn [bind] in *|discriminate]. destruct (as_int st); [cbn [bind] in *|discriminate]. destruct (as_int la); [cbn [bind] in *|discriminate].
  destruct (as_text co); [cbn [bind] in *|discriminate]. destruct (as_text ic); [cbn [bind] in *|discriminate]. destruct (as_int sc); [cbn [bind] in *|discriminate].
  destruct (as_int hs); [cbn [bind] in *|discriminate]. destruct (as_text sh); [cbn [bind] in *|discriminate].
  repeat (match type of E1 with bind ?x _ = _ => destruct x as [?|]; [cbn [bind] in E1, E2|discriminate E1] end;
    match type of E2 with bind (mapM _ (ssort _ _)) _ = _ => match type of E2 with bind ?x _ = _ => destruct x as [?|]; [cbn [bind] in E2|discriminate E2] end | _ => idtac end).
  apply (f_equal (fun r => match r with Ok x => x | Err _ => o end)) in E1, E2. cbv beta iota in E1, E2. subst r r1. cbn [o_log u_changed u_logged u_dropouts u_offsets ulog0 app]. auto.
Qed.

Section again.
  Context {K V : Type} (eqb : K -> K -> bool) (eqb_spec : forall a b, reflect (a = b) (eqb a b)).
  Lemma dict_ext (a : dict K V) : forall b, dkeys a = dkeys b -> NoDup (dkeys a) -> (forall k, dget eqb k a = dget eqb k b) -> a = b.
  Proof.
    induction a as [|[k v] a IH]; intros [|[k' v'] b] Ek Nd Hg; try discriminate; [reflexivity|].
    cbn in Ek. injection Ek as <- Ek. unfold dkeys in Nd. cbn [map fst] in Nd. inversion Nd as [|? ? N1 N2]; subst.
    assert (v = v') as <-. { specialize (Hg k). cbn in Hg. destruct (eqb_spec k k); [congruence|contradiction]. }
    f_equal. apply IH; auto. intros j. specialize (Hg j). cbn in Hg. destruct (eqb_spec j k) as [Ej|]; [|exact Hg]. rewrite Ej in *.
    assert (E1 : dget eqb k a = None) by (apply (dget_None eqb eqb_spec); exact N1).
    assert (E2 : dget eqb k b = None) by (apply (dget_None eqb eqb_spec); unfold dkeys in *; now rewrite <- Ek). congruence.
  Qed.
  Context {A : Type} (key : A -> K) (val : A -> V).
  Definition put_all (l : list A) (d : dict K V) : dict K V := fold_left (fun a x => dset eqb (key x) (val x) a) l d.
  Lemma put_all_NoDup l : forall d, NoDup (dkeys d) -> NoDup (dkeys (put_all l d)).
  Proof. induction l as [|x l IH]; intros d H; [exact H|]. cbn. apply IH. now apply (NoDup_dset eqb eqb_spec). Qed.
  Lemma put_all_keeps l : forall d k, In k (dkeys d) -> In k (dkeys (put_all l d)).
  Proof.
    induction l as [|x l IH]; intros d k H; [exact H|]. cbn. apply IH. rewrite (dkeys_dset eqb eqb_spec).
    destruct (dmem _ _ _); auto. apply in_or_app. auto.
  Qed.
  Lemma put_all_has l : forall d x, In x l -> In (key x) (dkeys (put_all l d)).
  Proof.
    induction l as [|y l IH]; intros d x []; cbn.
    - subst. apply put_all_keeps. rewrite (dkeys_dset eqb eqb_spec). destruct (dmem eqb (key x) d) eqn:M; [|apply in_or_app; right; now left].
      unfold dmem in M. destruct (dget eqb (key x) d) as [v|] eqn:G; [|discriminate]. apply (dget_In eqb eqb_spec) in G. apply (in_map fst) in G. exact G.
    - now apply IH.
  Qed.
  Lemma put_all_keys l : forall d, (forall x, In x l -> In (key x) (dkeys d)) -> dkeys (put_all l d) = dkeys d.
  Proof.
    induction l as [|x l IH]; intros d H; [reflexivity|]. change (dkeys (put_all l (dset eqb (key x) (val x) d)) = dkeys d). assert (E : dkeys (dset eqb (key x) (val x) d) = dkeys d).
    { rewrite (dkeys_dset eqb eqb_spec). unfold dmem. destruct (dget_Some_key eqb eqb_spec (key x) d (H x (or_introl eq_refl))) as (v & ->). reflexivity. }
    rewrite IH; [exact E|]. intros y Hy. rewrite E. apply H. now right.
  Qed.
  Lemma put_all_get l : forall d d' k, dget eqb k d = dget eqb k d' \/ In k (map key l) -> dget eqb k (put_all l d) = dget eqb k (put_all l d').
  Proof.
    induction l as [|x l IH]; intros d d' k H; [destruct H as [H|[]]; exact H|]. cbn. apply IH.
    destruct (eqb_spec k (key x)) as [->|Ne]; [left; now rewrite !(dget_dset_eq eqb eqb_spec)|].
    destruct H as [H|[H|H]]; [left; now rewrite !(dget_dset_neq eqb eqb_spec)|congruence|auto].
  Qed.
  Lemma put_all_twice l d : NoDup (dkeys d) -> put_all l (put_all l d) = put_all l d.
  Proof.
    intros Nd. assert (E : dkeys (put_all l (put_all l d)) = dkeys (put_all l d)) by (apply put_all_keys; intros x Hx; now apply put_all_has).
    apply dict_ext; auto.
    - rewrite E. now apply put_all_NoDup.
    - intros k. destruct (in_dec (fun a b => match eqb_spec a b with ReflectT _ e => left e | ReflectF _ n => right n end) k (map key l)) as [Hi|Hn].
      + apply put_all_get. now right.
      + assert (G : forall l d, ~ In k (map key l) -> dget eqb k (put_all l d) = dget eqb k d).
        { clear -eqb_spec. induction l as [|x l IH]; intros d H; [reflexivity|]. cbn. cbn [map] in H. fold (put_all l (dset eqb (key x) (val x) d)). rewrite IH by (intros Hk; apply H; now right).
          apply (dget_dset_neq eqb eqb_spec). intros ->. apply H. now left. }
        now apply G.
  Qed.
End again.
Definition def_key (x : Z * str * value) : Z := fst (fst x).
Lemma add_defaults_get t l : forall a, zget t (fold_left add_default l a) =
  match filter (fun x => def_key x =? t) l with
  | [] => zget t a
  | lt => Some (put_all str_eqb (fun x => snd (fst x)) snd lt (match zget t a with Some m => m | None => [] end))
  end.
Proof.
  induction l as [|[[t' k] v] l IH]; intros a; [reflexivity|]. cbn [fold_left filter]. unfold def_key at 1. cbn [fst]. rewrite IH. unfold add_default at 1 2.
  destruct (Z.eqb_spec t' t) as [->|Ne].
  - rewrite (dget_dset_eq Z.eqb Zeqb_spec). destruct (filter _ l); reflexivity.
  - rewrite (dget_dset_neq Z.eqb Zeqb_spec) by congruence. reflexivity.
Qed.
Lemma add_defaults_keys l : forall a, dkeys (fold_left add_default l a) = dkeys (put_all Z.eqb def_key (fun _ => @nil (str * value)) l a).
Proof.
  assert (H : forall l a b, dkeys a = dkeys b -> dkeys (fold_left add_default l a) = dkeys (put_all Z.eqb def_key (fun _ => @nil (str * value)) l b)).
  { clear. induction l as [|[[t k] v] l IH]; intros a b E; [exact E|]. cbn. apply IH. unfold def_key. cbn [fst]. rewrite !(dkeys_dset Z.eqb Zeqb_spec).
    assert (M : dmem Z.eqb t a = dmem Z.eqb t b); [|rewrite M, E; reflexivity]. unfold dmem.
    destruct (zget t a) eqn:Ga; destruct (zget t b) eqn:Gb; auto.
    - apply (dget_None Z.eqb Zeqb_spec) in Gb. rewrite <- E in Gb. apply (dget_In Z.eqb Zeqb_spec) in Ga. apply (in_map fst) in Ga. contradiction.
    - apply (dget_None Z.eqb Zeqb_spec) in Ga. rewrite E in Ga. apply (dget_In Z.eqb Zeqb_spec) in Gb. apply (in_map fst) in Gb. contradiction. }
  intros a. now apply H.
Qed.
Lemma add_defaults_twice l : fold_left add_default l (fold_left add_default l []) = fold_left add_default l [].
Proof.
  assert (E : dkeys (fold_left add_default l (fold_left add_default l [])) = dkeys (fold_left add_default l [])).
  { rewrite add_defaults_keys. apply (put_all_keys Z.eqb Zeqb_spec). intros x Hx. rewrite add_defaults_keys. now apply (put_all_has Z.eqb Zeqb_spec). }
  apply (dict_ext Z.eqb Zeqb_spec); auto.
  - rewrite E, add_defaults_keys. apply (put_all_NoDup Z.eqb Zeqb_spec). constructor.
  - intros t. rewrite !add_defaults_get. destruct (filter _ l) as [|x lt]; [reflexivity|]. cbn [dget]. f_equal.
    apply (put_all_twice str_eqb str_eqb_spec). constructor.
Qed.
Lemma load_pk d o1 lazy1 r1 : load d o1 lazy1 = Ok r1 -> o_pk r1 = o_pk o1.
Proof.
  intros E1. unfold load in E1. destruct (o_pk o1) as [pk|]; [|discriminate].
    destruct (exists_in_db d pk) as [e|]; [|discriminate]. cbn [bind] in *. destruct e; [|discriminate]. cbn [negb] in *.
    destruct (sql_select d (lit "ULog") _ _) as [top|]; [|discriminate]. cbn [bind] in *.
    destruct top as [|[|v [|st [|la [|co [|ic [|sc [|hs [|sh [|? ?]]]]]]]]] ?]; try discriminate.
    repeat (match type of E1 with bind ?x _ = _ => destruct x as [?|]; [cbn [bind] in E1|discriminate E1] end).
    apply (f_equal (fun r => match r with Ok x => x | Err _ => o1 end)) in E1. cbv beta iota in E1. subst r1. reflexivity.
Qed.
Lemma load_again d o1 r1 r lazy1 lazy : o_log o1 = ulog0 -> load d o1 lazy1 = Ok r1 -> load d r1 lazy = Ok r ->
  let a := o_log r1 in let b := o_log r in
  o_pk r = o_pk r1 /\ o_sha r = o_sha r1 /\
  u_version b = u_version a /\ u_start b = u_start a /\ u_last b = u_last a /\ u_compat b = u_compat a /\ u_incompat b = u_incompat a /\
  u_has_sync b = u_has_sync a /\ u_sync_cnt b = u_sync_cnt a /\
  u_info b = u_info a /\ u_infot b = u_infot a /\ u_multi b = u_multi a /\ u_multit b = u_multit a /\ u_params b = u_params a /\ u_defaults b = u_defaults a /\
  (lazy1 = lazy -> u_data b = u_data a).
Proof.
  intros U E1 E2. pose proof (load_pk _ _ _ _ E1) as P.
  unfold load in E1, E2. rewrite P in E2. rewrite U in E1. destruct (o_pk o1) as [pk|]; [|discriminate].
  destruct (exists_in_db d pk) as [e|]; [|discriminate]. cbn [bind] in *. destruct e; [|discriminate]. cbn [negb] in *.
  destruct (sql_select d (lit "ULog") _ _) as [top|]; [|discriminate]. cbn [bind] in *.
  destruct top as [|[|v [|st [|la [|co [|ic [|sc [|hs [|sh [|? ?]]]]]]]]] ?]; try discriminate.
  destruct (as_int v); [cbn [bind] in *|discriminate]. destruct (as_int st); [cbn [bind] in *|discriminate]. destruct (as_int la); [cbn [bind] in *|discriminate].
  destruct (as_text co); [cbn [bind] in *|discriminate]. destruct (as_text ic); [cbn [bind] in *|discriminate]. destruct (as_int sc); [cbn [bind] in *|discriminate].
  destruct (as_int hs); [cbn [bind] in *|discriminate]. destruct (as_text sh); [cbn [bind] in *|discriminate].
  destruct (bool_dec lazy1 lazy) as [->|Nl].
  - repeat (match type of E1 with bind ?x _ = _ => destruct x as [?|]; [cbn [bind] in E1, E2|discriminate E1] end).
    apply (f_equal (fun r => match r with Ok x => x | Err _ => o1 end)) in E1, E2. cbv beta iota in E1, E2. subst r r1. cbn.
    repeat match goal with |- _ /\ _ => split end; auto; try (apply (put_all_twice str_eqb str_eqb_spec); constructor; fail). apply add_defaults_twice.
  - repeat (match type of E1 with bind ?x _ = _ => destruct x as [?|]; [cbn [bind] in E1, E2|discriminate E1] end;
      match type of E2 with bind (mapM _ (ssort _ _)) _ = _ => match type of E2 with bind ?x _ = _ => destruct x as [?|]; [cbn [bind] in E2|discriminate E2] end | _ => idtac end).
    apply (f_equal (fun r => match r with Ok x => x | Err _ => o1 end)) in E1, E2. cbv beta iota in E1, E2. subst r r1. cbn.
    repeat match goal with |- _ /\ _ => split end; auto; try (apply (put_all_twice str_eqb str_eqb_spec); constructor; fail); [apply add_defaults_twice|congruence].
Qed.
