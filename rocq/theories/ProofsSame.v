(** The messages of a written log, selected by kind, and the dictionaries they make. *)
From Coq Require Import Permutation Sorted.
From Verif Require Import Base Dict Utf8 PyStr PyFloat Struct PySort ModelTypes ModelRead ModelWrite
  Spec SpecSection SpecMsg SpecLog SpecWrite ProofsRead ProofsMsg ProofsFile ProofsInv ProofsTrace ProofsChange
  ProofsSection ProofsExpand ProofsData ProofsWhole ProofsFields ProofsLoad ProofsCut ProofsDefaults ProofsLog ProofsEq
  ProofsWrite ProofsRound.
Ltac Zify.zify_post_hook ::= Z.div_mod_to_equations.

(** ** Sorting and selecting *)
Lemma sorted_filter {A} (R : A -> A -> Prop) p l : StronglySorted R l -> StronglySorted R (filter p l).
Proof.
  induction 1 as [|x l H IH Hx]; [constructor|]. cbn [filter]. destruct (p x); [|exact IH]. constructor; [exact IH|].
  apply Forall_forall. intros y Hy. apply filter_In in Hy as [Hy _]. rewrite Forall_forall in Hx. auto.
Qed.
Lemma filter_comm {A} (p q : A -> bool) l : filter p (filter q l) = filter q (filter p l).
Proof.
  induction l as [|x l IH]; [reflexivity|]. cbn [filter]. destruct (p x) eqn:Ep, (q x) eqn:Eq; cbn [filter]; rewrite ?Ep, ?Eq, IH; reflexivity.
Qed.
Lemma filter_ssort {A} (leb : A -> A -> bool) (p : A -> bool) l :
  (forall a b, leb a b = true \/ leb b a = true) -> (forall a b c, leb a b = true -> leb b c = true -> leb a c = true) ->
  filter p (ssort leb l) = ssort leb (filter p l).
Proof.
  intros Ht Htr. apply ssort_unique; auto.
  - apply sorted_filter. now apply ssort_sorted.
  - intros a. rewrite filter_comm, ssort_stable by auto. now rewrite filter_comm.
Qed.
Lemma time_total a b : time_leb a b = true \/ time_leb b a = true.
Proof. unfold time_leb. lia. Qed.
Lemma time_trans a b c : time_leb a b = true -> time_leb b c = true -> time_leb a c = true.
Proof. unfold time_leb. lia. Qed.
Lemma flat_map_filter {A X} (g : A -> list X) (q : A -> bool) l : (forall x, In x l -> q x = false -> g x = []) ->
  flat_map g l = flat_map g (filter q l).
Proof.
  induction l as [|x l IH]; intros H; [reflexivity|]. cbn [flat_map filter].
  rewrite IH by (intros; apply H; [now right|assumption]).
  destruct (q x) eqn:E; [reflexivity|]. now rewrite (H x (or_introl eq_refl) E).
Qed.
Lemma flat_map_map {A B X} (g : B -> list X) (f : A -> B) l : flat_map g (map f l) = flat_map (fun x => g (f x)) l.
Proof. induction l as [|x l IH]; [reflexivity|]. cbn [map flat_map]. now rewrite IH. Qed.
Lemma filter_all {A} (q : A -> bool) l : Forall (fun x => q x = true) l -> filter q l = l.
Proof. induction 1 as [|x l H _ IH]; [reflexivity|]. cbn [filter]. now rewrite H, IH. Qed.
Lemma filter_none {A} (q : A -> bool) l : Forall (fun x => q x = false) l -> filter q l = [].
Proof. induction 1 as [|x l H _ IH]; [reflexivity|]. cbn [filter]. now rewrite H, IH. Qed.
Lemma filter_split {A} (q : A -> bool) l : forall a p b, filter q l = a ++ p :: b ->
  exists l1 l2, l = l1 ++ p :: l2 /\ filter q l1 = a /\ filter q l2 = b.
Proof.
  induction l as [|x l IH]; intros a p b H; cbn [filter] in H; [now destruct a|].
  destruct (q x) eqn:E.
  - destruct a as [|y a].
    + injection H as -> <-. exists [], l. auto.
    + injection H as -> H. destruct (IH _ _ _ H) as (l1 & l2 & -> & E1 & E2). exists (y :: l1), l2. cbn [filter app]. now rewrite E, E1.
  - destruct (IH _ _ _ H) as (l1 & l2 & -> & E1 & E2). exists (x :: l1), l2. cbn [filter app]. now rewrite E, E1.
Qed.
Lemma sorted_time {A} (f : A -> timed) (t : A -> Z) l : (forall x, fst (f x) = t x) -> non_decreasing (map t l) ->
  StronglySorted (fun a b => time_leb a b = true) (map f l).
Proof.
  intros E. induction l as [|x l IH]; intros H; [constructor|]. cbn [map] in *. inversion H as [|? ? H1 H2]; subst.
  constructor; [auto|]. apply Forall_map. rewrite Forall_map in H2. eapply Forall_impl; [|exact H2]. intros y Hy. unfold time_leb.
  rewrite !E. apply Z.leb_le. exact Hy.
Qed.

Definition kind (p : timed) : Z := fst (wire (snd p)).
Definition of_kind (k : Z) (p : timed) : bool := kind p =? k.
Lemma p_data_kind u : Forall (fun p => kind p = 68) (p_data u).
Proof. apply Forall_forall. intros p Hp. apply in_flat_map in Hp as (ds & _ & Hp). apply in_map_iff in Hp as (i & <- & _). reflexivity. Qed.
Lemma p_log_kind u : Forall (fun p => kind p = 76) (p_log u).
Proof. apply Forall_forall. intros p Hp. apply in_map_iff in Hp as (i & <- & _). reflexivity. Qed.
Lemma p_tag_kind u : Forall (fun p => kind p = 67) (p_tag u).
Proof. apply Forall_forall. intros p Hp. apply in_map_iff in Hp as (i & <- & _). reflexivity. Qed.
Lemma p_drop_kind u : Forall (fun p => kind p = 79) (p_drop u).
Proof. apply Forall_forall. intros p Hp. apply in_map_iff in Hp as (i & <- & _). reflexivity. Qed.
Lemma pc_kind l pc : Forall2 is_change l pc -> Forall (fun p => kind p = 80) pc.
Proof.
  induction 1 as [|c p l pc H _ IH]; constructor; auto. destruct H as (_ & raw & E & _). unfold kind. rewrite E. reflexivity.
Qed.
Lemma kind_filter k k' l : Forall (fun p => kind p = k') l -> filter (of_kind k) l = if k' =? k then l else [].
Proof.
  intros H. destruct (Z.eqb_spec k' k) as [->|Hne].
  - apply filter_all. eapply Forall_impl; [|exact H]. unfold of_kind. intros p Hp. lia.
  - apply filter_none. eapply Forall_impl; [|exact H]. unfold of_kind. intros p Hp. lia.
Qed.
Lemma select u pc l k : Forall2 is_change l pc ->
  filter (of_kind k) (sorted_items u pc) = ssort time_leb (if k =? 68 then p_data u else if k =? 76 then p_log u
    else if k =? 67 then p_tag u else if k =? 79 then p_drop u else if k =? 80 then pc else []).
Proof.
  intros H. unfold sorted_items. rewrite filter_ssort by (apply time_total || apply time_trans). unfold p_items. rewrite !filter_app.
  rewrite (kind_filter k 68), (kind_filter k 76), (kind_filter k 67), (kind_filter k 79), (kind_filter k 80)
    by (apply p_data_kind || apply p_log_kind || apply p_tag_kind || apply p_drop_kind || eapply pc_kind, H).
  rewrite !(Z.eqb_sym k). f_equal.
  destruct (Z.eqb_spec 68 k); [subst k; cbn; now rewrite !app_nil_r|].
  destruct (Z.eqb_spec 76 k); [subst k; cbn; now rewrite !app_nil_r|].
  destruct (Z.eqb_spec 67 k); [subst k; cbn; now rewrite !app_nil_r|].
  destruct (Z.eqb_spec 79 k); [subst k; cbn; now rewrite !app_nil_r|].
  destruct (80 =? k); reflexivity.
Qed.
(** a selector of messages of one kind *)
Lemma selected {X} (g : msg -> list X) k l : (forall m, fst (wire m) <> k -> g m = []) ->
  flat_map g (map snd l) = flat_map g (map snd (filter (of_kind k) l)).
Proof.
  intros H. rewrite !flat_map_map. apply flat_map_filter. intros p _ Hp. apply H. unfold of_kind, kind in Hp. lia.
Qed.
Lemma sel_nil {X} (g : msg -> list X) ms : (forall m, In m ms -> g m = []) -> flat_map g ms = [].
Proof. induction ms as [|m ms IH]; intros H; [reflexivity|]. cbn [flat_map]. rewrite (H m (or_introl eq_refl)), IH; auto. intros; eapply H; right; eassumption. Qed.

Lemma tag_kind m : fst (wire m) <> 67 -> tag_of m = []. Proof. destruct m; auto. intros H. now destruct H. Qed.
Lemma log_kind m : fst (wire m) <> 76 -> log_of m = []. Proof. destruct m; auto. intros H. now destruct H. Qed.
Lemma drop_kind m : fst (wire m) <> 79 -> drop_of m = []. Proof. destruct m; auto. intros H. now destruct H. Qed.
Lemma param_kind m : fst (wire m) <> 80 -> param_of m = []. Proof. destruct m; auto. intros H. now destruct H. Qed.
Lemma info_kind m : fst (wire m) <> 73 -> info_of m = []. Proof. destruct m; auto. intros H. now destruct H. Qed.
Lemma multi_kind m : fst (wire m) <> 77 -> multi_of m = []. Proof. destruct m; auto. intros H. now destruct H. Qed.
Lemma default_kind m : fst (wire m) <> 81 -> default_of m = []. Proof. destruct m; auto. intros H. now destruct H. Qed.
Lemma format_kind m : fst (wire m) <> 70 -> format_of m = []. Proof. destruct m; auto. intros H. now destruct H. Qed.

(** ** Entries *)
Lemma infomsg_eq a b : im_type a = im_type b -> im_key a = im_key b -> im_value a = im_value b -> a = b.
Proof. destruct a, b; cbn. congruence. Qed.
Lemma info_back es mi ims : Forall2 is_info es mi -> Forall2 entry_is (flat_map info_of mi) ims -> ims = es.
Proof.
  intros H. revert ims. induction H as [|e m es mi (raw & -> & _ & Ht) _ IH]; intros ims K; cbn [flat_map info_of app] in K.
  - now inversion K.
  - inversion K as [|? i ? r (K1 & K2 & K3) K4]; subst. rewrite (IH _ K4). f_equal. apply infomsg_eq; [exact K1|exact K2|].
    eapply typed_fun; [exact K3|exact Ht].
Qed.
Lemma param_back es mi ims : Forall2 is_param es mi -> Forall2 entry_is (flat_map param_of mi) ims -> ims = es.
Proof.
  intros H. revert ims. induction H as [|e m es mi (raw & -> & _ & Ht) _ IH]; intros ims K; cbn [flat_map param_of app] in K.
  - now inversion K.
  - inversion K as [|? i ? r (K1 & K2 & K3) K4]; subst. rewrite (IH _ K4). f_equal. apply infomsg_eq; [exact K1|exact K2|].
    eapply typed_fun; [exact K3|exact Ht].
Qed.
Lemma multi_back es mi ims : Forall2 is_multi es mi -> Forall2 centry_is (flat_map multi_of mi) ims -> ims = es.
Proof.
  intros H. revert ims. induction H as [|e m es mi (raw & -> & _ & Ht) _ IH]; intros ims K; cbn [flat_map multi_of app] in K.
  - now inversion K.
  - inversion K as [|? i ? r (K0 & K1 & K2 & K3) K4]; subst. rewrite (IH _ K4). f_equal. destruct i as [c i], e as [c' e].
    cbn [fst snd] in *. f_equal; [exact K0|]. apply infomsg_eq; [exact K1|exact K2|]. eapply typed_fun; [exact K3|exact Ht].
Qed.
Lemma pdef_back es mi ims : Forall2 is_pdef es mi -> Forall2 centry_is (flat_map default_of mi) ims -> ims = es.
Proof.
  intros H. revert ims. induction H as [|e m es mi (raw & -> & _ & Ht) _ IH]; intros ims K; cbn [flat_map default_of app] in K.
  - now inversion K.
  - inversion K as [|? i ? r (K0 & K1 & K2 & K3) K4]; subst. rewrite (IH _ K4). f_equal. destruct i as [c i], e as [c' e].
    cbn [fst snd] in *. f_equal; [exact K0|]. apply infomsg_eq; [exact K1|exact K2|]. eapply typed_fun; [exact K3|exact Ht].
Qed.

(** ** Rebuilding dictionaries *)
Lemma fold_info_id (ty : str * value -> str) l : forall acc, NoDup (dkeys (acc ++ l)) ->
  fold_left ins_info (map (fun kv => mkInfo (ty kv) (fst kv) (snd kv)) l) acc = acc ++ l.
Proof.
  intros acc H. etransitivity; [|exact (fold_dset_id str_eqb str_eqb_spec l acc H)].
  clear H. revert acc. induction l as [|kv l IH]; intros acc; [reflexivity|]. cbn [map fold_left]. apply IH.
Qed.
Lemma infot_keys (u : ulog) (l : dict str value) : forall acc : dict str str,
  fold_left ins_infot (map (fun kv => mkInfo (type_in (u_infot u) (fst kv)) (fst kv) (snd kv)) l) acc =
  fold_left (fun (d : dict str str) (k : str) => sset k (type_in (u_infot u) k) d) (map fst l) acc.
Proof. induction l as [|kv l IH]; intros acc; [reflexivity|]. cbn [map fold_left]. apply IH. Qed.
Lemma fold_keys_id (d : dict str str) (t : str -> str) : NoDup (dkeys d) -> (forall k v, In (k, v) d -> t k = v) ->
  fold_left (fun (a : dict str str) (k : str) => sset k (t k) a) (map fst d) [] = d.
Proof.
  intros Hn H. etransitivity; [|exact (fold_dset_id str_eqb str_eqb_spec d [] Hn)].
  clear Hn. change (@nil (list Z * str)) with (@nil (str * str)). generalize (@nil (str * str)). induction d as [|[k v] d IH]; intros acc; [reflexivity|]. cbn [map fold_left fst snd].
  rewrite (H k v) by now left. apply IH. intros; eapply H; right; eassumption.
Qed.
Lemma type_in_ok (d : dict str str) k v : NoDup (dkeys d) -> In (k, v) d -> type_in d k = v.
Proof. intros Hn H. unfold type_in. now rewrite (In_dget str_eqb str_eqb_spec k v d Hn H). Qed.

(** info-multiple *)
Definition multi_list (ty k : str) (ls : list (list value)) : list (Z * infomsg) :=
  flat_map (fun vs => map (fun cv => (fst cv, mkInfo ty k (snd cv))) (marks vs)) ls.
Lemma append_last_snoc l g x : append_last (l ++ [g]) x = Ok (l ++ [g ++ [x]]).
Proof. induction l as [|a l IH]; [reflexivity|]. cbn [app append_last]. destruct (l ++ [g]) eqn:E; [destruct l; discriminate|]. rewrite IH. reflexivity. Qed.
Lemma sget_last {V} k (v : V) d : ~ In k (dkeys d) -> sget k (d ++ [(k, v)]) = Some v.
Proof.
  intros H. rewrite (dget_app str_eqb). apply (dget_None str_eqb str_eqb_spec) in H. rewrite H. cbn. now rewrite str_eqb_refl.
Qed.
Lemma sset_last {V} k (v w : V) d : ~ In k (dkeys d) -> sset k w (d ++ [(k, v)]) = d ++ [(k, w)].
Proof. intros H. rewrite (dset_app_r str_eqb str_eqb_spec) by exact H. cbn. now rewrite str_eqb_refl. Qed.
Lemma multi_cont ty k r : forall d l g, ~ In k (dkeys d) ->
  fold_left ins_multi (map (fun cv => (fst cv, mkInfo ty k (snd cv))) (map (pair 1) r)) (d ++ [(k, l ++ [g])]) = d ++ [(k, l ++ [g ++ r])].
Proof.
  induction r as [|x r IH]; intros d l g H; [cbn; now rewrite app_nil_r|]. cbn [map fold_left fst snd].
  assert (ins_multi (d ++ [(k, l ++ [g])]) (1, mkInfo ty k x) = d ++ [(k, l ++ [g ++ [x]])]) as ->.
  { unfold ins_multi. cbn [fst snd im_key im_value]. rewrite sget_last by exact H. change (negb (1 =? 0)) with true. cbv iota.
    rewrite append_last_snoc. now rewrite sset_last. }
  rewrite IH by exact H. now rewrite <- app_assoc.
Qed.
Lemma multi_one ty k vs d l : ~ In k (dkeys d) -> vs <> [] -> l <> [] ->
  fold_left ins_multi (map (fun cv => (fst cv, mkInfo ty k (snd cv))) (marks vs)) (d ++ [(k, l)]) = d ++ [(k, l ++ [vs])].
Proof.
  intros H Hv Hl. destruct vs as [|v r]; [congruence|]. cbn [marks map fold_left fst snd].
  assert (ins_multi (d ++ [(k, l)]) (0, mkInfo ty k v) = d ++ [(k, l ++ [[v]])]) as ->.
  { unfold ins_multi. cbn [fst snd im_key im_value]. rewrite sget_last by exact H. change (negb (0 =? 0)) with false. cbv iota. now rewrite sset_last. }
  now apply multi_cont.
Qed.
Lemma multi_rest ty k ls : forall d l, ~ In k (dkeys d) -> (forall vs, In vs ls -> vs <> []) -> l <> [] ->
  fold_left ins_multi (multi_list ty k ls) (d ++ [(k, l)]) = d ++ [(k, l ++ ls)].
Proof.
  induction ls as [|vs ls IH]; intros d l H Hv Hl; [cbn; now rewrite app_nil_r|]. unfold multi_list. cbn [flat_map]. rewrite fold_left_app.
  rewrite multi_one by (auto; apply Hv; now left). fold (multi_list ty k ls). rewrite IH; auto.
  - now rewrite <- app_assoc.
  - intros; apply Hv; now right.
  - destruct l; discriminate.
Qed.
Lemma multi_key ty k ls d : ~ In k (dkeys d) -> ls <> [] -> (forall vs, In vs ls -> vs <> []) ->
  fold_left ins_multi (multi_list ty k ls) d = d ++ [(k, ls)].
Proof.
  intros H Hl Hv. destruct ls as [|vs ls]; [congruence|]. unfold multi_list. cbn [flat_map]. rewrite fold_left_app.
  specialize (Hv vs (or_introl eq_refl)) as Hvs. destruct vs as [|v r]; [congruence|]. cbn [marks map fold_left fst snd].
  assert (ins_multi d (0, mkInfo ty k v) = d ++ [(k, [] ++ [[v]])]) as ->.
  { unfold ins_multi. cbn [fst snd im_key im_value]. rewrite (proj2 (dget_None str_eqb str_eqb_spec k d) H). now rewrite (dset_new str_eqb str_eqb_spec). }
  rewrite multi_cont by exact H. fold (multi_list ty k ls). cbn [app]. rewrite multi_rest; auto.
  - intros; apply Hv; now right.
  - discriminate.
Qed.
Lemma multi_all (t : str -> str) l : forall d, NoDup (dkeys (d ++ l)) ->
  (forall k ls, In (k, ls) l -> ls <> [] /\ forall vs, In vs ls -> vs <> []) ->
  fold_left ins_multi (flat_map (fun kv => multi_list (t (fst kv)) (fst kv) (snd kv)) l) d = d ++ l.
Proof.
  induction l as [|[k ls] l IH]; intros d Hn H; [cbn; now rewrite app_nil_r|]. cbn [flat_map fst snd]. rewrite fold_left_app.
  assert (Hk : ~ In k (dkeys d)).
  { unfold dkeys in *. rewrite map_app in Hn. cbn [map fst] in Hn. apply NoDup_remove_2 in Hn. intros K. apply Hn, in_or_app. now left. }
  destruct (H k ls (or_introl eq_refl)) as [H1 H2]. rewrite multi_key by auto.
  rewrite IH; [now rewrite <- app_assoc|rewrite <- app_assoc; exact Hn|]. intros; eapply H; right; eassumption.
Qed.
Lemma multit_key ty k ls d : ls <> [] -> (forall vs, In vs ls -> vs <> []) ->
  fold_left ins_multit (multi_list ty k ls) d = if smem k d then d else sset k ty d.
Proof.
  intros Hl Hv.
  assert (A : forall (l : list (Z * value)) d, smem k d = true -> fold_left ins_multit (map (fun cv => (fst cv, mkInfo ty k (snd cv))) l) d = d).
  { clear. induction l as [|x l IH]; intros d H; [reflexivity|]. cbn [map fold_left]. unfold ins_multit at 2. cbn [snd im_key]. rewrite H. now apply IH. }
  assert (B : forall ls d, smem k d = true -> fold_left ins_multit (multi_list ty k ls) d = d).
  { clear - A. induction ls as [|vs ls IH]; intros d H; [reflexivity|]. unfold multi_list. cbn [flat_map]. rewrite fold_left_app, A by exact H. now apply IH. }
  destruct (smem k d) eqn:E; [now apply B|].
  destruct ls as [|vs ls]; [congruence|]. unfold multi_list. cbn [flat_map]. rewrite fold_left_app.
  specialize (Hv vs (or_introl eq_refl)). destruct vs as [|v r]; [congruence|]. cbn [marks map fold_left fst snd].
  assert (ins_multit d (0, mkInfo ty k v) = sset k ty d) as -> by (unfold ins_multit; cbn [snd im_key im_type]; now rewrite E).
  assert (M : smem k (sset k ty d) = true) by (unfold dmem; now rewrite (dget_dset_eq str_eqb str_eqb_spec)).
  rewrite A by exact M. now apply B.
Qed.
Lemma multit_all (t : str -> str) (l : dict str (list (list value))) : forall d, NoDup (dkeys d ++ dkeys l) ->
  (forall k ls, In (k, ls) l -> ls <> [] /\ forall vs, In vs ls -> vs <> []) ->
  fold_left ins_multit (flat_map (fun kv => multi_list (t (fst kv)) (fst kv) (snd kv)) l) d =
  fold_left (fun (a : dict str str) (k : str) => sset k (t k) a) (dkeys l) d.
Proof.
  induction l as [|[k ls] l IH]; intros d Hn H; [reflexivity|]. cbn [flat_map fst snd]. rewrite fold_left_app.
  destruct (H k ls (or_introl eq_refl)) as [H1 H2]. rewrite multit_key by auto.
  assert (Hk : ~ In k (dkeys d)).
  { cbn [dkeys map fst] in Hn. apply NoDup_remove_2 in Hn. intros K. apply Hn, in_or_app. now left. }
  assert (smem k d = false) as -> by (unfold dmem; now rewrite (proj2 (dget_None str_eqb str_eqb_spec k d) Hk)).
  cbn [dkeys map fst fold_left]. apply IH; [|intros; eapply H; right; eassumption].
  rewrite (dset_new str_eqb str_eqb_spec) by exact Hk. unfold dkeys in *. rewrite map_app, <- app_assoc. exact Hn.
Qed.

(** defaults *)
Lemma pdef_bit t m d : t = 0 \/ t = 1 -> ins_pdef d (2 ^ t, m) = set_default (im_key m) (im_value m) t d.
Proof. intros H. unfold ins_pdef. rewrite add_default_fold. destruct H as [-> | ->]; reflexivity. Qed.
Lemma zget_last {V} k (v : V) d : ~ In k (dkeys d) -> zget k (d ++ [(k, v)]) = Some v.
Proof.
  intros H. rewrite (dget_app Z.eqb). apply (dget_None Z.eqb Zeqb_spec) in H. rewrite H. cbn. now rewrite Z.eqb_refl.
Qed.
Lemma set_default_last key v t d m : ~ In t (dkeys d) -> set_default key v t (d ++ [(t, m)]) = d ++ [(t, sset key v m)].
Proof.
  intros H. unfold set_default, dmem. rewrite zget_last by exact H. cbv zeta iota. rewrite zget_last by exact H.
  rewrite (dset_app_r Z.eqb Zeqb_spec) by exact H. cbn. now rewrite Z.eqb_refl.
Qed.
Lemma defaults_rest t l : forall d m, t = 0 \/ t = 1 -> ~ In t (dkeys d) -> NoDup (dkeys (m ++ l)) ->
  fold_left ins_pdef (map (fun kv => (2 ^ t, pinfo kv)) l) (d ++ [(t, m)]) = d ++ [(t, m ++ l)].
Proof.
  induction l as [|[k v] l IH]; intros d m Ht H Hn; [cbn; now rewrite app_nil_r|]. cbn [map fold_left].
  rewrite pdef_bit by exact Ht. cbn [pinfo im_key im_value fst snd]. rewrite set_default_last by exact H.
  assert (Hk : ~ In k (dkeys m)).
  { unfold dkeys in *. rewrite map_app in Hn. cbn [map fst] in Hn. apply NoDup_remove_2 in Hn. intros K. apply Hn, in_or_app. now left. }
  rewrite (dset_new str_eqb str_eqb_spec) by exact Hk. rewrite IH; [now rewrite <- app_assoc|exact Ht|exact H|rewrite <- app_assoc; exact Hn].
Qed.
Lemma defaults_key t l d : t = 0 \/ t = 1 -> ~ In t (dkeys d) -> l <> [] -> NoDup (dkeys l) ->
  fold_left ins_pdef (map (fun kv => (2 ^ t, pinfo kv)) l) d = d ++ [(t, l)].
Proof.
  intros Ht H Hl Hn. destruct l as [|[k v] l]; [congruence|]. cbn [map fold_left].
  rewrite pdef_bit by exact Ht. cbn [pinfo im_key im_value fst snd].
  assert (set_default k v t d = d ++ [(t, [(k, v)])]) as ->.
  { unfold set_default, dmem. rewrite (proj2 (dget_None Z.eqb Zeqb_spec t d) H). cbv zeta iota.
    rewrite (dset_new Z.eqb Zeqb_spec) by exact H. rewrite zget_last by exact H. rewrite (dset_app_r Z.eqb Zeqb_spec) by exact H. cbn. now rewrite Z.eqb_refl. }
  apply defaults_rest; auto.
Qed.
Lemma defaults_all l : forall d, NoDup (dkeys (d ++ l)) ->
  (forall t m, In (t, m) l -> (t = 0 \/ t = 1) /\ m <> [] /\ NoDup (dkeys m)) ->
  fold_left ins_pdef (flat_map (fun td => map (fun kv => (2 ^ fst td, pinfo kv)) (snd td)) l) d = d ++ l.
Proof.
  induction l as [|[t m] l IH]; intros d Hn H; [cbn; now rewrite app_nil_r|]. cbn [flat_map fst snd]. rewrite fold_left_app.
  assert (Hk : ~ In t (dkeys d)).
  { unfold dkeys in *. rewrite map_app in Hn. cbn [map fst] in Hn. apply NoDup_remove_2 in Hn. intros K. apply Hn, in_or_app. now left. }
  destruct (H t m (or_introl eq_refl)) as (H1 & H2 & H3). rewrite defaults_key by auto.
  rewrite IH; [now rewrite <- app_assoc|rewrite <- app_assoc; exact Hn|]. intros; eapply H; right; eassumption.
Qed.
