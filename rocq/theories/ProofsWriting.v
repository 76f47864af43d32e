(** write_ulog as a sequence of writes: agreement with [write], and what is left after an exception. *)
From Coq Require Import Permutation Sorted.
From Verif Require Import Base Dict Utf8 PyStr PyFloat Struct PySort ModelTypes ModelRead ModelWrite ModelWriting
  Spec SpecWrite SpecWriting ProofsWrite.

(** ** Sequences of writes *)
Definition outcome (l : list (res bytes)) : res bytes :=
  match put_all l with (b, None) => Ok b | (_, Some e) => Err e end.

Lemma out_app l1 l2 : outcome (l1 ++ l2) = (let* a := outcome l1 in let* b := outcome l2 in Ok (a ++ b)).
Proof.
  induction l1 as [|[b|e] l1 IH]; unfold outcome in *; cbn [app put_all]; [|  | reflexivity].
  - cbn [bind app]. destruct (put_all l2) as [b [e|]]; reflexivity.
  - destruct (put_all (l1 ++ l2)) as [c [e|]]; destruct (put_all l1) as [c1 [e1|]]; cbn [bind] in *;
    destruct (put_all l2) as [c2 [e2|]]; cbn [bind] in *; try discriminate; try assumption.
    + injection IH as ->. now rewrite app_assoc.
Qed.

Lemma out_map {A} (f : A -> res bytes) l : outcome (map f l) = rmap (@concat Z) (mapM f l).
Proof.
  induction l as [|x l IH]; [reflexivity|]. change (map f (x :: l)) with ([f x] ++ map f l). rewrite out_app, IH. cbn [mapM].
  destruct (f x) as [b|e]; [|reflexivity]. unfold outcome at 1. cbn [put_all bind]. rewrite app_nil_r.
  destruct (mapM f l); reflexivity.
Qed.

Lemma out_flat {A} (f : A -> list (res bytes)) (g : A -> res (list bytes)) l :
  (forall x, In x l -> outcome (f x) = rmap (@concat Z) (g x)) ->
  outcome (flat_map f l) = rmap (@concat Z) (rmap (@concat bytes) (mapM g l)).
Proof.
  induction l as [|x l IH]; intros H; [reflexivity|]. cbn [flat_map mapM]. rewrite out_app, (H x) by now left.
  rewrite IH by (intros y Hy; apply H; now right).
  destruct (g x) as [bs|e]; [|reflexivity]. cbn [rmap bind]. destruct (mapM g l) as [bss|e]; [|reflexivity].
  cbn [rmap bind concat]. now rewrite concat_app.
Qed.

Lemma out_ok bs : outcome (map Ok bs) = Ok (concat bs).
Proof.
  rewrite out_map. rewrite (mapM_all_Ok Ok (fun b => b)) by reflexivity. rewrite map_id. reflexivity.
Qed.

Lemma write_set_next key ty c vs : write_set key ty c vs =
  match vs with
  | [] => Ok []
  | v :: r => let* m := multi_message key ty c v in let* ms := write_set key ty 1 r in Ok (m :: ms)
  end.
Proof. destruct vs as [|v r]; [reflexivity|]. cbn [write_set]. unfold multi_message. destruct (info_data key v ty (Some c)); reflexivity. Qed.

Lemma write_set_one key ty vs : write_set key ty 1 vs = mapM (multi_message key ty 1) vs.
Proof. induction vs as [|v r IH]; [reflexivity|]. rewrite write_set_next, IH. reflexivity. Qed.

Lemma out_set key ty vs : outcome (set_messages key ty vs) = rmap (@concat Z) (write_set key ty 0 vs).
Proof.
  rewrite write_set_next. destruct vs as [|v r]; [reflexivity|]. cbn [set_messages].
  change (multi_message key ty 0 v :: map (multi_message key ty 1) r) with ([multi_message key ty 0 v] ++ map (multi_message key ty 1) r).
  rewrite out_app, out_map, write_set_one. destruct (multi_message key ty 0 v) as [b|e]; [|reflexivity].
  unfold outcome. cbn [put_all bind]. rewrite app_nil_r. destruct (mapM _ r); reflexivity.
Qed.

Lemma out_defs u : outcome (flat_map default_messages (u_defaults u)) = rmap (@concat Z) (write_defaults u).
Proof.
  unfold write_defaults. apply out_flat. intros [t d] _. unfold default_messages. cbn [fst snd].
  destruct (t <? 0); [reflexivity|]. apply out_map.
Qed.
Lemma out_multi u : outcome (flat_map (multi_messages u) (u_multi u)) = rmap (@concat Z) (write_multi u).
Proof.
  unfold write_multi. apply out_flat. intros [k gs] _. unfold multi_messages. cbn [fst snd].
  destruct (lookup k (u_multit u)) as [ty|e]; [|reflexivity]. cbn [bind]. apply out_flat. intros x _. apply out_set.
Qed.

Theorem write_messages u : write u = outcome (messages u).
Proof.
  unfold messages. rewrite !out_app, out_multi, out_defs. rewrite !out_map.
  assert (E1 : outcome [write_header u] = write_header u).
  { unfold outcome. cbn [put_all]. destruct (write_header u); [rewrite app_nil_r|]; reflexivity. }
  assert (E2 : outcome [write_flags u] = write_flags u).
  { unfold outcome. cbn [put_all]. destruct (write_flags u); [rewrite app_nil_r|]; reflexivity. }
  assert (E3 : outcome (data_messages u) = rmap (@concat Z) (write_data u)).
  { unfold data_messages. destruct (write_data u); [apply out_ok|reflexivity]. }
  rewrite E1, E2, E3. unfold write.
  change (mapM format_message (map snd (u_formats u))) with (write_formats u).
  change (mapM (info_message u) (u_info u)) with (write_info u).
  change (mapM param_message (u_params u)) with (write_params u).
  change (mapM sub_message (by_id u)) with (write_subscriptions u).
  destruct (write_header u); [|reflexivity]. cbn [bind]. destruct (write_flags u); [|reflexivity]. cbn [bind rmap].
  destruct (write_formats u); [|reflexivity]. cbn [bind rmap]. destruct (write_info u); [|reflexivity]. cbn [bind rmap].
  destruct (write_multi u); [|reflexivity]. cbn [bind rmap]. destruct (write_params u); [|reflexivity]. cbn [bind rmap].
  destruct (write_defaults u); [|reflexivity]. cbn [bind rmap]. destruct (write_subscriptions u); [|reflexivity]. cbn [bind rmap].
  destruct (write_data u); [|reflexivity]. cbn [bind rmap]. f_equal. rewrite !concat_app. now rewrite <- !app_assoc.
Qed.

(** ** Prefixes of sequences *)
Lemma put_prefix p r b e : put_all (p ++ r) = (b, Some e) ->
  (exists c, outcome p = Ok c /\ prefix c b) \/ outcome p = Err e.
Proof.
  revert b. induction p as [|[x|x] p IH]; intros b H; cbn [app put_all] in H.
  - left. exists []. split; [reflexivity|]. exists b. reflexivity.
  - destruct (put_all (p ++ r)) as [c [e'|]]; injection H as <- H; [|discriminate]. subst e'.
    destruct (IH c eq_refl) as [(c' & Hc & (s & ->))|Hc].
    + left. exists (x ++ c'). unfold outcome in *. cbn [put_all]. destruct (put_all p) as [c0 [|]]; [discriminate|].
      injection Hc as ->. split; [reflexivity|]. exists s. now rewrite app_assoc.
    + right. unfold outcome in *. cbn [put_all]. destruct (put_all p) as [c0 [|]]; [assumption|discriminate].
  - right. injection H as _ <-. reflexivity.
Qed.

Lemma put_stops l b e : put_all l = (b, Some e) -> exists bs r, l = map Ok bs ++ Err e :: r /\ b = concat bs.
Proof.
  revert b. induction l as [|[x|x] l IH]; intros b H; cbn [put_all] in H; [discriminate| |].
  - destruct (put_all l) as [c [e'|]]; injection H as <- H; [|discriminate]. subst e'.
    destruct (IH c eq_refl) as (bs & r & -> & ->). exists (x :: bs), r. split; reflexivity.
  - injection H as <- <-. exists [], l. split; reflexivity.
Qed.

Lemma seg (x y : list (res bytes)) bs e r : x ++ y = map Ok bs ++ Err e :: r ->
  (exists r', x = map Ok bs ++ Err e :: r') \/
  (exists b1 b2, x = map Ok b1 /\ bs = b1 ++ b2 /\ y = map Ok b2 ++ Err e :: r).
Proof.
  revert bs. induction x as [|a x IH]; intros bs H; cbn [app] in H.
  - right. exists [], bs. auto.
  - destruct bs as [|b bs]; cbn [map app] in H; injection H as -> H.
    + left. exists x. reflexivity.
    + destruct (IH bs H) as [(r' & ->)|(b1 & b2 & -> & -> & ->)].
      * left. exists r'. reflexivity.
      * right. exists (b :: b1), b2. auto.
Qed.

Lemma seg_map {A} (f : A -> res bytes) l bs e r : map f l = map Ok bs ++ Err e :: r ->
  exists a x b, l = a ++ x :: b /\ map f a = map Ok bs.
Proof.
  revert bs. induction l as [|x l IH]; intros bs H; [destruct bs; discriminate|].
  destruct bs as [|b bs]; cbn [map app] in H; injection H as Hx H.
  - exists [], x, l. split; reflexivity.
  - destruct (IH bs H) as (a & y & c & -> & Ha). exists (x :: a), y, c. split; [reflexivity|]. cbn [map]. now rewrite Hx, Ha.
Qed.

Lemma seg_flat {A} (f : A -> list (res bytes)) l bs e r : flat_map f l = map Ok bs ++ Err e :: r ->
  exists a x b b1 b2 r', l = a ++ x :: b /\ flat_map f a = map Ok b1 /\ f x = map Ok b2 ++ Err e :: r' /\ bs = b1 ++ b2.
Proof.
  revert bs. induction l as [|x l IH]; intros bs H; cbn [flat_map] in H; [destruct bs; discriminate|].
  apply seg in H as [(r' & H)|(b1 & b2 & H1 & -> & H2)].
  - exists [], x, l, [], bs, r'. auto.
  - destruct (IH b2 H2) as (a & y & b & c1 & c2 & r' & -> & Ha & Hy & ->).
    exists (x :: a), y, b, (b1 ++ c1), c2, r'. split; [reflexivity|]. cbn [flat_map]. rewrite H1, Ha, map_app. split; [reflexivity|].
    split; [exact Hy|]. now rewrite app_assoc.
Qed.

(** ** Shorter objects write shorter sequences *)
Definition head_messages (u : ulog) := [write_header u] ++ [write_flags u].

Lemma data_none w : u_logged w = [] -> u_tagged w = [] -> u_dropouts w = [] -> u_changed w = [] ->
  Forall (fun d => exists fd r c, ds_fields d = fd :: r /\ sget (fd_name fd) (ds_data d) = Some c /\ c_raw c = []) (by_id w) ->
  data_messages w = [].
Proof.
  intros L T D C H. unfold data_messages, write_data, data_items, logged_items, tagged_items, dropout_items, changed_items.
  rewrite L, T, D, C. cbn [map mapM rmap concat bind].
  assert (E : mapM dataset_items (by_id w) = Ok (map (fun _ => []) (by_id w))).
  { apply mapM_all_Ok. intros d Hd. rewrite Forall_forall in H. destruct (H d Hd) as (fd & r & c & E1 & E2 & E3).
    unfold dataset_items. rewrite E1. unfold lookup. rewrite E2. cbn [bind]. rewrite E3. reflexivity. }
  rewrite E. cbn [rmap bind]. assert (concat (map (fun _ : dataset => @nil item) (by_id w)) = []) as ->.
  { clear. induction (by_id w) as [|d l IH]; [reflexivity|exact IH]. }
  reflexivity.
Qed.

Lemma by_id_sorted u : StronglySorted (fun a b => ds_id a <= ds_id b) (u_data u) -> by_id u = u_data u.
Proof.
  intros H. unfold by_id. apply ssort_id.
  unfold sorted, id_leb. clear -H. induction H as [|a l H IH HF]; constructor; [exact IH|].
    eapply Forall_impl; [|exact HF]. intros b Hb. cbv beta in Hb. lia.
Qed.

Lemma sorted_by_id u l : sorted_from ds_id (u_data u) l -> l = by_id u.
Proof.
  intros (_ & Hs & Hf). unfold by_id. apply ssort_unique.
  - unfold id_leb. intros a b. lia.
  - unfold id_leb. intros a b c. lia.
  - unfold sorted, id_leb. clear -Hs. induction Hs as [|a l H IH HF]; constructor; [exact IH|].
    eapply Forall_impl; [|exact HF]. intros b Hb. cbv beta in Hb. lia.
  - intros a. unfold equivb, id_leb. specialize (Hf (ds_id a)).
    assert (E : forall x, (ds_id a <=? ds_id x) && (ds_id x <=? ds_id a) = (ds_id x =? ds_id a)) by (intros x; lia).
    rewrite !(filter_ext _ (fun x => ds_id x =? ds_id a) E). exact Hf.
Qed.

Lemma Forall2_sorted topics ds : Forall2 unsampled topics ds ->
  StronglySorted (fun a b => ds_id a <= ds_id b) topics -> StronglySorted (fun a b => ds_id a <= ds_id b) ds.
Proof.
  induction 1 as [|t d ts ds (_ & Hid & _) HF IH]; intros H; [constructor|]. inversion H; subst. constructor; [now apply IH|].
  match goal with K : Forall _ ts |- _ => rename K into HT end. rewrite Hid. clear -HF HT.
  induction HF as [|t' d' ts ds (_ & Hid & _) HF IH]; constructor; inversion HT; subst; [now rewrite Hid|now apply IH].
Qed.
Lemma Forall2_subs topics ds : Forall2 unsampled topics ds -> map sub_message ds = map sub_message topics.
Proof.
  induction 1 as [|t d ts ds (A & B & C & _) HF IH]; [reflexivity|]. cbn [map]. rewrite IH. f_equal.
  unfold sub_message. now rewrite A, B, C.
Qed.
Lemma Forall2_bare topics ds : Forall2 unsampled topics ds ->
  Forall (fun d => exists fd r c, ds_fields d = fd :: r /\ sget (fd_name fd) (ds_data d) = Some c /\ c_raw c = []) ds.
Proof. induction 1 as [|t d ts ds (_ & _ & _ & H) HF IH]; constructor; assumption. Qed.

Lemma prefix_sorted {A} (R : A -> A -> Prop) a b : StronglySorted R (a ++ b) -> StronglySorted R a.
Proof.
  induction a as [|x a IH]; intros H; [constructor|]. inversion H; subst. constructor; [now apply IH|].
  match goal with K : Forall _ (a ++ b) |- _ => apply Forall_app in K; apply K end.
Qed.

Lemma info_types u w l : (forall k, In k (dkeys l) -> sget k (u_infot w) = sget k (u_infot u)) ->
  map (info_message w) l = map (info_message u) l.
Proof.
  intros H. apply map_ext_in. intros [k v] Hin. unfold info_message, lookup. cbn [fst snd].
  rewrite H; [reflexivity|]. apply (in_map fst) in Hin. exact Hin.
Qed.
Lemma multi_types u w l : (forall k, In k (dkeys l) -> sget k (u_multit w) = sget k (u_multit u)) ->
  flat_map (multi_messages w) l = flat_map (multi_messages u) l.
Proof.
  intros H. rewrite !flat_map_concat_map. f_equal. apply map_ext_in. intros [k v] Hin. unfold multi_messages, lookup. cbn [fst snd].
  rewrite H; [reflexivity|]. apply (in_map fst) in Hin. exact Hin.
Qed.

(** the topics in [first_parts] are in the order of their ids *)
Lemma topics_sorted u fm i mu p d s : first_parts u fm i mu p d s -> StronglySorted (fun a b => ds_id a <= ds_id b) s.
Proof.
  intros H. destruct H; try constructor. destruct H as (_ & H & _). eapply prefix_sorted, H.
Qed.

Lemma begins_messages u w topics : begins u w -> Forall2 unsampled topics (u_data w) ->
  first_parts u (u_formats w) (u_info w) (u_multi w) (u_params w) (u_defaults w) topics ->
  messages w = head_messages u ++
    map format_message (map snd (u_formats w)) ++ map (info_message u) (u_info w) ++
    flat_map (multi_messages u) (u_multi w) ++ map param_message (u_params w) ++
    flat_map default_messages (u_defaults w) ++ map sub_message topics.
Proof.
  intros [(A & B & C & D) _ (T1 & T2) (L1 & L2 & L3 & L4)] HF HP.
  assert (Eid : by_id w = u_data w).
  { apply by_id_sorted. eapply Forall2_sorted; [exact HF|]. eapply topics_sorted, HP. }
  unfold messages, head_messages. rewrite (data_none w L1 L2 L3 L4) by (rewrite Eid; eapply Forall2_bare, HF).
  rewrite Eid, (Forall2_subs _ _ HF), (info_types u w _ T1), (multi_types u w _ T2), app_nil_r.
  unfold write_header, write_flags. rewrite A, B, C, D. reflexivity.
Qed.

Lemma prefix_refl {A} (l : list A) : prefix l l.
Proof. exists []. now rewrite app_nil_r. Qed.
Lemma prefix_map {A B} (f : A -> B) a b : prefix (map f a) (map f (a ++ b)).
Proof. exists (map f b). apply map_app. Qed.
Lemma prefix_flat {A B} (f : A -> list B) a b : prefix (flat_map f a) (flat_map f (a ++ b)).
Proof. exists (flat_map f b). apply flat_map_app. Qed.
Lemma prefix_more {A} (a b c : list A) : prefix b c -> prefix (a ++ b) (a ++ c).
Proof. intros (r & ->). exists r. now rewrite app_assoc. Qed.
Lemma prefix_longer {A} (a b c : list A) : prefix a b -> prefix a (b ++ c).
Proof. intros (r & ->). exists (r ++ c). now rewrite app_assoc. Qed.
Lemma prefix_end {A} (a : list A) : prefix [] a.
Proof. exists a. reflexivity. Qed.

Lemma set_prefix key ty g h : prefix (set_messages key ty g) (set_messages key ty (g ++ h)).
Proof.
  destruct g as [|v g]; [apply prefix_end|]. cbn [set_messages app].
  apply (prefix_more [multi_message key ty 0 v]). apply prefix_map.
Qed.
Lemma multi_prefix u a l : multi_first a l -> prefix (flat_map (multi_messages u) a) (flat_map (multi_messages u) l).
Proof.
  intros [(b & ->)|(c & k & gs & gs' & b & -> & -> & Hg)]; [apply prefix_flat|].
  rewrite !flat_map_app. apply prefix_more. cbn [flat_map]. rewrite app_nil_r. apply prefix_longer.
  unfold multi_messages. cbn [fst snd]. destruct (lookup k (u_multit u)) as [ty|e]; [|apply prefix_refl].
  destruct Hg as [(x & ->)|(c1 & g & h & x & -> & ->)]; [apply prefix_flat|].
  rewrite !flat_map_app. apply prefix_more. cbn [flat_map]. rewrite app_nil_r. apply prefix_longer. apply set_prefix.
Qed.
Lemma defaults_prefix a l : defaults_first a l -> prefix (flat_map default_messages a) (flat_map default_messages l).
Proof.
  intros [(b & ->)|(c & t & d & d' & b & -> & ->)]; [apply prefix_flat|].
  rewrite !flat_map_app. apply prefix_more. cbn [flat_map]. rewrite app_nil_r. apply prefix_longer.
  unfold default_messages. cbn [fst snd]. destruct (t <? 0); [apply prefix_refl|]. apply prefix_map.
Qed.

Lemma parts_prefix u fm i mu p d s : first_parts u fm i mu p d s ->
  prefix (head_messages u ++ map format_message (map snd fm) ++ map (info_message u) i ++
    flat_map (multi_messages u) mu ++ map param_message p ++ flat_map default_messages d ++ map sub_message s) (messages u).
Proof.
  intros H. unfold messages. rewrite (app_assoc [write_header u] [write_flags u]). fold (head_messages u). apply prefix_more.
  destruct H as [a b E|a b E|a E|a b E|a E|a b E]; cbn [map flat_map app]; rewrite ?app_nil_r.
  - rewrite E, map_app. apply prefix_longer, prefix_map.
  - apply prefix_more. rewrite E. apply prefix_longer, prefix_map.
  - do 2 apply prefix_more. apply prefix_longer, multi_prefix, E.
  - do 3 apply prefix_more. rewrite E. apply prefix_longer, prefix_map.
  - do 4 apply prefix_more. apply prefix_longer, defaults_prefix, E.
  - do 5 apply prefix_more. apply sorted_by_id in E. rewrite <- E. apply prefix_longer, prefix_map.
Qed.

Theorem begins_prefix u w : begins u w -> prefix (messages w) (messages u).
Proof.
  intros H. pose proof H as H'. destruct H' as [_ (topics & HF & HP) _ _].
  rewrite (begins_messages u w topics H HF HP). now apply parts_prefix.
Qed.

(** ** The object that was written *)
Definition bare (ds : dataset) : dataset :=
  mkDS (ds_multi ds) (ds_id ds) (ds_name ds) [mkFD (lit "timestamp") U64] 0 [(lit "timestamp", mkCol (np_of U64) [])].
Definition short (u : ulog) fm i mu p d s : ulog :=
  set_data (map bare s) (set_changed [] (set_dropouts [] (set_tagged [] (set_logged []
    (set_defaults d (set_params p (set_multi mu (set_info i (set_formats fm u))))))))).
Lemma bare_unsampled s : Forall2 unsampled s (map bare s).
Proof.
  induction s as [|d s IH]; constructor; [|exact IH]. repeat (split; [reflexivity|]).
  do 3 eexists. split; [reflexivity|]. split; [reflexivity|]. reflexivity.
Qed.
Lemma short_begins u fm i mu p d s : first_parts u fm i mu p d s -> begins u (short u fm i mu p d s).
Proof.
  intros H. constructor.
  - repeat split; reflexivity.
  - exists s. split; [apply bare_unsampled|exact H].
  - split; reflexivity.
  - repeat split; reflexivity.
Qed.
Lemma short_written u fm i mu p d s bs : first_parts u fm i mu p d s ->
  head_messages u ++ map format_message (map snd fm) ++ map (info_message u) i ++
    flat_map (multi_messages u) mu ++ map param_message p ++ flat_map default_messages d ++ map sub_message s = map Ok bs ->
  exists w, begins u w /\ write w = Ok (concat bs).
Proof.
  intros H E. exists (short u fm i mu p d s). pose proof (short_begins _ _ _ _ _ _ _ H) as Hb. split; [exact Hb|].
  rewrite write_messages, (begins_messages u _ s Hb (bare_unsampled s) H). cbn [short set_data set_changed set_dropouts set_tagged set_logged
    set_defaults set_params set_multi set_info set_formats u_formats u_info u_multi u_params u_defaults]. rewrite E. apply out_ok.
Qed.

Lemma set_stops key ty vs bs e r : set_messages key ty vs = map Ok bs ++ Err e :: r ->
  exists a x b, vs = a ++ x :: b /\ set_messages key ty a = map Ok bs.
Proof.
  destruct vs as [|v vs]; cbn [set_messages]; intros H; [destruct bs; discriminate|].
  destruct bs as [|b bs]; cbn [map app] in H; injection H as Hx H.
  - exists [], v, vs. split; reflexivity.
  - destruct (seg_map _ _ _ _ _ H) as (a & x & c & -> & Ha). exists (v :: a), x, c. split; [reflexivity|].
    cbn [set_messages map]. now rewrite Hx, Ha.
Qed.
Lemma multi_stops u l bs e r : flat_map (multi_messages u) l = map Ok bs ++ Err e :: r ->
  exists a, multi_first a l /\ flat_map (multi_messages u) a = map Ok bs.
Proof.
  intros H. destruct (seg_flat _ _ _ _ _ H) as (a & [k gs] & b & b1 & b2 & r' & -> & Ha & Hx & ->).
  unfold multi_messages in Hx. cbn [fst snd] in Hx. destruct (lookup k (u_multit u)) as [ty|e'] eqn:El.
  - destruct (seg_flat _ _ _ _ _ Hx) as (c & g & d & c1 & c2 & r2 & -> & Hc & Hg & ->).
    destruct (set_stops _ _ _ _ _ _ Hg) as (g1 & x & g2 & -> & Hg1).
    exists (a ++ [(k, c ++ [g1])]). split.
    + right. exists a, k, (c ++ [g1]), (c ++ (g1 ++ x :: g2) :: d), b. split; [reflexivity|]. split; [reflexivity|].
      right. exists c, g1, (x :: g2), d. split; reflexivity.
    + rewrite flat_map_app, Ha. cbn [flat_map]. unfold multi_messages. cbn [fst snd]. rewrite El, flat_map_app, Hc.
      cbn [flat_map]. rewrite Hg1, !app_nil_r, ?map_app. reflexivity.
  - destruct b2 as [|x [|]]; try discriminate. exists a. split; [left; eauto|]. now rewrite Ha, app_nil_r.
Qed.
Lemma defaults_stops l bs e r : flat_map default_messages l = map Ok bs ++ Err e :: r ->
  exists a, defaults_first a l /\ flat_map default_messages a = map Ok bs.
Proof.
  intros H. destruct (seg_flat _ _ _ _ _ H) as (a & [t d] & b & b1 & b2 & r' & -> & Ha & Hx & ->).
  unfold default_messages in Hx. cbn [fst snd] in Hx. destruct (t <? 0) eqn:Et.
  - destruct b2 as [|x [|]]; try discriminate. exists a. split; [left; eauto|]. now rewrite Ha, app_nil_r.
  - destruct (seg_map _ _ _ _ _ Hx) as (c & x & d2 & -> & Hc).
    exists (a ++ [(t, c)]). split.
    + right. exists a, t, c, (x :: d2), b. split; reflexivity.
    + rewrite flat_map_app, Ha. cbn [flat_map]. unfold default_messages. cbn [fst snd]. rewrite Et, Hc, app_nil_r, map_app. reflexivity.
Qed.

Theorem stops_at u b e : put_all (messages u) = (b, Some e) ->
  (b = [] /\ write_header u = Err e) \/
  (write_header u = Ok b /\ write_flags u = Err e) \/
  (exists w, begins u w /\ write w = Ok b).
Proof.
  intros H. apply put_stops in H as (bs & r & E & ->). unfold messages in E.
  apply seg in E as [(r' & E)|(b1 & b2 & E1 & -> & E)].
  { destruct bs as [|x [|]]; try discriminate. cbn [map app] in E. injection E as E _. left. auto. }
  destruct b1 as [|h [|]]; try discriminate. cbn [map] in E1. injection E1 as Eh.
  apply seg in E as [(r' & E)|(b3 & b4 & E2 & -> & E)].
  { destruct b2 as [|x [|]]; try discriminate. cbn [map app] in E. injection E as E _. right. left.
    cbn [app concat]. rewrite app_nil_r. auto. }
  destruct b3 as [|g [|]]; try discriminate. cbn [map] in E2. injection E2 as Eg. right. right.
  assert (Eh2 : head_messages u = map Ok [h; g]) by (unfold head_messages; rewrite Eh, Eg; reflexivity).
  cbn [app]. change (h :: g :: b4) with ([h; g] ++ b4). clear Eh Eg.
  apply seg in E as [(r' & E)|(c1 & d1 & F1 & -> & E)].
  { rewrite map_map in E. destruct (seg_map _ _ _ _ _ E) as (a & x & c & Hl & Ha).
    apply (short_written u a [] [] [] [] []); [eapply fp_formats, Hl|].
    cbn [map flat_map app]. rewrite !app_nil_r, Eh2, map_map, Ha. reflexivity. }
  apply seg in E as [(r' & E)|(c2 & d2 & F2 & -> & E)].
  { destruct (seg_map _ _ _ _ _ E) as (a & x & c & Hl & Ha).
    apply (short_written u (u_formats u) a [] [] [] []); [eapply fp_info, Hl|].
    cbn [map flat_map app]. rewrite !app_nil_r, Eh2, F1, Ha, ?map_app. reflexivity. }
  apply seg in E as [(r' & E)|(c3 & d3 & F3 & -> & E)].
  { destruct (multi_stops _ _ _ _ _ E) as (a & Hl & Ha).
    apply (short_written u (u_formats u) (u_info u) a [] [] []); [eapply fp_multi, Hl|].
    cbn [map flat_map app]. rewrite !app_nil_r, Eh2, F1, F2, Ha, ?map_app. reflexivity. }
  apply seg in E as [(r' & E)|(c4 & d4 & F4 & -> & E)].
  { destruct (seg_map _ _ _ _ _ E) as (a & x & c & Hl & Ha).
    apply (short_written u (u_formats u) (u_info u) (u_multi u) a [] []); [eapply fp_params, Hl|].
    cbn [map flat_map app]. rewrite !app_nil_r, Eh2, F1, F2, F3, Ha, ?map_app. reflexivity. }
  apply seg in E as [(r' & E)|(c5 & d5 & F5 & -> & E)].
  { destruct (defaults_stops _ _ _ _ E) as (a & Hl & Ha).
    apply (short_written u (u_formats u) (u_info u) (u_multi u) (u_params u) a []); [eapply fp_defaults, Hl|].
    cbn [map app]. rewrite !app_nil_r, Eh2, F1, F2, F3, F4, Ha, ?map_app. reflexivity. }
  assert (Hsort : sorted_from ds_id (u_data u) (by_id u)) by exact (ssort_sorted_from ds_id (u_data u)).
  apply seg in E as [(r' & E)|(c6 & d6 & F6 & -> & E)].
  { destruct (seg_map _ _ _ _ _ E) as (a & x & c & Hl & Ha). rewrite Hl in Hsort.
    apply (short_written u (u_formats u) (u_info u) (u_multi u) (u_params u) (u_defaults u) a); [eapply fp_topics, Hsort|].
    rewrite Eh2, F1, F2, F3, F4, F5, Ha, ?map_app. reflexivity. }
  apply (short_written u (u_formats u) (u_info u) (u_multi u) (u_params u) (u_defaults u) (by_id u)).
  { apply fp_topics with []. now rewrite app_nil_r. }
  unfold data_messages in E. destruct (write_data u) as [l|e'].
  - exfalso. clear -E. revert E. generalize (map (@Ok bytes) d6). intros x. revert l. induction x as [|y x IH]; intros [|z l] E; try discriminate.
    cbn [map app] in E. injection E as _ E. eapply IH, E.
  - destruct d6 as [|y [|]]; try discriminate. rewrite Eh2, F1, F2, F3, F4, F5, F6, !map_app, app_nil_r. reflexivity.
Qed.
