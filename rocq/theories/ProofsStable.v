(** Writing a log a second time. *)
From Coq Require Import Permutation Sorted.
From Verif Require Import Base Dict Utf8 PyStr PyFloat Struct PySort ModelTypes ModelRead ModelWrite
  Spec SpecSection SpecMsg SpecLog SpecWrite ProofsRead ProofsMsg ProofsInv ProofsTrace ProofsChange ProofsSection ProofsFields ProofsLog ProofsEq ProofsWrite
  ProofsRound ProofsBack ProofsSame ProofsCopy.
Ltac Zify.zify_post_hook ::= Z.div_mod_to_equations.

(** ** First occurrences *)
Fixpoint firsts (seen l : list Z) : list Z :=
  match l with
  | [] => []
  | x :: r => if existsb (Z.eqb x) seen then firsts seen r else x :: firsts (x :: seen) r
  end.
Lemma existsb_In x l : existsb (Z.eqb x) l = true <-> In x l.
Proof.
  split; [intros H; apply existsb_exists in H as (y & Hy & E); apply Z.eqb_eq in E; now subst|].
  intros H. apply existsb_exists. exists x. split; [exact H|apply Z.eqb_refl].
Qed.
Lemma existsb_ext x a b : (forall y : Z, In y a <-> In y b) -> existsb (Z.eqb x) a = existsb (Z.eqb x) b.
Proof.
  intros H. destruct (existsb (Z.eqb x) a) eqn:E; symmetry; [apply existsb_In, H, existsb_In, E|].
  destruct (existsb (Z.eqb x) b) eqn:F; [|reflexivity]. apply existsb_In, H, existsb_In in F. congruence.
Qed.
Lemma firsts_ext l : forall a b, (forall y, In y a <-> In y b) -> firsts a l = firsts b l.
Proof.
  induction l as [|x l IH]; intros a b H; [reflexivity|]. cbn [firsts]. rewrite (existsb_ext x a b H).
  destruct (existsb (Z.eqb x) b); [now apply IH|]. f_equal. apply IH. intros y. cbn [In]. now rewrite H.
Qed.
Lemma firsts_filter l : forall a s, firsts (a ++ s) l = firsts s (filter (fun x => negb (existsb (Z.eqb x) a)) l).
Proof.
  induction l as [|x l IH]; intros a s; [reflexivity|]. cbn [firsts filter]. rewrite existsb_app.
  destruct (existsb (Z.eqb x) a) eqn:E; cbn [orb negb]; [apply IH|]. cbn [firsts]. destruct (existsb (Z.eqb x) s); [apply IH|].
  f_equal. rewrite <- IH. apply firsts_ext. intros y. rewrite in_app_iff. cbn [In]. rewrite in_app_iff. tauto.
Qed.
Lemma zset_keys k (v : list tagmsg) d : In k (map fst d) -> map fst (zset k v d) = map fst d.
Proof.
  induction d as [|[k' v'] d IH]; cbn [map fst In dset]; [tauto|]. intros H. destruct (Z.eqb_spec k k') as [->|]; [reflexivity|].
  cbn [map fst]. f_equal. apply IH. destruct H; [congruence|assumption].
Qed.
Lemma ins_keys d m : map fst (ins_tag d m) = if existsb (Z.eqb (tg_tag m)) (map fst d) then map fst d else map fst d ++ [tg_tag m].
Proof.
  unfold ins_tag. destruct (existsb (Z.eqb (tg_tag m)) (map fst d)) eqn:E.
  - apply existsb_In in E. destruct (zget (tg_tag m) d) eqn:Eg.
    + now apply zset_keys.
    + now apply (dget_None Z.eqb Zeqb_spec) in Eg.
  - assert (N : ~ In (tg_tag m) (map fst d)) by (intros H; apply existsb_In in H; congruence).
    rewrite (proj2 (dget_None Z.eqb Zeqb_spec (tg_tag m) d) N). now rewrite (dset_new Z.eqb Zeqb_spec), map_app by exact N.
Qed.
Lemma fold_keys l : forall d, map fst (fold_left ins_tag l d) = map fst d ++ firsts (map fst d) (map tg_tag l).
Proof.
  induction l as [|m l IH]; intros d; [now rewrite app_nil_r|]. cbn [fold_left map firsts]. rewrite IH, ins_keys.
  destruct (existsb (Z.eqb (tg_tag m)) (map fst d)); [reflexivity|]. rewrite <- app_assoc. cbn [app]. f_equal. f_equal.
  apply firsts_ext. intros y. rewrite in_app_iff. cbn [In]. tauto.
Qed.

Definition tag_leb (a b : tagmsg) : bool := tg_ts a <=? tg_ts b.
Lemma tag_total a b : tag_leb a b = true \/ tag_leb b a = true.
Proof. unfold tag_leb. lia. Qed.
Lemma tag_trans a b c : tag_leb a b = true -> tag_leb b c = true -> tag_leb a c = true.
Proof. unfold tag_leb. lia. Qed.
Lemma insert_min {A} (leb : A -> A -> bool) x l : Forall (fun y => leb x y = true) l -> insert leb x l = x :: l.
Proof. destruct 1 as [|y l H _]; cbn [insert]; [reflexivity|]. now rewrite H. Qed.
Definition tag_dict (d : dict Z (list tagmsg)) : Prop :=
  NoDup (map fst d) /\ forall t l, In (t, l) d -> l <> [] /\ non_decreasing (map tg_ts l) /\ Forall (fun m => tg_tag m = t) l.
Definition heads (d : dict Z (list tagmsg)) : list Z := flat_map (fun tl => match snd tl with m :: _ => [tg_ts m] | [] => [] end) d.
Lemma ordered_keys d : tag_dict d -> non_decreasing (heads d) ->
  firsts [] (map tg_tag (ssort tag_leb (concat (map snd d)))) = map fst d.
Proof.
  induction d as [|[t l] d IH]; intros [Hn Hl] Ho; [reflexivity|].
  destruct (Hl t l (or_introl eq_refl)) as (L1 & L2 & L3). destruct l as [|m rest]; [congruence|].
  inversion L3 as [|? ? Ht L3']; subst. cbn [map fst] in Hn. inversion Hn as [|? ? Hn1 Hn2]; subst.
  cbn [heads flat_map snd app] in Ho. inversion Ho as [|? ? Ho1 Ho2]; subst. cbn [map] in L2. inversion L2 as [|? ? _ L2']; subst.
  assert (Hd : tag_dict d) by (split; [exact Hn2|]; intros; eapply Hl; right; eassumption).
  cbn [map snd concat app ssort fst]. rewrite insert_min.
  - cbn [map firsts existsb]. f_equal. rewrite <- (app_nil_r [tg_tag m]), firsts_filter, <- (IH Hd Ho1). f_equal.
    set (q := fun m0 : tagmsg => negb (existsb (Z.eqb (tg_tag m0)) [tg_tag m])).
    assert (E : forall l, filter (fun x => negb (existsb (Z.eqb x) [tg_tag m])) (map tg_tag l) = map tg_tag (filter q l)).
    { induction l as [|x l0 IH']; [reflexivity|]. cbn [map filter]. unfold q at 1. destruct (negb _); cbn [map]; now rewrite IH'. }
    rewrite E. rewrite (filter_ssort tag_leb) by (exact tag_total || exact tag_trans). f_equal. f_equal. rewrite filter_app.
    rewrite filter_none, filter_all; [reflexivity| |].
    + apply Forall_forall. intros x Hx. apply in_concat in Hx as (l & Hl1 & Hx). apply in_map_iff in Hl1 as ([t' l'] & <- & Hin). cbn [snd] in Hx.
      destruct (proj2 Hd t' l' Hin) as (_ & _ & F). rewrite Forall_forall in F. unfold q. rewrite (F x Hx). cbn [existsb].
      destruct (Z.eqb_spec t' (tg_tag m)) as [->|]; [|reflexivity]. exfalso. apply Hn1. change (tg_tag m) with (fst (tg_tag m, l')). now apply in_map.
    + eapply Forall_impl; [|exact L3']. intros x Hx. unfold q. rewrite Hx. cbn [existsb]. now rewrite Z.eqb_refl.
  - apply Forall_forall. intros x Hx. apply (Permutation_in x (Permutation_sym (ssort_perm tag_leb _))) in Hx. unfold tag_leb. apply Z.leb_le.
    apply in_app_or in Hx as [Hx|Hx].
    + rewrite Forall_map in L2'. rewrite Forall_forall in L2'. now apply L2'.
    + apply in_concat in Hx as (l & Hl1 & Hx). apply in_map_iff in Hl1 as ([t' l'] & <- & Hin). cbn [snd] in Hx.
      destruct (proj2 Hd t' l' Hin) as (F1 & F2 & _). destruct l' as [|m' r']; [congruence|].
      assert (tg_ts m <= tg_ts m').
      { rewrite Forall_forall in Ho2. apply Ho2. unfold heads. apply in_flat_map. exists (t', m' :: r'). split; [exact Hin|now left]. }
      destruct Hx as [->|Hx]; [assumption|]. cbn [map] in F2. inversion F2 as [|? ? _ F3]; subst. rewrite Forall_map, Forall_forall in F3.
      specialize (F3 x Hx). cbn in F3. lia.
Qed.

(** Grouping a list that is sorted by time orders the tags by their first time. *)
Lemma zget_fold l : forall d g, zget g (fold_left ins_tag l d) =
  match filter (fun m => tg_tag m =? g) l with [] => zget g d | ms => Some (match zget g d with Some l0 => l0 | None => [] end ++ ms) end.
Proof.
  induction l as [|m l IH]; intros d g; [reflexivity|]. cbn [fold_left filter]. rewrite IH.
  assert (E : zget g (ins_tag d m) = if tg_tag m =? g then Some (match zget g d with Some l0 => l0 | None => [] end ++ [m]) else zget g d).
  { unfold ins_tag. destruct (zget (tg_tag m) d) as [l0|] eqn:Eg; destruct (Z.eqb_spec (tg_tag m) g) as [<-|Hne].
    - now rewrite (dget_dset_eq Z.eqb Zeqb_spec), Eg.
    - rewrite (dget_dset_neq Z.eqb Zeqb_spec) by congruence. reflexivity.
    - now rewrite (dget_dset_eq Z.eqb Zeqb_spec), Eg.
    - rewrite (dget_dset_neq Z.eqb Zeqb_spec) by congruence. reflexivity. }
  rewrite E. destruct (tg_tag m =? g).
  - destruct (filter _ l); [reflexivity|]. now rewrite <- app_assoc.
  - reflexivity.
Qed.

Lemma heads_zset k l0 m d : l0 <> [] -> zget k d = Some l0 -> heads (zset k (l0 ++ [m]) d) = heads d.
Proof.
  intros Hl. induction d as [|[k' v'] d IH]; cbn [dget dset fst]; [discriminate|]. destruct (Z.eqb_spec k k') as [->|].
  - intros H. injection H as ->. unfold heads. cbn [flat_map snd]. destruct l0; [congruence|reflexivity].
  - intros H. specialize (IH H). unfold heads in *. cbn [flat_map]. now rewrite IH.
Qed.
Lemma non_decreasing_snoc l x : non_decreasing l -> Forall (fun y => y <= x) l -> non_decreasing (l ++ [x]).
Proof.
  induction 1 as [|y l H IH Hy]; intros F; cbn [app]; [repeat constructor|]. inversion F; subst. constructor; [apply IH; assumption|].
  apply Forall_app. split; [exact Hy|]. constructor; [assumption|constructor].
Qed.
Lemma fold_heads l : non_decreasing (map tg_ts l) ->
  let d := fold_left ins_tag l [] in
  non_decreasing (heads d) /\ (forall x, In x (heads d) -> In x (map tg_ts l)) /\ (forall k v, In (k, v) d -> v <> []).
Proof.
  induction l as [|m l IH] using rev_ind; intros H; [cbn; repeat split; [constructor|tauto|tauto]|].
  rewrite map_app in H. cbn [map] in H.
  assert (Hs : non_decreasing (map tg_ts l) /\ Forall (fun y => y <= tg_ts m) (map tg_ts l)).
  { clear IH. revert H. generalize (map tg_ts l). induction l0 as [|y r IH]; intros H; [split; constructor|]. cbn [app] in H.
    inversion H as [|? ? H1 H2]; subst. destruct (IH H1) as [I1 I2]. apply Forall_app in H2 as [H2 H3]. inversion H3; subst. split; constructor; auto. }
  destruct Hs as [Hs Hle]. destruct (IH Hs) as (I1 & I2 & I3). clear IH. cbv zeta in *. rewrite fold_left_app. cbn [fold_left].
  set (d := fold_left ins_tag l []) in *. unfold ins_tag. destruct (zget (tg_tag m) d) as [l0|] eqn:Eg.
  - pose proof (I3 _ _ (dget_In Z.eqb Zeqb_spec _ _ _ Eg)) as Hl0. rewrite heads_zset by assumption. split; [exact I1|]. split.
    + intros x Hx. rewrite map_app. apply in_or_app. left. auto.
    + intros k v Hin. apply (dset_In Z.eqb Zeqb_spec) in Hin as [[_ ->]|Hin]; [now destruct l0|eauto].
  - rewrite (dset_new Z.eqb Zeqb_spec) by now apply (dget_None Z.eqb Zeqb_spec).
    assert (Hh : heads (d ++ [(tg_tag m, [m])]) = heads d ++ [tg_ts m]) by (unfold heads; rewrite flat_map_app; reflexivity).
    rewrite Hh. split; [apply non_decreasing_snoc; [exact I1|]|split].
    + apply Forall_forall. intros y Hy. rewrite Forall_forall in Hle. auto.
    + intros x Hx. rewrite map_app. apply in_or_app. apply in_app_or in Hx as [Hx|[<-|[]]]; [left; auto|right; now left].
    + intros k v Hin. apply in_app_or in Hin as [Hin|[E|[]]]; [eauto|]. injection E as _ <-. discriminate.
Qed.

(** ** The second object *)
Lemma refits u u' : fits_format u -> copy_of u u' -> tag_dict (u_tagged u') -> u_subs u' = [] -> fits_format u'.
Proof.
  intros F C T Hs. destruct C as [(C1 & C2 & C3) (C4 & C5 & C6) C7 (C8 & C9) (C10 & C11) (C12 & C13 & C14) (C15 & C16) C17 C18 (C19 & C20 & C21 & C22 & C23)].
  destruct F. unfold anchored, sample_times in *. constructor; unfold anchored, sample_times; rewrite ?C1, ?C2, ?C3, ?C7, ?C8, ?C9, ?C10, ?C11, ?C12, ?C13, ?C14, ?C15, ?C17, ?C18; auto.
  - rewrite C4, C5. destruct ff_flags as (A1 & A2 & A3 & A4 & A5). destruct (without_append_fits _ A3 A4) as (B1 & B2 & B3).
    repeat (split; [assumption|]). clear -A5. unfold known_incompat in *. destruct (u_incompat u) as [|x r]; [exact A5|].
    cbn [without_append tl nth] in *. destruct A5 as [A5 A6]. split; [|exact A6].
    rewrite <- Z.land_assoc, (Z.land_comm 254), Z.land_assoc, A5. reflexivity.
  - destruct T as [T1 T2]. split; [exact T1|]. intros t l Hin. destruct (T2 t l Hin) as (L1 & L2 & L3). split; [exact L1|]. split; [exact L2|].
    assert (G : zget t (u_tagged u') = Some l) by now apply (In_dget Z.eqb Zeqb_spec).
    rewrite C16 in G. apply (dget_In Z.eqb Zeqb_spec) in G. apply (ff_tagged). eassumption.
Qed.
Lemma sorted_tags l : non_decreasing (map tg_ts (ssort tag_leb l)).
Proof.
  pose proof (ssort_sorted tag_leb tag_total tag_trans l) as H. induction H as [|m r H IH Hm]; [constructor|]. cbn [map]. constructor; [exact IH|].
  apply Forall_map. eapply Forall_impl; [|exact Hm]. intros a Ha. apply Z.leb_le. exact Ha.
Qed.
Lemma fold_NoDup l : forall d, NoDup (map fst d) -> NoDup (map fst (fold_left ins_tag l d)).
Proof.
  induction l as [|m l IH]; intros d H; [exact H|]. cbn [fold_left]. apply IH. unfold ins_tag.
  destruct (zget _ d); apply (NoDup_dset Z.eqb Zeqb_spec); exact H.
Qed.
Lemma fits_tag_dict u : fits_format u -> tag_dict (u_tagged u).
Proof.
  intros F. destruct (ff_tagged u F) as [H1 H2]. split; [exact H1|]. intros t l Hin. destruct (H2 t l Hin) as (L1 & L2 & L3).
  split; [exact L1|]. split; [exact L2|]. eapply Forall_impl; [|exact L3]. intros m [E _]. exact E.
Qed.
Lemma reread_dict u u' : fits_format u -> copy_of u u' ->
  u_tagged u' = fold_left ins_tag (ssort tag_leb (concat (map snd (u_tagged u)))) [] -> tag_dict (u_tagged u') /\ tags_ordered u'.
Proof.
  intros F C E. destruct (fits_tag_dict u F) as [T1 T2].
  destruct (fold_heads _ (sorted_tags (concat (map snd (u_tagged u))))) as (H1 & _ & H3). rewrite <- E in *.
  split; [|exact H1]. assert (Hn : NoDup (map fst (u_tagged u'))) by (rewrite E; apply fold_NoDup; constructor).
  split; [exact Hn|]. intros t l Hin. assert (G : zget t (u_tagged u') = Some l) by now apply (In_dget Z.eqb Zeqb_spec).
  destruct (cp_messages _ _ C) as [_ C2]. rewrite C2 in G. apply T2. now apply (dget_In Z.eqb Zeqb_spec).
Qed.
Lemma same_tags u u' : fits_format u -> copy_of u u' -> tags_ordered u ->
  u_tagged u' = fold_left ins_tag (ssort tag_leb (concat (map snd (u_tagged u)))) [] -> u_tagged u' = u_tagged u.
Proof.
  intros F C O E. pose proof (fits_tag_dict u F) as T.
  assert (K : map fst (u_tagged u') = map fst (u_tagged u)).
  { rewrite E, fold_keys. cbn [map app]. now apply ordered_keys. }
  apply (dict_ext Z.eqb Zeqb_spec); [exact K|rewrite K; apply T|]. intros k _. apply (cp_messages _ _ C).
Qed.
Lemma same_write u u' : copy_of u u' -> u_tagged u' = u_tagged u -> write u' = write u.
Proof.
  intros C T. destruct C as [(C1 & C2 & C3) (C4 & C5 & C6) C7 (C8 & C9) (C10 & C11) (C12 & C13 & C14) (C15 & _) C17 C18 _].
  assert (Fl : write_flags u' = write_flags u).
  { unfold write_flags. rewrite C4, C5. destruct (u_incompat u) as [|x r]; [reflexivity|]. cbn [without_append].
    rewrite <- Z.land_assoc. reflexivity. }
  unfold write. rewrite Fl. unfold write_header, write_formats, write_info, write_multi, write_params, write_defaults, write_subscriptions, write_data,
    data_items, logged_items, tagged_items, dropout_items, changed_items, by_id.
  now rewrite C1, C2, C7, C8, C9, C10, C11, C12, C13, C14, C15, C17, C18, T.
Qed.

Theorem stable u f : fits_format u -> tags_ordered u -> write u = Ok f -> lenZ f <= BIG ->
  exists depth, forall cf, (depth <= cf_depth cf)%nat -> cf_hdr cf = false -> (forall n, cf_filter cf n = true) ->
    exists u', (forall r, produces cf f r <-> r = Ok u') /\ write u' = Ok f.
Proof.
  intros F O E Hl. destruct (round_trip u F) as (f' & E' & H). rewrite E in E'. injection E' as <-.
  destruct (H Hl) as (depth & Hd). exists depth. intros cf H1 H2 H3. destruct (Hd cf H1 H2 H3) as (u' & A & B & _ & D).
  exists u'. split; [exact A|]. rewrite <- E. apply same_write; [exact B|]. now apply same_tags.
Qed.
Theorem stable_second u f : fits_format u -> write u = Ok f -> lenZ f <= BIG ->
  exists depth, forall cf, (depth <= cf_depth cf)%nat -> cf_hdr cf = false -> (forall n, cf_filter cf n = true) ->
    exists u1 f1, (forall r, produces cf f r <-> r = Ok u1) /\ write u1 = Ok f1 /\
    (lenZ f1 <= BIG -> exists depth1, forall cf1, (depth1 <= cf_depth cf1)%nat -> cf_hdr cf1 = false -> (forall n, cf_filter cf1 n = true) ->
       exists u2, (forall r, produces cf1 f1 r <-> r = Ok u2) /\ write u2 = Ok f1).
Proof.
  intros F E Hl. destruct (round_trip u F) as (f' & E' & H). rewrite E in E'. injection E' as <-.
  destruct (H Hl) as (depth & Hd). exists depth. intros cf H1 H2 H3. destruct (Hd cf H1 H2 H3) as (u1 & A & B & S & D).
  destruct (reread_dict u u1 F B D) as [T O]. pose proof (refits u u1 F B T S) as F1.
  destruct (round_trip u1 F1) as (f1 & E1 & _). exists u1, f1. split; [exact A|]. split; [exact E1|]. intros Hl1.
  now apply (stable u1).
Qed.
