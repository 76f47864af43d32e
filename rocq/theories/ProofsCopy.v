(** A written log reads back with the same contents. *)
From Coq Require Import Permutation Sorted.
From Verif Require Import Base Dict Utf8 PyStr PyFloat Struct PySort ModelTypes ModelRead ModelWrite
  Spec SpecSection SpecMsg SpecLog SpecWrite ProofsRead ProofsMsg ProofsFile ProofsInv ProofsTrace ProofsChange
  ProofsSection ProofsExpand ProofsData ProofsWhole ProofsFields ProofsLoad ProofsCut ProofsDefaults ProofsLog ProofsEq
  ProofsWrite ProofsRound ProofsBack ProofsSame.
Ltac Zify.zify_post_hook ::= Z.div_mod_to_equations.

(** ** Generic lemmas *)
Lemma fold_max_ge l : forall a, a <= fold_left Z.max l a.
Proof. induction l as [|x l IH]; intros a; cbn [fold_left]; [lia|]. specialize (IH (Z.max a x)). lia. Qed.
Lemma fold_max_In l x : forall a, In x l -> x <= fold_left Z.max l a.
Proof.
  induction l as [|y l IH]; intros a; [intros []|]. intros [->|H]; cbn [fold_left]; [pose proof (fold_max_ge l (Z.max a x)); lia|auto].
Qed.
Lemma fold_max_le l b : forall a, a <= b -> Forall (fun x => x <= b) l -> fold_left Z.max l a <= b.
Proof. induction l as [|x l IH]; intros a Ha H; cbn [fold_left]; [exact Ha|]. inversion H; subst. apply IH; [lia|assumption]. Qed.
Lemma fold_max_perm l l' : Permutation l l' -> forall a, fold_left Z.max l a = fold_left Z.max l' a.
Proof.
  induction 1 as [|x l l' _ IH|x y l|l l' l'' _ IH1 _ IH2]; intros a; cbn [fold_left]; auto.
  - f_equal. lia.
  - now rewrite IH1.
Qed.
Lemma mid_split {A} (q : A -> bool) (a b l r : list A) p : a ++ b = l ++ p :: r -> Forall (fun x => q x = true) a ->
  Forall (fun x => q x = false) b -> q p = false -> Forall (fun x => q x = false) r.
Proof.
  revert l. induction a as [|x a IH]; intros l E Ha Hb Hp; cbn [app] in E.
  - rewrite E in Hb. apply Forall_app in Hb as [_ Hb]. now inversion Hb.
  - inversion Ha; subst. destruct l as [|y l]; cbn [app] in E; injection E as -> E; [congruence|]. eapply IH; eauto.
Qed.
Lemma dict_ext {K V} (eqb : K -> K -> bool) (spec : forall a b, reflect (a = b) (eqb a b)) (d d' : dict K V) :
  map fst d = map fst d' -> NoDup (map fst d) -> (forall k, In k (map fst d) -> dget eqb k d = dget eqb k d') -> d = d'.
Proof.
  revert d'. induction d as [|[k v] d IH]; intros [|[k' v'] d'] E Hn H; cbn [map fst] in *; try discriminate; [reflexivity|].
  injection E as -> E. inversion Hn as [|? ? Hn1 Hn2]; subst.
  pose proof (H k' (or_introl eq_refl)) as Hv. cbn [dget] in Hv. destruct (spec k' k'); [|congruence]. injection Hv as ->. f_equal.
  apply IH; auto. intros k Hk. specialize (H k (or_intror Hk)). cbn [dget] in H. destruct (spec k k') as [Ek|]; [rewrite Ek in Hk; contradiction|exact H].
Qed.
Lemma nth_raws l : map (fun i => nth i l 0) (seq 0 (length l)) = l.
Proof.
  apply nth_error_ext. intros i. destruct (nth_error l i) as [x|] eqn:E.
  - assert (Hi : (i < length l)%nat) by (apply nth_error_Some; congruence).
    erewrite map_nth_error; [|rewrite (nth_error_nth' _ 0%nat) by (now rewrite seq_length); rewrite seq_nth by exact Hi; reflexivity].
    cbn [plus]. f_equal. now apply nth_error_nth.
  - apply nth_error_None. apply nth_error_None in E. now rewrite map_length, seq_length.
Qed.

Lemma total_concat (g : fielddata -> Z) l : lenZ (concat (map (fun fd => le_enc (ctype_size (fd_type fd)) (g fd)) l)) = total l.
Proof.
  induction l as [|fd l IH]; [reflexivity|]. cbn [map concat]. change (total (fd :: l)) with (size_of fd + total l).
  rewrite lenZ_app, IH, lenZ_le. reflexivity.
Qed.
Lemma field_bytes_rec (g : fielddata -> Z) fields k fd : nth_error fields k = Some fd ->
  field_bytes fields k (concat (map (fun fd => le_enc (ctype_size (fd_type fd)) (g fd)) fields)) = le_enc (ctype_size (fd_type fd)) (g fd).
Proof.
  intros H. unfold field_bytes. rewrite H. destruct (nth_error_split _ _ H) as (a & b & -> & <-).
  rewrite firstn_app, Nat.sub_diag, firstn_O, app_nil_r, firstn_all, map_app, concat_app. cbn [map concat].
  apply slice_app_mid; rewrite total_concat; [reflexivity|]. rewrite lenZ_le. reflexivity.
Qed.
Lemma latest_inv fmts t0 pre m ts : latest fmts t0 (pre ++ [m]) ts ->
  (exists t, latest fmts t0 pre t /\ exists id r multi name recs fields s, m = MData id r /\
     current id pre = Some (multi, name, recs) /\ topic fmts name fields /\ stamped fields r s /\ ts = Z.max t s) \/
  ((forall id r, m <> MData id r) /\ latest fmts t0 pre ts).
Proof.
  intros H. inversion H as [E|pre' t id r multi name recs fields s H1 H2 H3 H4 E1 E2|pre' t m' H1 H2 E1 E2].
  - destruct pre; discriminate.
  - apply app_inj_tail in E1 as [-> E1]. left. exists t. split; [exact H1|]. exists id, r, multi, name, recs, fields, s. auto 6.
  - apply app_inj_tail in E1 as [-> E1]. right. rewrite <- E1. auto.
Qed.
Lemma latest_nil fmts t0 ts : latest fmts t0 [] ts -> ts = t0.
Proof.
  intros H. inversion H as [E|pre' t id r multi name recs fields s H1 H2 H3 H4 E1 E2|pre' t m' H1 H2 E1 E2]; [reflexivity| |];
    destruct pre'; discriminate.
Qed.

Lemma sorted_perm_eq {A} (R : A -> A -> Prop) l : forall l', StronglySorted R l -> StronglySorted R l' -> Permutation l l' ->
  (forall a b, In a l -> In b l -> R a b -> R b a -> a = b) -> l = l'.
Proof.
  induction l as [|x l IH]; intros [|y l'] H1 H2 P Ha; auto.
  - now apply Permutation_nil_cons in P.
  - now apply Permutation_sym, Permutation_nil_cons in P.
  - inversion H1 as [|? ? H1' Hx]; inversion H2 as [|? ? H2' Hy]; subst.
    assert (x = y).
    { assert (X : In x (y :: l')) by (eapply Permutation_in; [exact P|now left]).
      assert (Y : In y (x :: l)) by (eapply Permutation_in; [apply Permutation_sym, P|now left]).
      destruct X as [X|X]; [congruence|]. destruct Y as [Y|Y]; [congruence|]. rewrite Forall_forall in Hx, Hy.
      apply Ha; [now left|now right|auto|auto]. }
    subst y. f_equal. apply IH; auto; [now apply Permutation_cons_inv in P|]. intros a b Hia Hib. apply Ha; now right.
Qed.
(** the origin of a subscription *)
Lemma subscription_origin cf fmts evs id s rs : subscription cf fmts evs id = Some (s, rs) ->
  exists p, In (EMsg 65 p) evs /\ parse_add cf fmts p = Ok s.
Proof.
  revert s rs. induction evs as [|e evs IH] using rev_ind; intros s rs H; [discriminate|].
  rewrite subscription_snoc in H.
  assert (K : forall s rs, subscription cf fmts evs id = Some (s, rs) -> exists p, In (EMsg 65 p) (evs ++ [e]) /\ parse_add cf fmts p = Ok s).
  { intros s0 rs0 H0. destruct (IH _ _ H0) as (p & Hp & E). exists p. split; [apply in_or_app; now left|exact E]. }
  destruct e as [ty p| |]; cbn [sub_step] in H; eauto.
  destruct (Z.eqb_spec ty 65) as [->|_].
  - destruct (parse_add cf fmts p) as [s0|] eqn:Ep; eauto. destruct (_ && _); eauto.
    apply Some_inj in H. injection H as -> <-. exists p. split; [apply in_or_app; right; now left|exact Ep].
  - destruct (ty =? 68); eauto. destruct (msg_id p) as [i|]; eauto.
    destruct (subscription cf fmts evs id) as [[s0 rows]|] eqn:Es; [|discriminate]. destruct (_ && _); eauto.
    apply Some_inj in H. injection H as -> <-. eauto.
Qed.
Definition flags_of (m : msg) : list (list Z * list Z * list Z) :=
  match m with MFlags c i a b d => [(c, i, offsets_of a b d)] | _ => [] end.
Lemma flags_wire ms : Forall msg_ok ms -> flat_map (of_type 66 parse_flags) (msgs (map wire ms)) = flat_map flags_of ms.
Proof.
  intros H. unfold msgs. rewrite map_map, flat_map_map. induction H as [|m ms Hm _ IH]; [reflexivity|]. cbn [flat_map]. rewrite IH. f_equal.
  destruct m; try reflexivity. cbn [wire fst snd of_type flags_of Z.eqb Pos.eqb]. cbn [msg_ok] in Hm.
  destruct Hm as ((H1 & H2 & H3 & H4 & H5 & H6 & H7) & _). now rewrite parse_flags_wire by assumption.
Qed.
(** events of the written messages leave the id sets and the sync flag alone *)
Definition is_msg (e : event) : Prop := match e with EMsg _ _ => True | _ => False end.
Lemma msgs_are l : Forall is_msg (msgs l).
Proof. unfold msgs. apply Forall_map, Forall_forall. intros x _. exact I. Qed.
Lemma quiet_read cf v t defs evs u : (forall n, cf_filter cf n = true) -> Forall is_msg defs -> Forall is_msg evs ->
  read_as cf v t defs [evs] u -> u_corrupt u = false ->
  u_filtered u = [] /\ u_missing u = [] /\ u_has_sync u = true.
Proof.
  intros Hfil Hd He (u1 & R & Hc) Hcor.
  assert (Q : forall evs a b, Forall is_msg evs -> run_def_events cf evs a = Ok b -> quiet3 b = quiet3 a).
  { induction evs0 as [|e r IH]; intros a b F E; cbn [run_def_events] in E; [now injection E as <-|].
    apply bind_Ok_inv in E as (c & E1 & E2). inversion F as [|? ? F1 F2]; subst. rewrite (IH _ _ F2 E2).
    destruct e as [ty p| |]; try destruct F1. eapply def_quiet, E1. }
  specialize (Q _ _ _ Hd R). inversion Hc as [|? ? ? u2 u3 ? Hfin Hz Hn]; subst. inversion Hn; subst. apply finalize_same in Hz as (d & ->).
  assert (I : Forall is_msg evs -> u_filtered u2 = u_filtered u1 /\ u_has_sync u2 = u_has_sync u1 /\ (u_corrupt u2 = false -> u_missing u2 = u_missing u1)).
  { refine (finishes_inv cf u1 (fun evs z => Forall is_msg evs -> u_filtered z = u_filtered u1 /\ u_has_sync z = u_has_sync u1 /\
      (u_corrupt z = false -> u_missing z = u_missing u1)) _ _ evs u2 Hfin); [auto|].
    intros pre e a b IH Hs F. apply Forall_app in F as [F1 F2]. destruct (IH F1) as (I1 & I2 & I3). inversion F2 as [|? ? F3 _]; subst.
    destruct e as [ty p| |]; try destruct F3. destruct (ev_quiet cf ty p a b Hfil Hs) as (J1 & J2 & J3).
    split; [congruence|]. split; [congruence|]. intros Hb. destruct (J3 Hb) as [J4 J5]. rewrite J5. auto. }
  destruct (I He) as (I1 & I2 & I3). cbn in Hcor. specialize (I3 Hcor). unfold quiet3 in Q. injection Q as Q1 Q2 Q3. cbn.
  rewrite I1, I2, I3, Q1, Q2, Q3. auto.
Qed.
Lemma syncs_read cf v t defs evs u : read_as cf v t defs [evs] u -> u_sync_cnt u = syncs evs.
Proof.
  intros (u1 & R & Hc).
  assert (Q : def_rest u1 = def_rest (after_header v t)) by exact (def_const def_rest cf (fun e a b => def_rest_same cf e a b) _ _ _ R).
  unfold def_rest in Q. cbn in Q. injection Q as Q1 Q2 Q3 Q4 Q5 Q6 Q7 Q8 Q9 Q10.
  inversion Hc as [|? ? ? u2 u3 ? Hfin Hz Hn]; subst. inversion Hn; subst. apply finalize_same in Hz as (d & ->). cbn.
  assert (I : u_sync_cnt u2 = u_sync_cnt u1 + syncs evs).
  { refine (finishes_inv cf u1 (fun evs z => u_sync_cnt z = u_sync_cnt u1 + syncs evs) _ _ evs u2 Hfin); [unfold syncs; cbn; lia|].
    intros pre e a b IH Hs. rewrite (ev_sync cf e a b Hs), IH. unfold syncs. rewrite filter_app, lenZ_app. cbn [filter]. lia. }
  rewrite I, Q10. lia.
Qed.

Section Copy.
  Context (u : ulog) (defs : list msg) (pc : list timed) (mi mm mp mq : list msg).
  Hypothesis Hf : fits_format u.
  Hypothesis Hw : written u defs pc mi mm mp mq.
  Let S := sorted_items u pc.
  Let adds := map m_add (by_id u).
  Let data := adds ++ map snd S.
  Let fmts := u_formats u.
  Let ch := wr_changed _ _ _ _ _ _ _ Hw.

  Lemma ids_by : NoDup (map ds_id (by_id u)).
  Proof.
    destruct (ff_data u Hf) as (_ & H & _). eapply Permutation_NoDup; [|exact H]. apply Permutation_map, (ssort_perm id_leb).
  Qed.
  Lemma same_id a b : In a (by_id u) -> In b (by_id u) -> ds_id a = ds_id b -> a = b.
  Proof.
    intros Ha Hb E. pose proof ids_by as Hn. apply In_nth_error in Ha as [i Hi]. apply In_nth_error in Hb as [j Hj].
    assert (i = j).
    { apply (proj1 (NoDup_nth_error _) Hn); [apply nth_error_Some; rewrite (map_nth_error _ _ _ Hi); discriminate|].
      now rewrite (map_nth_error _ _ _ Hi), (map_nth_error _ _ _ Hj), E. }
    congruence.
  Qed.
  (** items *)
  Lemma item_in p : In p S -> In p (p_items u pc).
  Proof. intros H. eapply Permutation_in; [apply Permutation_sym, (ssort_perm time_leb)|exact H]. Qed.
  Lemma item_kinds p : In p S -> (In p (p_data u)) \/ (In p (p_log u)) \/ (In p (p_tag u)) \/ (In p (p_drop u)) \/ In p pc.
  Proof. intros H. apply item_in in H. unfold p_items in H. rewrite !in_app_iff in H. tauto. Qed.
  Lemma p_data_in p : In p (p_data u) -> exists ds i, In ds (by_id u) /\ (i < samples_in ds)%nat /\
    p = (rawn ds i (lit "timestamp"), m_data ds i).
  Proof.
    intros H. apply in_flat_map in H as (ds & Hd & H). apply in_map_iff in H as (i & <- & Hi). apply in_seq in Hi.
    exists ds, i. split; [exact Hd|]. split; [lia|reflexivity].
  Qed.
  Lemma item_msg_ok p : In p S -> msg_ok (snd p) /\ is_data (snd p) /\ (forall a b c, snd p <> MAdd a b c).
  Proof.
    intros H. destruct (item_kinds p H) as [H1|[H1|[H1|[H1|H1]]]].
    - destruct (p_data_in p H1) as (ds & i & Hd & Hi & ->). split; [apply (data_msg_ok _ _ (fits_ds u ds Hf Hd))|split; [exact I|discriminate]].
    - apply in_map_iff in H1 as (m & <- & Hm). destruct (ff_logged u Hf) as [Hl _]. rewrite Forall_forall in Hl.
      split; [exact (Hl m Hm)|split; [exact I|discriminate]].
    - apply in_map_iff in H1 as (m & <- & Hm). split; [exact (tags_ok u m Hf Hm)|split; [exact I|discriminate]].
    - apply in_map_iff in H1 as (m & <- & Hm). destruct (ff_dropouts u Hf) as [Hl _]. rewrite Forall_forall in Hl.
      split; [split; [exact (proj1 (Hl m Hm))|reflexivity]|split; [exact I|discriminate]].
    - destruct (Forall2_in_r _ _ _ _ ch H1) as (c & _ & _ & raw & E & Hok & _). rewrite E in *. split; [exact Hok|split; [exact I|discriminate]].
  Qed.
  Lemma adds_in m : In m adds -> exists ds, In ds (by_id u) /\ m = m_add ds.
  Proof. intros H. apply in_map_iff in H as (ds & <- & Hd). eauto. Qed.
  Lemma data_ok : Forall msg_ok data /\ Forall is_data data.
  Proof.
    unfold data. split; apply Forall_app; split; apply Forall_forall; intros m Hm.
    - destruct (adds_in m Hm) as (ds & Hd & ->). apply (add_msg_ok _ _ (fits_ds u ds Hf Hd)).
    - apply in_map_iff in Hm as (p & <- & Hp). apply (item_msg_ok p Hp).
    - destruct (adds_in m Hm) as (ds & Hd & ->). exact I.
    - apply in_map_iff in Hm as (p & <- & Hp). apply (item_msg_ok p Hp).
  Qed.

  (** definitions *)
  Lemma is_info_of im m : is_info im m -> msg_ok m /\ is_def m /\ fst (wire m) = 73.
  Proof. intros (raw & -> & H & _). split; [exact H|split; [exact I|reflexivity]]. Qed.
  Lemma is_multi_of im m : is_multi im m -> msg_ok m /\ is_def m /\ fst (wire m) = 77.
  Proof. intros (raw & -> & H & _). split; [exact H|split; [exact I|reflexivity]]. Qed.
  Lemma is_param_of im m : is_param im m -> msg_ok m /\ is_def m /\ fst (wire m) = 80.
  Proof. intros (raw & -> & H & _). split; [exact H|split; [exact I|reflexivity]]. Qed.
  Lemma is_pdef_of im m : is_pdef im m -> msg_ok m /\ is_def m /\ fst (wire m) = 81.
  Proof. intros (raw & -> & H & _). split; [exact H|split; [exact I|reflexivity]]. Qed.
  Definition all_of (k : Z) (ms : list msg) := Forall (fun m => msg_ok m /\ is_def m /\ fst (wire m) = k) ms.
  Lemma all_of_F2 {A} (P : A -> msg -> Prop) k l ms : (forall a m, P a m -> msg_ok m /\ is_def m /\ fst (wire m) = k) ->
    Forall2 P l ms -> all_of k ms.
  Proof. intros H. induction 1; constructor; eauto. Qed.
  Lemma m_formats_of : all_of 70 (m_formats u).
  Proof.
    destruct (formats_written u Hf) as [_ H]. unfold all_of. apply Forall_forall. intros m Hm. rewrite Forall_forall in H. split; [auto|].
    apply in_map_iff in Hm as (km & <- & _). split; [exact I|reflexivity].
  Qed.
  Lemma m_flags_of : msg_ok (m_flags u) /\ is_def (m_flags u) /\ fst (wire (m_flags u)) = 66.
  Proof.
    destruct (ff_flags u Hf) as (A1 & A2 & A3 & A4 & A5). destruct (without_append_fits _ A3 A4) as (B1 & B2 & B3).
    pose proof (flags_size _ _ A1 B1) as Hs.
    split; [split; [|refine (eq_ind_r (fun z => z < 65536) _ Hs); reflexivity]|split; [|reflexivity]].
    - unfold u64. repeat (split; [first [assumption | lia]|]). lia.
    - cbn [is_def m_flags]. split; [|exact B3]. destruct A5 as [A5 A6]. destruct (u_incompat u) as [|x r]; [discriminate|].
      unfold known_incompat. cbn [without_append nth tl] in *. split; [|exact A6]. rewrite <- Z.land_assoc, (Z.land_comm 254), Z.land_assoc, A5. reflexivity.
  Qed.
  Lemma mi_of : all_of 73 mi. Proof. exact (all_of_F2 _ _ _ _ is_info_of (wr_info _ _ _ _ _ _ _ Hw)). Qed.
  Lemma mm_of : all_of 77 mm. Proof. exact (all_of_F2 _ _ _ _ is_multi_of (wr_multi _ _ _ _ _ _ _ Hw)). Qed.
  Lemma mp_of : all_of 80 mp. Proof. exact (all_of_F2 _ _ _ _ is_param_of (wr_params _ _ _ _ _ _ _ Hw)). Qed.
  Lemma mq_of : all_of 81 mq. Proof. exact (all_of_F2 _ _ _ _ is_pdef_of (wr_defaults _ _ _ _ _ _ _ Hw)). Qed.
  Lemma defs_ok : Forall msg_ok defs /\ Forall is_def defs.
  Proof.
    rewrite (wr_defs _ _ _ _ _ _ _ Hw). destruct m_flags_of as (F1 & F2 & _).
    assert (K : forall k ms, all_of k ms -> Forall msg_ok ms /\ Forall is_def ms)
      by (intros k ms H; split; (eapply Forall_impl; [|exact H]); cbv beta; tauto).
    destruct (K _ _ m_formats_of), (K _ _ mi_of), (K _ _ mm_of), (K _ _ mp_of), (K _ _ mq_of).
    split; (constructor; [assumption|]); repeat (apply Forall_app; split; auto).
  Qed.
  Lemma sel_kind {X} (g : msg -> list X) k k' ms : (forall m, fst (wire m) <> k -> g m = []) -> all_of k' ms -> k' <> k -> flat_map g ms = [].
  Proof.
    intros Hg H Hne. apply sel_nil. intros m Hm. apply Hg. unfold all_of in H. rewrite Forall_forall in H. destruct (H m Hm) as (_ & _ & E). congruence.
  Qed.
  (** the selected messages of the definition section *)
  Lemma sel_defs {X} (g : msg -> list X) k : (forall m, fst (wire m) <> k -> g m = []) -> k <> 66 ->
    flat_map g defs = (if k =? 70 then flat_map g (m_formats u) else []) ++ (if k =? 73 then flat_map g mi else []) ++
      (if k =? 77 then flat_map g mm else []) ++ (if k =? 80 then flat_map g mp else []) ++ (if k =? 81 then flat_map g mq else []).
  Proof.
    intros Hg Hk. rewrite (wr_defs _ _ _ _ _ _ _ Hw). cbn [flat_map]. rewrite !flat_map_app.
    rewrite (Hg (m_flags u)) by (rewrite (proj2 (proj2 m_flags_of)); congruence). cbn [app].
    assert (K : forall k' ms, all_of k' ms -> flat_map g ms = if k =? k' then flat_map g ms else []).
    { intros k' ms H. destruct (Z.eqb_spec k k') as [->|Hne]; [reflexivity|]. eapply sel_kind; eauto. }
    rewrite <- (K _ _ m_formats_of), <- (K _ _ mi_of), <- (K _ _ mm_of), <- (K _ _ mp_of), <- (K _ _ mq_of). reflexivity.
  Qed.
  (** and of the data section *)
  Lemma sel_data {X} (g : msg -> list X) k : (forall m, fst (wire m) <> k -> g m = []) -> k <> 65 ->
    flat_map g data = flat_map g (map snd (ssort time_leb (if k =? 68 then p_data u else if k =? 76 then p_log u
      else if k =? 67 then p_tag u else if k =? 79 then p_drop u else if k =? 80 then pc else []))).
  Proof.
    intros Hg Hk. unfold data. rewrite flat_map_app. rewrite (sel_nil g adds).
    2:{ intros m Hm. destruct (adds_in m Hm) as (ds & _ & ->). apply Hg. cbn. congruence. }
    cbn [app]. rewrite (selected g k) by exact Hg. unfold S. now rewrite (select u pc _ k ch).
  Qed.
  Lemma formats_back : formats_in defs = u_formats u.
  Proof.
    unfold formats_in. rewrite (sel_defs format_of 70 format_kind) by lia. cbn [Z.eqb Pos.eqb app]. rewrite !app_nil_r.
    destruct (ff_formats u Hf) as [Hn Hk]. unfold m_formats. rewrite flat_map_map. cbn [format_of].
    etransitivity; [|exact (fold_dset_id str_eqb str_eqb_spec (u_formats u) [] Hn)]. clear Hn.
    change (@nil (list Z * mformat)) with (@nil (str * mformat)). generalize (@nil (str * mformat)).
    induction (u_formats u) as [|[k m] l IH]; intros acc; [reflexivity|]. cbn [flat_map app fold_left fst snd mf_name].
    rewrite IH by (intros; eapply Hk; right; eassumption). f_equal. destruct (Hk k m (or_introl eq_refl)) as [-> _]. destruct m; reflexivity.
  Qed.

  (** ** Subscriptions *)
  Lemma current_other id l c : (forall m, In m l -> match m with MAdd _ i _ => i <> id | MData i _ => i <> id | _ => True end) ->
    fold_left (cur_step id) l c = c.
  Proof.
    revert c. induction l as [|m l IH]; intros c H; [reflexivity|]. cbn [fold_left].
    assert (cur_step id c m = c) as ->.
    { specialize (H m (or_introl eq_refl)). destruct m; cbn [cur_step]; auto; destruct (Z.eqb_spec id0 id); auto; congruence. }
    apply IH. intros; apply H; now right.
  Qed.
  Lemma current_adds ds : In ds (by_id u) -> current (ds_id ds) adds = Some (ds_multi ds, ds_name ds, []).
  Proof.
    intros H. unfold adds. pose proof ids_by as Hn. apply in_split in H as (a & b & E). rewrite E in *.
    rewrite map_app in Hn. cbn [map] in Hn. apply NoDup_remove_2 in Hn. rewrite map_app. cbn [map]. unfold current.
    rewrite fold_left_app. cbn [fold_left cur_step m_add]. rewrite Z.eqb_refl. apply current_other.
    intros m Hm. apply in_map_iff in Hm as (d & <- & Hd). cbn. intros E'. apply Hn, in_or_app. right. rewrite <- E'. now apply in_map.
  Qed.
  Lemma current_adds_none id : (forall ds, In ds (by_id u) -> ds_id ds <> id) -> current id adds = None.
  Proof.
    intros H. apply current_other. intros m Hm. destruct (adds_in m Hm) as (ds & Hd & ->). cbn. now apply H.
  Qed.
  Definition recs_of (id : Z) (m : msg) : list bytes := match m with MData i r => if i =? id then [r] else [] | _ => [] end.
  Lemma current_items id l c : (forall m, In m l -> forall a b d, m <> MAdd a b d) ->
    fold_left (cur_step id) l c = option_map (fun c => (fst c, snd c ++ flat_map (recs_of id) l)) c.
  Proof.
    revert c. induction l as [|m l IH]; intros c H.
    - destruct c as [[p rs]|]; cbn; [now rewrite app_nil_r|reflexivity].
    - cbn [fold_left flat_map]. rewrite IH by (intros; apply H; now right).
      assert (cur_step id c m = option_map (fun c => (fst c, snd c ++ recs_of id m)) c) as ->.
      { specialize (H m (or_introl eq_refl)). destruct m; cbn [cur_step recs_of]; try (destruct c as [[p rs]|]; cbn; now rewrite ?app_nil_r).
        - now destruct (H multi id0 name).
        - destruct (id0 =? id); destruct c as [[p rs]|]; cbn; now rewrite ?app_nil_r. }
      destruct c as [[p rs]|]; cbn; [now rewrite app_assoc|reflexivity].
  Qed.
  Lemma current_pre ds S1 S2 : S = S1 ++ S2 -> In ds (by_id u) ->
    current (ds_id ds) (adds ++ map snd S1) = Some (ds_multi ds, ds_name ds, flat_map (recs_of (ds_id ds)) (map snd S1)).
  Proof.
    intros E H. unfold current. rewrite fold_left_app. fold (current (ds_id ds) adds). rewrite current_adds by exact H.
    rewrite current_items; [reflexivity|]. intros m Hm. apply in_map_iff in Hm as (p & <- & Hp). apply (item_msg_ok p).
    rewrite E. apply in_or_app. now left.
  Qed.
  Lemma data_item p : In p S -> forall id r, snd p = MData id r -> exists ds i, In ds (by_id u) /\ (i < samples_in ds)%nat /\
    id = ds_id ds /\ r = rec ds i /\ fst p = rawn ds i (lit "timestamp").
  Proof.
    intros H id r E. destruct (item_kinds p H) as [H1|[H1|[H1|[H1|H1]]]].
    - destruct (p_data_in p H1) as (ds & i & Hd & Hi & ->). injection E as <- <-. exists ds, i. auto.
    - apply in_map_iff in H1 as (m & <- & _). discriminate.
    - apply in_map_iff in H1 as (m & <- & _). discriminate.
    - apply in_map_iff in H1 as (m & <- & _). discriminate.
    - destruct (Forall2_in_r _ _ _ _ ch H1) as (c & _ & _ & raw & E' & _). rewrite E' in E. discriminate.
  Qed.
  Lemma split_data pre m post : data = pre ++ m :: post -> (forall a b c, m <> MAdd a b c) ->
    exists S1 p S2, S = S1 ++ p :: S2 /\ snd p = m /\ pre = adds ++ map snd S1.
  Proof.
    intros E Hm. unfold data in E.
    assert (K : exists q, pre = adds ++ q /\ map snd S = q ++ m :: post).
    { assert (Ha : Forall (fun x => exists a b c, x = MAdd a b c) adds).
      { apply Forall_forall. intros x Hx. destruct (adds_in x Hx) as (ds & _ & ->). unfold m_add. eauto. }
      revert pre E Ha. generalize adds as l. induction l as [|x l IH]; intros pre E Ha; [exists pre; auto|].
      inversion Ha as [|? ? (a & b & c & Hx) Ha']; subst. destruct pre as [|y pre]; cbn [app] in E; injection E as E1 E2; [symmetry in E1; now destruct (Hm a b c)|].
      destruct (IH pre E2 Ha') as (q & -> & Eq). subst y. exists q. auto. }
    destruct K as (q & -> & Eq). apply map_eq_app in Eq as (S1 & S' & E1 & <- & E2). destruct S' as [|p S2]; [discriminate|].
    injection E2 as E2 E3. exists S1, p, S2. auto.
  Qed.
  Lemma consistent_written : consistent (formats_in defs) data.
  Proof.
    rewrite formats_back. split.
    - intros multi id name Hin. unfold data in Hin. apply in_app_iff in Hin as [Hin|Hin].
      + destruct (adds_in _ Hin) as (ds & Hd & E). injection E as -> -> ->. exists (ds_fields ds). exact (df_topic _ _ (fits_ds u ds Hf Hd)).
      + apply in_map_iff in Hin as (p & E & Hp). now apply (item_msg_ok p Hp) in E.
    - intros pre id r post E. destruct (split_data _ _ _ E) as (S1 & p & S2 & ES & Ep & ->); [discriminate|].
      destruct (data_item p) with (id := id) (r := r) as (ds & i & Hd & Hi & -> & -> & _); [rewrite ES; apply in_elt|exact Ep|].
      exists (ds_multi ds), (ds_name ds), (flat_map (recs_of (ds_id ds)) (map snd S1)), (ds_fields ds).
      split; [now apply (current_pre ds S1 (p :: S2))|]. split; [exact (df_topic _ _ (fits_ds u ds Hf Hd))|apply rec_total].
  Qed.
  Lemma typed_written f : f = file_header (u_version u) (u_start u) ++ frames (map wire defs) ++ frames (map wire data) ->
    lenZ f <= BIG -> typed_log f (u_version u) (u_start u) defs data.
  Proof.
    intros Ef Hl. constructor; auto.
    - exact (ff_header u Hf).
    - exact defs_ok.
    - exact data_ok.
    - unfold data, adds. destruct (by_id u) as [|ds l] eqn:Eb; [|exact I]. cbn [map app].
      assert (Hnil : u_data u = []).
      { pose proof (ssort_perm id_leb (u_data u)) as P. fold (by_id u) in P. rewrite Eb in P. now apply Permutation_sym, Permutation_nil in P. }
      destruct (ff_start u Hf Hnil) as [Hd Hc].
      destruct S as [|p r] eqn:ES; [exact I|]. cbn [map]. pose proof (item_kinds p) as K. rewrite ES in K.
      destruct (K (or_introl eq_refl)) as [H1|[H1|[H1|[H1|H1]]]].
      + unfold p_data in H1. rewrite Eb in H1. destruct H1.
      + apply in_map_iff in H1 as (m & <- & _). exact I.
      + apply in_map_iff in H1 as (m & <- & _). exact I.
      + unfold p_drop in H1. rewrite Hd in H1. destruct H1.
      + pose proof ch as C. rewrite Hc in C. inversion C; subst. destruct H1.
    - exact consistent_written.
  Qed.

  (** ** Timestamps *)
  Definition dtimes (l : list timed) : list Z := map fst (filter (of_kind 68) l).
  Lemma rec_stamp ds i ts : In ds (by_id u) -> (i < samples_in ds)%nat -> stamped (ds_fields ds) (rec ds i) ts ->
    ts = rawn ds i (lit "timestamp").
  Proof.
    intros Hd Hi (k & Hk & <-). unfold rec. rewrite (field_bytes_rec _ _ _ _ Hk). cbn [fd_name fd_type].
    apply le_dec_enc. destruct (ds_column _ _ (fits_ds u ds Hf Hd) _ i (nth_error_In _ _ Hk) Hi) as [_ [H _]]. exact H.
  Qed.
  Lemma latest_at S1 : forall S2 ts, S = S1 ++ S2 -> latest fmts (u_start u) (adds ++ map snd S1) ts ->
    ts = fold_left Z.max (dtimes S1) (u_start u).
  Proof.
    induction S1 as [|p S1 IH] using rev_ind; intros S2 ts ES H.
    - cbn [map] in H. rewrite app_nil_r in H. change (dtimes []) with (@nil Z). cbn [fold_left].
      assert (Ha : Forall (fun x => exists a b c, x = MAdd a b c) adds).
      { apply Forall_forall. intros x Hx. destruct (adds_in x Hx) as (ds & _ & ->). unfold m_add. eauto. }
      clear ES. revert ts H Ha. generalize adds. intros l0. induction l0 as [|m l IH] using rev_ind; intros ts H Ha; [now apply latest_nil in H|].
      apply Forall_app in Ha as [Ha Hm]. inversion Hm as [|? ? (a & b & c & ->) _]; subst.
      apply latest_inv in H as [(t & _ & id & r & ? & ? & ? & ? & ? & E & _)|[_ H]]; [discriminate|]. now apply IH.
    - rewrite <- app_assoc in ES. cbn [app] in ES. rewrite map_app, app_assoc in H. cbn [map] in H.
      apply latest_inv in H as [(t & Ht & id & r & multi & name & recs & fields & s & Ep & Hc & Htp & Hs & ->)|[Hno H]].
      + rewrite (IH _ _ ES Ht). destruct (data_item p) with (id := id) (r := r) as (ds & i & Hd & Hi & -> & -> & Efst); [rewrite ES; apply in_elt|exact Ep|].
        pose proof (eq_trans (eq_sym (current_pre ds S1 (p :: S2) ES Hd)) Hc) as Hc'. injection Hc' as <- <- <-.
        rewrite (topic_fun _ _ _ _ Htp (df_topic _ _ (fits_ds u ds Hf Hd))) in Hs. apply rec_stamp in Hs; [|assumption..]. rewrite Hs, <- Efst.
        unfold dtimes. rewrite filter_app. cbn [filter]. unfold of_kind at 3, kind. rewrite Ep. cbn [wire fst]. rewrite Z.eqb_refl.
        rewrite map_app, fold_left_app. reflexivity.
      + rewrite (IH _ _ ES H). unfold dtimes. rewrite filter_app. cbn [filter].
        assert (of_kind 68 p = false) as ->; [|now rewrite app_nil_r].
        unfold of_kind, kind. destruct (snd p) eqn:Ep; try reflexivity. now destruct (Hno id record).
  Qed.
  Lemma p_data_times : map fst (p_data u) = flat_map (fun ds => raws ds (lit "timestamp")) (by_id u).
  Proof.
    unfold p_data. assert (H : forall ds, In ds (by_id u) -> map fst (p_ds ds) = raws ds (lit "timestamp")).
    { intros ds Hd. destruct (ds_count _ _ (fits_ds u ds Hf Hd)) as (n & _ & Hs & Hr). unfold p_ds. rewrite map_map. cbn [fst].
      rewrite Hs, <- (Hr _ (ds_stamp _ _ (fits_ds u ds Hf Hd))). apply nth_raws. }
    induction (by_id u) as [|ds l IH]; [reflexivity|]. cbn [flat_map]. rewrite map_app. f_equal; [apply H; now left|]. apply IH. intros; apply H; now right.
  Qed.
  Lemma dtimes_perm : Permutation (dtimes S) (sample_times u).
  Proof.
    unfold dtimes, S. rewrite (select u pc _ 68 ch). cbn [Z.eqb Pos.eqb].
    etransitivity; [apply Permutation_map, Permutation_sym, (ssort_perm time_leb)|]. rewrite p_data_times. unfold sample_times.
    apply Permutation_flat_map. apply Permutation_sym, (ssort_perm id_leb).
  Qed.
  Lemma sorted_S : StronglySorted (fun a b => time_leb a b = true) S.
  Proof. apply ssort_sorted; [exact time_total|exact time_trans]. Qed.
  (** dropouts and changed parameters find their own time as the latest one *)
  Lemma anchor S1 p S2 : S = S1 ++ p :: S2 -> kind p <> 68 -> anchored u (fst p) ->
    fold_left Z.max (dtimes S1) (u_start u) = fst p.
  Proof.
    intros ES Hk Ha. pose proof sorted_S as Hs. rewrite ES in Hs.
    assert (Hle : Forall (fun x => x <= fst p) (dtimes S1)).
    { unfold dtimes. apply Forall_map, Forall_forall. intros x Hx. apply filter_In in Hx as [Hx _]. clear -Hs Hx.
      induction S1 as [|y l IH]; [destruct Hx|]. cbn [app] in Hs. inversion Hs as [|? ? H1 H2]; subst. destruct Hx as [->|Hx]; [|auto].
      apply Forall_app in H2 as [_ H2]. inversion H2; subst. unfold time_leb in *. lia. }
    assert (Hst : u_start u <= fst p) by (destruct Ha as [-> |[_ Ha]]; lia).
    pose proof (fold_max_le _ _ _ Hst Hle) as Hup. destruct Ha as [Ha|[Ha _]].
    - pose proof (fold_max_ge (dtimes S1) (u_start u)). lia.
    - assert (Hin : In (fst p) (dtimes S1)); [|pose proof (fold_max_In _ _ (u_start u) Hin); lia].
      assert (Hx : In (fst p) (dtimes S)) by (eapply Permutation_in; [apply Permutation_sym, dtimes_perm|exact Ha]).
      unfold dtimes in Hx. apply in_map_iff in Hx as (x & Ex & Hx). apply filter_In in Hx as [Hx Hkx].
      rewrite ES in Hx. apply in_app_iff in Hx as [Hx|[->|Hx]].
      + rewrite <- Ex. unfold dtimes. apply in_map, filter_In. auto.
      + unfold of_kind in Hkx. lia.
      + exfalso. set (q := fun x : timed => fst x =? fst p).
        assert (Eq : filter q S = filter q (p_items u pc)).
        { pose proof (ssort_stable time_leb time_total time_trans p (p_items u pc)) as E.
          unfold S, sorted_items. etransitivity; [|etransitivity; [exact E|]]; apply filter_ext; intros a; unfold q, equivb, time_leb; lia. }
        rewrite ES in Eq. unfold p_items in Eq. rewrite !filter_app in Eq. cbn [filter] in Eq.
        assert (Hqp : q p = true) by (unfold q; lia). rewrite Hqp in Eq. symmetry in Eq.
        pose proof (mid_split (of_kind 68) _ _ _ _ _ Eq) as M.
        assert (G : Forall (fun x => of_kind 68 x = false) (filter q S2)).
        { apply M.
          - apply Forall_forall. intros y Hy. apply filter_In in Hy as [Hy _]. pose proof (p_data_kind u) as K. rewrite Forall_forall in K.
            unfold of_kind. rewrite (K y Hy). reflexivity.
          - assert (N : forall k l, Forall (fun x => kind x = k) l -> k <> 68 -> Forall (fun x => of_kind 68 x = false) (filter q l)).
            { intros k l H Hne. apply Forall_forall. intros y Hy. apply filter_In in Hy as [Hy _]. rewrite Forall_forall in H.
              unfold of_kind. rewrite (H y Hy). lia. }
            repeat (apply Forall_app; split).
            + eapply N; [apply p_log_kind|lia].
            + eapply N; [apply p_tag_kind|lia].
            + eapply N; [apply p_drop_kind|lia].
            + eapply N; [eapply pc_kind, ch|lia].
          - unfold of_kind. lia. }
        rewrite Forall_forall in G. specialize (G x). rewrite G in Hkx; [discriminate|]. apply filter_In. split; [exact Hx|]. unfold q. lia.
  Qed.

  (** ** Reading *)
  Section Reading.
  Context (cf : cfg) (u' : ulog).
  Hypothesis Hfil : forall n, cf_filter cf n = true.
  Hypothesis Hadd : adds_ok cf (formats_in defs) data.
  Hypothesis Hr : read_as cf (u_version u) (u_start u) (msgs (map wire defs)) [msgs (map wire data)] u'.
  Hypothesis Hcor : u_corrupt u' = false.
  Let ct : contents fmts (u_version u) (u_start u) defs data u'.
  Proof.
    unfold fmts. rewrite <- formats_back. destruct defs_ok, data_ok. eapply contents_read; eauto. apply consistent_written.
  Qed.
  Let Eev : msgs (map wire defs) ++ concat [msgs (map wire data)] = msgs (map wire (defs ++ data)).
  Proof. cbn [concat]. rewrite app_nil_r. unfold msgs. now rewrite !map_app. Qed.
  Let Hall : Forall msg_ok (defs ++ data).
  Proof. destruct defs_ok, data_ok. apply Forall_app; auto. Qed.

  Lemma info_same : u_info u' = u_info u /\ u_infot u' = u_infot u.
  Proof.
    rewrite (read_as_info _ _ _ _ _ _ Hr), (read_as_infot _ _ _ _ _ _ Hr), Eev.
    pose proof (infos_wire (cf_ign cf) _ Hall) as Hi. rewrite flat_map_app, (sel_defs info_of 73 info_kind), (sel_data info_of 73 info_kind) in Hi by lia.
    cbn [Z.eqb Pos.eqb app ssort fold_right map flat_map] in Hi. rewrite ?app_nil_r in Hi.
    rewrite (info_back _ _ _ (wr_info _ _ _ _ _ _ _ Hw) Hi). destruct (ff_info u Hf) as (Hn & Hk & _).
    split; [exact (fold_info_id _ (u_info u) [] Hn)|].
    unfold info_entries. etransitivity; [exact (infot_keys u (u_info u) [])|]. rewrite <- Hk. apply fold_keys_id.
    - unfold dkeys. rewrite Hk. exact Hn.
    - intros k v Hin. apply type_in_ok; [|exact Hin]. unfold dkeys. rewrite Hk. exact Hn.
  Qed.
  Lemma multi_same : u_multi u' = u_multi u /\ u_multit u' = u_multit u.
  Proof.
    rewrite (read_as_multi _ _ _ _ _ _ Hr), (read_as_multit_fold _ _ _ _ _ _ Hr), Eev.
    pose proof (multis_wire (cf_ign cf) _ Hall) as Hi. rewrite flat_map_app, (sel_defs multi_of 77 multi_kind), (sel_data multi_of 77 multi_kind) in Hi by lia.
    cbn [Z.eqb Pos.eqb app ssort fold_right map flat_map] in Hi. rewrite ?app_nil_r in Hi.
    rewrite (multi_back _ _ _ (wr_multi _ _ _ _ _ _ _ Hw) Hi). destruct (ff_multi u Hf) as (Hn & Hk & Hl).
    assert (Hl' : forall k ls, In (k, ls) (u_multi u) -> ls <> [] /\ forall vs, In vs ls -> vs <> []).
    { intros k ls Hin. destruct (Hl k ls Hin) as (L1 & ty & _ & L2). split; [exact L1|]. intros vs Hvs. apply (L2 vs Hvs). }
    split; [exact (multi_all (type_in (u_multit u)) (u_multi u) [] Hn Hl')|].
    etransitivity; [exact (multit_all (type_in (u_multit u)) (u_multi u) [] Hn Hl')|]. unfold dkeys. rewrite <- Hk. apply fold_keys_id.
    - unfold dkeys. rewrite Hk. exact Hn.
    - intros k v Hin. apply type_in_ok; [|exact Hin]. unfold dkeys. rewrite Hk. exact Hn.
  Qed.
  Lemma defaults_same : u_defaults u' = u_defaults u.
  Proof.
    rewrite (read_as_defaults _ _ _ _ _ _ Hr), Eev.
    pose proof (pdefs_wire (cf_ign cf) _ Hall) as Hi. rewrite flat_map_app, (sel_defs default_of 81 default_kind), (sel_data default_of 81 default_kind) in Hi by lia.
    cbn [Z.eqb Pos.eqb app ssort fold_right map flat_map] in Hi. rewrite ?app_nil_r in Hi.
    rewrite (pdef_back _ _ _ (wr_defaults _ _ _ _ _ _ _ Hw) Hi). destruct (ff_defaults u Hf) as (Hn & Hl).
    refine (defaults_all (u_defaults u) [] Hn _). intros t m Hin. destruct (Hl t m Hin) as (L1 & L2 & L3 & _). auto.
  Qed.
  Lemma params_same : u_params u' = u_params u.
  Proof.
    rewrite (read_as_params _ _ _ _ _ _ Hr). pose proof (params_wire (cf_ign cf) _ (proj1 defs_ok)) as Hi.
    rewrite (sel_defs param_of 80 param_kind) in Hi by lia. cbn [Z.eqb Pos.eqb app] in Hi. rewrite ?app_nil_r in Hi.
    rewrite (param_back _ _ _ (wr_params _ _ _ _ _ _ _ Hw) Hi). exact (fold_info_id (fun kv => tname (snd kv)) (u_params u) [] (proj1 (ff_params u Hf))).
  Qed.
  Lemma sorted_id {A} (f : A -> timed) (t : A -> Z) l : (forall x, fst (f x) = t x) -> non_decreasing (map t l) -> ssort time_leb (map f l) = map f l.
  Proof. intros E H. apply ssort_id. now apply (sorted_time f t). Qed.
  Lemma logged_same : u_logged u' = u_logged u.
  Proof.
    rewrite (ct_logged _ _ _ _ _ _ ct), (sel_data log_of 76 log_kind) by lia. cbn [Z.eqb Pos.eqb]. unfold p_log.
    rewrite (sorted_id _ lg_ts) by (auto; apply (ff_logged u Hf)). rewrite map_map, flat_map_map. cbn [snd log_of].
    induction (u_logged u) as [|m l IH]; [reflexivity|]. cbn [flat_map app]. rewrite IH. now destruct m.
  Qed.
  Lemma tag_filter g : filter (fun m => tg_tag m =? g) (concat (map snd (u_tagged u))) = match zget g (u_tagged u) with Some l => l | None => [] end.
  Proof.
    destruct (ff_tagged u Hf) as [Hn Hl]. induction (u_tagged u) as [|[t l] d IH]; [reflexivity|]. cbn [map concat snd dget fst] in *.
    rewrite filter_app. inversion Hn as [|? ? Hn1 Hn2]; subst. rewrite (IH Hn2) by (intros; eapply Hl; right; eassumption).
    destruct (Hl t l (or_introl eq_refl)) as (_ & _ & Hall'). destruct (Z.eqb_spec g t) as [->|Hne].
    - rewrite filter_all by (eapply Forall_impl; [|exact Hall']; intros m [<- _]; apply Z.eqb_refl).
      rewrite (proj2 (dget_None Z.eqb Zeqb_spec t d) Hn1). apply app_nil_r.
    - rewrite filter_none; [reflexivity|]. eapply Forall_impl; [|exact Hall']. intros m [<- _]. lia.
  Qed.
  Lemma tagged_same g : zget g (u_tagged u') = zget g (u_tagged u).
  Proof.
    rewrite (ct_tagged _ _ _ _ _ _ ct), (sel_data tag_of 67 tag_kind) by lia. cbn [Z.eqb Pos.eqb]. unfold p_tag.
    assert (E : flat_map tag_of (map snd (ssort time_leb (map t_tag (concat (map snd (u_tagged u)))))) =
      ssort (fun a b => tg_ts a <=? tg_ts b) (concat (map snd (u_tagged u)))).
    { rewrite (ssort_map (fun a b => tg_ts a <=? tg_ts b)) by reflexivity. rewrite map_map, flat_map_map. cbn [t_tag snd tag_of].
      induction (ssort _ _) as [|m l IH]; [reflexivity|]. cbn [flat_map app]. rewrite IH. now destruct m. }
    rewrite E, filter_ssort by (intros; lia). rewrite tag_filter.
    destruct (zget g (u_tagged u)) as [l|] eqn:Eg; [|reflexivity]. destruct (ff_tagged u Hf) as [Hn Hl].
    destruct (Hl g l (dget_In Z.eqb Zeqb_spec _ _ _ Eg)) as (L1 & L2 & _). rewrite ssort_id.
    - destruct l; [congruence|reflexivity].
    - clear -L2. induction l as [|m l IH]; [constructor|]. cbn [map] in L2. inversion L2 as [|? ? H1 H2]; subst. constructor; [apply IH; exact H1|].
      rewrite Forall_map in H2. eapply Forall_impl; [|exact H2]. intros a Ha. apply Z.leb_le. exact Ha.
  Qed.
  Lemma tagged_fold : u_tagged u' = fold_left ins_tag (ssort (fun a b => tg_ts a <=? tg_ts b) (concat (map snd (u_tagged u)))) [].
  Proof.
    rewrite (read_as_tagged _ _ _ _ _ _ Hr). cbn [concat]. rewrite app_nil_r, tagged_wire by apply data_ok.
    rewrite (sel_data tag_of 67 tag_kind) by lia. cbn [Z.eqb Pos.eqb]. unfold p_tag.
    rewrite (ssort_map (fun a b => tg_ts a <=? tg_ts b)) by reflexivity. rewrite map_map, flat_map_map. cbn [t_tag snd tag_of].
    f_equal. induction (ssort _ _) as [|m l IH]; [reflexivity|]. cbn [flat_map app]. rewrite IH. now destruct m.
  Qed.
  Lemma last_same : u_last u' = u_last u.
  Proof.
    pose proof (ct_last _ _ _ _ _ _ ct) as H. apply (latest_at S []) in H; [|now rewrite app_nil_r]. rewrite H, (ff_last u Hf).
    apply fold_max_perm, dtimes_perm.
  Qed.
  Lemma pre_drops S1 : flat_map drop_of (adds ++ map snd S1) = flat_map drop_of (map snd (filter (of_kind 79) S1)).
  Proof.
    rewrite flat_map_app, (sel_nil drop_of adds), (selected drop_of 79) by (exact drop_kind || (intros m Hm; destruct (adds_in m Hm) as (ds & _ & ->); reflexivity)).
    reflexivity.
  Qed.
  Lemma drops_S : filter (of_kind 79) S = p_drop u.
  Proof.
    unfold S. rewrite (select u pc _ 79 ch). cbn [Z.eqb Pos.eqb]. unfold p_drop. apply (sorted_id _ dr_ts); auto. apply (ff_dropouts u Hf).
  Qed.
  Lemma split_at {A} (l : list A) i x : nth_error l i = Some x -> exists a b, l = a ++ x :: b /\ length a = i.
  Proof. apply nth_error_split. Qed.
  Lemma dropouts_same : u_dropouts u' = u_dropouts u.
  Proof.
    assert (Hlen : length (u_dropouts u') = length (u_dropouts u)).
    { rewrite <- (map_length dr_dur (u_dropouts u')), (ct_dropouts _ _ _ _ _ _ ct). unfold data. rewrite pre_drops, drops_S. unfold p_drop.
      rewrite map_map, flat_map_map. cbn [snd drop_of]. induction (u_dropouts u) as [|d l IH]; [reflexivity|]. cbn [flat_map app length]. now rewrite IH. }
    apply nth_error_ext. intros i. destruct (nth_error (u_dropouts u) i) as [d|] eqn:Ei.
    2:{ apply nth_error_None. apply nth_error_None in Ei. lia. }
    destruct (split_at _ _ _ Ei) as (a & b & Ed & Hi).
    assert (Es : filter (of_kind 79) S = map (fun d => (dr_ts d, MDrop (dr_dur d))) a ++ (dr_ts d, MDrop (dr_dur d)) :: map (fun d => (dr_ts d, MDrop (dr_dur d))) b).
    { rewrite drops_S. unfold p_drop. rewrite Ed, map_app. reflexivity. }
    apply filter_split in Es as (S1 & S2 & ES & F1 & _).
    destruct (ct_drop_ts _ _ _ _ _ _ ct (adds ++ map snd S1) (dr_dur d) (map snd S2)) as (ts & Hl & Hn).
    { unfold data. rewrite ES, map_app, <- app_assoc. reflexivity. }
    apply (latest_at _ _ _ ES) in Hl.
    rewrite (anchor _ _ _ ES) in Hl; [|cbn; lia|].
    2:{ destruct (ff_dropouts u Hf) as [Hd _]. rewrite Forall_forall in Hd. apply (Hd d). rewrite Ed. apply in_elt. }
    cbn [fst] in Hl. rewrite pre_drops, F1, map_map, flat_map_map in Hn. cbn [snd drop_of] in Hn.
    assert (L : length (flat_map (fun x : dropout => [dr_dur x]) a) = i).
    { rewrite <- Hi. clear. induction a as [|x a IH]; [reflexivity|]. cbn [flat_map app length]. now rewrite IH. }
    rewrite L in Hn. rewrite Hn, Hl. now destruct d.
  Qed.
  Lemma pre_params S1 : flat_map param_of (adds ++ map snd S1) = flat_map param_of (map snd (filter (of_kind 80) S1)).
  Proof.
    rewrite flat_map_app, (sel_nil param_of adds), (selected param_of 80) by (exact param_kind || (intros m Hm; destruct (adds_in m Hm) as (ds & _ & ->); reflexivity)).
    reflexivity.
  Qed.
  Lemma changes_S : filter (of_kind 80) S = pc.
  Proof.
    unfold S. rewrite (select u pc _ 80 ch). cbn [Z.eqb Pos.eqb]. apply ssort_id.
    destruct (ff_changed u Hf) as [_ H]. pose proof ch as C. clear -H C. induction C as [|c p l pc [Hc _] C IH]; [constructor|].
    cbn [map] in H. inversion H as [|? ? H1 H2]; subst. constructor; [apply IH; exact H1|]. clear -H2 Hc C.
    induction C as [|c' p' l pc [Hc' _] C IH]; [constructor|]. cbn [map] in H2. inversion H2 as [|? ? H3 H4]; subst. constructor; [|auto]. unfold time_leb. apply Z.leb_le. cbn in H3. rewrite Hc, Hc'. exact H3.
  Qed.
  Lemma param_entries l ps : Forall2 is_change l ps -> Forall2 (fun c e => key_of e = snd (fst c) /\ means e (snd c)) l (flat_map param_of (map snd ps)).
  Proof.
    induction 1 as [|c p l ps (_ & raw & E & _ & Ht) _ IH]; [constructor|]. cbn [map flat_map]. rewrite E. cbn [param_of app]. constructor; auto.
  Qed.
  Lemma changed_same : u_changed u' = u_changed u.
  Proof.
    pose proof (ct_changed _ _ _ _ _ _ ct) as C1. unfold data in C1. rewrite pre_params, changes_S in C1.
    pose proof (param_entries _ _ ch) as C2.
    assert (V : map (fun c => (snd (fst c), snd c)) (u_changed u') = map (fun c => (snd (fst c), snd c)) (u_changed u)).
    { clear -C1 C2. revert C1. generalize (u_changed u'). induction C2 as [|c e l es [K1 K2] _ IH]; intros l' C1; inversion C1 as [|? c' ? r [D1 D2] D3]; subst; [reflexivity|].
      cbn [map]. rewrite (IH _ D3). f_equal. f_equal; [congruence|]. eapply typed_fun; [exact D2|exact K2]. }
    assert (Hlen : length (u_changed u') = length (u_changed u)) by (erewrite <- map_length, V; apply map_length).
    apply nth_error_ext. intros i. destruct (nth_error (u_changed u) i) as [c|] eqn:Ei.
    2:{ apply nth_error_None. apply nth_error_None in Ei. lia. }
    destruct (split_at _ _ _ Ei) as (a & b & Ed & Hi). pose proof ch as C. rewrite Ed in C.
    apply Forall2_app_inv_l in C as (pa & pb & CA & CB & Ep). inversion CB as [|? p ? pb' [Cp1 (raw & Cp2 & _)] CB']; subst pb.
    assert (Es := changes_S). rewrite Ep in Es.
    apply filter_split in Es as (S1 & S2 & ES & F1 & _).
    destruct (ct_changed_ts _ _ _ _ _ _ ct (adds ++ map snd S1) (tname (snd c)) (snd (fst c)) raw (map snd S2)) as (ts & v & Hl & Hn).
    { unfold data. rewrite ES, map_app, <- app_assoc. cbn [map]. rewrite Cp2. reflexivity. }
    apply (latest_at _ _ _ ES) in Hl.
    rewrite (anchor _ _ _ ES) in Hl; [|unfold kind; rewrite Cp2; cbn; lia|].
    2:{ destruct (ff_changed u Hf) as [Hd _]. rewrite Cp1. destruct c as [[ct0 k0] v0]. apply (Hd ct0 k0 v0). rewrite Ed. apply in_elt. }
    rewrite pre_params, F1 in Hn.
    rewrite <- (Forall2_length _ _ _ (param_entries _ _ CA)), Hi in Hn.
    assert (Vi : (snd (fst c), v) = (snd (fst c), snd c)).
    { pose proof (map_nth_error (fun c => (snd (fst c), snd c)) _ _ Hn) as A1. rewrite V, (map_nth_error _ _ _ Ei) in A1. cbn in A1. congruence. }
    injection Vi as ->. rewrite Hn, Hl, Cp1. now destruct c as [[ct0 k0] v0].
  Qed.
  Lemma flags_same : u_compat u' = u_compat u /\ u_incompat u' = without_append (u_incompat u) /\ u_offsets u' = [].
  Proof.
    assert (E : flags3 u' = (u_compat u, without_append (u_incompat u), [])).
    { rewrite (read_as_def flags3 _ _ _ _ _ _ _ _ (def_flags cf) (ev_same_def flags3 cf ltac:(intros x y Hs; unfold flags3; destruct Hs; intuition congruence)) (fun _ _ => eq_refl) Hr).
      rewrite flags_wire by apply defs_ok. rewrite (wr_defs _ _ _ _ _ _ _ Hw). cbn [flat_map m_flags flags_of app fold_left].
      assert (K : forall k ms, all_of k ms -> k <> 66 -> flat_map flags_of ms = []).
      { intros k ms H Hk. eapply (sel_kind flags_of 66); [|exact H|congruence]. intros m Hm. destruct m; try reflexivity. now destruct Hm. }
      rewrite !flat_map_app, (K _ _ m_formats_of), (K _ _ mi_of), (K _ _ mm_of), (K _ _ mp_of), (K _ _ mq_of) by lia. reflexivity. }
    unfold flags3 in E. injection E as E1 E2 E3. auto.
  Qed.
  (** ** Datasets *)
  Definition is_rec (id : Z) (p : timed) : bool := match snd p with MData i _ => i =? id | _ => false end.
  Lemma recs_filter id l : flat_map (recs_of id) (map snd l) = flat_map (recs_of id) (map snd (filter (is_rec id) l)).
  Proof.
    induction l as [|p l IH]; [reflexivity|]. cbn [filter map flat_map]. destruct (is_rec id p) eqn:E; cbn [map flat_map]; [now rewrite IH|].
    unfold is_rec in E. rewrite IH. destruct (snd p); try reflexivity. cbn [recs_of]. now rewrite E.
  Qed.
  Lemma p_ds_is_rec ds id : filter (is_rec id) (p_ds ds) = if ds_id ds =? id then p_ds ds else [].
  Proof.
    unfold p_ds. induction (seq 0 (samples_in ds)) as [|i l IH]; [now destruct (ds_id ds =? id)|]. cbn [map filter]. unfold is_rec at 1. cbn [snd m_data].
    rewrite IH. now destruct (ds_id ds =? id).
  Qed.
  Lemma p_data_is_rec ds : In ds (by_id u) -> filter (is_rec (ds_id ds)) (p_data u) = p_ds ds.
  Proof.
    intros H. unfold p_data. pose proof ids_by as Hn.
    assert (K : forall l, ~ In (ds_id ds) (map ds_id l) -> filter (is_rec (ds_id ds)) (flat_map p_ds l) = []).
    { induction l as [|d l IH]; intros Hl; [reflexivity|]. cbn [flat_map map In] in *. rewrite filter_app, p_ds_is_rec, IH by tauto.
      destruct (Z.eqb_spec (ds_id d) (ds_id ds)); [tauto|reflexivity]. }
    apply in_split in H as (a & b & E). rewrite E in *. rewrite map_app in Hn. cbn [map] in Hn. apply NoDup_remove_2 in Hn. rewrite in_app_iff in Hn.
    rewrite flat_map_app. cbn [flat_map]. rewrite !filter_app, (K a), (K b), p_ds_is_rec, Z.eqb_refl by tauto. apply app_nil_r.
  Qed.
  Lemma current_data ds : In ds (by_id u) ->
    current (ds_id ds) data = Some (ds_multi ds, ds_name ds, map (rec ds) (seq 0 (samples_in ds))).
  Proof.
    intros H. unfold data. rewrite (current_pre ds S []) by (auto; now rewrite app_nil_r). f_equal. f_equal.
    rewrite recs_filter.
    assert (E : filter (is_rec (ds_id ds)) S = p_ds ds).
    { unfold S, sorted_items. rewrite filter_ssort by (exact time_total || exact time_trans).
      assert (E : filter (is_rec (ds_id ds)) (p_items u pc) = p_ds ds).
      { unfold p_items. rewrite !filter_app, (p_data_is_rec ds H).
        assert (N : forall k l, Forall (fun p => kind p = k) l -> k <> 68 -> filter (is_rec (ds_id ds)) l = []).
        { intros k l F Hk. apply filter_none. eapply Forall_impl; [|exact F]. intros p Hp. unfold is_rec. unfold kind in Hp. destruct (snd p); try reflexivity.
          cbn in Hp. congruence. }
        rewrite (N _ _ (p_log_kind u)), (N _ _ (p_tag_kind u)), (N _ _ (p_drop_kind u)), (N _ _ (pc_kind _ _ ch)) by lia.
        now rewrite !app_nil_r. }
      rewrite E. apply ssort_id. unfold p_ds. apply (sorted_time _ (fun i => rawn ds i (lit "timestamp"))); [reflexivity|].
      pose proof (fits_ds u ds Hf H) as Hd. destruct (ds_count _ _ Hd) as (n & _ & Hs & Hr').
      rewrite Hs, <- (Hr' _ (ds_stamp _ _ Hd)). unfold rawn. rewrite nth_raws. exact (df_times _ _ Hd). }
    rewrite E. unfold p_ds. rewrite map_map, flat_map_map. cbn [snd m_data recs_of]. rewrite Z.eqb_refl.
    induction (seq 0 (samples_in ds)) as [|i l IH]; [reflexivity|]. cbn [flat_map app map]. now rewrite IH.
  Qed.
  Lemma current_none id : (forall ds, In ds (by_id u) -> ds_id ds <> id) -> current id data = None.
  Proof.
    intros H. unfold data, current. rewrite fold_left_app. fold (current id adds). rewrite current_adds_none by exact H.
    rewrite current_items; [reflexivity|]. intros m Hm. apply in_map_iff in Hm as (p & <- & Hp). apply (item_msg_ok p Hp).
  Qed.
  Lemma id_dec id : (exists ds, In ds (by_id u) /\ ds_id ds = id) \/ (forall ds, In ds (by_id u) -> ds_id ds <> id).
  Proof.
    destruct (in_dec Z.eq_dec id (map ds_id (by_id u))) as [H|H].
    - left. apply in_map_iff in H as (ds & E & Hi). eauto.
    - right. intros ds Hi <-. apply H. now apply in_map.
  Qed.
  Lemma tsidx_back ds ds' : In ds (by_id u) -> In ds' (u_data u') -> ds_id ds' = ds_id ds -> ds_tsidx ds' = ds_tsidx ds.
  Proof.
    intros Hd Hd' Eid. destruct (read_as_sections _ _ _ _ _ _ Hr) as (_ & _ & _ & _ & news & Hnews & Hp).
    inversion Hnews as [|? new ? ? Hnew Hrest]; subst news. inversion Hrest; subst. cbn [concat] in Hp. rewrite app_nil_r in Hp.
    apply (Permutation_in ds' Hp) in Hd'. destruct Hnew as (_ & Hn & _). destruct (Hn ds' Hd') as (s & rs & Hs & _ & Hh).
    destruct Hh as (_ & Hid & _ & _ & Hts & _). apply subscription_origin in Hs as (p & Hin & Hparse).
    unfold msgs in Hin. rewrite map_map in Hin. apply in_map_iff in Hin as (m & Em & Hin). injection Em as Ety Ep.
    destruct m; try discriminate Ety.
    destruct (Hadd _ _ _ Hin) as (fields & ts & Htop & Hpa). subst p. rewrite formats_back in Htop, Hpa.
    rewrite (ct_formats _ _ _ _ _ _ ct) in Hparse. unfold fmts in Hparse. rewrite Hpa in Hparse.
    apply (f_equal (fun r => match r with Ok x => x | Err _ => s end)) in Hparse. cbv beta iota in Hparse. subst s.
    unfold data in Hin. apply in_app_or in Hin as [Hin|Hin].
    2:{ apply in_map_iff in Hin as (q & Eq & Hq). destruct (item_msg_ok q Hq) as (_ & _ & Hno). now destruct (Hno _ _ _ Eq). }
    apply adds_in in Hin as (ds2 & Hd2 & E). injection E as -> -> ->.
    cbn [sub_of sb_id sb_tsidx] in *. assert (ds2 = ds) by (apply same_id; auto; congruence). subst ds2.
    pose proof (fits_ds u ds Hf Hd) as F. rewrite (topic_fun _ _ _ _ Htop (df_topic _ _ F)) in Hpa.
    destruct (df_stamp _ _ F) as [T1 T2]. destruct (df_ids _ _ F) as (I1 & I2 & I3 & _).
    destruct (tp_fields _ _ _ (df_topic _ _ F)) as (fmt & out & Hfm & _).
    rewrite Hts. rewrite (add_tsidx cf _ _ _ _ _ _ _ fmt (df_topic _ _ F) I3 I1 I2 Hfm (fun ty n => df_plain _ _ F fmt ty n Hfm) T2 Hpa). lia.
  Qed.
  Lemma dataset_back ds ds' : In ds (by_id u) -> In ds' (u_data u') -> ds_id ds' = ds_id ds -> ds' = ds.
  Proof.
    intros Hd Hd' Eid. pose proof (tsidx_back ds ds' Hd Hd' Eid) as Ets.
    destruct (ct_datasets _ _ _ _ _ _ ct) as (_ & H & _). destruct (H ds' Hd') as (multi & name & recs & fields & Hc & _ & Htop & Hds).
    rewrite Eid in Hc. pose proof (eq_trans (eq_sym (current_data ds Hd)) Hc) as E. injection E as <- <- <-.
    pose proof (fits_ds u ds Hf Hd) as F. rewrite (topic_fun _ _ _ _ Htop (df_topic _ _ F)) in Hds.
    destruct Hds as (D1 & D2 & D3 & D4 & D5 & D6).
    assert (Edata : ds_data ds' = ds_data ds).
    { apply (dict_ext str_eqb str_eqb_spec).
      - etransitivity; [exact D5|]. symmetry. exact (df_keys _ _ F).
      - refine (eq_ind_r (fun l : list str => NoDup l) _ D5). apply (tp_names _ _ _ (df_topic _ _ F)).
      - intros k Hk. pose proof (eq_ind _ (fun l : list str => In k l) Hk _ D5) as Hk1. clear Hk. rename Hk1 into Hk. apply in_map_iff in Hk as (fd & <- & Hfd). destruct (In_nth_error _ _ Hfd) as (i & Hi).
        rewrite (D6 _ _ Hi). destruct (df_columns _ _ F) as (n & _ & Hcol). destruct (Hcol fd Hfd) as (l & Hl & Hlen & _). rewrite Hl. f_equal. f_equal.
        rewrite map_map. destruct (ds_count _ _ F) as (n' & _ & Hs & Hr'). rewrite Hs. specialize (Hr' fd Hfd). unfold raws in Hr'. rewrite Hl in Hr'. cbn [c_raw] in Hr'.
        rewrite <- Hr', <- (nth_raws l). rewrite nth_raws at 1. rewrite <- Hr' in Hs. clear D6.
        apply map_ext_in. intros j Hj. apply in_seq in Hj. unfold rec. rewrite (field_bytes_rec _ _ _ _ Hi).
        destruct (ds_column _ _ F fd j Hfd) as [_ [Hb _]]; [lia|]. rewrite le_dec_enc by exact Hb. unfold rawn, raws. now rewrite Hl. }
    destruct ds, ds'. cbn in *. congruence.
  Qed.
  Lemma data_same : u_data u' = u_data u.
  Proof.
    destruct (ff_data u Hf) as (_ & Hids & Hnm & Hsort). destruct (ct_datasets _ _ _ _ _ _ ct) as (Hids' & Hin1 & Hin2).
    assert (Hiff : forall ds, In ds (u_data u') <-> In ds (u_data u)).
    { intros ds. split; intros H.
      - destruct (id_dec (ds_id ds)) as [(d & Hd & Ei)|Hno].
        + rewrite (dataset_back d ds Hd H (eq_sym Ei)). now apply by_id_In.
        + destruct (Hin1 ds H) as (a & b & c & d & E & _). rewrite (current_none _ Hno) in E. discriminate.
      - assert (Hd : In ds (by_id u)) by now apply by_id_In.
        destruct (ds_count _ _ (fits_ds u ds Hf Hd)) as (n & Hn & Hs & _).
        destruct (Hin2 _ _ _ _ (current_data ds Hd)) as (d & Hd1 & Hd2).
        + rewrite Hs. destruct n; [lia|discriminate].
        + now rewrite <- (dataset_back ds d Hd Hd1 Hd2). }
    assert (P : Permutation (u_data u) (u_data u')).
    { apply NoDup_Permutation; [eapply NoDup_map_inv; exact Hids|eapply NoDup_map_inv; exact Hids'|]. intros ds. symmetry. apply Hiff. }
    symmetry. refine (sorted_perm_eq _ _ _ Hsort _ P _).
    - destruct Hr as (u1 & _ & Hc). inversion Hc as [|? ? ? u2 u3 ? Hfin Hz Hn]; subst. inversion Hn; subst.
      unfold finalize in Hz. apply bind_Ok_inv in Hz as (l & _ & Hz). injection Hz as <-. cbn. apply ssort_sorted; [exact ds_leb_total|exact ds_leb_trans].
    - intros a b Ha Hb L1 L2. apply In_nth_error in Ha as [i Hi]. apply In_nth_error in Hb as [j Hj].
      assert (i = j); [|congruence].
      apply (proj1 (NoDup_nth_error _) Hnm); [apply nth_error_Some; rewrite (map_nth_error _ _ _ Hi); discriminate|].
      rewrite (map_nth_error _ _ _ Hi), (map_nth_error _ _ _ Hj). f_equal.
      apply ds_leb_iff in L1, L2. destruct L1 as [L1|[L1 L1']], L2 as [L2|[L2 L2']].
      + rewrite str_cmp_antisym, L1 in L2. discriminate.
      + rewrite L2, str_cmp_refl in L1. discriminate.
      + rewrite L1, str_cmp_refl in L2. discriminate.
      + f_equal; [exact L1|lia].
  Qed.
  Lemma syncs_written : syncs (msgs (map wire data)) = 0.
  Proof.
    set (g := fun m : msg => if fst (wire m) =? 83 then [tt] else []).
    assert (E : forall l, syncs (msgs (map wire l)) = lenZ (flat_map g l)).
    { induction l as [|m l IH]; [reflexivity|]. unfold syncs, msgs in *. cbn [map filter flat_map]. unfold g at 1.
      destruct (fst (wire m) =? 83); [|exact IH]. unfold lenZ in *. cbn [length app]. rewrite !Nat2Z.inj_succ. now f_equal. }
    rewrite E, (sel_data g 83) by (try lia; intros m Hm; unfold g; destruct (Z.eqb_spec (fst (wire m)) 83); congruence). reflexivity.
  Qed.
  Lemma is_copy : copy_of u u'.
  Proof.
    destruct (quiet_read _ _ _ _ _ _ Hfil (msgs_are _) (msgs_are _) Hr Hcor) as (Q1 & Q2 & Q3).
    constructor.
    - destruct (ct_version _ _ _ _ _ _ ct). auto using last_same.
    - exact flags_same.
    - exact (ct_formats _ _ _ _ _ _ ct).
    - exact info_same.
    - exact multi_same.
    - auto using params_same, defaults_same, changed_same.
    - auto using logged_same, tagged_same.
    - exact dropouts_same.
    - exact data_same.
    - rewrite (syncs_read _ _ _ _ _ _ Hr), syncs_written. auto.
  Qed.
  End Reading.
End Copy.

(** ** The round trip *)
Theorem round_trip u : fits_format u -> exists f, write u = Ok f /\
  (lenZ f <= BIG -> exists depth, forall cf, (depth <= cf_depth cf)%nat -> cf_hdr cf = false -> (forall n, cf_filter cf n = true) ->
    exists u', (forall r, produces cf f r <-> r = Ok u') /\ copy_of u u' /\ u_subs u' = [] /\
      u_tagged u' = fold_left ins_tag (ssort (fun a b => tg_ts a <=? tg_ts b) (concat (map snd (u_tagged u)))) []).
Proof.
  intros Hf. destruct (write_ok u Hf) as (defs & pc & mi & mm & mp & mq & Hw & E). eexists. split; [exact E|]. intros Hl.
  pose proof (typed_written u defs pc mi mm mp mq Hf Hw _ eq_refl Hl) as Ht.
  destruct (typed_reads _ _ _ _ _ Ht) as (depth & H). exists depth. intros cf H1 H2 H3. destruct (H cf H1 H2 H3) as (u' & A & B & C & D).
  exists u'. split; [exact A|]. split; [eapply is_copy; eauto|]. split; [apply (read_as_sections _ _ _ _ _ _ D)|]. eapply tagged_fold; eauto.
Qed.
