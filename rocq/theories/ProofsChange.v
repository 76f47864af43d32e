(** All the ways in which reading changes the object, and what follows for every file. *)
From Coq Require Import Permutation Sorted.
From Verif Require Import Base Dict Utf8 PyStr PyFloat Struct PySort ModelTypes ModelRead Spec
  ProofsRead ProofsSync ProofsInv ProofsTrace.
Ltac Zify.zify_post_hook ::= Z.div_mod_to_equations.

Inductive change (cf : cfg) (u : ulog) : ulog -> Prop :=
| ch_refl : change cf u u
| ch_info m : change cf u (add_info m u)
| ch_multi c m u' : add_info_multi c m u = Ok u' -> change cf u u'
| ch_format m : change cf u (set_formats (sset (mf_name m) m (u_formats u)) u)
| ch_param m : change cf u (set_params (sset (im_key m) (im_value m) (u_params u)) u)
| ch_pdef b m : change cf u (add_param_default b m u)
| ch_flags d c i o : parse_flags d = Ok (c, i, o) -> known_incompat i ->
    change cf u (set_offsets o (set_incompat i (set_compat c u)))
| ch_changed m : change cf u (set_changed (u_changed u ++ [(u_last u, im_key m, im_value m)]) u)
| ch_add d s : parse_add cf (u_formats u) d = Ok s -> cf_filter cf (sb_name s) = true ->
    change cf u (set_subs (zset (sb_id s) s (u_subs u)) u)
| ch_filtered i : change cf u (set_filtered (set_add i (u_filtered u)) u)
| ch_log m : change cf u (set_logged (u_logged u ++ [m]) u)
| ch_tag m : change cf u (set_tagged (match zget (tg_tag m) (u_tagged u) with
                          | Some l => zset (tg_tag m) (l ++ [m]) (u_tagged u)
                          | None => zset (tg_tag m) [m] (u_tagged u)
                          end) u)
| ch_data id s p : zget id (u_subs u) = Some s -> lenZ p = itemsize (sb_dtype s) ->
    change cf u (set_subs (zset id (set_buf (sb_buf s ++ p) s) (u_subs u)) u)
| ch_last ts : u_last u < ts -> change cf u (set_last ts u)
| ch_missing i : change cf u (set_missing (set_add i (u_missing u)) u)
| ch_drop d : change cf u (set_dropouts (u_dropouts u ++ [mkDrop d (u_last u)]) u)
| ch_sync : change cf u (set_sync_cnt (u_sync_cnt u + 1) u)
| ch_corrupt : change cf u (set_corrupt true u)
| ch_nosync : change cf u (set_has_sync false u)
| ch_final u' : finalize u = Ok u' -> change cf u u'.

Inductive changes (cf : cfg) (u : ulog) : ulog -> Prop :=
| chs_refl : changes cf u u
| chs_step u1 u2 : changes cf u u1 -> change cf u1 u2 -> changes cf u u2.

Lemma changes_one cf u u' : change cf u u' -> changes cf u u'.
Proof. intros H. eapply chs_step; [constructor|exact H]. Qed.
Lemma changes_trans cf u v w : changes cf u v -> changes cf v w -> changes cf u w.
Proof. intros H1 H2. induction H2; auto. eapply chs_step; eauto. Qed.

Lemma known_incompat_iff i :
  known_incompat i <->
  negb (Z.land (nth 0 i 0) (Z.lnot 1) =? 0) = false /\ existsb (fun x => negb (x =? 0)) (tl i) = false.
Proof.
  unfold known_incompat. rewrite negb_false_iff, Z.eqb_eq. split; intros [H1 H2]; split; auto.
  - apply not_true_iff_false. rewrite existsb_exists. intros (x & Hx & Hn).
    rewrite Forall_forall in H2. rewrite (H2 _ Hx) in Hn. discriminate.
  - apply Forall_forall. intros x Hx. destruct (Z.eqb_spec x 0) as [|Hn]; auto.
    exfalso. apply not_true_iff_false in H2. apply H2. apply existsb_exists. exists x. split; auto.
    apply negb_true_iff. now apply Z.eqb_neq.
Qed.

Lemma bind_Ok_inv {A B} (r : res A) (k : A -> res B) b : bind r k = Ok b -> exists a, r = Ok a /\ k a = Ok b.
Proof. destruct r; simpl; intros H; [eauto|discriminate]. Qed.

Lemma def_effect_change cf ty d u u' : def_effect cf ty d u = Some (Ok u') -> change cf u u'.
Proof.
  unfold def_effect. cbv zeta. intros H.
  destruct (ty =? T_INFO). { injection H as H. apply bind_Ok_inv in H as (m & _ & H). injection H as <-. constructor. }
  destruct (ty =? T_MULTI). { injection H as H. apply bind_Ok_inv in H as (m & _ & H). econstructor; eauto. }
  destruct (ty =? T_FORMAT). { injection H as H. apply bind_Ok_inv in H as (m & _ & H). injection H as <-. constructor. }
  destruct (ty =? T_PARAM). { injection H as H. apply bind_Ok_inv in H as (m & _ & H). injection H as <-. constructor. }
  destruct (ty =? T_PDEF). { injection H as H. apply bind_Ok_inv in H as (m & _ & H). injection H as <-. constructor. }
  destruct (ty =? T_FLAGS); [|discriminate].
  injection H as H. apply bind_Ok_inv in H as ([[c i] o] & Hp & H).
  destruct (negb _) eqn:E1; [discriminate|]. destruct (existsb _ _) eqn:E2; [discriminate|].
  injection H as <-. eapply ch_flags; [exact Hp|]. apply known_incompat_iff; auto.
Qed.

Lemma data_msg_change cf d u u' e : data_msg d u = (u', e) -> changes cf u u'.
Proof.
  unfold data_msg. destruct (unpack_u 2 _) as [id|e1] eqn:E0; [|intros H; injection H as <- <-; constructor].
  destruct (zget id (u_subs u)) as [s|] eqn:E1.
  - cbv zeta. destruct (_ || _) eqn:Esz; [intros H; injection H as <- <-; apply changes_one; constructor|].
    apply orb_false_iff in Esz as [Ea Eb]. apply Z.ltb_ge in Ea, Eb.
    set (data' := if itemsize (sb_dtype s) <? lenZ d - 2 then takeZ (2 + itemsize (sb_dtype s)) d else d).
    assert (Hd : lenZ (dropZ 2 data') = itemsize (sb_dtype s)).
    { assert (Hi : 0 <= itemsize (sb_dtype s)).
      { unfold itemsize. generalize (sb_dtype s). induction l as [|x l IH]; simpl; lia. }
      rewrite lenZ_dropZ by lia. unfold data'.
      destruct (Z.ltb_spec (itemsize (sb_dtype s)) (lenZ d - 2)); [rewrite lenZ_takeZ by lia; lia|].
      assert (2 <= lenZ d).
      { apply unpack_u_Ok in E0. destruct E0 as [E0 _]. 
        assert (lenZ (takeZ 2 d) = 2) by (unfold lenZ; lia). rewrite lenZ_takeZ in H0 by lia. lia. }
      lia. }
    pose proof (ch_data cf u id s _ E1 Hd) as Hc.
    destruct (unpack_u 8 _) as [ts|].
    + intros H. injection H as <- <-. destruct (Z.ltb_spec (u_last u) ts).
      * eapply chs_step; [apply changes_one; exact Hc|]. apply ch_last. exact H.
      * apply changes_one, Hc.
    + intros H. injection H as <- <-. apply changes_one, Hc.
  - destruct (existsb _ _); intros H; injection H as <- <-; [constructor|].
    eapply chs_step; [apply changes_one; apply ch_missing|apply ch_corrupt].
Qed.

Lemma data_effect_change cf ty d u u' e : data_effect cf ty d u = Some (u', e) -> changes cf u u'.
Proof.
  unfold data_effect. cbv zeta. intros H.
  assert (Heff : forall r, Some (eff_of u r) = Some (u', e) -> (forall v, r = Ok v -> change cf u v) -> changes cf u u').
  { intros r E Hr. injection E as E. unfold eff_of in E. destruct r as [v|]; injection E as <- <-; [|constructor].
    apply changes_one. auto. }
  destruct (ty =? T_INFO). { apply (Heff _ H). intros v Hv. apply bind_Ok_inv in Hv as (m & _ & Hv). injection Hv as <-. constructor. }
  destruct (ty =? T_MULTI). { apply (Heff _ H). intros v Hv. apply bind_Ok_inv in Hv as (m & _ & Hv). econstructor; eauto. }
  destruct (ty =? T_PARAM). { apply (Heff _ H). intros v Hv. apply bind_Ok_inv in Hv as (m & _ & Hv). injection Hv as <-. constructor. }
  destruct (ty =? T_PDEF). { apply (Heff _ H). intros v Hv. apply bind_Ok_inv in Hv as (m & _ & Hv). injection Hv as <-. constructor. }
  destruct (ty =? T_ADD). { apply (Heff _ H). intros v Hv. apply bind_Ok_inv in Hv as (s & Hs & Hv).
    destruct (cf_filter cf (sb_name s)) eqn:Ef; injection Hv as <-; [eapply ch_add; eauto|constructor]. }
  destruct (ty =? T_LOG). { apply (Heff _ H). intros v Hv. apply bind_Ok_inv in Hv as (m & _ & Hv). injection Hv as <-. constructor. }
  destruct (ty =? T_LOGT). { apply (Heff _ H). intros v Hv. apply bind_Ok_inv in Hv as (m & _ & Hv). injection Hv as <-. constructor. }
  destruct (ty =? T_DATA). { injection H as H. eapply data_msg_change; eauto. }
  destruct (ty =? T_DROP). { apply (Heff _ H). intros v Hv. apply bind_Ok_inv in Hv as (m & Hm & Hv). injection Hv as <-.
    unfold parse_dropout in Hm. apply bind_Ok_inv in Hm as (x & _ & Hm). injection Hm as <-. constructor. }
  destruct (ty =? T_SYNC); [|discriminate]. injection H as <- <-. apply changes_one. constructor.
Qed.

Lemma def_step_changes cf f pos u :
  match def_step cf f pos u with DNext _ u' | DStop _ u' => changes cf u u' | DRaise _ => True end.
Proof.
  unfold def_step. cbv zeta. destruct (rd f pos 3) as [|s0 [|s1 [|ty [|]]]]; try exact I; try constructor.
  destruct (def_effect cf ty _ u) as [[u'|e]|] eqn:Ee.
  - apply changes_one. eapply def_effect_change; eauto.
  - destruct e; try exact I. apply changes_one; constructor.
  - destruct (_ || _ || _); [destruct (seek_rel _ _ _); [constructor|exact I]|].
    destruct (packet_corrupt _ _); [|constructor].
    destruct (seek_rel _ _ _); [apply changes_one; constructor|exact I].
Qed.

Lemma data_step_changes fuel cf until f pos cfp u :
  match data_step fuel cf until f pos cfp u with SNext _ _ u' | SStop u' => changes cf u u' | _ => True end.
Proof.
  unfold data_step. cbv zeta. destruct (rd f pos 3) as [|s0 [|s1 [|ty [|]]]]; try constructor.
  destruct (_ <? _); [constructor|]. destruct (_ <? _); [constructor|].
  destruct (data_effect cf ty _ u) as [[u' e]|] eqn:Ee.
  - apply data_effect_change in Ee. destruct e as [[]|]; try exact I; auto.
    eapply chs_step; [exact Ee|]. constructor.
  - destruct (packet_corrupt _ _).
    + destruct (u_has_sync _); [|apply changes_one; constructor].
      unfold find_sync. destruct (find_sync_loop _ _ _) as [[q|]|]; [| |exact I].
      * eapply chs_step; [apply changes_one, ch_corrupt|apply ch_corrupt].
      * eapply chs_step; [apply changes_one, ch_corrupt|apply ch_nosync].
    + destruct (u_has_sync u); [|constructor]. unfold find_sync_last. cbv zeta.
      destruct (_ <? 8); [constructor|]. destruct (0 <=? _); [apply changes_one|]; constructor.
Qed.

Lemma reading_changes cf f u u' : reading cf f u u' -> changes cf u u'.
Proof.
  intros [pos p H|fuel until pos cfp p c H|H].
  - pose proof (def_step_changes cf f pos u) as Hc. destruct H as [H|H]; rewrite H in Hc; exact Hc.
  - pose proof (data_step_changes fuel cf until f pos cfp u) as Hc. destruct H as [H|H]; rewrite H in Hc; exact Hc.
  - apply changes_one. now apply ch_final.
Qed.
Lemma readings_changes cf f u u' : readings cf f u u' -> changes cf u u'.
Proof. induction 1; [constructor|]. eapply changes_trans; [eassumption|]. eapply reading_changes; eauto. Qed.

(** every load is a sequence of readings *)
Lemma readings_trans cf f u v w : readings cf f u v -> readings cf f v w -> readings cf f u w.
Proof. intros H1 H2. induction H2; auto. eapply rds_step; eauto. Qed.
Lemma readings_cons cf f u v w : reading cf f u v -> readings cf f v w -> readings cf f u w.
Proof. intros H. apply readings_trans. eapply rds_step; [constructor|exact H]. Qed.

Lemma def_loop_readings cf f fuel : forall pos u p u',
  def_loop fuel cf f pos u = Some (Ok (p, u')) -> readings cf f u u'.
Proof.
  induction fuel as [|k IH]; intros pos u p u' H; [discriminate|]. cbn [def_loop] in H.
  destruct (def_step cf f pos u) as [q v|q v|] eqn:E; [| |discriminate].
  - eapply readings_cons; [|eapply IH; exact H]. eapply rd_def; eauto.
  - injection H as <- <-. eapply readings_cons; [|constructor]. eapply rd_def; eauto.
Qed.
Lemma data_loop_readings cf until f fuel : forall pos cfp u u',
  data_loop fuel cf until f pos cfp u = Some (Ok u') -> readings cf f u u'.
Proof.
  induction fuel as [|k IH]; intros pos cfp u u' H; [discriminate|]. cbn [data_loop] in H.
  destruct (data_step (S k) cf until f pos cfp u) as [q c v|v| |] eqn:E; try discriminate.
  - eapply readings_cons; [|eapply IH; exact H]. eapply rd_data; eauto.
  - injection H as <-. eapply readings_cons; [|constructor]. eapply rd_data with (p := 0) (c := 0); eauto.
Qed.
Lemma read_data_readings cf until f fuel pos u u' :
  read_data fuel cf until f pos u = Some (Ok u') -> readings cf f u u'.
Proof.
  unfold read_data. destruct (data_loop _ _ _ _ _ _ _) as [[v|]|] eqn:E; try discriminate.
  intros H. injection H as H. eapply rds_step; [eapply data_loop_readings; eauto|]. now apply rd_end.
Qed.
Lemma read_sections_readings cf f fuel offs : forall pos u u',
  read_sections fuel cf f offs pos u = Some (Ok u') -> readings cf f u u'.
Proof.
  induction offs as [|o offs IH]; intros pos u u' H; cbn [read_sections] in H.
  - eapply read_data_readings; eauto.
  - destruct (read_data fuel cf o f pos u) as [[v|]|] eqn:E; try discriminate.
    destruct (seek_abs _ _); [|discriminate]. eapply readings_trans; [eapply read_data_readings; eauto|eauto].
Qed.
Lemma load_readings cf f u : produces cf f (Ok u) ->
  exists v t, read_header f 0 = Ok (v, t) /\ readings cf f (after_header v t) u.
Proof.
  intros [n H]. unfold load, load_at in H. destruct (read_header f 0) as [[v t]|] eqn:Eh; [|discriminate].
  exists v, t. split; [reflexivity|]. cbv zeta in H. fold (after_header v t) in H.
  destruct (def_loop n cf f (0 + 16) (after_header v t)) as [[[p u2]|]|] eqn:E; try discriminate.
  apply def_loop_readings in E. destruct (cf_hdr cf).
  - injection H as <-. exact E.
  - eapply readings_trans; [exact E|]. eapply read_sections_readings; eauto.
Qed.

(** ** invariants *)
Definition preserved (cf : cfg) (P : ulog -> Prop) : Prop := forall u u', change cf u u' -> P u -> P u'.
Lemma preserved_changes cf P : preserved cf P -> forall u u', changes cf u u' -> P u -> P u'.
Proof. intros HP u u' H Hu. induction H; auto. eapply HP; eauto. Qed.

Lemma finalize_inv u u' : finalize u = Ok u' -> exists ds,
  mapM dataset_of (filter (fun s => negb (Nat.eqb (length (sb_buf s)) 0)) (rev (map snd (u_subs u)))) = Ok ds /\
  u' = set_data (ssort ds_leb (u_data u ++ ds)) (set_subs [] u).
Proof.
  unfold finalize. intros H. apply bind_Ok_inv in H as (ds & H1 & H2). injection H2 as <-. eauto.
Qed.

Lemma add_info_multi_inv c m u u' : add_info_multi c m u = Ok u' ->
  exists a b, u' = set_multit b (set_multi a u).
Proof.
  unfold add_info_multi. destruct (sget _ _).
  - destruct (negb _).
    + intros H. apply bind_Ok_inv in H as (x & _ & H). injection H as <-. exists (sset (im_key m) x (u_multi u)), (u_multit u). now destruct u.
    + intros H. injection H as <-. exists (sset (im_key m) (l ++ [[im_value m]]) (u_multi u)), (u_multit u). now destruct u.
  - intros H. injection H as <-. eauto.
Qed.

(** C08 *)

Lemma prefix_refl {A} (l : list A) : prefix l l.
Proof. exists []. now rewrite app_nil_r. Qed.
Lemma prefix_trans {A} (a b c : list A) : prefix a b -> prefix b c -> prefix a c.
Proof. intros [x ->] [y ->]. exists (x ++ y). now rewrite app_assoc. Qed.
Lemma grows_refl u : grows u u.
Proof.
  repeat split; try apply prefix_refl; auto; [lia|]. exists []. now rewrite app_nil_r.
Qed.
Lemma grows_trans u v w : grows u v -> grows v w -> grows u w.
Proof.
  intros (A1 & A2 & A3 & A4 & A5 & x & A6) (B1 & B2 & B3 & B4 & B5 & y & B6).
  repeat split; eauto using prefix_trans; [lia|]. exists (x ++ y). rewrite app_assoc.
  rewrite B6. now apply Permutation_app_tail.
Qed.

Lemma change_grows cf u u' : change cf u u' -> grows u u'.
Proof.
  destruct 1; try (destruct u; repeat split; simpl in *; try apply prefix_refl; auto; try lia;
     try (exists []; now rewrite app_nil_r); try (eexists; reflexivity); fail).
  - apply add_info_multi_inv in H as (a & b & ->). destruct u; repeat split; simpl; try apply prefix_refl; auto; try lia.
    exists []; now rewrite app_nil_r.
  - apply finalize_inv in H as (ds & _ & ->). destruct u; repeat split; simpl; try apply prefix_refl; auto; try lia.
    exists ds. symmetry; apply ssort_perm.
Qed.
Lemma changes_grows cf u u' : changes cf u u' -> grows u u'.
Proof. induction 1; [apply grows_refl|]. eapply grows_trans; eauto using change_grows. Qed.

(** C12: timestamps of dropouts and of changed parameters *)
Definition ts_inv (u : ulog) : Prop :=
  ts_sorted (map dr_ts (u_dropouts u)) /\ Forall (fun x => x <= u_last u) (map dr_ts (u_dropouts u)) /\
  ts_sorted (map (fun c => fst (fst c)) (u_changed u)) /\
  Forall (fun x => x <= u_last u) (map (fun c => fst (fst c)) (u_changed u)) /\
  u_start u <= u_last u.

Lemma ts_sorted_snoc l x : ts_sorted l -> Forall (fun y => y <= x) l -> ts_sorted (l ++ [x]).
Proof.
  intros H. induction H as [|a l H IH Ha]; intros Hx; simpl; [repeat constructor|].
  inversion Hx; subst. apply SSorted_cons; [exact (IH H3)|]. apply Forall_app; split; auto.
Qed.

Lemma ts_inv_preserved cf : preserved cf ts_inv.
Proof.
  intros u u' H (A & B & C & D & E). destruct H; try (destruct u; unfold ts_inv; simpl in *; auto; fail).
  - apply add_info_multi_inv in H as (a & b & ->). destruct u; unfold ts_inv; simpl in *; auto.
  - destruct u; unfold ts_inv; simpl in *. rewrite map_app. simpl. repeat split; auto.
    + now apply ts_sorted_snoc.
    + apply Forall_app; split; auto. repeat constructor. lia.
  - destruct u; unfold ts_inv; simpl in *. repeat split; auto; try lia.
    + eapply Forall_impl; [|exact B]. simpl; intros; lia.
    + eapply Forall_impl; [|exact D]. simpl; intros; lia.
  - destruct u; unfold ts_inv; simpl in *. rewrite map_app. simpl. repeat split; auto.
    + now apply ts_sorted_snoc.
    + apply Forall_app; split; auto. repeat constructor. lia.
  - apply finalize_inv in H as (ds & _ & ->). destruct u; unfold ts_inv; simpl in *; auto.
Qed.

(** C19 *)
Lemma incompat_preserved cf : preserved cf (fun u => known_incompat (u_incompat u)).
Proof.
  intros u u' H Hu. destruct H; try (destruct u; simpl in *; exact Hu).
  - apply add_info_multi_inv in H as (a & b & ->). destruct u; exact Hu.
  - destruct u; simpl; assumption.
  - apply finalize_inv in H as (ds & _ & ->). destruct u; exact Hu.
Qed.

(** appended offsets are unsigned *)
Lemma drop_zeros_incl l : incl (drop_zeros l) l.
Proof. induction l as [|[| |] l IH]; simpl; try apply incl_refl. now apply incl_tl. Qed.
Lemma strip_trailing_zeros_incl l : incl (strip_trailing_zeros l) l.
Proof.
  unfold strip_trailing_zeros. intros x H. apply in_rev in H. apply drop_zeros_incl in H. now apply in_rev.
Qed.

(** C13: keys of the two info dictionaries agree; C14: no empty group *)
