(** The attributes of a loaded log as functions of its messages. *)
From Coq Require Import Permutation Sorted.
From Verif Require Import Base Dict Utf8 PyStr PyFloat Struct PySort ModelTypes ModelRead ModelApi Spec SpecSection
  ProofsRead ProofsFile ProofsChange ProofsTrace ProofsSection ProofsData ProofsWhole.

(** the order of data_list *)
Lemma ds_leb_total a b : ds_leb a b = true \/ ds_leb b a = true.
Proof.
  unfold ds_leb. rewrite (str_cmp_antisym (ds_name a) (ds_name b)).
  destruct (str_cmp (ds_name a) (ds_name b)); cbn [CompOpp]; auto. lia.
Qed.
Lemma ds_leb_iff a b : ds_leb a b = true <->
  str_cmp (ds_name a) (ds_name b) = Lt \/ (ds_name a = ds_name b /\ ds_multi a <= ds_multi b).
Proof.
  unfold ds_leb. destruct (str_cmp (ds_name a) (ds_name b)) eqn:E.
  - apply str_cmp_eq in E. rewrite E. split; [right; split; auto; lia|].
    intros [H|[_ H]]; [discriminate|lia].
  - split; auto.
  - split; [discriminate|]. intros [H|[H _]]; [discriminate|].
    exfalso. assert (K := str_cmp_refl (ds_name b)). rewrite H in E. unfold str in *. congruence.
Qed.
Lemma ds_leb_trans a b c : ds_leb a b = true -> ds_leb b c = true -> ds_leb a c = true.
Proof.
  rewrite !ds_leb_iff. intros [H|[H1 H2]] [K|[K1 K2]].
  - left. eapply str_cmp_lt_trans; eauto.
  - left. now rewrite <- K1.
  - left. now rewrite H1.
  - right. split; [congruence|lia].
Qed.

(** Folds over the definition events and then the data events. *)
Lemma read_as_fold {X S} (F : ulog -> S) (dec : event -> list X) (ins : S -> X -> S) cf v t defs secs u :
  (forall e u u', def_ev cf e u u' -> F u' = fold_left ins (dec e) (F u)) ->
  (forall e u u', ev_step cf e u u' -> F u' = fold_left ins (dec e) (F u)) ->
  (forall d u, F (set_data d (set_subs [] u)) = F u) ->
  read_as cf v t defs secs u ->
  F u = fold_left ins (flat_map dec (defs ++ concat secs)) (F (after_header v t)).
Proof.
  intros H1 H2 H3 (u1 & Hd & Hc).
  rewrite (chain_fold F dec ins cf H2 H3 _ _ _ Hc), (def_fold F dec ins cf H1 _ _ _ Hd).
  now rewrite flat_map_app, fold_left_app.
Qed.
(** Attributes only the definition events change. *)
Lemma read_as_def {X S} (F : ulog -> S) (dec : event -> list X) (ins : S -> X -> S) cf v t defs secs u :
  (forall e u u', def_ev cf e u u' -> F u' = fold_left ins (dec e) (F u)) ->
  (forall e u u', ev_step cf e u u' -> F u' = F u) ->
  (forall d u, F (set_data d (set_subs [] u)) = F u) ->
  read_as cf v t defs secs u ->
  F u = fold_left ins (flat_map dec defs) (F (after_header v t)).
Proof.
  intros H1 H2 H3 (u1 & Hd & Hc).
  rewrite (chain_fold F (fun _ : event => @nil X) ins cf (fun e u u' H => H2 e u u' H) H3 _ _ _ Hc).
  assert (E : forall (l : list event), flat_map (fun _ : event => @nil X) l = []) by (induction l; auto).
  rewrite E. exact (def_fold F dec ins cf H1 _ _ _ Hd).
Qed.
(** Attributes only the data events change. *)
Lemma read_as_data {X S} (F : ulog -> S) (dec : event -> list X) (ins : S -> X -> S) cf v t defs secs u :
  (forall e u u', def_ev cf e u u' -> F u' = F u) ->
  (forall e u u', ev_step cf e u u' -> F u' = fold_left ins (dec e) (F u)) ->
  (forall d u, F (set_data d (set_subs [] u)) = F u) ->
  read_as cf v t defs secs u ->
  F u = fold_left ins (flat_map dec (concat secs)) (F (after_header v t)).
Proof.
  intros H1 H2 H3 (u1 & Hd & Hc).
  rewrite (chain_fold F dec ins cf H2 H3 _ _ _ Hc). now rewrite (def_const F cf H1 _ _ _ Hd).
Qed.

Lemma def_rest_of {S} (F : ulog -> S) (G : _ -> S) cf : (forall u, F u = G (def_rest u)) ->
  forall e u u', def_ev cf e u u' -> F u' = F u.
Proof. intros E e u u' H. rewrite !E. f_equal. eapply def_rest_same; eauto. Qed.

Lemma ev_same_def {S} (F : ulog -> S) cf : (forall u u', same_defs u u' -> F u' = F u) ->
  forall e u u', ev_step cf e u u' -> F u' = F u.
Proof. intros E e u u' H. apply E. eapply ev_step_defs; eauto. Qed.

Section Fields.
  Context (cf : cfg) (v t : Z) (defs : list event) (secs : list (list event)) (u : ulog).
  Hypothesis H : read_as cf v t defs secs u.
  Let ign := cf_ign cf.

  Lemma read_as_info : u_info u = fold_left ins_info (infos ign (defs ++ concat secs)) [].
  Proof. exact (read_as_fold u_info _ ins_info cf v t defs secs u (def_info cf) (ev_info cf) (fun _ _ => eq_refl) H). Qed.
  Lemma read_as_infot : u_infot u = fold_left ins_infot (infos ign (defs ++ concat secs)) [].
  Proof. exact (read_as_fold u_infot _ ins_infot cf v t defs secs u (def_infot cf) (ev_infot cf) (fun _ _ => eq_refl) H). Qed.
  Lemma read_as_multi : u_multi u = fold_left ins_multi (multis ign (defs ++ concat secs)) [].
  Proof. exact (read_as_fold u_multi _ ins_multi cf v t defs secs u (def_multi cf) (ev_multi cf) (fun _ _ => eq_refl) H). Qed.
  Lemma read_as_defaults : u_defaults u = fold_left ins_pdef (pdefs ign (defs ++ concat secs)) [].
  Proof. exact (read_as_fold u_defaults _ ins_pdef cf v t defs secs u (def_pdef cf) (ev_pdef cf) (fun _ _ => eq_refl) H). Qed.
  Lemma read_as_params : u_params u = fold_left ins_info (params ign defs) [].
  Proof.
    refine (read_as_def u_params _ ins_info cf v t defs secs u (def_params cf) _ (fun _ _ => eq_refl) H).
    apply ev_same_def. intros a b E. apply E.
  Qed.
  Lemma read_as_formats : u_formats u = format_dict (formats ign defs).
  Proof.
    refine (read_as_def u_formats _ ins_fmt cf v t defs secs u (def_formats cf) _ (fun _ _ => eq_refl) H).
    apply ev_same_def. intros a b E. apply E.
  Qed.
  Lemma read_as_logged : u_logged u = logs ign (concat secs).
  Proof.
    pose proof (read_as_data u_logged _ snoc cf v t defs secs u
      (def_rest_of u_logged (fun r => let '(_, _, _, l, _, _, _, _, _, _) := r in l) cf (fun _ => eq_refl))
      (ev_logged cf) (fun _ _ => eq_refl) H) as E.
    rewrite fold_snoc in E. exact E.
  Qed.
  Lemma read_as_tagged : u_tagged u = fold_left ins_tag (tagged ign (concat secs)) [].
  Proof.
    exact (read_as_data u_tagged _ ins_tag cf v t defs secs u
      (def_rest_of u_tagged (fun r => let '(_, _, _, _, l, _, _, _, _, _) := r in l) cf (fun _ => eq_refl))
      (ev_tagged cf) (fun _ _ => eq_refl) H).
  Qed.
  Lemma read_as_version : u_version u = v /\ u_start u = t.
  Proof.
    pose proof (read_as_data (fun u => (u_version u, u_start u)) (fun _ : event => @nil unit) (fun s _ => s) cf v t defs secs u
      (def_rest_of _ (fun r => let '(_, s, w, _, _, _, _, _, _, _) := r in (w, s)) cf (fun _ => eq_refl))
      (ev_same_def (fun u => (u_version u, u_start u)) cf
        ltac:(intros a b (_ & _ & _ & _ & _ & E1 & E2 & _); cbv beta; congruence)) (fun _ _ => eq_refl) H) as E.
    assert (N : forall (l : list event), flat_map (fun _ : event => @nil unit) l = []) by (induction l; auto).
    rewrite N in E. cbn [fold_left] in E. split; [exact (f_equal fst E)|exact (f_equal snd E)].
  Qed.
  Lemma multi_keys_chain ss a b : section_chain cf ss a b -> multi_keys a -> multi_keys b.
  Proof.
    induction 1 as [|evs ss x x1 x2 x3 Hf Hz Hc IH]; auto. intros Hk. apply IH.
    apply finalize_same in Hz as (d & ->).
    change (multi_keys x1).
    refine (finishes_inv cf x (fun _ z => multi_keys z) Hk _ evs x1 Hf).
    intros evs0 e z z' IHz Hs. eapply ev_multit; eauto.
  Qed.
  Lemma read_as_multit : dkeys (u_multit u) = dkeys (u_multi u).
  Proof.
    destruct H as (u1 & Hd & Hc). eapply multi_keys_chain; [exact Hc|].
    assert (K : forall evs a b, run_def_events cf evs a = Ok b -> multi_keys a -> multi_keys b).
    { induction evs as [|e r IH]; intros a b E Hk; cbn [run_def_events] in E.
      - injection E as <-. exact Hk.
      - apply bind_Ok_inv in E as (c & E1 & E2). eapply IH; [exact E2|].
        eapply (def_multit cf e a c); eauto. }
    eapply K; [exact Hd|]. reflexivity.
  Qed.

  Lemma read_as_multit_fold : u_multit u = fold_left ins_multit (multis ign (defs ++ concat secs)) [].
  Proof.
    destruct H as (u1 & Hd & Hc).
    assert (K : forall evs a b, run_def_events cf evs a = Ok b -> multi_keys a ->
      u_multit b = fold_left ins_multit (multis ign evs) (u_multit a) /\ multi_keys b).
    { induction evs as [|e r IH]; intros a b E Hk; cbn [run_def_events] in E.
      - injection E as <-. split; [reflexivity|exact Hk].
      - apply bind_Ok_inv in E as (c & E1 & E2). destruct (def_multit cf e a c) as [M1 M2]; auto.
        destruct (IH c b E2 M2) as [N1 N2]. split; auto. rewrite N1, M1.
        change (multis ign (e :: r)) with (of_type 77 (parse_info_multi ign) e ++ multis ign r). now rewrite fold_left_app. }
    destruct (K _ _ _ Hd eq_refl) as [K1 K2]. unfold multis. rewrite flat_map_app, fold_left_app.
    change (@nil (str * str)) with (u_multit (after_header v t)). fold (multis ign defs). rewrite <- K1.
    clear -Hc K2. revert K2. induction Hc as [|evs ss x x1 x2 x3 Hf Hz Hc IH]; intros Hk; [reflexivity|].
    assert (F : u_multit x1 = fold_left ins_multit (flat_map (of_type 77 (parse_info_multi ign)) evs) (u_multit x) /\ multi_keys x1).
    { refine (finishes_inv cf x (fun evs z => u_multit z = fold_left ins_multit (flat_map (of_type 77 (parse_info_multi ign)) evs) (u_multit x) /\ multi_keys z) (conj eq_refl Hk) _ evs x1 Hf).
      intros evs0 e z z' [I1 I2] Hs. destruct (ev_multit cf e z z' Hs I2) as [J1 J2]. split; auto.
      rewrite J1, I1, flat_map_app, fold_left_app. cbn [flat_map]. rewrite app_nil_r. reflexivity. }
    destruct F as [F1 F2]. apply finalize_same in Hz as (d & ->). rewrite IH by exact F2.
    cbn [concat]. rewrite flat_map_app, fold_left_app. f_equal. exact F1.
  Qed.

  Lemma read_as_sections :
    u_subs u = [] /\
    u_last u = last_over cf (u_formats u) t secs /\
    u_dropouts u = over_sections cf (u_formats u) (dropouts_at cf (u_formats u)) t secs /\
    u_changed u = over_sections cf (u_formats u) (changed_at cf (u_formats u)) t secs /\
    exists news, Forall2 (new_data cf (u_formats u)) secs news /\ Permutation (u_data u) (concat news).
  Proof.
    destruct H as (u1 & Hd & Hc).
    assert (R : def_rest u1 = def_rest (after_header v t)).
    { exact (def_const def_rest cf (fun e a b => def_rest_same cf e a b) _ _ _ Hd). }
    unfold def_rest in R. cbn in R. injection R as R1 R2 R3 R4 R5 R6 R7 R8 R9 R10.
    destruct (chain_formats _ _ _ _ Hc) as [Hfm _].
    destruct (chain_sections _ _ _ _ Hc ltac:(congruence)) as (A & B & C & D & news & E1 & E2).
    rewrite <- Hfm in *. rewrite R1 in *.
    repeat split; auto.
    - rewrite R6 in C. exact C.
    - rewrite R7 in D. exact D.
    - exists news. split; auto. rewrite R8 in E2. exact E2.
  Qed.
  Lemma read_as_sorted : StronglySorted (fun a b => ds_leb a b = true) (u_data u).
  Proof.
    destruct H as (u1 & Hd & Hc). destruct secs as [|s r] eqn:E.
    - inversion Hc; subst.
      assert (R : def_rest u = def_rest (after_header v t)).
      { exact (def_const def_rest cf (fun e a b => def_rest_same cf e a b) _ _ _ Hd). }
      unfold def_rest in R. cbn in R. injection R as R1 R2 R3 R4 R5 R6 R7 R8 R9 R10.
      rewrite R8. constructor.
    - destruct (chain_sorted _ _ _ _ Hc ltac:(discriminate)) as (l & ->).
      apply ssort_sorted; [exact ds_leb_total|exact ds_leb_trans].
  Qed.
End Fields.

(** ** Well-framed files without appended sections *)

Theorem frames_trace cf f v t defs data u1 u : well_framed f v t defs data -> cf_hdr cf = false ->
  run_def cf defs (after_header v t) = Ok u1 -> no_append u1 ->
  produces cf f (Ok u) ->
  exists evs, processed cf (format_dict (formats (cf_ign cf) (msgs defs))) data evs /\ read_as cf v t (msgs defs) [evs] u.
Proof.
  intros [(tl & Hf & Htl & Hnil) H1 H2 H3 H4 H5 H6] Hh Hd Ha Hp.
  assert (Hp' : produces cf f (end_data (run_data cf data u1))) by (eapply load_frames_gen; eauto).
  pose proof (produces_fun _ _ _ _ Hp Hp') as E. symmetry in E.
  assert (R : def_rest u1 = def_rest (after_header v t)).
  { rewrite <- run_def_msgs in Hd. exact (def_const def_rest cf (fun e a b => def_rest_same cf e a b) _ _ _ Hd). }
  assert (Hs : u_subs u1 = []).
  { unfold def_rest in R. cbn in R. congruence. }
  assert (Efm : u_formats u1 = format_dict (formats (cf_ign cf) (msgs defs))).
  { rewrite <- run_def_msgs in Hd. exact (def_fold u_formats _ ins_fmt cf (def_formats cf) _ _ _ Hd). }
  apply end_data_processed in E as (evs & u2 & G1 & G2 & G3); [|exact Hs]. rewrite Efm in G1.
  exists evs. split; [exact G1|]. exists u1. rewrite run_def_msgs. split; [exact Hd|].
  econstructor; eauto. constructor.
Qed.

