(** The reader's state after a section is what SpecSection says. *)
From Coq Require Import Permutation.
From Verif Require Import Base Dict Utf8 PyStr PyFloat Struct PySort ModelTypes ModelRead Spec SpecSection
  ProofsRead ProofsSync ProofsInv ProofsTrace ProofsChange.
Ltac Zify.zify_post_hook ::= Z.div_mod_to_equations.

Definition ev_step (cf : cfg) (e : event) (u u' : ulog) : Prop :=
  data_event cf e u = RDone u' \/ data_event cf e u = RStop u'.

Lemma run_events_ind cf u (I : list event -> ulog -> Prop) :
  I [] u -> (forall pre e u1 u2, I pre u1 -> ev_step cf e u1 u2 -> I (pre ++ [e]) u2) ->
  forall evs u', run_events cf evs u = RDone u' -> I evs u'.
Proof.
  intros H0 Hs. induction evs as [|e evs IH] using rev_ind; intros u' H.
  - injection H as <-. exact H0.
  - rewrite run_events_app in H. destruct (run_events cf evs u) as [u1| |] eqn:E; try discriminate.
    cbn [run_events] in H. destruct (data_event cf e u1) eqn:Ee; try discriminate. injection H as ->.
    eapply Hs; [apply IH; reflexivity|]. left. exact Ee.
Qed.
Lemma finishes_inv cf u (I : list event -> ulog -> Prop) :
  I [] u -> (forall pre e u1 u2, I pre u1 -> ev_step cf e u1 u2 -> I (pre ++ [e]) u2) ->
  forall evs u', finishes cf evs u u' -> I evs u'.
Proof.
  intros H0 Hs evs u' Hf. inversion Hf as [evs0 u0 u0' H|pre e u0 u1 u0' H1 H2]; subst.
  - exact (run_events_ind cf u I H0 Hs evs u' H).
  - eapply Hs; [|right; exact H2]. exact (run_events_ind cf u I H0 Hs pre u1 H1).
Qed.

Lemma run_events_finishes cf evs : forall u u', run_events cf evs u = RDone u' \/ run_events cf evs u = RStop u' ->
  exists evs1 evs2, evs = evs1 ++ evs2 /\ finishes cf evs1 u u'.
Proof.
  induction evs as [|e evs IH] using rev_ind; intros u u' H.
  - exists [], []. split; [reflexivity|]. destruct H as [H|H]; [|discriminate]. now apply fin_done.
  - destruct H as [H|H].
    + exists (evs ++ [e]), []. split; [now rewrite app_nil_r|]. now apply fin_done.
    + rewrite run_events_app in H. destruct (run_events cf evs u) as [u1|u1|] eqn:E; try discriminate.
      * exists (evs ++ [e]), []. split; [now rewrite app_nil_r|]. eapply fin_stop; [exact E|].
        cbn [run_events] in H. destruct (data_event cf e u1); try discriminate. congruence.
      * injection H as <-. destruct (IH u u1) as (a & b & -> & Hf); [auto|].
        exists a, (b ++ [e]). split; [now rewrite app_assoc|exact Hf].
Qed.

Lemma scattered_app f a : forall pos b, scattered f pos (a ++ b) -> scattered f pos a.
Proof.
  induction a as [|[ty p| |] a IH]; intros pos b; simpl; auto.
  - intros (q & H1 & H2 & H3). exists q. eauto.
  - apply IH.
  - apply IH.
Qed.

(** ** One event *)
Inductive msg_effect (cf : cfg) (ty : Z) (p : bytes) (u : ulog) : ulog -> Prop :=
| me_none : data_effect cf ty p u = None -> msg_effect cf ty p u u
| me_some u' e : data_effect cf ty p u = Some (u', e) -> e <> Some IndexError -> msg_effect cf ty p u u'
| me_index u' : data_effect cf ty p u = Some (u', Some IndexError) -> msg_effect cf ty p u (set_corrupt true u').

Lemma ev_step_msg cf ty p u u' : ev_step cf (EMsg ty p) u u' -> msg_effect cf ty p u u'.
Proof.
  unfold ev_step. cbn [data_event run_data].
  destruct (data_effect cf ty p u) as [[v eo]|] eqn:E.
  - destruct eo as [[]|]; intros [H|H]; try discriminate; injection H as <-;
      solve [econstructor; eauto; discriminate].
  - intros [H|H]; [|discriminate]. injection H as <-. now constructor.
Qed.

(** A field untouched by set_corrupt is determined by data_effect. *)
Lemma msg_effect_field {X} (F : ulog -> X) cf ty p u u' (x : X) :
  (forall v, F (set_corrupt true v) = F v) ->
  (data_effect cf ty p u = None -> F u = x) ->
  (forall v e, data_effect cf ty p u = Some (v, e) -> F v = x) ->
  msg_effect cf ty p u u' -> F u' = x.
Proof. intros Hc Hn Hs [H|v e H He|v H]; eauto. rewrite Hc. eauto. Qed.

Lemma data_msg_fields p u v e : data_msg p u = (v, e) ->
  exists l s m c, v = set_corrupt c (set_missing m (set_subs s (set_last l u))).
Proof.
  unfold data_msg. cbv zeta. intros H.
  assert (Hid : exists l s m c, u = set_corrupt c (set_missing m (set_subs s (set_last l u)))).
  { exists (u_last u), (u_subs u), (u_missing u), (u_corrupt u). now destruct u. }
  destruct (unpack_u 2 _); [|injection H as <- <-; exact Hid].
  destruct (zget _ _) as [s|].
  - destruct (_ || _).
    + injection H as <- <-. exists (u_last u), (u_subs u), (u_missing u), true. now destruct u.
    + match type of H with context [set_subs ?x u] => set (sb := x) in H end.
      destruct (unpack_u 8 _) as [ts|]; injection H as <- <-.
      * destruct (u_last u <? _); [exists ts, sb, (u_missing u), (u_corrupt u)|exists (u_last u), sb, (u_missing u), (u_corrupt u)]; reflexivity.
      * exists (u_last u), sb, (u_missing u), (u_corrupt u). now destruct u.
  - destruct (existsb _ _); injection H as <- <-; [exact Hid|].
    eexists (u_last u), (u_subs u), _, true. reflexivity.
Qed.

Lemma of_type_eq {A} t (parse : bytes -> res A) p :
  of_type t parse (EMsg t p) = match parse p with Ok m => [m] | Err _ => [] end.
Proof. unfold of_type. now rewrite Z.eqb_refl. Qed.
Lemma of_type_neq {A} t ty (parse : bytes -> res A) p : ty <> t -> of_type t parse (EMsg ty p) = [].
Proof. intros H. unfold of_type. destruct (Z.eqb_spec ty t); congruence. Qed.

Lemma Some_inj {A} (a b : A) : Some a = Some b -> a = b.
Proof. congruence. Qed.

(** The general shape of a data_effect, as a disjunction on the type. *)
Lemma data_effect_shape cf ty p u v e : data_effect cf ty p u = Some (v, e) ->
  (ty = 73 /\ (v, e) = eff_of u (let* m := parse_info (cf_ign cf) p in Ok (add_info m u))) \/
  (ty = 77 /\ (v, e) = eff_of u (let* cm := parse_info_multi (cf_ign cf) p in add_info_multi (fst cm) (snd cm) u)) \/
  (ty = 80 /\ (v, e) = eff_of u (let* m := parse_info (cf_ign cf) p in
          Ok (set_changed (u_changed u ++ [(u_last u, im_key m, im_value m)]) u))) \/
  (ty = 81 /\ (v, e) = eff_of u (let* bm := parse_pdef (cf_ign cf) p in Ok (add_param_default (fst bm) (snd bm) u))) \/
  (ty = 65 /\ (v, e) = eff_of u (let* s := parse_add cf (u_formats u) p in
          Ok (if cf_filter cf (sb_name s)
              then set_subs (zset (sb_id s) s (u_subs u)) u
              else set_filtered (set_add (sb_id s) (u_filtered u)) u))) \/
  (ty = 76 /\ (v, e) = eff_of u (let* m := parse_logging (cf_ign cf) p in Ok (set_logged (u_logged u ++ [m]) u))) \/
  (ty = 67 /\ (v, e) = eff_of u (let* m := parse_tagged (cf_ign cf) p in
          Ok (set_tagged (match zget (tg_tag m) (u_tagged u) with
                          | Some l => zset (tg_tag m) (l ++ [m]) (u_tagged u)
                          | None => zset (tg_tag m) [m] (u_tagged u)
                          end) u))) \/
  (ty = 68 /\ (v, e) = data_msg p u) \/
  (ty = 79 /\ (v, e) = eff_of u (let* d := parse_dropout p (u_last u) in Ok (set_dropouts (u_dropouts u ++ [d]) u))) \/
  (ty = 83 /\ (v, e) = (set_sync_cnt (u_sync_cnt u + 1) u, None)).
Proof.
  unfold data_effect, T_INFO, T_MULTI, T_PARAM, T_PDEF, T_ADD, T_LOG, T_LOGT, T_DATA, T_DROP, T_SYNC. cbv zeta.
  intros H.
  repeat match type of H with
  | (if ?a =? ?b then Some _ else _) = _ =>
      destruct (Z.eqb_spec a b) as [->|?]; [apply Some_inj in H; symmetry in H; tauto|]
  end. discriminate.
Qed.

Ltac shape H :=
  apply data_effect_shape in H;
  destruct H as [[-> H]|[[-> H]|[[-> H]|[[-> H]|[[-> H]|[[-> H]|[[-> H]|[[-> H]|[[-> H]|[-> H]]]]]]]]]];
  [ destruct (parse_info _ _) as [m|x] eqn:Ep
  | destruct (parse_info_multi _ _) as [m|x] eqn:Ep
  | destruct (parse_info _ _) as [m|x] eqn:Ep
  | destruct (parse_pdef _ _) as [m|x] eqn:Ep
  | destruct (parse_add _ _ _) as [s|x] eqn:Ep
  | destruct (parse_logging _ _) as [m|x] eqn:Ep
  | destruct (parse_tagged _ _) as [m|x] eqn:Ep
  | symmetry in H; apply data_msg_fields in H as (? & ? & ? & ? & H)
  | destruct (parse_dropout _ _) as [m|x] eqn:Ep
  | ]; cbn [bind eff_of] in H.

(** Unchanged fields *)
Definition same_defs (u u' : ulog) : Prop :=
  u_formats u' = u_formats u /\ u_params u' = u_params u /\ u_compat u' = u_compat u /\
  u_incompat u' = u_incompat u /\ u_offsets u' = u_offsets u /\ u_version u' = u_version u /\
  u_start u' = u_start u /\ u_data u' = u_data u.

Lemma same_defs_refl u : same_defs u u.
Proof. repeat split. Qed.
Lemma same_defs_trans u v w : same_defs u v -> same_defs v w -> same_defs u w.
Proof. unfold same_defs. intuition congruence. Qed.
Lemma same_defs_corrupt b u : same_defs u (set_corrupt b u).
Proof. destruct u; repeat split. Qed.

Lemma data_effect_defs cf ty p u v e : data_effect cf ty p u = Some (v, e) -> same_defs u v.
Proof.
  intros H. shape H; try (injection H as -> ->; destruct u; repeat split; fail); try (subst; destruct u; repeat split; fail).
  - destruct (add_info_multi (fst m) (snd m) u) eqn:Em; cbn [eff_of] in H; injection H as -> ->; [|apply same_defs_refl].
    apply add_info_multi_inv in Em as (a' & b & ->). destruct u; repeat split.
  - destruct (cf_filter cf (sb_name s)); injection H as -> ->; destruct u; repeat split.
Qed.

Lemma ev_step_defs cf e u u' : ev_step cf e u u' -> same_defs u u'.
Proof.
  destruct e as [ty p| |].
  - intros H. apply ev_step_msg in H. destruct H as [H|v e H He|v H].
    + apply same_defs_refl.
    + eapply data_effect_defs; eauto.
    + eapply same_defs_trans; [eapply data_effect_defs; eauto|apply same_defs_corrupt].
  - intros [H|H]; [|discriminate]. injection H as <-. apply same_defs_corrupt.
  - intros [H|H]; [|discriminate]. injection H as <-. destruct u; repeat split.
Qed.
Lemma finishes_defs cf evs u u' : finishes cf evs u u' -> same_defs u u'.
Proof.
  apply (finishes_inv cf u (fun _ v => same_defs u v)); [apply same_defs_refl|].
  intros. eapply same_defs_trans; eauto using ev_step_defs.
Qed.

(** fields that grow by what is decoded from each event *)
Lemma field_fold {X S} (F : ulog -> S) (dec : event -> list X) (ins : S -> X -> S) cf :
  (forall e u u', ev_step cf e u u' -> F u' = fold_left ins (dec e) (F u)) ->
  forall evs u u', finishes cf evs u u' -> F u' = fold_left ins (flat_map dec evs) (F u).
Proof.
  intros Hs evs u u'. apply (finishes_inv cf u (fun evs v => F v = fold_left ins (flat_map dec evs) (F u))).
  - reflexivity.
  - intros pre e u1 u2 H1 H2. rewrite flat_map_app, fold_left_app, <- H1. cbn [flat_map]. rewrite app_nil_r. auto.
Qed.

(** an event lemma reduced to data_effect *)
Lemma ev_field {X} (F : ulog -> X) cf (g : event -> X -> X) :
  (forall v, F (set_corrupt true v) = F v) -> (forall v, F (set_has_sync false v) = F v) ->
  (forall x, g ECorrupt x = x) -> (forall x, g ENoSync x = x) ->
  (forall ty p x, ~ In ty data_types -> g (EMsg ty p) x = x) ->
  (forall ty p u v e, data_effect cf ty p u = Some (v, e) -> F v = g (EMsg ty p) (F u)) ->
  forall e u u', ev_step cf e u u' -> F u' = g e (F u).
Proof.
  intros Hc Hn Hg1 Hg2 Hgm Hd e u u' H. destruct e as [ty p| |].
  - apply ev_step_msg in H. eapply msg_effect_field; eauto.
    intros Hnone. symmetry. apply Hgm. intros Hin.
    destruct (data_effect_known cf ty p u Hin) as [x Hx]. congruence.
  - destruct H as [H|H]; [|discriminate]. injection H as <-. rewrite Hg1. apply Hc.
  - destruct H as [H|H]; [|discriminate]. injection H as <-. rewrite Hg2. apply Hn.
Qed.

Lemma of_type_unknown {A} t (parse : bytes -> res A) ty p : In t data_types -> ~ In ty data_types ->
  of_type t parse (EMsg ty p) = [].
Proof. intros H1 H2. apply of_type_neq. intros ->. contradiction. Qed.

Ltac fields_tac H :=
  shape H;
  try (rewrite of_type_eq; match goal with E : _ = Ok _ |- _ => rewrite E | E : _ = Err _ |- _ => rewrite E end);
  try (rewrite of_type_neq by discriminate);
  cbn [fold_left]; first [injection H as -> -> | subst | idtac]; auto;
  try match goal with
  | Hx : _ = eff_of _ (add_info_multi ?c ?m ?u) |- _ =>
      let a := fresh "xa" in let b := fresh "xb" in let Em := fresh "Em" in
      destruct (add_info_multi c m u) eqn:Em; cbn [eff_of] in Hx; injection Hx as -> ->; auto;
      apply add_info_multi_inv in Em as (a & b & ->)
  end;
  try match goal with |- context [if cf_filter ?c ?n then _ else _] => destruct (cf_filter c n) end;
  auto.

Definition ins_info (d : dict str value) (m : infomsg) := sset (im_key m) (im_value m) d.
Definition ins_infot (d : dict str str) (m : infomsg) := sset (im_key m) (im_type m) d.
Definition ins_pdef (d : dict Z (dict str value)) (bm : Z * infomsg) :=
  add_default_bits 9 (fst bm) (im_key (snd bm)) (im_value (snd bm)) d.
Definition ins_tag (d : dict Z (list tagmsg)) (m : tagmsg) :=
  match zget (tg_tag m) d with Some l => zset (tg_tag m) (l ++ [m]) d | None => zset (tg_tag m) [m] d end.
Definition snoc {A} (l : list A) (x : A) := l ++ [x].

Lemma in_dt t : existsb (Z.eqb t) data_types = true -> In t data_types.
Proof. intros H. apply existsb_exists in H as (x & Hx & E). apply Z.eqb_eq in E. now subst. Qed.

Lemma ev_info cf e u u' : ev_step cf e u u' ->
  u_info u' = fold_left ins_info (of_type 73 (parse_info (cf_ign cf)) e) (u_info u).
Proof.
  apply (ev_field u_info cf (fun e x => fold_left ins_info (of_type 73 (parse_info (cf_ign cf)) e) x)); auto.
  - intros. rewrite of_type_unknown; auto. now apply in_dt.
  - intros ty p u0 v e0 H. fields_tac H.
Qed.
Lemma ev_infot cf e u u' : ev_step cf e u u' ->
  u_infot u' = fold_left ins_infot (of_type 73 (parse_info (cf_ign cf)) e) (u_infot u).
Proof.
  apply (ev_field u_infot cf (fun e x => fold_left ins_infot (of_type 73 (parse_info (cf_ign cf)) e) x)); auto.
  - intros. rewrite of_type_unknown; auto. now apply in_dt.
  - intros ty p u0 v e0 H. fields_tac H.
Qed.
Lemma ev_pdef cf e u u' : ev_step cf e u u' ->
  u_defaults u' = fold_left ins_pdef (of_type 81 (parse_pdef (cf_ign cf)) e) (u_defaults u).
Proof.
  apply (ev_field u_defaults cf (fun e x => fold_left ins_pdef (of_type 81 (parse_pdef (cf_ign cf)) e) x)); auto.
  - intros. rewrite of_type_unknown; auto. now apply in_dt.
  - intros ty p u0 v e0 H. fields_tac H.
Qed.
Lemma ev_logged cf e u u' : ev_step cf e u u' ->
  u_logged u' = fold_left snoc (of_type 76 (parse_logging (cf_ign cf)) e) (u_logged u).
Proof.
  apply (ev_field u_logged cf (fun e x => fold_left snoc (of_type 76 (parse_logging (cf_ign cf)) e) x)); auto.
  - intros. rewrite of_type_unknown; auto. now apply in_dt.
  - intros ty p u0 v e0 H. fields_tac H.
Qed.
Lemma ev_tagged cf e u u' : ev_step cf e u u' ->
  u_tagged u' = fold_left ins_tag (of_type 67 (parse_tagged (cf_ign cf)) e) (u_tagged u).
Proof.
  apply (ev_field u_tagged cf (fun e x => fold_left ins_tag (of_type 67 (parse_tagged (cf_ign cf)) e) x)); auto.
  - intros. rewrite of_type_unknown; auto. now apply in_dt.
  - intros ty p u0 v e0 H. fields_tac H.
Qed.

(** info-multiple *)
Definition ins_multi (d : dict str (list (list value))) (cm : Z * infomsg) :=
  let k := im_key (snd cm) in
  let v := im_value (snd cm) in
  match sget k d with
  | Some l => if negb (fst cm =? 0)
              then match append_last l v with Ok l' => sset k l' d | Err _ => d end
              else sset k (l ++ [[v]]) d
  | None => sset k [[v]] d
  end.
Definition ins_multit (d : dict str str) (cm : Z * infomsg) :=
  if smem (im_key (snd cm)) d then d else sset (im_key (snd cm)) (im_type (snd cm)) d.

Lemma add_info_multi_multi c m u v : add_info_multi c m u = Ok v -> u_multi v = ins_multi (u_multi u) (c, m).
Proof.
  unfold add_info_multi, ins_multi. cbn [fst snd]. destruct (sget _ _).
  - destruct (negb _).
    + intros H. apply bind_Ok_inv in H as (l' & -> & H). injection H as <-. reflexivity.
    + intros H. injection H as <-. reflexivity.
  - intros H. injection H as <-. reflexivity.
Qed.
Lemma add_info_multi_err c m u x : add_info_multi c m u = Err x -> ins_multi (u_multi u) (c, m) = u_multi u.
Proof.
  unfold add_info_multi, ins_multi. cbn [fst snd]. destruct (sget _ _); [|discriminate].
  destruct (negb _); [|discriminate]. destruct (append_last _ _); [discriminate|reflexivity].
Qed.

Lemma ev_multi cf e u u' : ev_step cf e u u' ->
  u_multi u' = fold_left ins_multi (of_type 77 (parse_info_multi (cf_ign cf)) e) (u_multi u).
Proof.
  apply (ev_field u_multi cf (fun e x => fold_left ins_multi (of_type 77 (parse_info_multi (cf_ign cf)) e) x)); auto.
  - intros. rewrite of_type_unknown; auto. now apply in_dt.
  - intros ty p u0 v e0 H. shape H;
      try (rewrite of_type_eq; match goal with E : _ = Ok _ |- _ => rewrite E | E : _ = Err _ |- _ => rewrite E end);
      try (rewrite of_type_neq by discriminate); cbn [fold_left]; first [injection H as -> -> | subst | idtac]; auto.
    + destruct (add_info_multi (fst m) (snd m) u0) eqn:Em; cbn [eff_of] in H; injection H as -> ->.
      * rewrite (add_info_multi_multi _ _ _ _ Em). now destruct m.
      * destruct m. symmetry. eapply add_info_multi_err; eauto.
    + destruct (cf_filter cf (sb_name s)); reflexivity.
Qed.

(** the type dictionary goes along *)
Definition multi_keys (u : ulog) : Prop := dkeys (u_multit u) = dkeys (u_multi u).
Lemma dmem_keys' {K V W} (eqb : K -> K -> bool)
  (d : dict K V) (d' : dict K W) k : dkeys d = dkeys d' -> dmem eqb k d = dmem eqb k d'.
Proof.
  revert d'. induction d as [|[a v] d IH]; intros [|[b w] d'] E; try discriminate; [reflexivity|].
  injection E as -> E. unfold dmem in *. cbn [dget]. destruct (eqb k b); auto.
Qed.
Lemma dmem_keys {V W} (d : dict str V) (d' : dict str W) k : dkeys d = dkeys d' -> smem k d = smem k d'.
Proof. apply dmem_keys'. Qed.

Lemma add_info_multi_types c m u v : multi_keys u -> add_info_multi c m u = Ok v ->
  u_multit v = ins_multit (u_multit u) (c, m) /\ multi_keys v.
Proof.
  intros Hk. unfold add_info_multi, ins_multit, multi_keys. cbn [fst snd].
  rewrite (dmem_keys (u_multit u) (u_multi u) (im_key m) Hk). unfold dmem.
  destruct (sget (im_key m) (u_multi u)) eqn:Es.
  - destruct (negb _).
    + intros H. apply bind_Ok_inv in H as (l' & _ & H). injection H as <-. cbn.
      split; [reflexivity|]. etransitivity; [|symmetry; apply (dkeys_dset _ str_eqb_spec)]. unfold dmem. rewrite Es. exact Hk.
    + intros H. injection H as <-. cbn. split; [reflexivity|].
      etransitivity; [|symmetry; apply (dkeys_dset _ str_eqb_spec)]. unfold dmem. rewrite Es. exact Hk.
  - intros H. injection H as <-. cbn. split; [reflexivity|].
    etransitivity; [apply (dkeys_dset _ str_eqb_spec)|]. etransitivity; [|symmetry; apply (dkeys_dset _ str_eqb_spec)].
    pose proof (dmem_keys (u_multit u) (u_multi u) (im_key m) Hk) as Hm. unfold dmem in *. rewrite Es in *. rewrite Hm.
    apply (f_equal (fun l => l ++ [im_key m])), Hk.
Qed.

Lemma ev_multit cf e u u' : ev_step cf e u u' -> multi_keys u ->
  u_multit u' = fold_left ins_multit (of_type 77 (parse_info_multi (cf_ign cf)) e) (u_multit u) /\ multi_keys u'.
Proof.
  intros H Hk. destruct e as [ty p| |].
  2,3: (destruct H as [H|H]; [injection H as <-; split; [reflexivity|exact Hk]|discriminate]).
  apply ev_step_msg in H.
  assert (Hd : forall v e0, data_effect cf ty p u = Some (v, e0) ->
    u_multit v = fold_left ins_multit (of_type 77 (parse_info_multi (cf_ign cf)) (EMsg ty p)) (u_multit u) /\ multi_keys v).
  { clear H u'. intros v e0 H. shape H;
      try (rewrite of_type_eq; match goal with E : _ = Ok _ |- _ => rewrite E | E : _ = Err _ |- _ => rewrite E end);
      try (rewrite of_type_neq by discriminate); cbn [fold_left]; first [injection H as -> -> | subst | idtac]; auto.
    + destruct (add_info_multi (fst m) (snd m) u) eqn:Em; cbn [eff_of] in H; injection H as -> ->.
      * destruct m. now apply add_info_multi_types.
      * split; [|exact Hk]. destruct m as [c m]. unfold ins_multit. cbn [fst snd] in *.
        rewrite (dmem_keys (u_multit u) (u_multi u) (im_key m) Hk).
        unfold add_info_multi in Em. unfold dmem. destruct (sget _ (u_multi u)); [reflexivity|discriminate].
    + destruct (cf_filter cf (sb_name s)); auto. }
  destruct H as [H|v e H He|v H].
  - split; [|exact Hk]. rewrite of_type_unknown; [reflexivity|now apply in_dt|].
    intros Hin. destruct (data_effect_known cf ty p u Hin) as [x Hx]. congruence.
  - eauto.
  - apply Hd in H. exact H.
Qed.

Lemma ev_sync cf e u u' : ev_step cf e u u' -> u_sync_cnt u' = u_sync_cnt u + syncs [e].
Proof.
  apply (ev_field u_sync_cnt cf (fun e x => x + syncs [e])); auto; try (intros; unfold syncs, lenZ; simpl; lia).
  - intros ty p x Hn. unfold syncs. cbn [filter]. destruct (Z.eqb_spec ty 83) as [->|]; [|unfold lenZ; simpl; lia].
    exfalso. apply Hn. now apply in_dt.
  - intros ty p u0 v e0 H. unfold syncs. cbn [filter].
    shape H; cbn [Z.eqb Pos.eqb]; first [injection H as -> -> | subst | idtac]; cbn [lenZ length]; 
      try (unfold lenZ; cbn; lia).
    + destruct (add_info_multi (fst m) (snd m) u0) eqn:Em; cbn [eff_of] in H; injection H as -> ->.
      * apply add_info_multi_inv in Em as (xa & xb & ->). unfold lenZ; cbn; lia.
      * unfold lenZ; cbn; lia.
    + destruct (cf_filter cf (sb_name s)); unfold lenZ; cbn; lia.
Qed.

(** ** Subscriptions *)
Lemma unpack2_msg_id p : unpack_u 2 (takeZ 2 p) =
  match msg_id p with Some i => Ok i | None => Err StructError end.
Proof.
  destruct p as [|a [|b p]]; try reflexivity.
  change (takeZ 2 (a :: b :: p)) with (a :: b :: takeZ 0 p). rewrite takeZ_nonpos by lia.
  unfold unpack_u. cbn [le_dec length Nat.eqb msg_id]. f_equal. lia.
Qed.

Lemma itemsize_nonneg d : 0 <= itemsize d.
Proof. unfold itemsize. induction d as [|x l IH]; cbn [fold_right]; lia. Qed.

Lemma data_msg_spec p u :
  match msg_id p with
  | None => data_msg p u = (u, Some StructError)
  | Some id =>
    match zget id (u_subs u) with
    | Some s => 0 <= sb_tsoff s ->
      if fits s p then
        let u' := set_subs (zset id (set_buf (sb_buf s ++ record s p) s) (u_subs u)) u in
        match stamp s p with
        | Some t => data_msg p u = (if u_last u <? t then set_last t u' else u', None)
        | None => data_msg p u = (u', Some StructError)
        end
      else data_msg p u = (set_corrupt true u, None)
    | None => data_msg p u = if existsb (Z.eqb id) (u_filtered u) then (u, None)
                             else (set_corrupt true (set_missing (set_add id (u_missing u)) u), None)
    end
  end.
Proof.
  unfold data_msg. rewrite unpack2_msg_id.
  destruct (msg_id p) as [id|] eqn:Eid; [|reflexivity].
  destruct (zget id (u_subs u)) as [s|]; [|destruct (existsb _ _); reflexivity].
  intros Ho. cbv zeta. unfold fits.
  pose proof (itemsize_nonneg (sb_dtype s)) as Hi. set (n := itemsize (sb_dtype s)) in *.
  assert (Hp2 : 2 <= lenZ p).
  { destruct p as [|a [|b p]]; try discriminate. rewrite !lenZ_cons. pose proof (lenZ_nonneg p). lia. }
  destruct (Z.leb_spec n (lenZ p - 2)) as [H1|H1], (Z.leb_spec (lenZ p - 2) (sb_max s)) as [H2|H2];
    destruct (Z.ltb_spec (lenZ p - 2) n), (Z.ltb_spec (sb_max s) (lenZ p - 2)); cbn [andb orb]; try lia; auto.
  assert (Er : dropZ 2 (if n <? lenZ p - 2 then takeZ (2 + n) p else p) = record s p).
  { unfold record, slice. fold n. replace (2 + n - 2) with n by lia.
    assert (E2 : lenZ (takeZ 2 p) = 2) by (rewrite lenZ_takeZ; lia).
    destruct (Z.ltb_spec n (lenZ p - 2)).
    - rewrite <- (takeZ_dropZ_app 2 p) at 1.
      rewrite takeZ_app_ge by lia. rewrite dropZ_app_exact by (symmetry; assumption). rewrite E2. f_equal. lia.
    - symmetry. apply takeZ_all. rewrite lenZ_dropZ; lia. }
  rewrite Er.
  set (data' := if n <? lenZ p - 2 then takeZ (2 + n) p else p) in *.
  set (u' := set_subs _ u).
  assert (Es : slice (sb_tsoff s + 2) (sb_tsoff s + 10) data' = slice (sb_tsoff s) (sb_tsoff s + 8) (record s p)).
  { rewrite <- Er. unfold slice. rewrite dropZ_dropZ by lia.
    replace (2 + sb_tsoff s) with (sb_tsoff s + 2) by lia. f_equal. lia. }
  assert (Lr : lenZ (record s p) = n).
  { unfold record, slice. fold n. rewrite lenZ_takeZ, lenZ_dropZ by lia. lia. }
  unfold stamp. cbv zeta. rewrite Lr, Es. unfold unpack_u.
  destruct (Z.leb_spec (sb_tsoff s + 8) n) as [Ht|Ht].
  - assert (L8 : lenZ (slice (sb_tsoff s) (sb_tsoff s + 8) (record s p)) = 8) by (rewrite lenZ_slice; lia).
    replace (Nat.eqb (length (slice (sb_tsoff s) (sb_tsoff s + 8) (record s p))) 8) with true
      by (symmetry; apply Nat.eqb_eq; unfold lenZ in L8; lia).
    reflexivity.
  - replace (Nat.eqb (length (slice (sb_tsoff s) (sb_tsoff s + 8) (record s p))) 8) with false; [reflexivity|].
    symmetry. apply Nat.eqb_neq. intros E8.
    assert (L : lenZ (slice (sb_tsoff s) (sb_tsoff s + 8) (record s p)) = 8) by (unfold lenZ; lia).
    unfold slice in L. rewrite lenZ_takeZ, lenZ_dropZ in L by lia. lia.
Qed.

Lemma ts_offset_nonneg l : 0 <= ts_offset l.
Proof. induction l; cbn [ts_offset]; [lia|]. destruct (str_eqb _ _); unfold fd_size; lia. Qed.
Lemma sum_sizes_nonneg l : 0 <= sum_sizes l.
Proof. unfold sum_sizes. induction l; cbn [fold_right]; unfold fd_size in *; lia. Qed.
Lemma np_dtype_aux_size l : forall i seen dt, np_dtype_aux i seen l = Ok dt -> itemsize dt = sum_sizes l.
Proof.
  induction l as [|fd l IH]; intros i seen dt H; cbn in H.
  - injection H as <-. reflexivity.
  - destruct (existsb _ _); [discriminate|]. apply bind_Ok_inv in H as (t & Ht & H). injection H as <-.
    apply IH in Ht. unfold sum_sizes, itemsize, fd_size in *. cbn [fold_right snd]. rewrite np_size_of. lia.
Qed.

(** what every subscription satisfies *)
Definition sub_ok (s : subscr) : Prop :=
  0 <= sb_tsoff s /\ sb_max s = itemsize (sb_dtype s).
Lemma parse_add_ok cf fmts p s : parse_add cf fmts p = Ok s -> sub_ok s /\ sb_buf s = [].
Proof.
  unfold parse_add. intros H.
  apply bind_Ok_inv in H as (a & _ & H). apply bind_Ok_inv in H as (b & _ & H).
  apply bind_Ok_inv in H as (c & _ & H). apply bind_Ok_inv in H as (st & _ & H).
  cbv zeta in H. apply bind_Ok_inv in H as (dt & Hd & H). injection H as <-.
  split; [|reflexivity]. split; cbn; [apply ts_offset_nonneg|].
  symmetry. eapply np_dtype_aux_size, Hd.
Qed.

(** the specification's own invariants *)
Lemma subscription_snoc cf fmts pre e id :
  subscription cf fmts (pre ++ [e]) id = sub_step cf fmts id (subscription cf fmts pre id) e.
Proof. unfold subscription. now rewrite fold_left_app. Qed.

Lemma fits_record s p : fits s p = true -> lenZ (record s p) = itemsize (sb_dtype s).
Proof.
  unfold fits, record. intros H. pose proof (itemsize_nonneg (sb_dtype s)).
  rewrite lenZ_slice; lia.
Qed.

Lemma subscription_ok cf fmts evs id s rs : subscription cf fmts evs id = Some (s, rs) ->
  sub_ok s /\ sb_id s = id /\ sb_buf s = [] /\ cf_filter cf (sb_name s) = true /\
  Forall (fun r => lenZ r = itemsize (sb_dtype s)) rs.
Proof.
  revert s rs. induction evs as [|e evs IH] using rev_ind; intros s rs; [discriminate|].
  rewrite subscription_snoc. destruct e as [ty p| |]; cbn [sub_step]; auto.
  destruct (ty =? 65).
  - destruct (parse_add cf fmts p) as [s'|] eqn:Ep; auto.
    destruct (Z.eqb_spec (sb_id s') id) as [Hi|]; cbn [andb]; auto.
    destruct (cf_filter cf (sb_name s')) eqn:Ef; auto.
    intros H. apply Some_inj in H. injection H as <- <-. apply parse_add_ok in Ep as [H1 H2]. auto 6.
  - destruct (ty =? 68); auto. destruct (msg_id p) as [i|]; auto.
    destruct (subscription cf fmts evs id) as [[s0 rows]|]; auto.
    destruct ((i =? id) && fits s0 p) eqn:Eb; auto.
    intros H. apply Some_inj in H. injection H as <- <-.
    destruct (IH s0 rows eq_refl) as (H1 & H2 & H3 & H4 & H5).
    repeat split; auto; try apply H1. apply Forall_app. split; auto. constructor; auto.
    apply andb_true_iff in Eb. apply fits_record, Eb.
Qed.

Lemma collect_snoc {X} (g : list event -> event -> list X) evs e : forall pre,
  collect g pre (evs ++ [e]) = collect g pre evs ++ g (pre ++ evs) e.
Proof.
  induction evs as [|x evs IH]; intros pre; cbn [app collect].
  - now rewrite !app_nil_r.
  - rewrite IH, <- app_assoc, <- app_assoc. reflexivity.
Qed.

Lemma collect_snoc0 {X} (g : list event -> event -> list X) evs e :
  collect g [] (evs ++ [e]) = collect g [] evs ++ g evs e.
Proof. apply collect_snoc. Qed.

Lemma last_stamp_snoc cf fmts t0 evs e :
  last_stamp cf fmts t0 (evs ++ [e]) = fold_left Z.max (stamps cf fmts evs e) (last_stamp cf fmts t0 evs).
Proof. unfold last_stamp. rewrite collect_snoc0, fold_left_app. reflexivity. Qed.

(** ** The section invariant *)
Record sec_inv (cf : cfg) (u0 : ulog) (pre : list event) (u : ulog) : Prop := mkSecInv {
  si_fmts : u_formats u = u_formats u0;
  si_subs : forall id, zget id (u_subs u) =
    option_map (fun sr => set_buf (concat (snd sr)) (fst sr)) (subscription cf (u_formats u0) pre id);
  si_nodup : NoDup (dkeys (u_subs u));
  si_last : u_last u = last_stamp cf (u_formats u0) (u_last u0) pre;
  si_drop : u_dropouts u = u_dropouts u0 ++ collect (dropouts_at cf (u_formats u0) (u_last u0)) [] pre;
  si_chg : u_changed u = u_changed u0 ++ collect (changed_at cf (u_formats u0) (u_last u0)) [] pre }.

(** effect of a data message on the fields of interest *)
Lemma concat_snoc {A} (l : list (list A)) x : concat (l ++ [x]) = concat l ++ x.
Proof. rewrite concat_app. cbn. now rewrite app_nil_r. Qed.

Lemma collect_app {X} (g : list event -> event -> list X) a : forall pre b,
  collect g pre (a ++ b) = collect g pre a ++ collect g (pre ++ a) b.
Proof.
  induction a as [|x a IH]; intros pre b; cbn [app collect]; [now rewrite app_nil_r|].
  rewrite IH, <- app_assoc, <- app_assoc. reflexivity.
Qed.

Lemma sec_inv_corrupt cf u0 pre u b : sec_inv cf u0 pre u -> sec_inv cf u0 pre (set_corrupt b u).
Proof. intros [H1 H2 H3 H4 H5 H6]. now constructor. Qed.

(** an event of no consequence *)
Lemma sec_inv_skip cf u0 pre e u : sec_inv cf u0 pre u ->
  (forall id cur, sub_step cf (u_formats u0) id cur e = cur) ->
  stamps cf (u_formats u0) pre e = [] ->
  dropouts_at cf (u_formats u0) (u_last u0) pre e = [] ->
  changed_at cf (u_formats u0) (u_last u0) pre e = [] ->
  sec_inv cf u0 (pre ++ [e]) u.
Proof.
  intros [H1 H2 H3 H4 H5 H6] Ha Hb Hc Hd. constructor; auto.
  - intros id. now rewrite subscription_snoc, Ha.
  - now rewrite last_stamp_snoc, Hb.
  - now rewrite collect_snoc0, Hc, app_nil_r.
  - now rewrite collect_snoc0, Hd, app_nil_r.
Qed.

Lemma NoDup_zset {V} k (v : V) d : NoDup (dkeys d) -> NoDup (dkeys (zset k v d)).
Proof. apply (NoDup_dset _ Zeqb_spec). Qed.

Lemma zget_zset {V} k k' (v : V) d : zget k' (zset k v d) = if k' =? k then Some v else zget k' d.
Proof.
  destruct (Z.eqb_spec k' k) as [->|H].
  - apply (dget_dset_eq _ Zeqb_spec).
  - now apply (dget_dset_neq _ Zeqb_spec).
Qed.

Lemma set_buf_buf b b' s : set_buf b (set_buf b' s) = set_buf b s.
Proof. reflexivity. Qed.
Lemma set_buf_id s : set_buf (sb_buf s) s = s.
Proof. now destruct s. Qed.

Lemma sec_inv_data cf u0 pre p u v e : sec_inv cf u0 pre u -> data_msg p u = (v, e) ->
  sec_inv cf u0 (pre ++ [EMsg 68 p]) v.
Proof.
  intros Hi Hd. pose proof Hi as [H1 H2 H3 H4 H5 H6].
  pose proof (data_msg_spec p u) as Hs.
  assert (Hskip : forall w, sec_inv cf u0 pre w ->
    (forall id cur, msg_id p = Some id -> subscription cf (u_formats u0) pre id = cur ->
        match cur with Some (s, _) => fits s p = false | None => True end) ->
    sec_inv cf u0 (pre ++ [EMsg 68 p]) w).
  { intros w [W1 W2 W3 W4 W5 W6] Hf. constructor; auto.
    - intros id. rewrite subscription_snoc. cbn [sub_step Z.eqb Pos.eqb].
      destruct (msg_id p) as [i|] eqn:Ei; [|auto].
      destruct (subscription cf (u_formats u0) pre id) as [[s rs]|] eqn:Es; [|rewrite W2, Es; reflexivity].
      destruct (Z.eqb_spec i id) as [->|]; cbn [andb]; [|rewrite W2, Es; reflexivity].
      specialize (Hf id (Some (s, rs)) eq_refl Es). cbn in Hf. rewrite Hf, W2, Es. reflexivity.
    - rewrite last_stamp_snoc. cbn [stamps Z.eqb Pos.eqb].
      destruct (msg_id p) as [i|] eqn:Ei; [|auto].
      destruct (subscription cf (u_formats u0) pre i) as [[s rs]|] eqn:Es; [|auto].
      specialize (Hf i (Some (s, rs)) eq_refl Es). cbn in Hf. rewrite Hf. auto.
    - rewrite collect_snoc0. cbn [dropouts_at]. destruct p as [|a [|b [|c p]]]; cbn [Z.eqb Pos.eqb]; now rewrite app_nil_r.
    - rewrite collect_snoc0. unfold changed_at. rewrite of_type_neq by discriminate. cbn. now rewrite app_nil_r. }
  destruct (msg_id p) as [i|] eqn:Ei.
  2:{ rewrite Hs in Hd. injection Hd as <- <-. apply Hskip; auto. discriminate. }
  pose proof (H2 i) as Hz. destruct (subscription cf (u_formats u0) pre i) as [[s rs]|] eqn:Es; cbn in Hz.
  - rewrite Hz in Hs. destruct (subscription_ok _ _ _ _ _ _ Es) as ([Ho Hm] & Hid & Hb & Hflt & Hrs).
    specialize (Hs Ho).
    assert (Ef : fits (set_buf (concat rs) s) p = fits s p) by reflexivity.
    assert (Er : record (set_buf (concat rs) s) p = record s p) by reflexivity.
    assert (Et : stamp (set_buf (concat rs) s) p = stamp s p) by reflexivity.
    rewrite Ef, Er, Et in Hs. destruct (fits s p) eqn:Efs.
    + cbv zeta in Hs. cbn [sb_buf set_buf] in Hs. rewrite set_buf_buf, <- concat_snoc in Hs.
      set (u' := set_subs (zset i (set_buf (concat (rs ++ [record s p])) s) (u_subs u)) u) in *.
      assert (Hsub : forall id, zget id (u_subs u') =
        option_map (fun sr => set_buf (concat (snd sr)) (fst sr)) (subscription cf (u_formats u0) (pre ++ [EMsg 68 p]) id)).
      { intros id. rewrite subscription_snoc. cbn [sub_step Z.eqb Pos.eqb]. rewrite Ei.
        change (u_subs u') with (zset i (set_buf (concat (rs ++ [record s p])) s) (u_subs u)).
        rewrite zget_zset. rewrite Z.eqb_sym. destruct (Z.eqb_spec i id) as [->|Hne].
        - rewrite Es, Efs. reflexivity.
        - cbn [andb]. rewrite H2. now destruct (subscription cf (u_formats u0) pre id) as [[s1 rs1]|]. }
      assert (Hst : stamps cf (u_formats u0) pre (EMsg 68 p) = match stamp s p with Some t => [t] | None => [] end).
      { cbn [stamps Z.eqb Pos.eqb]. now rewrite Ei, Es, Efs. }
      assert (Hnd : NoDup (dkeys (u_subs u'))) by (apply NoDup_zset, H3).
      assert (Hdr : u_dropouts u = u_dropouts u0 ++ collect (dropouts_at cf (u_formats u0) (u_last u0)) [] (pre ++ [EMsg 68 p])).
      { rewrite collect_snoc0. cbn [dropouts_at]. destruct p as [|a [|b [|c p]]]; cbn [Z.eqb Pos.eqb]; now rewrite app_nil_r. }
      assert (Hch : u_changed u = u_changed u0 ++ collect (changed_at cf (u_formats u0) (u_last u0)) [] (pre ++ [EMsg 68 p])).
      { rewrite collect_snoc0. unfold changed_at. rewrite of_type_neq by discriminate. cbn. now rewrite app_nil_r. }
      destruct (stamp s p) as [t|].
      * assert (Ev : v = if u_last u <? t then set_last t u' else u') by (rewrite Hs in Hd; exact (eq_sym (f_equal fst Hd))).
        subst v. destruct (Z.ltb_spec (u_last u) t); constructor; auto.
        -- rewrite last_stamp_snoc, Hst, <- H4. cbn. lia.
        -- rewrite last_stamp_snoc, Hst, <- H4. cbn. change (u_last u') with (u_last u). lia.
      * assert (Ev : v = u') by (rewrite Hs in Hd; exact (eq_sym (f_equal fst Hd))). subst v. constructor; auto.
        rewrite last_stamp_snoc, Hst, <- H4. reflexivity.
    + rewrite Hs in Hd. injection Hd as <- <-. apply Hskip; [now apply sec_inv_corrupt|].
      intros id cur E1 E2. assert (id = i) as -> by congruence. rewrite Es in E2. subst cur. exact Efs.
  - rewrite Hz in Hs.
    assert (Hv : sec_inv cf u0 pre v).
    { rewrite Hs in Hd. destruct (existsb _ _); injection Hd as <- <-; [exact Hi|].
      apply sec_inv_corrupt. now constructor. }
    apply Hskip; auto. intros id cur E1 E2. assert (id = i) as -> by congruence. rewrite Es in E2. now subst cur.
Qed.

Lemma sub_step_other cf fmts id cur ty p : ty <> 65 -> ty <> 68 -> sub_step cf fmts id cur (EMsg ty p) = cur.
Proof. intros H1 H2. cbn [sub_step]. destruct (Z.eqb_spec ty 65), (Z.eqb_spec ty 68); congruence. Qed.
Lemma stamps_other cf fmts pre ty p : ty <> 68 -> stamps cf fmts pre (EMsg ty p) = [].
Proof. intros H. cbn [stamps]. destruct (Z.eqb_spec ty 68); congruence. Qed.
Lemma dropouts_other cf fmts t pre ty p : ty <> 79 -> dropouts_at cf fmts t pre (EMsg ty p) = [].
Proof.
  intros H. cbn [dropouts_at]. destruct p as [|a [|b [|c p]]]; auto. destruct (Z.eqb_spec ty 79); congruence.
Qed.
Lemma changed_other cf fmts t pre ty p : ty <> 80 -> changed_at cf fmts t pre (EMsg ty p) = [].
Proof. intros H. unfold changed_at. now rewrite of_type_neq. Qed.

Lemma changed_eq cf fmts t0 pre p : changed_at cf fmts t0 pre (EMsg 80 p) =
  match parse_info (cf_ign cf) p with Ok m => [(last_stamp cf fmts t0 pre, im_key m, im_value m)] | Err _ => [] end.
Proof. unfold changed_at. rewrite of_type_eq. now destruct (parse_info (cf_ign cf) p). Qed.

Lemma sec_inv_skip_msg cf u0 pre ty p u : sec_inv cf u0 pre u ->
  ty <> 65 -> ty <> 68 -> ty <> 79 -> ty <> 80 -> sec_inv cf u0 (pre ++ [EMsg ty p]) u.
Proof.
  intros H H1 H2 H3 H4. apply sec_inv_skip; auto.
  - intros. now apply sub_step_other.
  - now apply stamps_other.
  - now apply dropouts_other.
  - now apply changed_other.
Qed.

Lemma sec_inv_effect cf u0 pre ty p u v e : sec_inv cf u0 pre u -> data_effect cf ty p u = Some (v, e) ->
  sec_inv cf u0 (pre ++ [EMsg ty p]) v.
Proof.
  intros Hi H. pose proof Hi as [H1 H2 H3 H4 H5 H6].
  destruct (Z.eqb_spec ty 68) as [->|N68].
  { apply (sec_inv_data cf u0 pre p u v e Hi). exact (Some_inj _ _ H). }
  shape H; try congruence;
    try (injection H as -> ->; apply sec_inv_skip_msg; try lia; first [exact Hi | constructor; assumption]; fail).
  - (* M *) destruct (add_info_multi (fst m) (snd m) u) eqn:Em; cbn [eff_of] in H; injection H as -> ->;
      apply sec_inv_skip_msg; try lia; auto.
    apply add_info_multi_inv in Em as (xa & xb & ->). constructor; assumption.
  - (* P *) injection H as -> ->. constructor; auto.
    + intros id. rewrite subscription_snoc, sub_step_other by lia. apply H2.
    + rewrite last_stamp_snoc, stamps_other by lia. exact H4.
    + rewrite collect_snoc0, dropouts_other, app_nil_r by lia. exact H5.
    + rewrite collect_snoc0, changed_eq, Ep.
      rewrite app_assoc, <- H6, <- H4. reflexivity.
  - injection H as -> ->. constructor; auto.
    + intros id. rewrite subscription_snoc, sub_step_other by lia. apply H2.
    + rewrite last_stamp_snoc, stamps_other by lia. exact H4.
    + rewrite collect_snoc0, dropouts_other, app_nil_r by lia. exact H5.
    + rewrite collect_snoc0, changed_eq, Ep. now rewrite app_nil_r.
  - (* A *) rewrite H1 in Ep.
    destruct (parse_add_ok _ _ _ _ Ep) as [_ Hb].
    assert (He : v = if cf_filter cf (sb_name s) then set_subs (zset (sb_id s) s (u_subs u)) u
              else set_filtered (set_add (sb_id s) (u_filtered u)) u) by exact (f_equal fst H).
    assert (Hl : u_last v = u_last u /\ u_dropouts v = u_dropouts u /\ u_changed v = u_changed u /\ u_formats v = u_formats u)
      by (subst v; destruct (cf_filter cf (sb_name s)); auto).
    destruct Hl as (L1 & L2 & L3 & L4).
    constructor.
    + congruence.
    + intros id. rewrite subscription_snoc. cbn [sub_step Z.eqb Pos.eqb]. rewrite Ep.
      subst v. destruct (cf_filter cf (sb_name s)) eqn:Ef.
      * cbn [u_subs set_subs]. rewrite zget_zset, Z.eqb_sym, andb_true_r. destruct (sb_id s =? id); [|apply H2].
        cbn. rewrite <- Hb at 1. now rewrite set_buf_id.
      * rewrite andb_false_r. apply H2.
    + subst v. destruct (cf_filter cf (sb_name s)); [apply NoDup_zset, H3|exact H3].
    + rewrite last_stamp_snoc, stamps_other by lia. rewrite L1. exact H4.
    + rewrite collect_snoc0, dropouts_other, app_nil_r by lia. rewrite L2. exact H5.
    + rewrite collect_snoc0, changed_other, app_nil_r by lia. rewrite L3. exact H6.
  - injection H as -> ->. rewrite H1 in Ep. constructor; auto.
    + intros id. rewrite subscription_snoc. cbn [sub_step Z.eqb Pos.eqb]. rewrite Ep. apply H2.
    + rewrite last_stamp_snoc, stamps_other by lia. exact H4.
    + rewrite collect_snoc0, dropouts_other, app_nil_r by lia. exact H5.
    + rewrite collect_snoc0, changed_other, app_nil_r by lia. exact H6.
  - (* O *) injection H as -> ->. constructor; auto.
    + intros id. rewrite subscription_snoc, sub_step_other by lia. apply H2.
    + rewrite last_stamp_snoc, stamps_other by lia. exact H4.
    + rewrite collect_snoc0, app_assoc, <- H5. cbn [u_dropouts set_dropouts]. f_equal.
      unfold parse_dropout, unpack_u in Ep. destruct p as [|a [|b [|c p]]]; try discriminate.
      cbn [length Nat.eqb bind le_dec] in Ep. assert (Em : m = mkDrop (a + 256 * (b + 256 * 0)) (u_last u)) by congruence.
      subst m. cbn [dropouts_at Z.eqb Pos.eqb]. rewrite <- H4. do 2 f_equal. lia.
    + rewrite collect_snoc0, changed_other, app_nil_r by lia. exact H6.
  - injection H as -> ->. constructor; auto.
    + intros id. rewrite subscription_snoc, sub_step_other by lia. apply H2.
    + rewrite last_stamp_snoc, stamps_other by lia. exact H4.
    + rewrite collect_snoc0. cbn [dropouts_at]. unfold parse_dropout, unpack_u in Ep.
      destruct p as [|a [|b [|c p]]]; try discriminate; now rewrite app_nil_r.
    + rewrite collect_snoc0, changed_other, app_nil_r by lia. exact H6.
Qed.

Theorem finishes_sec cf evs u0 u : u_subs u0 = [] -> finishes cf evs u0 u -> sec_inv cf u0 evs u.
Proof.
  intros Hs Hf. revert Hf. apply (finishes_inv cf u0 (sec_inv cf u0)).
  - constructor; auto; rewrite ?Hs; cbn; rewrite ?app_nil_r; auto; constructor.
  - intros pre e u1 u2 Hi H. destruct e as [ty p| |].
    + apply ev_step_msg in H. destruct H as [H|v e H He|v H].
      * assert (~ In ty data_types).
        { intros Hin. destruct (data_effect_known cf ty p u1 Hin) as [x Hx]. congruence. }
        apply sec_inv_skip_msg; auto; intros ->; apply H0; now apply in_dt.
      * eapply sec_inv_effect; eauto.
      * apply sec_inv_corrupt. eapply sec_inv_effect; eauto.
    + destruct H as [H|H]; [|discriminate]. injection H as <-. apply sec_inv_skip; auto. now apply sec_inv_corrupt.
    + destruct H as [H|H]; [|discriminate]. injection H as <-. apply sec_inv_skip; auto.
      destruct Hi. now constructor.
Qed.
