(** Consequences of the reader theorems in the form the properties need. *)
From Coq Require Import Permutation Sorted.
From Verif Require Import Base Dict Utf8 PyStr PyFloat Struct PySort ModelTypes ModelRead ModelApi Spec SpecSection SpecMsg SpecLog
  ProofsRead ProofsFile ProofsSync ProofsChange ProofsInv ProofsTrace ProofsSection ProofsData ProofsWhole ProofsFields ProofsLoad
  ProofsMsg ProofsExpand ProofsCut ProofsDefaults ProofsLog.
Ltac Zify.zify_post_hook ::= Z.div_mod_to_equations.

(** ** C06 *)
Lemma sync_search f pos u : 0 <= pos -> exists n q u', (forall k, (n <= k)%nat -> find_sync k f pos u = Some (q, u')) /\
  ((exists i, first_occurrence sync_sequence (dropZ pos f) i /\ q = pos + i + 8 /\ u' = set_corrupt true u) \/
   (~ occurs sync_sequence (dropZ pos f) /\ q = pos /\ u' = set_has_sync false u)).
Proof.
  intros Hp. exists (S (Z.to_nat (lenZ f - pos))).
  destruct (0 <=? find_sub sync_sequence (dropZ pos f)) eqn:E.
  - do 2 eexists. split.
    + intros k Hk. rewrite find_sync_spec by lia. cbv zeta. rewrite E. reflexivity.
    + left. eexists. split; [apply find_sub_first; lia|]. auto.
  - do 2 eexists. split.
    + intros k Hk. rewrite find_sync_spec by lia. cbv zeta. rewrite E. reflexivity.
    + right. split; auto. intros Ho. apply find_sub_occurs in Ho. lia.
Qed.

(** ** C04: a cut inside the three header bytes of the first data message *)
Lemma def_step_short cf f pos u b : dropZ pos f = b -> 0 < lenZ b < 3 -> def_step cf f pos u = DRaise StructError.
Proof.
  intros Hd Hb. unfold def_step, rd. rewrite Hd.
  destruct b as [|a [|c [|d b]]]; try reflexivity; try (cbn in Hb; lia).
Qed.
Lemma cut_header_raises cf v t defs u1 b f : f = file_header v t ++ frames defs ++ b ->
  header_fits v t -> Forall plain_def defs -> run_def cf defs (after_header v t) = Ok u1 -> 0 < lenZ b < 3 ->
  produces cf f (Err StructError).
Proof.
  intros Hf Hh Hd Hr Hb. exists (length defs + 1)%nat. unfold load, load_at.
  rewrite Hf at 1. rewrite read_header_ok by exact Hh. fold (after_header v t). change (0 + 16) with 16.
  rewrite (def_loop_frames cf f defs 1 16 _ b) by (try lia; auto; rewrite Hf; apply (dropZ_file v t [] (frames defs ++ b))).
  rewrite Hr. cbn [def_loop]. rewrite (def_step_short cf f _ u1 b); auto. rewrite Hf. apply dropZ_file.
Qed.

(** ** C10: shape of datasets *)
Lemma column_lengths s rs ds : holds s rs ds -> Forall (fun nc => length (c_raw (snd nc)) = length rs) (ds_data ds).
Proof.
  intros (_ & _ & _ & _ & _ & _ & H). apply Forall_forall. intros nc Hin.
  apply In_nth_error in Hin as (i & Hi). destruct (H i nc Hi) as (nt & _ & _ & _ & ->). apply map_length.
Qed.
Lemma data_from cf v t defs secs u ds : read_as cf v t defs secs u -> In ds (u_data u) ->
  exists evs s rs, In evs secs /\ subscription cf (u_formats u) evs (ds_id ds) = Some (s, rs) /\ concat rs <> [] /\ holds s rs ds.
Proof.
  intros H Hin. destruct (read_as_sections _ _ _ _ _ _ H) as (_ & _ & _ & _ & news & Hn & Hp).
  apply (Permutation_in ds Hp) in Hin. apply in_concat in Hin as (new & Hnew & Hin).
  destruct (Forall2_in_r _ _ _ _ Hn Hnew) as (evs & Hevs & (_ & H2 & _)).
  destruct (H2 ds Hin) as (s & rs & A & B & C). eauto 8.
Qed.
Lemma concat_ne {A} (l : list (list A)) : concat l <> [] -> l <> [].
Proof. intros H ->. now apply H. Qed.
Theorem datasets_rect cf v t defs secs u ds : read_as cf v t defs secs u -> In ds (u_data u) ->
  exists n, (0 < n)%nat /\ Forall (fun nc => length (c_raw (snd nc)) = n) (ds_data ds) /\
    length (ds_data ds) = length (ds_fields ds).
Proof.
  intros H Hin. destruct (data_from _ _ _ _ _ _ _ H Hin) as (evs & s & rs & _ & Hs & Hne & Hh).
  exists (length rs). split; [destruct rs; [now elim Hne|cbn; lia]|]. split; [eapply column_lengths; eauto|].
  destruct Hh as (_ & _ & _ & Hf & _ & Hl & _). rewrite Hl, Hf.
  clear -Hs. revert s rs Hs. induction evs as [|e evs IH] using rev_ind; intros s rs Hs; [discriminate|].
  rewrite subscription_snoc in Hs. unfold sub_step in Hs. destruct e as [ty p| |]; eauto.
  destruct (ty =? 65).
  - destruct (parse_add cf (u_formats u) p) as [s'|] eqn:Ep; eauto. destruct (_ && _); eauto. injection Hs as <- <-.
    unfold parse_add in Ep. repeat (apply bind_Ok_inv in Ep as (? & ? & Ep)). injection Ep as <-. cbn [sb_dtype sb_fields].
    match goal with H : np_dtype _ = Ok _ |- _ => revert H end. unfold np_dtype. generalize 0, (@nil str) , (strip_padding (fst x2)).
    clear. intros i seen l. revert i seen x3. induction l as [|fd l IHl]; intros i seen dt Hd; cbn [np_dtype_aux] in Hd.
    + injection Hd as <-. reflexivity.
    + match type of Hd with (if ?b then _ else _) = _ => destruct b; [discriminate|] end. apply bind_Ok_inv in Hd as (dt' & H1 & H2). injection H2 as <-. cbn. f_equal. eauto.
  - destruct (ty =? 68); eauto. destruct (msg_id p); eauto.
    destruct (subscription cf (u_formats u) evs (ds_id ds)) as [[s0 rs0]|] eqn:E; [|discriminate].
    destruct (_ && _); injection Hs as <- <-; eauto.
Qed.

(** ** C11: get_dataset *)
Theorem get_dataset_spec u name multi :
  (forall ds, get_dataset u name multi = Ok ds -> In ds (u_data u) /\ ds_name ds = name /\ ds_multi ds = multi) /\
  (forall e, get_dataset u name multi = Err e -> e = IndexError /\
     (forall ds, In ds (u_data u) -> ~ (ds_name ds = name /\ ds_multi ds = multi))) /\
  ((exists ds, In ds (u_data u) /\ ds_name ds = name /\ ds_multi ds = multi) -> exists ds, get_dataset u name multi = Ok ds).
Proof.
  unfold get_dataset. set (p := fun d => str_eqb (ds_name d) name && (ds_multi d =? multi)).
  assert (Hp : forall d, p d = true <-> ds_name d = name /\ ds_multi d = multi).
  { intros d. unfold p. rewrite Bool.andb_true_iff, Z.eqb_eq. destruct (str_eqb_spec (ds_name d) name); intuition congruence. }
  assert (Hin : forall d, In d (filter p (u_data u)) <-> In d (u_data u) /\ ds_name d = name /\ ds_multi d = multi).
  { intros d. rewrite filter_In, Hp. reflexivity. }
  destruct (filter p (u_data u)) as [|d l] eqn:E; unfold py_nth; cbn.
  - repeat split; try discriminate.
    + injection H as <-. reflexivity.
    + intros ds Hd Hn. destruct (proj2 (Hin ds)). tauto.
    + intros (ds & Hd). destruct (proj2 (Hin ds) Hd).
  - assert (Hd := proj1 (Hin d) (or_introl eq_refl)).
    repeat split; try discriminate; try (injection H as <-; tauto). eauto.
Qed.

(** ** C16 *)
Lemma parse_add_inv cf fmts p s : parse_add cf fmts p = Ok s ->
  exists fmt out, sget (sb_name s) fmts = Some fmt /\ expands fmts [] (mf_fields fmt) out /\
    without_padding out (sb_fields s) /\ size_is fmts (mf_fields fmt) (total out).
Proof.
  intros Ep. unfold parse_add in Ep. repeat (apply bind_Ok_inv in Ep as (? & ? & Ep)). injection Ep as <-. cbn [sb_name sb_fields].
  match goal with H : parse_nested _ _ _ _ _ = Ok _ |- _ => apply parse_nested_expands in H as (fmt & out & A & B & C) end.
  exists fmt, out. split; auto. split; auto. cbn [fst app] in C. split.
  - assert (E : fst x2 = out) by exact C. rewrite E. apply strip_padding_spec.
  - exact (proj1 (expands_size fmts) _ _ _ B).
Qed.
Lemma subscription_add cf fmts evs id s rs : subscription cf fmts evs id = Some (s, rs) ->
  exists p, In (EMsg 65 p) evs /\ parse_add cf fmts p = Ok s.
Proof.
  revert s rs. induction evs as [|e evs IH] using rev_ind; intros s rs Hs; [discriminate|].
  assert (IH' : forall s rs, subscription cf fmts evs id = Some (s, rs) -> exists p, In (EMsg 65 p) (evs ++ [e]) /\ parse_add cf fmts p = Ok s).
  { intros s' rs' H. destruct (IH _ _ H) as (p & Hp & E). exists p. split; auto. apply in_or_app. now left. }
  rewrite subscription_snoc in Hs. unfold sub_step in Hs. destruct e as [ty p| |]; eauto.
  destruct (Z.eqb_spec ty 65) as [->|].
  - destruct (parse_add cf fmts p) as [s'|] eqn:Ep; eauto. destruct (_ && _); eauto. injection Hs as <- <-.
    exists p. split; auto. apply in_or_app. right. now left.
  - destruct (ty =? 68); eauto. destruct (msg_id p); eauto.
    destruct (subscription cf fmts evs id) as [[s0 rs0]|] eqn:E; [|discriminate].
    destruct (_ && _); injection Hs as <- <-; eauto.
Qed.
Theorem dataset_fields cf v t defs secs u ds : read_as cf v t defs secs u -> In ds (u_data u) ->
  exists fmt out, sget (ds_name ds) (u_formats u) = Some fmt /\ expands (u_formats u) [] (mf_fields fmt) out /\
    without_padding out (ds_fields ds) /\ size_is (u_formats u) (mf_fields fmt) (total out).
Proof.
  intros H Hin. destruct (data_from _ _ _ _ _ _ _ H Hin) as (evs & s & rs & _ & Hs & Hne & Hh).
  destruct (subscription_add _ _ _ _ _ _ Hs) as (p & _ & Hp). destruct Hh as (_ & _ & -> & -> & _).
  eapply parse_add_inv; eauto.
Qed.

(** ** C17 *)
Lemma parse_add_sizes cf fmts p s : parse_add cf fmts p = Ok s ->
  itemsize (sb_dtype s) = total (sb_fields s) /\ sb_max s = total (sb_fields s).
Proof.
  intros Ep. unfold parse_add in Ep. repeat (apply bind_Ok_inv in Ep as (? & ? & Ep)). injection Ep as <-. cbn [sb_dtype sb_fields sb_max].
  split; [|reflexivity]. match goal with H : np_dtype _ = Ok _ |- _ => exact (np_dtype_aux_size _ _ _ _ H) end.
Qed.
Theorem accepted_size cf fmts d s p : parse_add cf fmts d = Ok s ->
  (fits s p = true <-> lenZ p = 2 + total (sb_fields s)).
Proof. intros H. destruct (parse_add_sizes _ _ _ _ H) as [E1 E2]. unfold fits. rewrite E1, E2. lia. Qed.

(** ** C14 *)
Lemma group_grouped n : forall (ms : list (Z * infomsg)) acc, (length ms <= n)%nat ->
  (acc = [] \/ match ms with [] => True | x :: _ => fst x = 0 end) ->
  exists gs, grouped_as ms gs /\ group acc ms = rev (map (map (fun x => im_value (snd x))) gs) ++ acc.
Proof.
  induction n as [|n IH]; intros ms acc Hn Hacc.
  { destruct ms; [|cbn in Hn; lia]. exists []. repeat split; constructor. }
  destruct ms as [|[c e] ms]; [exists []; repeat split; constructor|].
  assert (Hsp : exists cont rest, ms = cont ++ rest /\ Forall (fun x => fst x <> 0) cont /\
    match rest with [] => True | x :: _ => fst x = 0 end).
  { clear. induction ms as [|x l (cont & rest & -> & H1 & H2)].
    - exists [], []. auto.
    - destruct (Z.eq_dec (fst x) 0) as [E|E]; [exists [], (x :: cont ++ rest); auto|exists (x :: cont), rest; auto]. }
  destruct Hsp as (cont & rest & -> & Hcont & Hrest).
  assert (Hg : group acc ((c, e) :: cont ++ rest) = group ([im_value e] :: acc) (cont ++ rest)).
  { cbn [group]. destruct acc as [|g gs]; [reflexivity|]. destruct Hacc as [Hacc|Hacc]; [discriminate|]. cbn in Hacc. subst c. reflexivity. }
  rewrite Hg, group_cont by exact Hcont.
  destruct (IH rest (([im_value e] ++ map (fun x => im_value (snd x)) cont) :: acc)) as (gs & G1 & G2).
  { cbn [length] in Hn. rewrite app_length in Hn. lia. }
  { now right. }
  exists (((c, e) :: cont) :: gs). split; [now apply ga_cons|]. rewrite G2. cbn [map rev]. rewrite <- app_assoc. reflexivity.
Qed.
Theorem multi_grouped k l : exists gs, grouped_as (filter (fun cm => str_eqb k (im_key (snd cm))) l) gs /\
  sget k (fold_left ins_multi l []) =
    match gs with [] => None | _ => Some (map (map (fun x : Z * infomsg => im_value (snd x))) gs) end.
Proof.
  destruct (group_grouped _ (filter (fun cm => str_eqb k (im_key (snd cm))) l) [] (le_n _) (or_introl eq_refl)) as (gs & G1 & G2).
  exists gs. split; auto. rewrite multi_groups. unfold groups_of. rewrite G2, app_nil_r, rev_involutive. destruct gs; reflexivity.
Qed.
Lemma grouped_concat {A} (l : list (Z * A)) gs : grouped_as l gs -> concat gs = l /\ Forall (fun g => g <> []) gs.
Proof.
  induction 1 as [|c e cont rest gs H1 H2 H3 [IH1 IH2]]; [split; [reflexivity|constructor]|].
  split; [cbn [concat]; rewrite IH1; reflexivity|]. constructor; [discriminate|exact IH2].
Qed.

(** ** C19 *)
Lemma run_def_app cf a : forall b u, run_def cf (a ++ b) u =
  let* u' := run_def cf a u in run_def cf b u'.
Proof.
  induction a as [|[ty p] a IH]; intros b u; [reflexivity|]. cbn [app run_def].
  destruct (def_effect cf ty p u) as [[u'|[]]|]; try reflexivity; apply IH.
Qed.
Theorem unknown_incompat cf v t pre c i o1 o2 o3 rest f :
  f = file_header v t ++ frames (map wire pre) ++ frame 66 (snd (wire (MFlags c i o1 o2 o3))) ++ rest ->
  header_fits v t -> Forall msg_ok pre -> Forall is_def pre -> msg_ok (MFlags c i o1 o2 o3) ->
  ~ known_incompat i ->
  produces cf f (Err (if Z.land (nth 0 i 0) (Z.lnot 1) =? 0 then NotImplementedError else ValueError)).
Proof.
  intros Hf Hh Hp Hd [(L1 & L2 & B1 & B2 & O1 & O2 & O3) Hs] Hk.
  apply (load_def_raise cf v t (map wire pre ++ [wire (MFlags c i o1 o2 o3)]) _ rest); auto.
  - rewrite Hf, frames_app, <- app_assoc. do 2 f_equal. unfold frames at 1. cbn [map concat]. rewrite app_nil_r. reflexivity.
  - apply Forall_app. split.
    + apply Forall_forall. intros m Hm. apply in_map_iff in Hm as (x & <- & Hx).
      rewrite Forall_forall in Hp, Hd. apply wire_def; auto.
    + constructor; [|constructor]. split; [|split; [cbn; intuition lia|left; cbn; tauto]].
      apply wire_bytes. split; auto. cbn [msg_ok]. tauto.
  - rewrite run_def_app.
    destruct (def_run_ok cf pre Hp Hd (after_header v t)) as (u1 & -> & _); [intros k; cbn; discriminate|].
    cbn [bind run_def wire]. unfold def_effect. cbn [Z.eqb Pos.eqb T_INFO T_MULTI T_FORMAT T_PARAM T_PDEF T_FLAGS].
    rewrite parse_flags_wire by assumption. cbn [bind]. cbv zeta.
    rewrite known_incompat_iff in Hk.
    destruct (Z.land (nth 0 i 0) (Z.lnot 1) =? 0); cbn [negb] in *; [|reflexivity].
    destruct (existsb (fun x => negb (x =? 0)) (tl i)); [reflexivity|]. exfalso. apply Hk. auto.
Qed.

(** ** C20 *)
Definition reset (d : list dataset) (u : ulog) : ulog := set_data d (set_subs [] u).
Lemma quiet_effect cf ty p d u : ty <> 65 -> ty <> 68 ->
  data_effect cf ty p (reset d u) = option_map (fun ve => (reset d (fst ve), snd ve)) (data_effect cf ty p u).
Proof.
  intros H1 H2. unfold data_effect, T_INFO, T_MULTI, T_PARAM, T_PDEF, T_ADD, T_LOG, T_LOGT, T_DATA, T_DROP, T_SYNC.
  rewrite (proj2 (Z.eqb_neq ty 65) H1), (proj2 (Z.eqb_neq ty 68) H2).
  destruct (ty =? 73); [destruct (parse_info _ p); reflexivity|].
  destruct (ty =? 77).
  { destruct (parse_info_multi _ p) as [[c m]|]; [|reflexivity]. cbn [bind fst snd]. unfold add_info_multi.
    change (u_multi (reset d u)) with (u_multi u). destruct (sget (im_key m) (u_multi u)) as [l|]; [|reflexivity].
    destruct (negb (c =? 0)); [|reflexivity]. destruct (append_last l (im_value m)); reflexivity. }
  destruct (ty =? 80); [destruct (parse_info _ p); reflexivity|].
  destruct (ty =? 81); [destruct (parse_pdef _ p); reflexivity|].
  destruct (ty =? 76); [destruct (parse_logging _ p); reflexivity|].
  destruct (ty =? 67).
  { destruct (parse_tagged _ p) as [m|]; reflexivity. }
  destruct (ty =? 79).
  { change (u_last (reset d u)) with (u_last u). destruct (parse_dropout p (u_last u)); reflexivity. }
  destruct (ty =? 83); reflexivity.
Qed.
Definition quiet (m : Z * bytes) : Prop := fst m <> 65 /\ fst m <> 68.
Lemma quiet_run cf d ms : Forall quiet ms -> forall u w, run_data cf ms u = RDone w ->
  run_data cf ms (reset d u) = RDone (reset d w).
Proof.
  induction 1 as [|[ty p] ms [H1 H2] _ IH]; intros u w Hr; cbn [run_data] in *.
  - injection Hr as <-. reflexivity.
  - rewrite quiet_effect by assumption. destruct (data_effect cf ty p u) as [[v [[]|]]|]; cbn [option_map fst snd]; try discriminate; auto.
    exact (IH _ _ Hr).
Qed.
Lemma quiet_sections cf d secs : StronglySorted (fun a b => ds_leb a b = true) d -> Forall (Forall quiet) secs ->
  forall u w, run_data cf (concat secs) u = RDone w -> run_sections cf secs (reset d u) = Ok (reset d w).
Proof.
  intros Hd. induction 1 as [|s secs Hs _ IH]; intros u w Hr; cbn [concat run_sections] in *.
  - injection Hr as <-. reflexivity.
  - rewrite run_data_app in Hr. destruct (run_data cf s u) as [u'| |] eqn:E; try discriminate.
    rewrite (quiet_run cf d s Hs u u' E). cbn [end_data]. unfold finalize. cbn [u_subs reset set_data set_subs map rev filter mapM bind].
    change (u_data (reset d u')) with d. rewrite app_nil_r, ssort_id by (first [exact ds_leb_total|exact ds_leb_trans|exact Hd]).
    apply (IH u' w Hr).
Qed.
Lemma add_info_multi_keeps c m u v : add_info_multi c m u = Ok v -> u_subs v = u_subs u /\ u_data v = u_data u.
Proof.
  unfold add_info_multi. destruct (sget _ _) as [l|]; [destruct (negb _)|]; intros H.
  - apply bind_Ok_inv in H as (l' & _ & H). injection H as <-. auto.
  - injection H as <-. auto.
  - injection H as <-. auto.
Qed.
Lemma quiet_keeps cf ty p u v e : ty <> 65 -> ty <> 68 -> data_effect cf ty p u = Some (v, e) ->
  u_subs v = u_subs u /\ u_data v = u_data u.
Proof.
  intros H1 H2 H. apply data_effect_shape in H.
  destruct H as [[-> H]|[[-> H]|[[-> H]|[[-> H]|[[-> H]|[[-> H]|[[-> H]|[[-> H]|[[-> H]|[-> H]]]]]]]]]]; try congruence.
  - destruct (parse_info _ p); injection H as -> _; auto.
  - destruct (parse_info_multi _ p) as [[c m]|]; cbn [bind fst snd] in H; [|injection H as -> _; auto].
    destruct (add_info_multi c m u) eqn:E; injection H as -> _; auto. eapply add_info_multi_keeps; eauto.
  - destruct (parse_info _ p); injection H as -> _; auto.
  - destruct (parse_pdef _ p); injection H as -> _; auto.
  - destruct (parse_logging _ p); injection H as -> _; auto.
  - destruct (parse_tagged _ p); injection H as -> _; auto.
  - destruct (parse_dropout p _); injection H as -> _; auto.
  - injection H as -> _; auto.
Qed.
Lemma quiet_run_keeps cf ms : Forall quiet ms -> forall u w, run_data cf ms u = RDone w ->
  u_subs w = u_subs u /\ u_data w = u_data u.
Proof.
  induction 1 as [|[ty p] ms [H1 H2] _ IH]; intros u w Hr; cbn [run_data] in *.
  - injection Hr as <-. auto.
  - destruct (data_effect cf ty p u) as [[v e]|] eqn:E; [|auto].
    destruct (quiet_keeps _ _ _ _ _ _ H1 H2 E) as [E1 E2]. rewrite <- E1, <- E2.
    destruct e as [[]|]; try discriminate; auto. exact (IH _ _ Hr).
Qed.
(** Appended sections without subscriptions and data messages: reading section by section
    is the same as reading all messages as one section. *)
Theorem sections_concat cf s secs u w : u_subs u = [] -> Forall (Forall quiet) secs ->
  run_data cf (s ++ concat secs) u = RDone w ->
  run_sections cf (s :: secs) u = end_data (run_data cf (s ++ concat secs) u).
Proof.
  intros Hu Hq Hr. rewrite Hr. rewrite run_data_app in Hr. destruct (run_data cf s u) as [u'| |] eqn:E; try discriminate.
  cbn [run_sections]. rewrite E. destruct (end_data_ok cf s u u' Hu (or_introl E)) as (new & Hend). rewrite E in Hend.
  rewrite Hend. change (set_data (ssort ds_leb (u_data u' ++ new)) (set_subs [] u')) with (reset (ssort ds_leb (u_data u' ++ new)) u').
  rewrite (quiet_sections cf _ secs) with (w := w); auto.
  - cbn [end_data] in *. assert (Hk : Forall quiet (concat secs)).
    { clear -Hq. induction Hq; cbn; [constructor|]. apply Forall_app; auto. }
    destruct (quiet_run_keeps cf _ Hk _ _ Hr) as [E1 E2].
    unfold finalize in *. rewrite E1, E2. apply bind_Ok_inv in Hend as (ds & Hds & Heq). rewrite Hds. cbn [bind].
    injection Heq as Heq. unfold reset. now rewrite Heq.
  - apply ssort_sorted; [exact ds_leb_total|exact ds_leb_trans].
Qed.

(** ** C21 *)
(** No message makes the reader give up: all messages are processed. *)
Theorem all_processed cf f v t defs data u1 u : well_framed f v t defs data -> cf_hdr cf = false ->
  run_def cf defs (after_header v t) = Ok u1 -> no_append u1 ->
  (forall pre m post, data = pre ++ m :: post ->
     ~ stops cf (format_dict (formats (cf_ign cf) (msgs defs))) (msgs pre) m) ->
  produces cf f (Ok u) -> read_as cf v t (msgs defs) [msgs data] u.
Proof.
  intros Hw Hh Hd Ha Hs Hp. destruct (frames_trace _ _ _ _ _ _ _ _ Hw Hh Hd Ha Hp) as (evs & [->|(pre & m & post & E & _ & Hst)] & H); [exact H|].
  exfalso. eapply Hs; eauto.
Qed.
