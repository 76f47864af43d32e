(** Proofs about logs with damaged places (C70): everything outside them is read. *)
From Verif Require Import Base Dict Utf8 PyStr PyFloat Struct PySort ModelTypes ModelRead Spec SpecSection SpecDefect SpecWalk
  ProofsRead ProofsFile ProofsSync ProofsInv ProofsTrace ProofsChange ProofsLoad ProofsSection ProofsData ProofsWhole ProofsFields ProofsCut ProofsWalk.
Ltac Zify.zify_post_hook ::= Z.div_mod_to_equations.
Local Ltac unbind H := repeat match type of H with
  | bind _ _ = Ok _ => let x := fresh "x" in let E := fresh "E" in apply bind_Ok_inv in H as (x & E & H)
  end.

(** ** The flag is written but never read *)
Lemma data_msg_flag p u : data_msg p (set_corrupt true u) = (set_corrupt true (fst (data_msg p u)), snd (data_msg p u)).
Proof.
  unfold data_msg. destruct (unpack_u 2 (takeZ 2 p)) as [id|e]; [|reflexivity]. change (u_subs (set_corrupt true u)) with (u_subs u).
  destruct (zget id (u_subs u)) as [s|].
  - cbv zeta. destruct ((lenZ p - 2 <? itemsize (sb_dtype s)) || (sb_max s <? lenZ p - 2)); [reflexivity|].
    set (d := if itemsize (sb_dtype s) <? lenZ p - 2 then _ else _). destruct (unpack_u 8 (slice (sb_tsoff s + 2) (sb_tsoff s + 10) d)) as [ts|e]; [|reflexivity].
    change (u_last (set_corrupt true u)) with (u_last u). destruct (u_last u <? ts); reflexivity.
  - change (u_filtered (set_corrupt true u)) with (u_filtered u). destruct (existsb (Z.eqb id) (u_filtered u)); reflexivity.
Qed.
Lemma eff_flag u (r r' : res ulog) : r' = rmap (set_corrupt true) r -> eff_of (set_corrupt true u) r' = (set_corrupt true (fst (eff_of u r)), snd (eff_of u r)).
Proof. intros ->. destruct r; reflexivity. Qed.
Lemma data_effect_flag cf ty p u :
  data_effect cf ty p (set_corrupt true u) = option_map (fun x : eff => (set_corrupt true (fst x), snd x)) (data_effect cf ty p u).
Proof.
  unfold data_effect. cbv zeta.
  repeat match goal with |- context [if ?a =? ?b then Some (eff_of _ _) else _] => destruct (a =? b); [cbn [option_map]; f_equal; apply eff_flag|] end.
  - destruct (parse_info (cf_ign cf) p); reflexivity.
  - destruct (parse_info_multi (cf_ign cf) p) as [[c m]|]; [|reflexivity]. cbn [bind fst snd]. unfold add_info_multi.
    change (u_multi (set_corrupt true u)) with (u_multi u). destruct (sget (im_key m) (u_multi u)) as [l|]; [|reflexivity].
    destruct (negb (c =? 0)); [|reflexivity]. destruct (append_last l (im_value m)); reflexivity.
  - destruct (parse_info (cf_ign cf) p); reflexivity.
  - destruct (parse_pdef (cf_ign cf) p) as [[b m]|]; reflexivity.
  - change (u_formats (set_corrupt true u)) with (u_formats u). destruct (parse_add cf (u_formats u) p) as [s|]; [|reflexivity]. cbn [bind]. destruct (cf_filter cf (sb_name s)); reflexivity.
  - destruct (parse_logging (cf_ign cf) p); reflexivity.
  - destruct (parse_tagged (cf_ign cf) p) as [m|]; [|reflexivity]. cbn [bind]. change (u_tagged (set_corrupt true u)) with (u_tagged u). destruct (zget (tg_tag m) (u_tagged u)); reflexivity.
  - destruct (ty =? T_DATA); [cbn [option_map]; now rewrite data_msg_flag|].
    destruct (ty =? T_DROP); [cbn [option_map]; f_equal; apply eff_flag; change (u_last (set_corrupt true u)) with (u_last u); destruct (parse_dropout p (u_last u)); reflexivity|].
    destruct (ty =? T_SYNC); reflexivity.
Qed.
Definition map_run (g : ulog -> ulog) (r : run) : run :=
  match r with RDone u => RDone (g u) | RStop u => RStop (g u) | RRaise e => RRaise e end.
Lemma run_data_flag cf ms : forall u, run_data cf ms (set_corrupt true u) = map_run (set_corrupt true) (run_data cf ms u).
Proof.
  induction ms as [|[ty p] ms IH]; intros u; [reflexivity|]. cbn [run_data]. rewrite data_effect_flag.
  destruct (data_effect cf ty p u) as [[u' [[]|]]|]; cbn [option_map fst snd]; try reflexivity; try apply IH.
Qed.
Lemma finalize_flag u : finalize (set_corrupt true u) = rmap (set_corrupt true) (finalize u).
Proof. unfold finalize. change (u_subs (set_corrupt true u)) with (u_subs u). destruct (mapM _ _); reflexivity. Qed.
Lemma run_data_app cf a b u : run_data cf (a ++ b) u = match run_data cf a u with RDone u' => run_data cf b u' | r => r end.
Proof.
  revert u. induction a as [|[ty p] a IH]; intros u; [reflexivity|]. cbn [app run_data].
  destruct (data_effect cf ty p u) as [[u' [[]|]]|]; try reflexivity; apply IH.
Qed.

(** ** The walk through whole messages *)
Lemma drop_message_at f q ty p tail : dropZ q f = frame ty p ++ tail -> message_at f q ty p.
Proof. intros E. unfold message_at, slice. rewrite E. apply takeZ_app_exact. rewrite lenZ_frame. lia. Qed.
Lemma drop_le f q (l : bytes) : 0 <= q -> dropZ q f = l -> l <> [] -> q + lenZ l = lenZ f.
Proof.
  intros Hq E Hl. destruct (Z.le_gt_cases q (lenZ f)) as [C|C].
  - rewrite <- E, lenZ_dropZ by lia. lia.
  - exfalso. apply Hl. rewrite <- E. apply dropZ_all. lia.
Qed.
Lemma frames_ne m ms : frames (m :: ms) <> [].
Proof. rewrite frames_cons. unfold frame. discriminate. Qed.
Lemma walk_frames cf f ms : forall q tail evs, 0 <= q -> 10000 * lenZ f <= BIG -> dropZ q f = frames ms ++ tail -> Forall plain_data ms ->
  (forall c, c <= 10000 * (q + lenZ (frames ms)) -> walk f BIG (q + lenZ (frames ms)) c true evs) ->
  exists evs1, (forall c, c <= 10000 * q -> walk f BIG q c true (evs1 ++ evs)) /\ forall u, run_events cf evs1 u = run_data cf ms u.
Proof.
  induction ms as [|[ty p] ms IH]; intros q tail evs Hq Hs Hd Hp W.
  - exists []. split; [|reflexivity]. intros c Hc. cbn [app]. specialize (W c). change (lenZ (frames [])) with 0 in W. rewrite Z.add_0_r in W. apply W; lia.
  - inversion Hp as [|? ? (Hfit & Hk) Hp2]; subst. cbn [fst snd] in Hk. rewrite frames_cons in Hd, W. cbn [fst snd] in Hd, W. rewrite <- app_assoc in Hd.
    pose proof (drop_message_at _ _ _ _ _ Hd) as M. pose proof (dropZ_frame f q ty p _ Hq Hd) as Hd2. pose proof (lenZ_nonneg p). pose proof (lenZ_nonneg (frames ms)). pose proof (lenZ_nonneg tail).
    assert (L : q + 3 + lenZ p <= lenZ f).
    { pose proof (drop_le f q _ Hq Hd ltac:(unfold frame; discriminate)) as L. rewrite !lenZ_app, lenZ_frame in L. lia. }
    rewrite lenZ_app, lenZ_frame in W.
    destruct (IH (q + 3 + lenZ p) tail evs ltac:(lia) Hs Hd2 Hp2) as (evs1 & W1 & R).
    { intros c Hc. replace (q + 3 + lenZ p + lenZ (frames ms)) with (q + (3 + lenZ p + lenZ (frames ms))) in * by lia. now apply W. }
    destruct (in_dec Z.eq_dec ty data_types) as [Ht|Ht].
    + exists (EMsg ty p :: evs1). split; [intros c Hc; cbn [app]; apply walk_message; try assumption; [lia|]; apply W1; lia|].
      intros u. cbn [run_events data_event run_data]. destruct (data_effect cf ty p u) as [[u' [[]|]]|]; try reflexivity; apply R.
    + destruct Hk as [Hk|(K1 & K2 & K3)]; [contradiction|]. exists evs1. split.
      * intros c Hc. eapply walk_skip; try eassumption; [lia|unfold doubtful; lia|auto|]. apply W1; lia.
      * intros u. cbn [run_data]. rewrite data_effect_None by exact Ht. apply R.
Qed.
(** no message is left in the remains of one *)
Lemma tail_no_message f q tl ty p : dropZ q f = tl -> file_tail tl -> ~ message_at f q ty p.
Proof.
  intros Hd [->|(m & Hm & rest & Hr & E)] H.
  - destruct (message_at_drop _ _ _ _ H) as (tail & E). rewrite Hd in E. discriminate.
  - destruct (message_at_drop _ _ _ _ H) as (tail & E2). rewrite Hd in E2. subst tl. unfold frame in E2. rewrite E2 in E. destruct m as [mt mp]. unfold frame in E. cbn [fst snd app] in E.
    injection E as E1 E3 E4 E5. assert (L : lenZ p = lenZ mp) by (pose proof (lenZ_nonneg p); pose proof (lenZ_nonneg mp); lia).
    pose proof (f_equal lenZ E5) as L2. rewrite <- app_assoc, !lenZ_app in L2. pose proof (lenZ_nonneg tail). destruct rest as [|x rest]; [congruence|]. rewrite lenZ_cons in L2. pose proof (lenZ_nonneg rest). lia.
Qed.

(** ** Damaged sections *)
(** what comes out: the same, flagged, or what there was when the reader gave up *)
Definition hurt_run (hurt : bool) (r0 r : run) : Prop :=
  r = map_run (if hurt then set_corrupt true else fun u => u) r0 \/ exists u, r0 = RStop u /\ r = r0.
Lemma map_run_id r : map_run (fun u => u) r = r.
Proof. destruct r; reflexivity. Qed.
Lemma damaged_walk cf f r ms hurt : 10000 * lenZ f <= BIG -> damaged r ms hurt -> forall q, 0 <= q -> dropZ q f = r ->
  exists evs, (forall c, c <= 10000 * q -> walk f BIG q c true evs) /\ forall u, hurt_run hurt (run_data cf ms u) (run_events cf evs u).
Proof.
  intros Hs D. induction D as [ms tl Hp Ht|ms d more ms2 hurt Hp Hd D IH]; intros q Hq E.
  - destruct (walk_frames cf f ms q tl [] Hq Hs E Hp) as (evs1 & W & R).
    { intros c' _. apply walk_end. intros ty p M. exfalso. refine (tail_no_message f _ tl ty p _ Ht M).
      rewrite <- dropZ_dropZ; [|apply lenZ_nonneg|lia]. rewrite E. now apply dropZ_app_exact. }
    rewrite app_nil_r in W. exists evs1. split; [exact W|]. intros u. left. rewrite map_run_id. apply R.
  - set (r := d ++ sync_sequence ++ more) in *. set (q1 := q + lenZ (frames ms)).
    assert (E1 : dropZ q1 f = r) by (unfold q1; rewrite <- dropZ_dropZ; [|apply lenZ_nonneg|lia]; rewrite E; now apply dropZ_app_exact).
    pose proof (lenZ_nonneg (frames ms)) as Lf. assert (Hq1 : 0 <= q1) by (unfold q1; lia). pose proof (lenZ_nonneg d) as Ld.
    assert (E2 : dropZ (q1 + lenZ d + 8) f = more).
    { replace (q1 + lenZ d + 8) with (q1 + (lenZ d + 8)) by lia. rewrite <- dropZ_dropZ by lia. rewrite E1. unfold r. rewrite app_assoc. apply dropZ_app_exact. rewrite lenZ_app. reflexivity. }
    destruct Hd as (ty & p & tail & Er & Hk & Hd).
    assert (M : message_at f q1 ty p) by (eapply drop_message_at; rewrite E1; exact Er). pose proof (lenZ_nonneg p) as Lp. pose proof (lenZ_nonneg tail) as Lt.
    assert (L : q1 + 3 + lenZ p <= lenZ f).
    { pose proof (drop_le f q1 r Hq1 E1 ltac:(rewrite Er; unfold frame; discriminate)) as L. rewrite Er, lenZ_app, lenZ_frame in L. lia. }
    destruct (IH (q1 + lenZ d + 8) ltac:(lia) E2) as (evs2 & W2 & R2).
    assert (G : forall c, c <= 10000 * q1 -> walk f BIG q1 c true (ECorrupt :: evs2)).
    { intros c Hc. destruct Hd as [(Dd & Hn & Ho)|(Dd & Ho)].
      - eapply walk_sync with (i := lenZ d - 1); try eassumption; [lia| |].
        + rewrite <- dropZ_dropZ by lia. rewrite E1. exact Ho.
        + replace (q1 + 1 + (lenZ d - 1) + 8) with (q1 + lenZ d + 8) by lia. apply W2; lia.
      - destruct (first_occurs _ _ Ho) as (_ & H1 & H2).
        (* the count of bytes goes ahead of the place here *)
        assert (H3 : lenZ p <= 10000) by (unfold doubtful in Dd; lia).
        eapply walk_inside with (i := lenZ d - 3); try eassumption; [lia|].
        replace (q1 + 3 + (lenZ d - 3) + 8) with (q1 + lenZ d + 8) by lia. apply W2; lia. }
    destruct (walk_frames cf f ms q r (ECorrupt :: evs2) Hq Hs E Hp G) as (evs1 & W & R).
    exists (evs1 ++ ECorrupt :: evs2). split; [exact W|]. intros u. rewrite run_events_app, R, run_data_app.
    destruct (run_data cf ms u) as [u'|u'|e]; [|right; eauto|left; reflexivity].
    cbn [run_events data_event]. destruct (R2 (set_corrupt true u')) as [H|(w & A & B)].
    + left. rewrite H, run_data_flag. destruct (run_data cf ms2 u') as [w|w|e]; destruct hurt; reflexivity.
    + rewrite B. rewrite run_data_flag in A |- *. left. reflexivity.
Qed.

(** ** Whole files *)
Lemma run_def_sync cf defs : forall u u', run_def cf defs u = Ok u' -> u_has_sync u' = u_has_sync u.
Proof.
  induction defs as [|[ty p] defs IH]; intros u u' H; [now injection H as <-|]. cbn [run_def] in H.
  destruct (def_effect cf ty p u) as [[w|[]]|] eqn:Ee; try discriminate; try (now apply IH in H). apply IH in H. rewrite H. clear IH H.
  apply def_effect_shape in Ee as [(-> & Ee)|[(-> & Ee)|[(-> & Ee)|[(-> & Ee)|[(-> & Ee)|(-> & Ee)]]]]];
      symmetry in Ee; unbind Ee; try (injection Ee as <-; reflexivity).
  - apply add_info_multi_inv in Ee as (x' & y' & ->). reflexivity.
  - destruct x as [[c i] o]. cbv beta iota zeta in Ee. destruct (negb _); [discriminate|]. destruct (existsb _ _); [discriminate|]. injection Ee as <-. reflexivity.
Qed.
Lemma damaged_plain r ms hurt : damaged r ms hurt -> Forall plain_data ms /\ lenZ (frames ms) <= lenZ r.
Proof.
  induction 1 as [ms tl Hp Ht|ms d more ms2 hurt Hp Hd D (IH1 & IH2)].
  - split; [exact Hp|]. rewrite lenZ_app. pose proof (lenZ_nonneg tl). lia.
  - split; [apply Forall_app; auto|]. unfold frames in *. rewrite map_app, concat_app, !lenZ_app. pose proof (lenZ_nonneg d). pose proof (lenZ_nonneg sync_sequence). lia.
Qed.
Lemma damaged_cons m r ms hurt : plain_data m -> damaged r ms hurt -> damaged (frames [m] ++ r) (m :: ms) hurt.
Proof.
  intros Hm [ms' tl Hp Ht|ms' d more ms2 hurt' Hp Hd D].
  - rewrite app_assoc.
    replace (frames [m] ++ frames ms') with (frames (m :: ms')) by (unfold frames; cbn [map concat]; now rewrite app_nil_r). now apply damaged_not; [constructor|].
  - rewrite app_assoc. replace (frames [m] ++ frames ms') with (frames (m :: ms')) by (unfold frames; cbn [map concat]; now rewrite app_nil_r).
    change (m :: ms' ++ ms2) with ((m :: ms') ++ ms2). eapply damaged_at; eauto.
Qed.
Lemma goes_on_runs cf ms u : u_subs u = [] -> Forall (fun m => bytes_ok (snd m)) ms -> goes_on cf (u_formats u) (msgs ms) -> forall w, run_data cf ms u <> RStop w.
Proof.
  intros Hs Hb Hg w E.
  assert (G : exists r, end_data (run_data cf ms u) = Ok r).
  { destruct (end_data_ok cf ms u w Hs (or_intror E)) as (new & En). eauto. }
  assert (P : exists pre m post u2 u3, ms = pre ++ m :: post /\ run_data cf pre u = RDone u2 /\ data_effect cf (fst m) (snd m) u2 = Some (u3, Some StructError)).
  { clear Hg Hs Hb G. revert u E. induction ms as [|[ty p] ms IH]; intros u E; [discriminate|]. cbn [run_data] in E.
    destruct (data_effect cf ty p u) as [[u' [[]|]]|] eqn:Ee; try discriminate;
      try (destruct (IH _ E) as (pre & m & post & u2 & u3 & -> & A & B); exists ((ty, p) :: pre), m, post, u2, u3; split; [reflexivity|]; split; [cbn [run_data]; rewrite Ee; exact A|exact B]).
    exists [], (ty, p), ms, u, u'. auto. }
  destruct P as (pre & m & post & u2 & u3 & -> & A & B). unfold msgs in Hg. rewrite map_app in Hg. cbn [map] in Hg.
  refine (Hg (msgs pre) (fst m) (snd m) _ eq_refl _).
  assert (Hk : In (fst m) data_types) by (destruct (in_dec Z.eq_dec (fst m) data_types) as [H|H]; [exact H|rewrite data_effect_None in B by exact H; discriminate]).
  apply Forall_app in Hb as (_ & Hb). apply Forall_inv in Hb.
  apply (stops_iff cf (msgs pre) (fst m) (snd m) u u2 Hs Hb); [rewrite run_data_events; exact A|exact Hk|].
  exists u3. cbn [data_event run_data]. now rewrite B.
Qed.
Theorem damaged_load cf f v t defs m rest ms hurt : f = file_header v t ++ frames defs ++ frames [m] ++ rest -> header_fits v t -> bytes_ok f -> 10000 * lenZ f <= BIG ->
  Forall plain_def defs -> not_appended defs -> frame_fits m -> In (fst m) end_types -> cf_hdr cf = false -> damaged rest ms hurt ->
  exists r r0, produces cf f r /\ produces cf (file_header v t ++ frames defs ++ frames (m :: ms)) r0 /\ (r = r0 \/ hurt = true /\ r = rmap (set_corrupt true) r0) /\
    (hurt = true -> goes_on cf (format_dict (formats (cf_ign cf) (msgs defs))) (msgs (m :: ms)) -> r = rmap (set_corrupt true) r0).
Proof.
  intros Hf Hh Hb Hs Hd Ha Hm He Hc D.
  assert (Hpm : plain_data m) by (split; [exact Hm|left; destruct He as [<-|[<-|[<-|[]]]]; vm_compute; tauto]).
  destruct (damaged_plain _ _ _ D) as (Hpl & Hlen). set (clean := file_header v t ++ frames defs ++ frames (m :: ms)).
  assert (Lm : frames (m :: ms) = frames [m] ++ frames ms) by (unfold frames; cbn [map concat]; now rewrite app_nil_r).
  assert (Lc : lenZ clean <= lenZ f) by (unfold clean; rewrite Hf, Lm, !lenZ_app; lia). pose proof (lenZ_nonneg f) as Lf.
  destruct (run_def cf defs (after_header v t)) as [u1|e] eqn:E.
  2:{ exists (Err e), (Err e). split; [eapply load_def_raise; eauto|]. split; [eapply (load_def_raise cf v t defs e (frames (m :: ms))); eauto|]. split; [left; reflexivity|reflexivity]. }
  assert (Hs1 : u_subs u1 = []).
  { pose proof E as E'. rewrite <- run_def_msgs in E'. rewrite (def_subs _ _ _ _ E'). reflexivity. }
  assert (Hy : u_has_sync u1 = true) by (rewrite (run_def_sync _ _ _ _ E); reflexivity).
  assert (Hfm : u_formats u1 = format_dict (formats (cf_ign cf) (msgs defs))).
  { rewrite <- run_def_msgs in E. exact (def_fold u_formats _ ins_fmt cf (def_formats cf) _ _ _ E). }
  assert (Hdrop : dropZ (16 + lenZ (frames defs)) f = frames [m] ++ rest) by (rewrite Hf; apply dropZ_file).
  destruct (damaged_walk cf f _ (m :: ms) hurt Hs (damaged_cons m rest ms hurt Hpm D) (16 + lenZ (frames defs))) as (evs & W & R); [pose proof (lenZ_nonneg (frames defs)); lia|exact Hdrop|].
  exists (end_data (run_events cf evs u1)), (end_data (run_data cf (m :: ms) u1)).
  assert (Hna : has_appended u1 = false) by (destruct (not_appended_ok cf defs v t u1 Ha E) as [H|H]; [exact H|eapply not_appended_run; eauto]).
  split; [|split; [|split]].
  - pose proof (lenZ_nonneg (frames defs)) as L0. exists (S (Z.to_nat (lenZ f)) + S (length defs))%nat. unfold load, load_at. rewrite Hf at 1. rewrite read_header_ok by exact Hh. fold (after_header v t).
    change (0 + 16) with 16. rewrite (def_loop_file cf f v t defs [m] rest (after_header v t) u1 Hh Hd); [|constructor; [exact Hpm|constructor]|exact He|exact Hf|discriminate|exact E|lia].
    rewrite Hc, Hna. cbn [read_sections].
    rewrite (read_data_walk cf f _ (16 + lenZ (frames defs)) u1 evs Hb ltac:(lia)); [reflexivity|rewrite Hy; apply W; lia|lia|lia].
  - apply (delivery cf clean v t defs (m :: ms)); [|exact Ha|exact Hc|now rewrite E]. split; try assumption.
    + exists []. unfold clean. rewrite app_nil_r. split; [reflexivity|]. split; [now left|discriminate].
    + unfold clean. rewrite Hf in Hb. apply Forall_app in Hb as (B1 & B2). apply Forall_app in B2 as (B2 & _).
      apply Forall_app. split; [exact B1|]. apply Forall_app. split; [exact B2|]. apply bytes_ok_frames. constructor; [exact Hm|]. eapply Forall_impl; [|exact Hpl]. intros x H; apply H.
    + lia.
    + constructor; assumption.
  - destruct (R u1) as [H|(w & A & B)]; [|left; now rewrite B]. rewrite H. destruct hurt; [|left; now rewrite map_run_id].
    right. split; [reflexivity|]. destruct (run_data cf (m :: ms) u1); cbn [map_run end_data]; try apply finalize_flag. reflexivity.
  - intros -> Hg. destruct (R u1) as [H|(w & A & B)].
    + rewrite H. destruct (run_data cf (m :: ms) u1); cbn [map_run end_data]; try apply finalize_flag. reflexivity.
    + exfalso. refine (goes_on_runs cf (m :: ms) u1 Hs1 _ _ w A); [|now rewrite Hfm].
      constructor; [apply Hm|]. eapply Forall_impl; [|exact Hpl]. intros x H. apply H.
Qed.
