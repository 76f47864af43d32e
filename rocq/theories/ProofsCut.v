(** Whole-file results: delivery of frames, cut files, header-only loading. *)
From Coq Require Import Permutation Sorted.
From Verif Require Import Base Dict Utf8 PyStr PyFloat Struct PySort ModelTypes ModelRead Spec SpecSection
  ProofsRead ProofsFile ProofsChange ProofsInv ProofsTrace ProofsSection ProofsData ProofsWhole ProofsFields ProofsLoad.
Ltac Zify.zify_post_hook ::= Z.div_mod_to_equations.

Lemma produces_iff cf f r : produces cf f r -> forall r', produces cf f r' <-> r' = r.
Proof. intros H r'. split; [intros H'; eapply produces_fun; eauto|now intros ->]. Qed.

(** ** Appended sections are announced by a flag message *)
Lemma def_effect_appended cf ty p u u' : (ty = 66 -> Z.land (nth 8 p 0) 1 = 0) ->
  def_effect cf ty p u = Some (Ok u') -> has_appended u = false -> has_appended u' = false.
Proof.
  intros Hb H. apply def_effect_shape in H. unfold has_appended.
  destruct H as [[-> H]|[[-> H]|[[-> H]|[[-> H]|[[-> H]|[-> H]]]]]]; symmetry in H;
    apply bind_Ok_inv in H as (m & H1 & H2).
  - injection H2 as <-. auto.
  - apply add_info_multi_inv in H2 as (a & b & ->). auto.
  - injection H2 as <-. auto.
  - injection H2 as <-. auto.
  - injection H2 as <-. auto.
  - destruct m as [[c i] o]. apply flags_inv in H2. subst u'. intros _.
    cbn [u_incompat set_offsets set_incompat set_compat].
    specialize (Hb eq_refl). unfold parse_flags in H1.
    apply bind_Ok_inv in H1 as (c' & H1 & H2). apply bind_Ok_inv in H2 as (i' & H2 & H3).
    apply bind_Ok_inv in H3 as (o' & H3 & H4). injection H4 as <- <- <-.
    unfold unpack_bytes8 in H2. destruct (Nat.eqb (length (slice 8 16 p)) 8) eqn:E; [|discriminate].
    injection H2 as <-. apply Nat.eqb_eq in E.
    assert (Hn : nth 0 (slice 8 16 p) 0 = nth 8 p 0).
    { unfold slice in *. rewrite takeZ_firstn, dropZ_skipn in *. change (Z.to_nat (16 - 8)) with 8%nat in *.
      change (Z.to_nat 8) with 8%nat in *. clear -E.
      do 8 (destruct p as [|? p]; [cbn in E; discriminate|]). destruct p; reflexivity. }
    rewrite Hn, Hb. reflexivity.
Qed.
Lemma not_appended_run cf defs : not_appended defs -> forall u u1, run_def cf defs u = Ok u1 ->
  has_appended u = false -> has_appended u1 = false.
Proof.
  unfold not_appended. induction 1 as [|[ty p] defs H _ IH]; intros u u1 Hr Hu; cbn in Hr.
  - injection Hr as <-. auto.
  - destruct (def_effect cf ty p u) as [[u'|[]]|] eqn:E; try discriminate; eapply IH; eauto.
    eapply def_effect_appended; eauto.
Qed.
Lemma not_appended_ok cf defs v t u1 : not_appended defs -> run_def cf defs (after_header v t) = Ok u1 -> no_append u1.
Proof. intros H1 H2. left. eapply not_appended_run; eauto. Qed.

(** ** Delivery *)
Theorem delivery cf f v t defs data : well_framed f v t defs data -> not_appended defs -> cf_hdr cf = false ->
  forall r, produces cf f r <->
    r = match run_def cf defs (after_header v t) with
        | Ok u => end_data (run_data cf data u)
        | Err e => Err e
        end.
Proof.
  intros [(tl & Hf & Ht & Ht') Hh Hb Hs Hd Hdt Hst] Ha Hhdr. apply produces_iff.
  destruct (run_def cf defs (after_header v t)) as [u1|e] eqn:E.
  - eapply load_frames_gen; eauto. exact (not_appended_ok _ _ _ _ _ Ha E).
  - eapply load_def_raise with (rest := frames data ++ tl); eauto.
Qed.

(** finalize cannot fail after a section that starts without subscriptions *)
Lemma end_data_ok cf ms u u' : u_subs u = [] ->
  (run_data cf ms u = RDone u' \/ run_data cf ms u = RStop u') ->
  exists new, end_data (run_data cf ms u) = Ok (set_data (ssort ds_leb (u_data u' ++ new)) (set_subs [] u')).
Proof.
  intros Hs H.
  assert (Hr : exists evs, finishes cf evs u u').
  { rewrite <- run_data_events in H. destruct (run_events_finishes cf (msgs ms) u u' H) as (e1 & e2 & _ & F). eauto. }
  destruct Hr as (evs & F). apply finishes_sec in F; auto. apply finalize_sec in F as (new & _ & F).
  exists new. destruct H as [-> | ->]; exact F.
Qed.

(** ** Cut files *)
Lemma run_data_app cf a : forall b u, run_data cf (a ++ b) u =
  match run_data cf a u with RDone u' => run_data cf b u' | x => x end.
Proof.
  induction a as [|[ty p] a IH]; intros b u; cbn; auto.
  destruct (data_effect cf ty p u) as [[u' [[]|]]|]; auto.
Qed.
Lemma frames_app a b : frames (a ++ b) = frames a ++ frames b.
Proof. unfold frames. now rewrite map_app, concat_app. Qed.
Lemma frames_cons m l : frames (m :: l) = frame (fst m) (snd m) ++ frames l.
Proof. reflexivity. Qed.

Lemma cut_frames data : forall k, 0 <= k <= lenZ (frames data) ->
  exists done rest tl, data = done ++ rest /\ takeZ k (frames data) = frames done ++ tl /\
    (rest = [] /\ tl = [] \/ exists m rest', rest = m :: rest' /\ cut_of tl m).
Proof.
  induction data as [|m data IH]; intros k Hk.
  - exists [], [], []. repeat split; auto.
  - rewrite frames_cons in *. rewrite lenZ_app in Hk. destruct (Z_lt_le_dec k (lenZ (frame (fst m) (snd m)))) as [Hlt|Hge].
    + exists [], (m :: data), (takeZ k (frame (fst m) (snd m))). split; auto. split.
      { cbn [frames map concat app]. apply takeZ_app_le. lia. }
      right. exists m, data. split; auto. exists (dropZ k (frame (fst m) (snd m))). split.
      * intros E. apply (f_equal lenZ) in E. rewrite lenZ_dropZ in E by lia. change (lenZ []) with 0 in E. lia.
      * apply takeZ_dropZ_app.
    + destruct (IH (k - lenZ (frame (fst m) (snd m)))) as (done & rest & tl & E1 & E2 & E3); [lia|].
      exists (m :: done), rest, tl. split; [now rewrite E1|]. split; auto.
      rewrite takeZ_app_ge by lia. rewrite E2, frames_cons, app_assoc. reflexivity.
Qed.

(** the cut file and the file of its complete messages *)
Lemma bytes_ok_app a b : bytes_ok (a ++ b) -> bytes_ok a /\ bytes_ok b.
Proof. apply Forall_app. Qed.

Theorem cut_delivery cf f v t defs data k :
  f = file_header v t ++ frames defs ++ frames data -> well_framed f v t defs data ->
  not_appended defs -> cf_hdr cf = false ->
  match data with [] => False | m :: _ => lenZ (file_header v t ++ frames defs ++ frame (fst m) (snd m)) <= k end ->
  k <= lenZ f ->
  exists done rest, data = done ++ rest /\
    lenZ (file_header v t ++ frames defs ++ frames done) <= k /\
    match rest with [] => k = lenZ f | m :: _ => k < lenZ (file_header v t ++ frames defs ++ frames (done ++ [m])) end /\
    (forall r, produces cf (takeZ k f) r <-> produces cf (file_header v t ++ frames defs ++ frames done) r) /\
    (forall u, produces cf f (Ok u) -> exists u', produces cf (takeZ k f) (Ok u') /\
       (u_corrupt u = false -> u_corrupt u' = false)).
Proof.
  intros Hf W Ha Hhdr Hk Hkf.
  assert (Hw := W). destruct W as [_ Hh Hb Hs Hd Hdt Hst].
  set (h := file_header v t) in *. set (d := frames defs) in *.
  destruct data as [|m0 data0] eqn:Edata; [destruct Hk|]. rewrite <- Edata in *.
  rewrite !lenZ_app in Hk.
  assert (Hlf : lenZ f = lenZ h + lenZ d + lenZ (frames data)) by (rewrite Hf, !lenZ_app; lia).
  pose proof (lenZ_nonneg h) as Hh0. pose proof (lenZ_nonneg d) as Hd0. pose proof (lenZ_nonneg (frame (fst m0) (snd m0))) as Hm0.
  destruct (cut_frames data (k - lenZ h - lenZ d)) as (done & rest & tl & E1 & E2 & E3); [lia|].
  exists done, rest. split; auto.
  assert (Ht : takeZ k f = h ++ d ++ frames done ++ tl).
  { rewrite Hf. rewrite takeZ_app_ge by lia. rewrite takeZ_app_ge by lia. now rewrite E2. }
  assert (Hl2 : k - lenZ h - lenZ d = lenZ (frames done) + lenZ tl).
  { rewrite <- lenZ_app, <- E2, lenZ_takeZ by lia. lia. }
  pose proof (lenZ_nonneg tl) as Htl0.
  assert (Hdone : done <> []).
  { intros ->. destruct E3 as [[-> ->]|(m & r' & -> & (z & Hz & Ez))].
    - rewrite Edata in E1. discriminate E1.
    - rewrite Edata in E1. injection E1 as <- <-. change (lenZ (frames [])) with 0 in Hl2.
      apply (f_equal lenZ) in Ez. rewrite lenZ_app in Ez. pose proof (lenZ_nonneg z).
      assert (lenZ z <> 0) by (intros Hz'; apply Hz, lenZ_0_nil, Hz'). lia. }
  assert (Fd : Forall plain_data (done ++ rest)) by (rewrite <- E1; exact Hdt).
  apply Forall_app in Fd as [Fdone Frest].
  assert (Hbt : bytes_ok (takeZ k f)) by (apply Forall_takeZ; exact Hb).
  assert (Hsd : starts_data done).
  { destruct done as [|p done]; [exact I|]. rewrite Edata in E1, Hst. cbn [app] in E1. assert (p = m0) as -> by congruence. exact Hst. }
  assert (W1 : well_framed (takeZ k f) v t defs done).
  { constructor; auto.
    - exists tl. split; auto. split; [|congruence]. destruct E3 as [[_ ->]|(m & r' & -> & Hc)]; [now left|].
      right. exists m. split; auto. inversion Frest; subst. apply H1.
    - pose proof (lenZ_takeZ_le k f). lia. }
  assert (W2 : well_framed (h ++ d ++ frames done) v t defs done).
  { constructor; auto.
    - exists []. rewrite app_nil_r. split; auto. split; [now left|auto].
    - rewrite Ht, !app_assoc in Hbt. apply bytes_ok_app in Hbt as [Hbt _]. now rewrite !app_assoc.
    - rewrite !lenZ_app. lia. }
  split; [rewrite !lenZ_app; lia|]. split.
  { destruct E3 as [[-> ->]|(m & r' & -> & (z & Hz & Ez))].
    - rewrite app_nil_r in E1. subst done. change (lenZ []) with 0 in Hl2. lia.
    - rewrite !lenZ_app, frames_app, lenZ_app, frames_cons, lenZ_app. change (lenZ (frames [])) with 0. apply (f_equal lenZ) in Ez. rewrite lenZ_app in Ez.
      assert (lenZ z <> 0) by (intros Hz'; apply Hz, lenZ_0_nil, Hz'). pose proof (lenZ_nonneg z). lia. }
  split.
  { intros r. rewrite (delivery cf _ v t defs done W1 Ha Hhdr), (delivery cf _ v t defs done W2 Ha Hhdr). reflexivity. }
  intros u Hu. apply (delivery cf _ v t defs data Hw Ha Hhdr) in Hu.
  destruct (run_def cf defs (after_header v t)) as [u1|e] eqn:Ed; [|discriminate].
  assert (Hsub : u_subs u1 = []).
  { rewrite <- run_def_msgs in Ed. pose proof (def_const def_rest cf (fun e a b => def_rest_same cf e a b) _ _ _ Ed) as R.
    unfold def_rest in R. cbn in R. congruence. }
  rewrite E1, run_data_app in Hu.
  assert (Hx : exists w, (run_data cf done u1 = RDone w \/ run_data cf done u1 = RStop w) /\ (u_corrupt w = true -> u_corrupt u = true)).
  { destruct (run_data cf done u1) as [w|w|e] eqn:Er.
    - exists w. split; auto. intros Hc.
      assert (Hg : forall ms a b, run_data cf ms a = RDone b \/ run_data cf ms a = RStop b -> u_corrupt a = true -> u_corrupt b = true).
      { induction ms as [|[ty p] ms IH]; intros a b Hr Ha'; cbn in Hr.
        - destruct Hr as [Hr|Hr]; inversion Hr; subst; auto.
        - destruct (data_effect cf ty p a) as [[a' e']|] eqn:Ee; [|eauto].
          assert (Hc' : u_corrupt a' = true) by (apply data_effect_change in Ee; apply changes_grows in Ee; apply Ee; auto).
          destruct e' as [[]|]; eauto; destruct Hr as [Hr|Hr]; try discriminate; inversion Hr; subst; auto. }
      destruct (run_data cf rest w) as [z|z|e] eqn:Er2; cbn in Hu; try discriminate;
        symmetry in Hu; apply finalize_inv in Hu as (ds & _ & ->); cbn; eapply Hg; eauto.
    - exists w. split; auto. cbn in Hu. symmetry in Hu. apply finalize_inv in Hu as (ds & _ & ->). auto.
    - discriminate Hu. }
  destruct Hx as (w & Hw' & Hc).
  destruct (end_data_ok cf done u1 w Hsub Hw') as (new & En).
  eexists. split.
  - apply (delivery cf _ v t defs done W1 Ha Hhdr). rewrite Ed. symmetry. exact En.
  - cbn. intros Hcu. destruct (u_corrupt w); auto. rewrite Hc in Hcu; auto.
Qed.

(** ** Order of the definitions, header-only loading *)
Lemma def_loop_listed cf f fuel : bytes_ok f -> (forall q, 16 <= q -> ~ overlong f q) ->
  forall pos u p u', 16 <= pos -> def_loop fuel cf f pos u = Some (Ok (p, u')) ->
  exists evs, run_def_events cf evs u = Ok u' /\ listed f pos evs.
Proof.
  intros Hok Hno. induction fuel as [|k IH]; intros pos u p u' Hp H; [discriminate|]. cbn [def_loop] in H.
  pose proof (def_step_event cf f pos u) as Hs.
  destruct (def_step cf f pos u) as [q v|q v|] eqn:E.
  - destruct Hs as (evs & He & _ & Hl).
    apply (def_step_next cf f pos u q v) in E; auto; [|lia].
    apply IH in H as (evs' & H' & Hl'); [|lia]. exists (evs ++ evs').
    rewrite run_def_events_app, He. split; [exact H'|]. apply Hl; auto; lia.
  - injection H as <- <-. subst. exists []. split; [reflexivity|exact I].
  - discriminate.
Qed.

Lemma load_shape cf f u : bytes_ok f -> produces cf f (Ok u) ->
  exists n p u2, def_loop n cf f 16 (after_header (u_version u) (u_start u)) = Some (Ok (p, u2)) /\
    f = file_header (u_version u) (u_start u) ++ dropZ 16 f /\ header_fits (u_version u) (u_start u) /\
    if cf_hdr cf then u = u2
    else read_sections n cf f (if has_appended u2 then u_offsets u2 else []) p u2 = Some (Ok u).
Proof.
  intros Hok Hp. destruct (version_start cf f u Hok Hp) as (rest & Ef & Hfit).
  destruct Hp as [n Hn]. unfold load, load_at in Hn.
  rewrite Ef in Hn at 1. rewrite read_header_ok in Hn by exact Hfit.
  cbv iota beta zeta in Hn. change (0 + 16) with 16 in Hn.
  fold (after_header (u_version u) (u_start u)) in Hn.
  destruct (def_loop n cf f 16 _) as [[[p u2]|]|] eqn:Ed; try discriminate.
  exists n, p, u2. split; auto. split.
  { rewrite Ef at 1. f_equal. rewrite Ef. symmetry. apply dropZ_app_exact. unfold file_header. rewrite !lenZ_app. unfold lenZ at 3. rewrite length_le_enc. reflexivity. }
  split; auto. destruct (cf_hdr cf); [congruence|exact Hn].
Qed.

Lemma def_loop_hdr n cf b f : forall pos u, def_loop n (with_hdr b cf) f pos u = def_loop n cf f pos u.
Proof.
  induction n as [|n IH]; intros pos u; [reflexivity|]. cbn [def_loop].
  change (def_step (with_hdr b cf) f pos u) with (def_step cf f pos u).
  destruct (def_step cf f pos u); auto.
Qed.

(** what header-only loading of a file that loads completely gives *)
Theorem header_only cf f u : bytes_ok f -> cf_hdr cf = false -> produces cf f (Ok u) ->
  exists u0 defs secs, produces (with_hdr true cf) f (Ok u0) /\
    Forall (found_in f) defs /\ Forall (scattered f 0) secs /\ (0 < length secs)%nat /\
    read_as cf (u_version u) (u_start u) defs [] u0 /\
    read_as cf (u_version u) (u_start u) defs secs u.
Proof.
  intros Hok Hh Hp. destruct (load_shape cf f u Hok Hp) as (n & p & u2 & Ed & Ef & Hfit & Hr). rewrite Hh in Hr.
  pose proof (def_loop_pos cf f n Hok 16 _ p u2 ltac:(lia) Ed) as Hpos.
  pose proof (def_loop_offs cf f n Hok 16 _ p u2 Ed (offs_nonneg_init _ _)) as Hoff.
  destruct (def_loop_events cf f n Hok 16 _ p u2 ltac:(lia) Ed) as (defs & Hdefs & Hfound).
  apply read_sections_events in Hr as (secs & H1 & H2 & _ & H3); auto.
  2:{ destruct (has_appended u2); [exact Hoff|constructor]. }
  destruct (event_sections_chain cf f secs H1 u2 u H3) as (secs' & G1 & G2 & G3).
  exists u2, defs, secs'. split.
  - exists n. unfold load, load_at. rewrite Ef at 1. rewrite read_header_ok by exact Hfit.
    cbv iota beta zeta. change (0 + 16) with 16. fold (after_header (u_version u) (u_start u)).
    rewrite def_loop_hdr, Ed. reflexivity.
  - repeat split; auto; [rewrite G2, H2; lia|..].
    + exists u2. split; auto. constructor.
    + exists u2. auto.
Qed.

Lemma read_as_flags cf v t defs secs u : read_as cf v t defs secs u ->
  exists u1, run_def_events cf defs (after_header v t) = Ok u1 /\
  u_compat u = u_compat u1 /\ u_incompat u = u_incompat u1 /\ u_offsets u = u_offsets u1.
Proof.
  intros (u1 & H1 & H2). exists u1. split; auto. clear H1.
  assert (H : (u_compat u, u_incompat u, u_offsets u) = (u_compat u1, u_incompat u1, u_offsets u1)).
  { induction H2 as [|evs secs a b c d F Hf Hc IH]; auto. rewrite IH.
    apply finalize_same in Hf as (dd & ->). cbn.
    apply finishes_defs in F. unfold same_defs in F. decompose [and] F. congruence. }
  now injection H as -> -> ->.
Qed.
