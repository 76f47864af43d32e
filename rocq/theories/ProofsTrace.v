(** Arbitrary files: every load is a run of events; state changes; invariants. *)
From Verif Require Import Base Dict Utf8 PyStr PyFloat Struct PySort ModelTypes ModelRead Spec
  ProofsRead ProofsSync ProofsInv.
Ltac Zify.zify_post_hook ::= Z.div_mod_to_equations.

(** ** Events *)
Lemma rd_frame_back f pos s0 s1 ty : 0 <= pos -> bytes_ok f ->
  rd f pos 3 = [s0; s1; ty] -> lenZ (rd f (pos + 3) (le_dec [s0; s1])) = le_dec [s0; s1] ->
  slice pos (pos + 3 + le_dec [s0; s1]) f = frame ty (rd f (pos + 3) (le_dec [s0; s1])).
Proof.
  intros Hp Hok Hhd Hlen. unfold frame. rewrite Hlen.
  assert (Hb : bytes_ok [s0; s1; ty]) by (rewrite <- Hhd; apply Forall_takeZ, Forall_dropZ, Hok).
  inversion Hb as [|? ? H0 Hb']; subst. inversion Hb' as [|? ? H1 _]; subst.
  unfold byte_ok in *.
  assert (E : le_dec [s0; s1] = s0 + 256 * s1) by (cbn [le_dec]; lia).
  replace [le_dec [s0; s1] mod 256; le_dec [s0; s1] / 256; ty] with (rd f pos 3).
  2:{ rewrite Hhd, E. f_equal; [lia|]. f_equal. lia. }
  unfold slice, rd. replace (pos + 3 + le_dec [s0; s1] - pos) with (3 + le_dec [s0; s1]) by lia.
  rewrite <- dropZ_dropZ by lia. rewrite <- (takeZ_dropZ_app 3 (dropZ pos f)) at 1.
  assert (L3 : lenZ (takeZ 3 (dropZ pos f)) = 3) by (unfold rd in Hhd; rewrite Hhd; reflexivity).
  rewrite takeZ_app_ge by (rewrite L3; lia). f_equal. rewrite L3. f_equal. lia.
Qed.

Lemma data_step_event fuel cf until f pos cfp u : 0 <= pos -> lenZ f - pos < Z.of_nat fuel -> bytes_ok f ->
  match data_step fuel cf until f pos cfp u with
  | SNext p _ u' => pos < p <= lenZ f /\ exists evs, run_events cf evs u = RDone u' /\
      (forall rest, scattered f p rest -> scattered f pos (evs ++ rest))
  | SStop u' => (u' = u \/ exists e, run_events cf [e] u = RStop u' /\ scattered f pos [e])
  | SRaise x => exists e, run_events cf [e] u = RRaise x /\ scattered f pos [e]
  | SNoFuel => False
  end.
Proof.
  intros Hp Hf Hok. pose proof (data_step_progress fuel cf until f pos cfp u Hp Hf Hok) as Hpr.
  unfold data_step in *. cbv zeta in *.
  destruct (rd f pos 3) as [|s0 [|s1 [|ty [|]]]] eqn:Hhd; auto.
  set (size := le_dec [s0; s1]) in *. set (data := rd f (pos + 3) size) in *.
  destruct (lenZ data <? size) eqn:Hl; auto. destruct (until <? cfp + 3 + size); auto.
  assert (Hlen : lenZ data = size).
  { apply Z.ltb_ge in Hl.
    assert (0 <= size).
    { assert (Hb : bytes_ok [s0; s1; ty]) by (rewrite <- Hhd; apply Forall_takeZ, Forall_dropZ, Hok).
      inversion Hb as [|? ? H0 Hb']; subst. inversion Hb' as [|? ? H1 _]; subst. unfold size, byte_ok in *.
      cbn [le_dec]. lia. }
    assert (lenZ data <= size) by (unfold data, rd; rewrite lenZ_takeZ by lia; lia). lia. }
  pose proof (rd_frame_back f pos s0 s1 ty Hp Hok Hhd) as Hfr. fold size in Hfr. fold data in Hfr.
  specialize (Hfr Hlen).
  assert (Hone : forall rest, scattered f (pos + 3 + size) rest -> scattered f pos (EMsg ty data :: rest)).
  { intros rest Hr. simpl. exists pos. rewrite Hlen. repeat split; auto. lia. }
  assert (Hsc : forall rest p, pos <= p -> scattered f p rest -> scattered f pos rest).
  { clear - Hp. intros rest. revert pos Hp. induction rest as [|[ty p|  |] rest IH]; intros pos Hp q Hq; simpl; auto.
    - intros (q' & H1 & H2 & H3). exists q'. repeat split; auto. lia.
    - intros H. apply (IH pos Hp q); auto.
    - intros H. apply (IH pos Hp q); auto. }
  destruct (data_effect cf ty data u) as [[u' [x|]]|] eqn:Ee.
  - destruct x;
    try (exists (EMsg ty data); split; [cbn [run_events data_event run_data]; rewrite Ee; reflexivity | apply Hone; exact I]).
    + right. exists (EMsg ty data). split; [cbn [run_events data_event run_data]; rewrite Ee; reflexivity | apply Hone; exact I].
    + split; [exact Hpr|]. exists [EMsg ty data]. split; [|exact Hone].
      cbn [run_events data_event run_data]. now rewrite Ee.
  - split; [exact Hpr|]. exists [EMsg ty data]. split; [|exact Hone].
    cbn [run_events data_event run_data]. now rewrite Ee.
  - destruct (packet_corrupt ty size).
    + destruct (u_has_sync (set_corrupt true u)).
      * unfold find_sync in *. destruct (find_sync_loop fuel f _) as [[q|]|]; [| |contradiction].
        -- split; [exact Hpr|]. exists [ECorrupt]. split; [reflexivity|].
           intros rest Hr. simpl. apply (Hsc rest q); [lia|exact Hr].
        -- split; [exact Hpr|]. exists [ECorrupt; ENoSync]. split; [reflexivity|].
           intros rest Hr. simpl. apply (Hsc rest _) in Hr; [exact Hr|lia].
      * split; [exact Hpr|]. exists [ECorrupt]. split; [reflexivity|].
        intros rest Hr. simpl. apply (Hsc rest _) in Hr; [exact Hr|lia].
    + destruct (u_has_sync u).
      * unfold find_sync_last in *. cbv zeta in *. destruct (_ <? 8).
        -- split; [exact Hpr|]. exists []. split; [reflexivity|].
           intros rest Hr. simpl. apply (Hsc rest _) in Hr; [exact Hr|lia].
        -- destruct (0 <=? _).
           ++ split; [exact Hpr|]. exists [ECorrupt]. split; [reflexivity|].
              intros rest Hr. simpl. apply (Hsc rest _) in Hr; [exact Hr|lia].
           ++ split; [exact Hpr|]. exists []. split; [reflexivity|].
              intros rest Hr. simpl. apply (Hsc rest _) in Hr; [exact Hr|lia].
      * split; [exact Hpr|]. exists []. split; [reflexivity|].
        intros rest Hr. simpl. apply (Hsc rest _) in Hr; [exact Hr|lia].
Qed.

Lemma run_events_app cf a : forall b u, run_events cf (a ++ b) u =
  match run_events cf a u with RDone u' => run_events cf b u' | r => r end.
Proof.
  induction a as [|e a IH]; intros b u; [reflexivity|]. cbn [app run_events].
  destruct (data_event cf e u); auto.
Qed.

Lemma data_loop_events cf until f fuel : bytes_ok f -> forall pos cfp u r,
  0 <= pos -> lenZ f - pos < Z.of_nat fuel ->
  data_loop fuel cf until f pos cfp u = Some r ->
  exists evs, scattered f pos evs /\
    r = match run_events cf evs u with RDone u' | RStop u' => Ok u' | RRaise e => Err e end.
Proof.
  intros Hok. induction fuel as [|k IH]; intros pos cfp u r Hp Hf H; [discriminate|].
  cbn [data_loop] in H. pose proof (data_step_event (S k) cf until f pos cfp u Hp Hf Hok) as Hs.
  destruct (data_step (S k) cf until f pos cfp u) as [p c u'|u'|e|].
  - destruct Hs as (Hpr & evs & He & Hsc). 
    destruct (Z.lt_ge_cases (lenZ f - p) (Z.of_nat k)) as [Hk|Hk].
    + destruct (IH p c u' r) as (evs' & Hsc' & Hr); [lia|lia|exact H|].
      exists (evs ++ evs'). split; [auto|]. rewrite run_events_app, He. exact Hr.
    + lia.
  - injection H as <-. destruct Hs as [->|(e & He & Hsc)].
    + exists []. split; [exact I|reflexivity].
    + exists [e]. split; [exact Hsc|]. now rewrite He.
  - injection H as <-. destruct Hs as (x & He & Hsc). exists [x]. split; [exact Hsc|]. now rewrite He.
  - destruct Hs.
Qed.

Lemma read_data_events cf until f pos u r n : bytes_ok f -> 0 <= pos ->
  read_data n cf until f pos u = Some r ->
  exists evs, scattered f pos evs /\ r = end_data (run_events cf evs u).
Proof.
  intros Hok Hp H. apply (read_data_mono _ _ _ _ (n + S (Z.to_nat (lenZ f)))) in H; [|lia].
  unfold read_data in H. destruct (data_loop _ _ _ _ _ _ _) as [r0|] eqn:E; [|discriminate].
  apply data_loop_events in E; [|assumption|lia|lia]. destruct E as (evs & Hsc & ->).
  exists evs. split; [exact Hsc|]. unfold end_data. destruct (run_events cf evs u); congruence.
Qed.

Lemma read_sections_events cf f n : bytes_ok f -> forall offs pos u r, 0 <= pos ->
  Forall (fun o => 0 <= o) offs ->
  read_sections n cf f offs pos u = Some (Ok r) ->
  exists secs, Forall (scattered f 0) secs /\ length secs = S (length offs) /\
               (exists s ss, secs = s :: ss /\ scattered f pos s) /\
               run_event_sections cf secs u = Ok r.
Proof.
  intros Hok.
  assert (Hsc0 : forall evs pos, 0 <= pos -> scattered f pos evs -> scattered f 0 evs).
  { induction evs as [|[ty p| |] evs IH]; intros pos Hp; simpl; auto.
    - intros (q & H1 & H2 & H3). exists q. repeat split; auto. lia.
    - intros H. eapply IH; eauto.
    - intros H. eapply IH; eauto. }
  induction offs as [|o offs IH]; intros pos u r Hp Ho H; cbn [read_sections] in H.
  - apply read_data_events in H; auto. destruct H as (evs & Hsc & Hr).
    exists [evs]. split; [constructor; [eapply Hsc0; eauto|constructor]|]. split; [reflexivity|].
    split; [eauto|]. cbn [run_event_sections]. now rewrite <- Hr.
  - destruct (read_data n cf o f pos u) as [[u1|e]|] eqn:E; try discriminate.
    apply read_data_events in E; auto. destruct E as (evs & Hsc & Hr).
    inversion Ho as [|? ? Ho1 Ho2]; subst.
    destruct (seek_abs (cf_kind cf) o) as [p|e] eqn:Es; [|discriminate].
    apply seek_abs_nonneg in Es; [|assumption]. subst p.
    destruct (IH o u1 r Ho1 Ho2 H) as (secs & Hs & Hl & _ & Hrun).
    exists (evs :: secs).
    assert (Hf : Forall (scattered f 0) (evs :: secs)).
    { constructor; [exact (Hsc0 evs pos Hp Hsc)|exact Hs]. }
    split; [exact Hf|]. split; [cbn [length]; lia|].
    split; [exists evs, secs; auto|]. cbn [run_event_sections]. rewrite <- Hr. exact Hrun.
Qed.

(** definition section *)
Lemma def_step_event cf f pos u :
  match def_step cf f pos u with
  | DNext p u' => exists evs, run_def_events cf evs u = Ok u' /\ (0 <= pos -> Forall (found_in f) evs) /\
      (0 <= pos -> pos < p -> forall rest, listed f p rest -> listed f pos (evs ++ rest))
  | DStop p u' => u' = u
  | DRaise _ => True
  end.
Proof.
  unfold def_step. cbv zeta. destruct (rd f pos 3) as [|s0 [|s1 [|ty [|]]]] eqn:Eh; auto.
  assert (Hl : 0 <= pos -> lies_at f pos ty (rd f (pos + 3) (le_dec [s0; s1]))).
  { intros Hp. split; auto. exists s0, s1. split.
    - unfold slice. replace (pos + 3 - pos) with 3 by lia. exact Eh.
    - unfold slice, rd. f_equal. cbn [le_dec]. lia. }
  assert (Hf : 0 <= pos -> Forall (found_in f) [EMsg ty (rd f (pos + 3) (le_dec [s0; s1]))]).
  { intros Hp. constructor; [|constructor]. exists pos. auto. }
  assert (Hg : 0 <= pos -> forall rest, listed f (pos + 3 + lenZ (rd f (pos + 3) (le_dec [s0; s1]))) rest ->
            listed f pos ([EMsg ty (rd f (pos + 3) (le_dec [s0; s1]))] ++ rest)).
  { intros Hp rest Hr. exists pos. split; [lia|]. auto. }
  assert (Hm : forall p rest, pos < p -> listed f p rest -> listed f pos rest).
  { intros p rest Hp. revert p Hp. induction rest as [|[ty' p'| |] rest IH]; intros p Hp Hr; auto.
    - destruct Hr as (q & Hq & Hr). exists q. split; [lia|exact Hr].
    - cbn in *. eauto.
    - cbn in *. eauto. }
  destruct (def_effect cf ty _ u) as [[u'|e]|] eqn:Ee.
  - exists [EMsg ty (rd f (pos + 3) (le_dec [s0; s1]))].
    cbn [run_def_events def_event run_def]. rewrite Ee. auto.
  - destruct e; auto. exists [EMsg ty (rd f (pos + 3) (le_dec [s0; s1]))].
    cbn [run_def_events def_event run_def]. rewrite Ee. auto.
  - destruct (_ || _ || _).
    + destruct (seek_rel _ _ _); auto.
    + destruct (packet_corrupt _ _).
      * destruct (seek_rel _ _ _) as [p|]; auto. exists [ECorrupt]. split; [reflexivity|]. split; [repeat constructor|].
        intros _ Hp rest Hr. cbn. eauto.
      * exists []. split; [reflexivity|]. split; [constructor|]. intros _ Hp rest Hr. cbn [app]. eauto.
Qed.

Lemma run_def_events_app cf a : forall b u, run_def_events cf (a ++ b) u =
  let* u' := run_def_events cf a u in run_def_events cf b u'.
Proof.
  induction a as [|e a IH]; intros b u; [reflexivity|]. cbn [app run_def_events].
  destruct (def_event cf e u); simpl; auto.
Qed.

(** positions stay inside the file *)
Lemma seek_rel_range k pos d p : seek_rel k pos d = Ok p -> 0 <= p /\ (0 <= pos + d -> p = pos + d).
Proof.
  unfold seek_rel. cbv zeta. destruct (Z.ltb_spec (pos + d) 0); [destruct k|]; intros E; try discriminate;
    injection E as <-; lia.
Qed.

Lemma def_step_pos cf f pos u : 0 <= pos -> bytes_ok f ->
  match def_step cf f pos u with DNext p _ | DStop p _ => 0 <= p | DRaise _ => True end.
Proof.
  intros Hp Hok. unfold def_step. cbv zeta. destruct (rd f pos 3) as [|s0 [|s1 [|ty [|]]]]; auto.
  pose proof (lenZ_nonneg (rd f (pos + 3) (le_dec [s0; s1]))).
  destruct (def_effect cf ty _ u) as [[u'|[]]|]; auto; try lia.
  destruct (_ || _ || _).
  - destruct (seek_rel _ _ _) eqn:E; auto. apply seek_rel_range in E. lia.
  - destruct (packet_corrupt _ _); [|lia].
    destruct (seek_rel _ _ _) eqn:E; auto. apply seek_rel_range in E. lia.
Qed.

Lemma def_loop_pos cf f fuel : bytes_ok f -> forall pos u p u', 0 <= pos ->
  def_loop fuel cf f pos u = Some (Ok (p, u')) -> 0 <= p.
Proof.
  intros Hok. induction fuel as [|k IH]; intros pos u p u' Hp H; [discriminate|]. cbn [def_loop] in H.
  pose proof (def_step_pos cf f pos u Hp Hok) as Hs. destruct (def_step cf f pos u) as [q v|q v|].
  - eapply IH; [|exact H]. exact Hs.
  - now injection H as <- <-.
  - discriminate.
Qed.

(** the messages of the definition section are found in the file *)
Lemma def_loop_events cf f fuel : bytes_ok f -> forall pos u p u', 0 <= pos ->
  def_loop fuel cf f pos u = Some (Ok (p, u')) ->
  exists evs, run_def_events cf evs u = Ok u' /\ Forall (found_in f) evs.
Proof.
  intros Hok. induction fuel as [|k IH]; intros pos u p u' Hp H; [discriminate|]. cbn [def_loop] in H.
  pose proof (def_step_event cf f pos u) as Hs. pose proof (def_step_pos cf f pos u Hp Hok) as Hq.
  destruct (def_step cf f pos u) as [q v|q v|].
  - destruct Hs as (evs & He & Hf & _). apply IH in H; auto. destruct H as (evs' & H' & Hf'). exists (evs ++ evs').
    rewrite run_def_events_app, He. split; [exact H'|]. apply Forall_app. auto.
  - injection H as <- <-. subst. exists []. split; [reflexivity|constructor].
  - discriminate.
Qed.
