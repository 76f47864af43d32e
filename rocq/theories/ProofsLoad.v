(** Loading arbitrary byte strings: termination, rejection, recovery. *)
From Verif Require Import Base Dict Utf8 PyStr PyFloat Struct PySort ModelTypes ModelRead Spec
  ProofsRead ProofsFile ProofsSync ProofsInv ProofsTrace ProofsChange.
Ltac Zify.zify_post_hook ::= Z.div_mod_to_equations.

(** ** offsets are non-negative *)
Definition offs_nonneg (u : ulog) : Prop := Forall (fun o => 0 <= o) (u_offsets u).

Lemma parse_flags_offs d c i o : bytes_ok d -> parse_flags d = Ok (c, i, o) -> Forall (fun x => 0 <= x) o.
Proof.
  intros Hd. unfold parse_flags. intros H.
  apply bind_Ok_inv in H as (c' & _ & H). apply bind_Ok_inv in H as (i' & _ & H).
  apply bind_Ok_inv in H as (o' & Ho & H). injection H as _ _ <-.
  unfold unpack_u64x3 in Ho. destruct (Nat.eqb _ _); [|discriminate]. injection Ho as <-.
  apply Forall_forall. intros x Hx. apply strip_trailing_zeros_incl in Hx.
  assert (Hn : forall a b, 0 <= le_dec (slice a b (slice 16 40 d))).
  { intros a b. apply le_dec_range. apply Forall_slice, Forall_slice, Hd. }
  destruct Hx as [<-|[<-|[<-|[]]]]; apply Hn.
Qed.

Lemma def_effect_offs cf ty d u u' : bytes_ok d ->
  def_effect cf ty d u = Some (Ok u') -> offs_nonneg u -> offs_nonneg u'.
Proof.
  unfold def_effect, offs_nonneg. cbv zeta. intros Hd H Hu.
  destruct (ty =? T_INFO). { injection H as H. apply bind_Ok_inv in H as (m & _ & H). injection H as <-. destruct u; exact Hu. }
  destruct (ty =? T_MULTI). { injection H as H. apply bind_Ok_inv in H as (m & _ & H).
    apply add_info_multi_inv in H as (a & b & ->). destruct u; exact Hu. }
  destruct (ty =? T_FORMAT). { injection H as H. apply bind_Ok_inv in H as (m & _ & H). injection H as <-. destruct u; exact Hu. }
  destruct (ty =? T_PARAM). { injection H as H. apply bind_Ok_inv in H as (m & _ & H). injection H as <-. destruct u; exact Hu. }
  destruct (ty =? T_PDEF). { injection H as H. apply bind_Ok_inv in H as (m & _ & H). injection H as <-. destruct u; exact Hu. }
  destruct (ty =? T_FLAGS); [|discriminate].
  injection H as H. apply bind_Ok_inv in H as ([[c i] o] & Hp & H).
  destruct (negb _); [discriminate|]. destruct (existsb _ _); [discriminate|].
  injection H as <-. destruct u; simpl. eapply parse_flags_offs; eauto.
Qed.

Lemma def_loop_offs cf f fuel : bytes_ok f -> forall pos u p u',
  def_loop fuel cf f pos u = Some (Ok (p, u')) -> offs_nonneg u -> offs_nonneg u'.
Proof.
  intros Hok. induction fuel as [|k IH]; intros pos u p u' H Hu; [discriminate|]. cbn [def_loop] in H.
  assert (Hs : match def_step cf f pos u with DNext _ v | DStop _ v => offs_nonneg v | _ => True end).
  { unfold def_step. cbv zeta. destruct (rd f pos 3) as [|s0 [|s1 [|ty [|]]]]; auto.
    destruct (def_effect cf ty _ u) as [[v|e]|] eqn:Ee.
    - refine (def_effect_offs _ _ _ _ _ _ Ee Hu). apply Forall_takeZ, Forall_dropZ, Hok.
    - destruct e; auto.
    - destruct (_ || _ || _); [destruct (seek_rel _ _ _); auto|].
      destruct (packet_corrupt _ _); auto. destruct (seek_rel _ _ _); auto. }
  destruct (def_step cf f pos u) as [q v|q v|]; [eapply IH; eauto| |discriminate].
  now injection H as <- <-.
Qed.

Lemma offs_nonneg_init v t : offs_nonneg (after_header v t).
Proof. constructor. Qed.

(** Once the definition section is over, loading terminates. *)
Lemma load_terminates_after cf f v t n r0 : bytes_ok f -> read_header f 0 = Ok (v, t) ->
  def_loop n cf f 16 (after_header v t) = Some r0 -> exists r, produces cf f r.
Proof.
  intros Hok Hh Hd. destruct r0 as [[p u]|e].
  - destruct (cf_hdr cf) eqn:Ehdr.
    + exists (Ok u), n. unfold load, load_at. rewrite Hh. cbv zeta. fold (after_header v t).
      change (0 + 16) with 16. rewrite Hd, Ehdr. reflexivity.
    + assert (Hp : 0 <= p) by (eapply (def_loop_pos cf f n Hok 16); eauto; lia).
      assert (Ho : offs_nonneg u) by (eapply def_loop_offs; eauto; apply offs_nonneg_init).
      destruct (read_sections_terminates cf f Hok (if has_appended u then u_offsets u else []) p u Hp) as (m & r & Hr).
      { destruct (has_appended u); [exact Ho|constructor]. }
      exists r, (m + n)%nat. unfold load, load_at. rewrite Hh. cbv zeta. fold (after_header v t).
      change (0 + 16) with 16. rewrite (def_loop_mono _ _ _ (m + n) _ _ _ Hd) by lia.
      rewrite Ehdr. apply Hr.
  - exists (Err e), n. unfold load, load_at. rewrite Hh. cbv zeta. fold (after_header v t).
    change (0 + 16) with 16. now rewrite Hd.
Qed.

(** progress of the definition section unless an overlong header is met *)
Lemma def_step_next cf f pos u p u' : 0 <= pos -> bytes_ok f -> ~ overlong f pos ->
  def_step cf f pos u = DNext p u' -> pos < p <= lenZ f.
Proof.
  intros Hp Hok Hno. unfold def_step. cbv zeta.
  destruct (rd f pos 3) as [|s0 [|s1 [|ty [|]]]] eqn:E; try discriminate.
  assert (Hpos : pos + 3 <= lenZ f).
  { pose proof E as E'. apply (f_equal lenZ) in E'. unfold rd in E'. rewrite lenZ_takeZ, lenZ_dropZ in E' by lia.
    change (lenZ [s0; s1; ty]) with 3 in E'. lia. }
  assert (Hs : byte_ok s0 /\ byte_ok s1).
  { assert (H : bytes_ok (rd f pos 3)) by (apply Forall_takeZ, Forall_dropZ, Hok).
    rewrite E in H. inversion H as [|? ? Ha H2]; inversion H2 as [|? ? Hb _]; subst. split; assumption. }
  assert (Esz : le_dec [s0; s1] = s0 + 256 * s1) by (cbn [le_dec]; lia).
  unfold byte_ok in Hs.
  assert (Hlen : lenZ (rd f (pos + 3) (le_dec [s0; s1])) = Z.min (s0 + 256 * s1) (lenZ f - (pos + 3))).
  { unfold rd. rewrite Esz, lenZ_takeZ, lenZ_dropZ by lia. lia. }
  set (size := le_dec [s0; s1]) in *. clearbody size.
  set (data := rd f (pos + 3) size) in *. clearbody data.
  destruct (def_effect cf ty data u) as [[v|e]|] eqn:Ee.
  - intros H. injection H as <- _. lia.
  - destruct e; try discriminate. intros H. injection H as <- _. lia.
  - destruct (_ || _ || _) eqn:Eend; [destruct (seek_rel _ _ _); discriminate|].
    destruct (packet_corrupt ty size) eqn:Ep.
    + destruct (seek_rel _ _ _) as [q|] eqn:Es; [|discriminate]. intros H. injection H as <- _.
      apply seek_rel_range in Es.
      destruct (Z.lt_ge_cases (lenZ f) (pos + 3 + (s0 + 256 * s1))) as [Hov|Hov]; [|lia].
      exfalso. apply Hno. exists s0, s1, ty.
      replace (slice pos (pos + 3) f) with (rd f pos 3) by (unfold slice, rd; f_equal; lia).
      split; [exact E|]. split.
      { intros Hin. destruct (def_effect_known cf ty data u Hin) as [x Hx]. congruence. }
      split.
      { simpl. intros Hin. unfold T_ADD, T_LOG, T_LOGT in Eend.
        apply orb_false_iff in Eend as [Eend E3]. apply orb_false_iff in Eend as [E1 E2].
        apply Z.eqb_neq in E1, E2, E3. lia. }
      split; [|exact Hov].
      unfold packet_corrupt in Ep. rewrite Esz in Ep. lia.
    + intros H. injection H as <- _. lia.
Qed.

Lemma def_loop_terminates cf f : bytes_ok f -> (forall q, 16 <= q -> ~ overlong f q) ->
  forall fuel pos u, 16 <= pos -> lenZ f - pos < Z.of_nat fuel ->
  (0 < fuel)%nat -> exists r, def_loop fuel cf f pos u = Some r.
Proof.
  intros Hok Hno. induction fuel as [|k IH]; intros pos u Hp Hf Hk; [lia|]. cbn [def_loop].
  destruct (def_step cf f pos u) as [p u'|p u'|e] eqn:E; eauto.
  apply def_step_next in E; [|lia|assumption|auto].
  apply IH; lia.
Qed.

Theorem load_terminates cf f : bytes_ok f -> (forall q, 16 <= q -> ~ overlong f q) ->
  exists r, produces cf f r.
Proof.
  intros Hok Hno. destruct (read_header f 0) as [[v t]|e] eqn:Eh.
  - destruct (def_loop_terminates cf f Hok Hno (S (Z.to_nat (lenZ f))) 16 (after_header v t)) as [r Hr]; try lia.
    eapply load_terminates_after; eauto.
  - exists (Err e), 0%nat. unfold load, load_at. now rewrite Eh.
Qed.

(** After well-framed definitions and the first subscription/log message anything may follow. *)
Theorem load_terminates_wf cf v t defs ty p rest f :
  f = file_header v t ++ frames defs ++ frame ty p ++ rest ->
  header_fits v t -> bytes_ok f -> Forall plain_def defs ->
  frame_fits (ty, p) -> In ty end_types ->
  exists r, produces cf f r.
Proof.
  intros Hf Hh Hok Hd Hm Hty.
  assert (Hrd : read_header f 0 = Ok (v, t)) by (rewrite Hf; now apply read_header_ok).
  assert (E : dropZ 16 f = frames defs ++ frame ty p ++ rest).
  { rewrite Hf. apply dropZ_app_exact. now rewrite lenZ_file_header. }
  pose proof (def_loop_frames cf f defs 1 16 (after_header v t) _ ltac:(lia) E Hd) as Hl.
  destruct (run_def cf defs (after_header v t)) as [u1|e].
  - assert (E2 : dropZ (16 + lenZ (frames defs)) f = frame ty p ++ rest).
    { rewrite <- dropZ_dropZ; [|apply lenZ_nonneg|lia]. rewrite E. now apply dropZ_app_exact. }
    pose proof (lenZ_nonneg (frames defs)).
    cbn [def_loop] in Hl. rewrite (def_step_endmsg cf f (16 + lenZ (frames defs)) u1 ty p rest ltac:(lia) E2 Hm Hty) in Hl.
    eapply load_terminates_after; eauto.
  - eapply load_terminates_after; eauto.
Qed.

(** The reader hangs on a 19-byte file. *)
Lemma hang_def k cf u : def_loop k cf hang_file 16 u = None.
Proof.
  revert u. induction k as [|k IH]; intros u; [reflexivity|]. cbn [def_loop].
  assert (E : def_step cf hang_file 16 u = DNext 16 (set_corrupt true u)).
  { unfold def_step. change (rd hang_file 16 3) with [1; 0; 0]. cbv iota beta zeta.
    rewrite def_effect_None by (vm_compute; intuition discriminate). reflexivity. }
  rewrite E. apply IH.
Qed.
Lemma load_hangs cf : diverges cf hang_file.
Proof.
  intros n. unfold load, load_at. change (read_header hang_file 0) with (Ok (1, 0)). cbv iota beta zeta.
  change (0 + 16) with 16. rewrite hang_def. reflexivity.
Qed.

(** ** C05 *)
Theorem type_error_iff cf f : bytes_ok f ->
  (produces cf f (Err TypeError) <-> lenZ f < 16 \/ takeZ 7 f <> [85; 76; 111; 103; 1; 18; 53]).
Proof.
  intros Hok. change [85; 76; 111; 103; 1; 18; 53] with HEADER_BYTES. split.
  - intros [n H]. destruct (read_header_cases f Hok) as [[Hb _]|(v & t & rest & _ & _ & Hh)]; [exact Hb|].
    pose proof (load_no_TypeError n cf f v t _ Hh H) as He. exfalso. simpl in He. intuition discriminate.
  - intros Hb. destruct (read_header_cases f Hok) as [[_ Hh]|(v & t & rest & Ef & Hfit & Hh)].
    + exists 0%nat. unfold load, load_at. now rewrite Hh.
    + exfalso. rewrite Ef in Hb. rewrite lenZ_app, lenZ_file_header in Hb. pose proof (lenZ_nonneg rest).
      destruct Hb as [Hb|Hb]; [lia|]. apply Hb. unfold file_header. rewrite <- app_assoc.
      rewrite takeZ_app_exact by reflexivity. reflexivity.
Qed.

Lemma version_start_preserved cf v t : preserved cf (fun u => u_version u = v /\ u_start u = t).
Proof.
  intros u u' H Hu. destruct H; try (destruct u; simpl in *; exact Hu).
  - apply add_info_multi_inv in H as (a & b & ->). destruct u; exact Hu.
  - apply finalize_inv in H as (ds & _ & ->). destruct u; exact Hu.
Qed.

Theorem version_start cf f u : bytes_ok f -> produces cf f (Ok u) ->
  exists rest, f = file_header (u_version u) (u_start u) ++ rest /\ header_fits (u_version u) (u_start u).
Proof.
  intros Hok H. apply load_readings in H as (v & t & Hh & Hr).
  apply readings_changes in Hr. apply (preserved_changes _ _ (version_start_preserved cf v t)) in Hr; [|split; reflexivity].
  destruct Hr as [-> ->].
  destruct (read_header_cases f Hok) as [[_ Hh']|(v' & t' & rest & Ef & Hfit & Hh')]; [congruence|].
  rewrite Hh in Hh'. injection Hh' as <- <-. eauto.
Qed.

(** ** C07 *)

Lemma not_occurs_later f pos q : 0 <= pos <= q ->
  ~ occurs sync_sequence (dropZ pos f) -> ~ occurs sync_sequence (dropZ q f).
Proof.
  intros Hq Hn (a & b & E). apply Hn. exists (takeZ (q - pos) (dropZ pos f) ++ a), b.
  rewrite <- app_assoc, <- E. replace q with (pos + (q - pos)) at 2 by lia.
  rewrite <- dropZ_dropZ by lia. symmetry. apply takeZ_dropZ_app.
Qed.

Lemma has_sync_data_effect cf ty d u u' e : data_effect cf ty d u = Some (u', e) -> u_has_sync u' = u_has_sync u.
Proof.
  unfold data_effect. cbv zeta. intros H.
  assert (Heff : forall r, Some (eff_of u r) = Some (u', e) -> (forall v, r = Ok v -> u_has_sync v = u_has_sync u) ->
                 u_has_sync u' = u_has_sync u).
  { intros r E Hr. injection E as E. unfold eff_of in E. destruct r as [v|]; injection E as <- <-; auto. }
  destruct (ty =? T_INFO). { apply (Heff _ H). intros v Hv. apply bind_Ok_inv in Hv as (m & _ & Hv). injection Hv as <-. now destruct u. }
  destruct (ty =? T_MULTI). { apply (Heff _ H). intros v Hv. apply bind_Ok_inv in Hv as (m & _ & Hv).
     apply add_info_multi_inv in Hv as (a & b & ->). now destruct u. }
  destruct (ty =? T_PARAM). { apply (Heff _ H). intros v Hv. apply bind_Ok_inv in Hv as (m & _ & Hv). injection Hv as <-. now destruct u. }
  destruct (ty =? T_PDEF). { apply (Heff _ H). intros v Hv. apply bind_Ok_inv in Hv as (m & _ & Hv). injection Hv as <-. now destruct u. }
  destruct (ty =? T_ADD). { apply (Heff _ H). intros v Hv. apply bind_Ok_inv in Hv as (s & Hs & Hv).
    destruct (cf_filter cf (sb_name s)) eqn:Ef; injection Hv as <-; now destruct u. }
  destruct (ty =? T_LOG). { apply (Heff _ H). intros v Hv. apply bind_Ok_inv in Hv as (m & _ & Hv). injection Hv as <-. now destruct u. }
  destruct (ty =? T_LOGT). { apply (Heff _ H). intros v Hv. apply bind_Ok_inv in Hv as (m & _ & Hv). injection Hv as <-. now destruct u. }
  destruct (ty =? T_DATA). { injection H as H. unfold data_msg in H. cbv zeta in H.
    repeat match type of H with
    | (match ?x with _ => _ end) = _ => destruct x
    end; injection H as <- <-; try (destruct (u_last u <? _)); now destruct u. }
  destruct (ty =? T_DROP). { apply (Heff _ H). intros v Hv. apply bind_Ok_inv in Hv as (m & Hm & Hv). injection Hv as <-. now destruct u. }
  destruct (ty =? T_SYNC); [|discriminate]. injection H as <- <-. now destruct u.
Qed.

Theorem corrupt_recovery fuel cf until f pos cfp u s0 s1 ty :
  0 <= pos -> bytes_ok f -> lenZ f - pos < Z.of_nat fuel ->
  slice pos (pos + 3) f = [s0; s1; ty] ->
  ~ In ty data_types -> (ty = 0 \/ s0 + 256 * s1 = 0 \/ 10000 < s0 + 256 * s1) ->
  pos + 3 + (s0 + 256 * s1) <= lenZ f -> cfp + 3 + (s0 + 256 * s1) <= until ->
  sync_inv f pos u ->
  exists q u', data_step fuel cf until f pos cfp u = SNext q (pos + 1) u' /\
    u_corrupt u' = true /\
    (forall i, first_occurrence sync_sequence (dropZ (pos + 1) f) i -> q = pos + 1 + i + 8) /\
    (~ occurs sync_sequence (dropZ (pos + 1) f) -> q = pos + 1).
Proof.
  intros Hp Hok Hfuel Hhd Hty Hc Hlen Hun Hinv.
  replace (slice pos (pos + 3) f) with (rd f pos 3) in Hhd by (unfold slice, rd; f_equal; lia).
  assert (Hs : byte_ok s0 /\ byte_ok s1).
  { assert (H : bytes_ok (rd f pos 3)) by (apply Forall_takeZ, Forall_dropZ, Hok).
    rewrite Hhd in H. inversion H as [|? ? Ha H2]; inversion H2 as [|? ? Hb _]; subst. split; assumption. }
  assert (Esz : le_dec [s0; s1] = s0 + 256 * s1) by (cbn [le_dec]; lia). unfold byte_ok in Hs.
  unfold data_step. cbv zeta. rewrite Hhd. rewrite Esz. set (size := s0 + 256 * s1) in *.
  assert (Hl : lenZ (rd f (pos + 3) size) = size).
  { unfold rd. rewrite lenZ_takeZ, lenZ_dropZ by lia. lia. }
  rewrite Hl, Z.ltb_irrefl. destruct (Z.ltb_spec until (cfp + 3 + size)); [lia|].
  rewrite data_effect_None by assumption.
  assert (Hpc : packet_corrupt ty size = true) by (unfold packet_corrupt; lia).
  rewrite Hpc. replace (pos + 3 + size + (-2 - size)) with (pos + 1) by lia.
  change (u_has_sync (set_corrupt true u)) with (u_has_sync u).
  destruct (u_has_sync u) eqn:Es.
  - rewrite find_sync_spec by lia. cbv zeta.
    destruct (Z.leb_spec 0 (find_sub sync_sequence (dropZ (pos + 1) f))) as [H0|H0].
    + eexists _, _. split; [reflexivity|]. split; [reflexivity|]. split.
      * intros i Hi. apply first_occurrence_find in Hi. lia.
      * intros Hn. exfalso. apply Hn. now apply find_sub_occurs.
    + eexists _, _. split; [reflexivity|]. split; [reflexivity|]. split; [|reflexivity].
      intros i Hi. apply first_occurrence_find in Hi as Hi'. destruct Hi as [(a & b & E & Ea) _].
      pose proof (lenZ_nonneg a). lia.
  - eexists _, _. split; [reflexivity|]. split; [reflexivity|]. split; [|reflexivity].
    intros i Hi. exfalso. apply (not_occurs_later f pos (pos + 1)); [lia|auto|].
    destruct Hi as [(a & b & E & Ea) _]. exists a, b. exact E.
Qed.

Lemma rd_slice f a n : rd f a n = slice a (a + n) f.
Proof. unfold rd, slice. f_equal. lia. Qed.

Theorem unknown_skipped fuel cf until f pos cfp u ty p tail :
  0 <= pos -> dropZ pos f = frame ty p ++ tail -> frame_fits (ty, p) ->
  ~ In ty data_types -> ty <> 0 -> 0 < lenZ p <= 10000 ->
  cfp + 3 + lenZ p <= until -> sync_inv f pos u ->
  (~ occurs sync_sequence p ->
     data_step fuel cf until f pos cfp u = SNext (pos + 3 + lenZ p) (cfp + 3 + lenZ p) u) /\
  (forall i, first_occurrence sync_sequence p i ->
     data_step fuel cf until f pos cfp u =
       SNext (pos + 3 + i + 8) (cfp + 3 + lenZ p) (set_corrupt true u)).
Proof.
  intros Hp Hd (Hb & Hbs & Hl) Hty H0 Hsz Hun Hinv. cbn [fst snd] in *.
  assert (Estep : data_step fuel cf until f pos cfp u =
     if u_has_sync u then (let '(q, u2) := find_sync_last f (pos + 3 + lenZ p) (lenZ p) u in
                           SNext q (cfp + 3 + lenZ p) u2)
     else SNext (pos + 3 + lenZ p) (cfp + 3 + lenZ p) u).
  { unfold data_step. cbv zeta. rewrite (rd_frame_hd _ _ _ _ _ Hd). cbv iota beta.
    rewrite le2 by lia. rewrite (rd_frame_payload _ _ _ _ _ Hp Hd), Z.ltb_irrefl.
    destruct (Z.ltb_spec until (cfp + 3 + lenZ p)); [lia|].
    rewrite data_effect_None by assumption.
    replace (packet_corrupt ty (lenZ p)) with false by (unfold packet_corrupt; lia). reflexivity. }
  rewrite Estep. unfold find_sync_last. cbv zeta.
  replace (pos + 3 + lenZ p - lenZ p) with (pos + 3) by lia.
  rewrite (rd_frame_payload _ _ _ _ _ Hp Hd). change SYNC_BYTES with sync_sequence. split.
  - intros Hn. destruct (u_has_sync u); [|reflexivity].
    destruct (lenZ p <? 8); [reflexivity|]. now rewrite not_occurs_find.
  - intros i Hi. destruct (u_has_sync u) eqn:Es.
    + assert (Ho : occurs sync_sequence p) by (destruct Hi as [(a & b & E & _) _]; exists a, b; exact E).
      pose proof (occurs_len _ _ Ho) as Hlen. change (lenZ sync_sequence) with 8 in Hlen.
      destruct (Z.ltb_spec (lenZ p) 8); [lia|].
      apply find_sub_occurs in Ho as Hf. apply first_occurrence_find in Hi as Ei.
      destruct (Z.leb_spec 0 (find_sub sync_sequence p)); [|lia]. rewrite Ei. reflexivity.
    + exfalso. apply (Hinv Es). destruct Hi as [(a & b & E & _) _].
      exists ([lenZ p mod 256; lenZ p / 256; ty] ++ a), (b ++ tail). rewrite Hd. unfold frame. rewrite E at 3.
      rewrite <- !app_assoc. reflexivity.
Qed.

(** the invariant holds while a section is read *)
Lemma sync_inv_step fuel cf until f pos cfp u p c u' :
  0 <= pos -> bytes_ok f -> lenZ f - pos < Z.of_nat fuel -> sync_inv f pos u ->
  data_step fuel cf until f pos cfp u = SNext p c u' -> sync_inv f p u'.
Proof.
  intros Hp Hok Hfuel Hinv Hst.
  pose proof (data_step_progress fuel cf until f pos cfp u Hp Hfuel Hok) as Hpr. rewrite Hst in Hpr.
  intros Hns. 
  destruct (u_has_sync u) eqn:Es; [|apply (not_occurs_later f pos p); [lia|auto]].
  unfold data_step in Hst. cbv zeta in Hst.
  destruct (rd f pos 3) as [|s0 [|s1 [|ty [|]]]] eqn:Hhd; try discriminate.
  set (size := le_dec [s0; s1]) in *. clearbody size.
  destruct (_ <? _); [discriminate|]. destruct (_ <? _); [discriminate|].
  destruct (data_effect cf ty _ u) as [[v e]|] eqn:Ee.
  - apply has_sync_data_effect in Ee. destruct e as [[]|]; try discriminate; injection Hst as _ _ <-.
    + change (u_has_sync (set_corrupt true v)) with (u_has_sync v) in Hns. congruence.
    + congruence.
  - assert (H3 : pos + 3 <= lenZ f).
    { apply (f_equal lenZ) in Hhd. unfold rd in Hhd. rewrite lenZ_takeZ, lenZ_dropZ in Hhd by lia.
      change (lenZ [s0; s1; ty]) with 3 in Hhd. lia. }
    destruct (packet_corrupt _ _).
    + change (u_has_sync (set_corrupt true u)) with (u_has_sync u) in Hst. rewrite Es in Hst.
      rewrite find_sync_spec in Hst by lia. cbv zeta in Hst.
      destruct (Z.leb_spec 0 (find_sub sync_sequence (dropZ (pos + 3 + size + (-2 - size)) f))) as [Hf|Hf].
      * injection Hst as _ _ <-. change (u_has_sync u = false) in Hns. congruence.
      * assert (Hq : p = pos + 3 + size + (-2 - size)) by congruence. rewrite Hq.
        intros Ho. apply find_sub_occurs in Ho. lia.
    + rewrite Es in Hst. unfold find_sync_last in Hst. cbv zeta in Hst.
      destruct (_ <? 8); [injection Hst as _ _ <-; congruence|].
      destruct (0 <=? _); injection Hst as _ _ <-; [change (u_has_sync u = false) in Hns|]; congruence.
Qed.
