(** Framing: the reading loops process complete frames one by one. *)
From Verif Require Import Base Dict Utf8 PyStr PyFloat Struct PySort ModelTypes ModelRead Spec.
Ltac Zify.zify_post_hook ::= Z.div_mod_to_equations.

Lemma lenZ_frame ty p : lenZ (frame ty p) = 3 + lenZ p.
Proof. unfold frame. rewrite lenZ_app. reflexivity. Qed.

Lemma frames_cons m ms : frames (m :: ms) = frame (fst m) (snd m) ++ frames ms.
Proof. reflexivity. Qed.
Lemma frames_app a b : frames (a ++ b) = frames a ++ frames b.
Proof. unfold frames. now rewrite map_app, concat_app. Qed.

Lemma lenZ_frames_nonneg ms : 0 <= lenZ (frames ms).
Proof. apply lenZ_nonneg. Qed.

Lemma le2 n : 0 <= n < 65536 -> le_dec [n mod 256; n / 256] = n.
Proof.
  intros H. cbn [le_dec]. lia.
Qed.

Lemma rd_dropZ f pos k n : 0 <= pos -> 0 <= k -> rd f (pos + k) n = takeZ n (dropZ k (dropZ pos f)).
Proof. intros. unfold rd. rewrite dropZ_dropZ by lia. reflexivity. Qed.

Lemma rd_frame_hd f pos ty p tail :
  dropZ pos f = frame ty p ++ tail ->
  rd f pos 3 = [lenZ p mod 256; lenZ p / 256; ty].
Proof.
  intros H. unfold rd. rewrite H. unfold frame. rewrite <- app_assoc. apply takeZ_app_exact. reflexivity.
Qed.

Lemma rd_frame_payload f pos ty p tail :
  0 <= pos -> dropZ pos f = frame ty p ++ tail -> rd f (pos + 3) (lenZ p) = p.
Proof.
  intros Hp H. rewrite rd_dropZ by lia. rewrite H. unfold frame. rewrite <- app_assoc.
  rewrite dropZ_app_exact by reflexivity. apply takeZ_app_exact. reflexivity.
Qed.

Lemma dropZ_frame f pos ty p tail :
  0 <= pos -> dropZ pos f = frame ty p ++ tail -> dropZ (pos + 3 + lenZ p) f = tail.
Proof.
  intros Hp H. pose proof (lenZ_nonneg p). replace (pos + 3 + lenZ p) with (pos + (3 + lenZ p)) by lia.
  rewrite <- dropZ_dropZ by lia. rewrite H. apply dropZ_app_exact. now rewrite lenZ_frame.
Qed.

Lemma takeZ_all_len {A} n (l : list A) : n = lenZ l -> takeZ n l = l.
Proof. intros ->. apply takeZ_all. lia. Qed.

(** which types have an effect *)
Lemma data_effect_None cf ty p u : ~ In ty data_types -> data_effect cf ty p u = None.
Proof.
  intros H. unfold data_effect.
  repeat match goal with
  | |- (if ?a =? ?b then _ else _) = _ =>
      destruct (Z.eqb_spec a b) as [->|]; [exfalso; apply H; vm_compute; tauto|]
  end. reflexivity.
Qed.

Lemma data_effect_known cf ty p u : In ty data_types -> exists e, data_effect cf ty p u = Some e.
Proof.
  intros H. unfold data_types in H. simpl in H. unfold data_effect.
  repeat (destruct H as [<-|H]; [simpl; eauto|]). destruct H.
Qed.

Lemma def_effect_None cf ty p u : ~ In ty def_types -> def_effect cf ty p u = None.
Proof.
  intros H. unfold def_effect.
  repeat match goal with
  | |- (if ?a =? ?b then _ else _) = _ =>
      destruct (Z.eqb_spec a b) as [->|]; [exfalso; apply H; vm_compute; tauto|]
  end. reflexivity.
Qed.

Lemma def_effect_known cf ty p u : In ty def_types -> exists e, def_effect cf ty p u = Some e.
Proof.
  intros H. unfold def_types in H. simpl in H. unfold def_effect.
  repeat (destruct H as [<-|H]; [simpl; eauto|]). destruct H.
Qed.

Lemma not_occurs_find p s : ~ occurs p s -> (0 <=? find_sub p s) = false.
Proof.
  intros H. destruct (Z.leb_spec 0 (find_sub p s)) as [Hle|]; [|reflexivity].
  exfalso. apply H. destruct (find_sub_spec p s _ eq_refl Hle) as [(a & b & E & _) _].
  exists a, b. exact E.
Qed.

(** One iteration on a plain frame. *)
Lemma data_step_frame fuel cf until f pos cfp u ty p tail :
  0 <= pos -> dropZ pos f = frame ty p ++ tail -> plain_data (ty, p) ->
  cfp + 3 + lenZ p <= until ->
  data_step fuel cf until f pos cfp u =
  match data_effect cf ty p u with
  | None => SNext (pos + 3 + lenZ p) (cfp + 3 + lenZ p) u
  | Some (u', None) => SNext (pos + 3 + lenZ p) (cfp + 3 + lenZ p) u'
  | Some (u', Some IndexError) => SNext (pos + 3 + lenZ p) (cfp + 3 + lenZ p) (set_corrupt true u')
  | Some (u', Some StructError) => SStop u'
  | Some (_, Some e) => SRaise e
  end.
Proof.
  intros Hp Hf [(_ & _ & Hlen) Hk] Hu. simpl in *. pose proof (lenZ_nonneg p) as Hn.
  unfold data_step. rewrite (rd_frame_hd _ _ _ _ _ Hf). cbv iota beta zeta.
  rewrite (le2 (lenZ p)) by lia. rewrite (rd_frame_payload _ _ _ _ _ Hp Hf).
  rewrite Z.ltb_irrefl. destruct (Z.ltb_spec until (cfp + 3 + lenZ p)); [lia|].
  destruct (data_effect cf ty p u) as [[u' [e|]]|] eqn:E; try reflexivity.
  destruct Hk as [Hk|(H0 & H1 & H2)].
  { destruct (data_effect_known cf ty p u Hk) as [e Ee]. congruence. }
  replace (packet_corrupt ty (lenZ p)) with false by (unfold packet_corrupt; lia).
  destruct (u_has_sync u); [|reflexivity].
  unfold find_sync_last. replace (pos + 3 + lenZ p - lenZ p) with (pos + 3) by lia.
  rewrite (rd_frame_payload _ _ _ _ _ Hp Hf).
  destruct (lenZ p <? 8); [reflexivity|].
  change SYNC_BYTES with sync_sequence. rewrite (not_occurs_find _ _ H2). reflexivity.
Qed.

Lemma data_loop_frames cf until f ms : forall k pos cfp u tail,
  0 <= pos -> dropZ pos f = frames ms ++ tail -> Forall plain_data ms ->
  cfp + lenZ (frames ms) <= until ->
  data_loop (length ms + k) cf until f pos cfp u =
  match run_data cf ms u with
  | RDone u' => data_loop k cf until f (pos + lenZ (frames ms)) (cfp + lenZ (frames ms)) u'
  | RStop u' => Some (Ok u')
  | RRaise e => Some (Err e)
  end.
Proof.
  induction ms as [|[ty p] ms IH]; intros k pos cfp u tail Hp Hf Hok Hu.
  - simpl. now rewrite !Z.add_0_r.
  - inversion Hok as [|? ? H1 H2]; subst. rewrite frames_cons in *. cbn [fst snd] in *.
    rewrite <- app_assoc in Hf. rewrite lenZ_app, lenZ_frame in *.
    pose proof (lenZ_frames_nonneg ms). pose proof (lenZ_nonneg p).
    cbn [length plus data_loop]. 
    rewrite (data_step_frame _ _ _ _ _ _ _ _ _ _ Hp Hf H1) by lia.
    pose proof (dropZ_frame _ _ _ _ _ Hp Hf) as Hd.
    cbn [run_data].
    assert (Hrec : forall u1, data_loop (length ms + k) cf until f (pos + 3 + lenZ p) (cfp + 3 + lenZ p) u1 =
      match run_data cf ms u1 with
      | RDone u' => data_loop k cf until f (pos + (3 + lenZ p + lenZ (frames ms)))
                      (cfp + (3 + lenZ p + lenZ (frames ms))) u'
      | RStop u' => Some (Ok u')
      | RRaise e => Some (Err e)
      end).
    { intros u1. rewrite (IH k (pos + 3 + lenZ p) (cfp + 3 + lenZ p) u1 tail); auto; try lia.
      replace (pos + 3 + lenZ p + lenZ (frames ms)) with (pos + (3 + lenZ p + lenZ (frames ms))) by lia.
      replace (cfp + 3 + lenZ p + lenZ (frames ms)) with (cfp + (3 + lenZ p + lenZ (frames ms))) by lia.
      reflexivity. }
    destruct (data_effect cf ty p u) as [[u' [[]|]]|]; rewrite ?Hrec; reflexivity.
Qed.

(** At the end of the file, or at a cut message, the section ends. *)
Lemma data_step_end fuel cf until f pos cfp u :
  dropZ pos f = [] -> data_step fuel cf until f pos cfp u = SStop u.
Proof. intros H. unfold data_step, rd. rewrite H. reflexivity. Qed.

Lemma data_step_cut fuel cf until f pos cfp u m t :
  0 <= pos -> dropZ pos f = t -> frame_fits m -> cut_of t m ->
  data_step fuel cf until f pos cfp u = SStop u.
Proof.
  intros Hp Hd (_ & _ & Hlen) (rest & Hne & E). destruct m as [ty p]. cbn [fst snd] in *.
  unfold data_step. unfold rd at 1. rewrite Hd.
  destruct t as [|a [|b [|c t]]]; try reflexivity.
  change (takeZ 3 (a :: b :: c :: t)) with (a :: b :: c :: takeZ 0 t).
  rewrite (takeZ_nonpos 0 t) by lia.
  unfold frame in E. simpl in E. injection E as -> -> -> E.
  pose proof (lenZ_nonneg p). rewrite (le2 (lenZ p)) by lia.
  assert (Hlt : lenZ (rd f (pos + 3) (lenZ p)) < lenZ p).
  { rewrite rd_dropZ by lia. rewrite Hd.
    change (dropZ 3 (lenZ p mod 256 :: lenZ p / 256 :: ty :: t)) with (dropZ 0 t).
    rewrite dropZ_nonpos by lia.
    rewrite lenZ_takeZ by lia. rewrite <- E, lenZ_app.
    assert (0 < lenZ rest).
    { destruct rest; [congruence|]. rewrite lenZ_cons. pose proof (lenZ_nonneg rest). lia. }
    lia. }
  destruct (Z.ltb_spec (lenZ (rd f (pos + 3) (lenZ p))) (lenZ p)); [reflexivity|lia].
Qed.

(** ** Definition section *)

Lemma def_step_frame cf f pos u ty p tail :
  0 <= pos -> dropZ pos f = frame ty p ++ tail -> plain_def (ty, p) ->
  def_step cf f pos u =
  match def_effect cf ty p u with
  | None => DNext (pos + 3 + lenZ p) u
  | Some (Ok u') => DNext (pos + 3 + lenZ p) u'
  | Some (Err IndexError) => DNext (pos + 3 + lenZ p) (set_corrupt true u)
  | Some (Err e) => DRaise e
  end.
Proof.
  intros Hp Hf [(_ & _ & Hlen) (Hne & Hk)]. simpl in *. pose proof (lenZ_nonneg p) as Hn.
  unfold def_step. rewrite (rd_frame_hd _ _ _ _ _ Hf). cbv iota beta zeta.
  rewrite (le2 (lenZ p)) by lia. rewrite (rd_frame_payload _ _ _ _ _ Hp Hf).
  destruct (def_effect cf ty p u) as [[u'|e]|] eqn:E; try reflexivity.
  destruct Hk as [Hk|(H0 & H1)].
  { destruct (def_effect_known cf ty p u Hk) as [e Ee]. congruence. }
  replace (packet_corrupt ty (lenZ p)) with false by (unfold packet_corrupt; lia).
  assert ((ty =? T_ADD) || (ty =? T_LOG) || (ty =? T_LOGT) = false) as ->.
  { unfold T_ADD, T_LOG, T_LOGT. simpl in Hne. lia. }
  reflexivity.
Qed.

Lemma def_loop_frames cf f ms : forall k pos u tail,
  0 <= pos -> dropZ pos f = frames ms ++ tail -> Forall plain_def ms ->
  def_loop (length ms + k) cf f pos u =
  match run_def cf ms u with
  | Ok u' => def_loop k cf f (pos + lenZ (frames ms)) u'
  | Err e => Some (Err e)
  end.
Proof.
  induction ms as [|[ty p] ms IH]; intros k pos u tail Hp Hf Hok.
  - simpl. now rewrite !Z.add_0_r.
  - inversion Hok as [|? ? H1 H2]; subst. rewrite frames_cons in *. cbn [fst snd] in *.
    rewrite <- app_assoc in Hf. rewrite lenZ_app, lenZ_frame in *.
    pose proof (lenZ_frames_nonneg ms). pose proof (lenZ_nonneg p).
    cbn [length plus def_loop].
    rewrite (def_step_frame _ _ _ _ _ _ _ Hp Hf H1).
    pose proof (dropZ_frame _ _ _ _ _ Hp Hf) as Hd.
    cbn [run_def].
    assert (Hrec : forall u1, def_loop (length ms + k) cf f (pos + 3 + lenZ p) u1 =
      match run_def cf ms u1 with
      | Ok u' => def_loop k cf f (pos + (3 + lenZ p + lenZ (frames ms))) u'
      | Err e => Some (Err e)
      end).
    { intros u1. rewrite (IH k (pos + 3 + lenZ p) u1 tail); auto; try lia.
      replace (pos + 3 + lenZ p + lenZ (frames ms)) with (pos + (3 + lenZ p + lenZ (frames ms))) by lia.
      reflexivity. }
    destruct (def_effect cf ty p u) as [[u'|[]]|]; rewrite ?Hrec; reflexivity.
Qed.

Lemma def_step_endmsg cf f pos u ty p tail :
  0 <= pos -> dropZ pos f = frame ty p ++ tail -> frame_fits (ty, p) -> In ty end_types ->
  def_step cf f pos u = DStop pos u.
Proof.
  intros Hp Hf (_ & _ & Hlen) Hty. simpl in *. pose proof (lenZ_nonneg p) as Hn.
  unfold def_step. rewrite (rd_frame_hd _ _ _ _ _ Hf). cbv iota beta zeta.
  rewrite (le2 (lenZ p)) by lia. rewrite (rd_frame_payload _ _ _ _ _ Hp Hf).
  rewrite def_effect_None by (simpl; intuition lia).
  assert ((ty =? T_ADD) || (ty =? T_LOG) || (ty =? T_LOGT) = true) as ->.
  { unfold T_ADD, T_LOG, T_LOGT. lia. }
  unfold seek_rel. replace (pos + 3 + lenZ p + - (3 + lenZ p)) with pos by lia.
  destruct (Z.ltb_spec pos 0); [lia|reflexivity].
Qed.

Lemma def_step_end cf f pos u : dropZ pos f = [] -> def_step cf f pos u = DStop pos u.
Proof. intros H. unfold def_step, rd. rewrite H. reflexivity. Qed.

(** ** Header *)
Lemma lenZ_file_header v t : lenZ (file_header v t) = 16.
Proof. unfold file_header. rewrite !lenZ_app. unfold lenZ at 3. rewrite length_le_enc. reflexivity. Qed.

Lemma read_header_ok v t rest : header_fits v t ->
  read_header (file_header v t ++ rest) 0 = Ok (v, t).
Proof.
  intros [Hv Ht]. unfold read_header, rd. rewrite dropZ_nonpos by lia.
  rewrite takeZ_app_exact by (now rewrite lenZ_file_header).
  cbv zeta.
  assert (Hl : length (file_header v t) = 16%nat).
  { pose proof (lenZ_file_header v t) as H. unfold lenZ in H. lia. }
  rewrite Hl. cbn [Nat.eqb negb].
  assert (E1 : takeZ 7 (file_header v t) = HEADER_BYTES).
  { unfold file_header. apply takeZ_app_exact. reflexivity. }
  assert (E2 : slice 7 8 (file_header v t) = [v]).
  { unfold file_header. apply slice_app_mid; reflexivity. }
  assert (E3 : dropZ 8 (file_header v t) = le_enc 8 t).
  { unfold file_header. rewrite app_assoc. apply dropZ_app_exact. reflexivity. }
  rewrite E1, E2, E3, str_eqb_refl. cbn [negb].
  rewrite unpack_u_enc by exact Ht. unfold unpack_u, bind. cbn [length Nat.eqb le_dec].
  f_equal. f_equal. lia.
Qed.

(** ** Fuel *)
Lemma def_loop_mono cf f n : forall m pos u r, def_loop n cf f pos u = Some r -> (n <= m)%nat ->
  def_loop m cf f pos u = Some r.
Proof.
  induction n as [|n IH]; intros m pos u r H Hm; [discriminate|].
  destruct m as [|m]; [lia|]. cbn [def_loop] in *.
  destruct (def_step cf f pos u); auto. apply IH; auto. lia.
Qed.

Lemma find_sync_loop_mono f n : forall m pos r, find_sync_loop n f pos = Some r -> (n <= m)%nat ->
  find_sync_loop m f pos = Some r.
Proof.
  induction n as [|n IH]; intros m pos r H Hm; [discriminate|].
  destruct m as [|m]; [lia|]. cbn [find_sync_loop] in *. cbv zeta in *.
  destruct (lenZ (rd f pos 512) <? 8); auto.
  destruct (0 <=? find_sub SYNC_BYTES (rd f pos 512)); auto. apply IH; auto; lia.
Qed.

Lemma data_step_mono cf until f n m pos cfp u : (n <= m)%nat ->
  data_step n cf until f pos cfp u <> SNoFuel ->
  data_step m cf until f pos cfp u = data_step n cf until f pos cfp u.
Proof.
  intros Hm. unfold data_step. destruct (rd f pos 3) as [|s0 [|s1 [|ty [|]]]]; try reflexivity.
  cbv zeta. destruct (_ <? _); [reflexivity|]. destruct (_ <? _); [reflexivity|].
  destruct (data_effect cf ty _ u); [reflexivity|].
  destruct (packet_corrupt _ _); [|reflexivity].
  destruct (u_has_sync _); [|reflexivity]. unfold find_sync.
  destruct (find_sync_loop n f _) eqn:E; [|congruence].
  rewrite (find_sync_loop_mono _ _ _ _ _ E Hm). reflexivity.
Qed.

Lemma data_loop_mono cf until f n : forall m pos cfp u r,
  data_loop n cf until f pos cfp u = Some r -> (n <= m)%nat ->
  data_loop m cf until f pos cfp u = Some r.
Proof.
  induction n as [|n IH]; intros m pos cfp u r H Hm; [discriminate|].
  destruct m as [|m]; [lia|]. cbn [data_loop] in *.
  rewrite (data_step_mono cf until f (S n) (S m)); auto.
  - destruct (data_step (S n) cf until f pos cfp u); auto. apply IH; auto; lia.
  - intros E. rewrite E in H. discriminate.
Qed.

Lemma read_data_mono cf until f n m pos u r :
  read_data n cf until f pos u = Some r -> (n <= m)%nat -> read_data m cf until f pos u = Some r.
Proof.
  unfold read_data. intros H Hm. destruct (data_loop n cf until f pos pos u) eqn:E; [|discriminate].
  now rewrite (data_loop_mono _ _ _ _ _ _ _ _ _ E Hm).
Qed.

Lemma read_sections_mono cf f n m offs : (n <= m)%nat -> forall pos u r,
  read_sections n cf f offs pos u = Some r -> read_sections m cf f offs pos u = Some r.
Proof.
  intros Hm. induction offs as [|o offs IH]; intros pos u r; simpl.
  - intros H. eapply read_data_mono; eauto.
  - destruct (read_data n cf o f pos u) eqn:E; [|discriminate].
    rewrite (read_data_mono _ _ _ _ _ _ _ _ E Hm).
    destruct r0; auto. destruct (seek_abs _ _); auto.
Qed.

Lemma load_at_mono cf f pos u0 n m r :
  load_at n cf f pos u0 = Some r -> (n <= m)%nat -> load_at m cf f pos u0 = Some r.
Proof.
  intros H Hm. unfold load_at in *. destruct (read_header f pos) as [[v t]|]; auto.
  destruct (def_loop n cf f (pos + 16) _) eqn:E; [|discriminate].
  rewrite (def_loop_mono _ _ _ _ _ _ _ E Hm). destruct r0 as [[p u2]|]; auto.
  destruct (cf_hdr cf); auto. eapply read_sections_mono; eauto.
Qed.

Lemma load_mono cf f n m r : load n cf f = Some r -> (n <= m)%nat -> load m cf f = Some r.
Proof. apply load_at_mono. Qed.

Lemma produces_fun cf f r1 r2 : produces cf f r1 -> produces cf f r2 -> r1 = r2.
Proof.
  intros [n1 H1] [n2 H2].
  apply (load_mono _ _ _ (n1 + n2)) in H1; [|lia].
  apply (load_mono _ _ _ (n1 + n2)) in H2; [|lia]. congruence.
Qed.

Lemma produces_not_diverges cf f r : produces cf f r -> diverges cf f -> False.
Proof. intros [n H] Hd. rewrite Hd in H. discriminate. Qed.

(** ** Whole files of frames *)


Lemma def_loop_file cf f v t defs data tail u k :
  header_fits v t -> Forall plain_def defs -> Forall plain_data data -> starts_data data ->
  f = file_header v t ++ frames defs ++ frames data ++ tail ->
  (data = [] -> tail = []) ->
  run_def cf defs u = Ok k ->
  forall fuel, (length defs < fuel)%nat ->
  def_loop fuel cf f 16 u = Some (Ok (16 + lenZ (frames defs), k)).
Proof.
  intros Hh Hd Hdt Hs Hf Ht Hr fuel Hfuel.
  replace fuel with (length defs + (S (fuel - length defs - 1)))%nat by lia.
  assert (E : dropZ 16 f = frames defs ++ frames data ++ tail).
  { rewrite Hf. apply dropZ_app_exact. now rewrite lenZ_file_header. }
  rewrite (def_loop_frames cf f defs _ 16 u (frames data ++ tail)); auto; try lia.
  rewrite Hr. cbn [def_loop].
  assert (E2 : dropZ (16 + lenZ (frames defs)) f = frames data ++ tail).
  { rewrite <- dropZ_dropZ; [|apply lenZ_nonneg|lia]. rewrite E. now apply dropZ_app_exact. }
  pose proof (lenZ_nonneg (frames defs)).
  destruct data as [|[ty p] data].
  - rewrite Ht in * by reflexivity. simpl in E2. rewrite (def_step_end _ _ _ _ E2). reflexivity.
  - pose proof (Forall_inv Hdt) as Hm. rewrite frames_cons, <- app_assoc in E2. cbn [fst snd] in *.
    rewrite (def_step_endmsg cf f (16 + lenZ (frames defs)) k ty p (frames data ++ tail) ltac:(lia) E2); [reflexivity | apply Hm | exact Hs].
Qed.
