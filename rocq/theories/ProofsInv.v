(** What the reading loops can do to the object, for arbitrary bytes. *)
From Verif Require Import Base Dict Utf8 PyStr PyFloat Struct PySort ModelTypes ModelRead Spec ProofsRead ProofsSync.
Ltac Zify.zify_post_hook ::= Z.div_mod_to_equations.

(** ** Exceptions *)
Definition errs (allowed : list exn) {A} (r : res A) : Prop :=
  match r with Ok _ => True | Err e => In e allowed end.

Lemma errs_bind {A B} L (r : res A) (k : A -> res B) :
  errs L r -> (forall a, r = Ok a -> errs L (k a)) -> errs L (bind r k).
Proof. destruct r; simpl; auto. Qed.

Lemma errs_mapM {A B} L (f : A -> res B) l : (forall x, errs L (f x)) -> errs L (mapM f l).
Proof.
  intros H. induction l; simpl; [exact I|]. apply errs_bind; [apply H|]. intros.
  apply errs_bind; auto. intros; exact I.
Qed.
Lemma errs_foldM {A S} L (f : S -> A -> res S) l : (forall s x, errs L (f s x)) -> forall s, errs L (foldM f l s).
Proof.
  intros H. induction l; simpl; intros s; [exact I|]. apply errs_bind; [apply H|]. intros; auto.
Qed.

Definition parse_errs : list exn :=
  [StructError; IndexError; KeyError; ValueError; UnicodeDecodeError; NotImplementedError; RecursionError].

Lemma errs_unpack_u n d : errs parse_errs (unpack_u n d).
Proof. unfold unpack_u. destruct (Nat.eqb _ _); simpl; auto. Qed.
Lemma errs_unpack_val c d : errs parse_errs (unpack_val c d).
Proof. unfold unpack_val. apply errs_bind; [apply errs_unpack_u|intros; exact I]. Qed.
Lemma errs_nth {A} (l : list A) i : errs parse_errs (py_nth l i).
Proof. unfold py_nth. destruct (nth_error l i); simpl; auto. Qed.

Lemma utf8_decode_err_aux n : forall ign l, (length l <= n)%nat ->
  errs [UnicodeDecodeError] (utf8_decode ign l).
Proof.
  induction n as [|n IH]; intros ign l Hl.
  - destruct l; [exact I|simpl in Hl; lia].
  - destruct l as [|b0 r]; [exact I|]. simpl in Hl.
    assert (Hbad : errs [UnicodeDecodeError] (if ign then utf8_decode ign r else Err UnicodeDecodeError)).
    { destruct ign; [apply IH; lia|simpl; auto]. }
    assert (Hc : forall l' x, (length l' <= n)%nat ->
       errs [UnicodeDecodeError] (let* s := utf8_decode ign l' in Ok (x :: s))).
    { intros. apply errs_bind; [apply IH; auto|intros; exact I]. }
    cbn [utf8_decode]. cbv zeta.
    destruct r as [|b1 [|b2 [|b3 r3]]]; simpl length in Hl;
    repeat match goal with
    | |- errs _ (if ?b then _ else _) => destruct b
    end; try exact Hbad; apply Hc; simpl; lia.
Qed.
Lemma errs_parse_string ign d : errs parse_errs (parse_string ign d).
Proof.
  pose proof (utf8_decode_err_aux (length d) ign d (le_n _)) as H. unfold parse_string.
  destruct (utf8_decode ign d); [exact I|]. simpl in *. tauto.
Qed.

Ltac errs_step :=
  match goal with
  | |- errs _ (bind _ _) => apply errs_bind; [|intros]
  | |- errs _ (unpack_u _ _) => apply errs_unpack_u
  | |- errs _ (unpack_val _ _) => apply errs_unpack_val
  | |- errs _ (py_nth _ _) => apply errs_nth
  | |- errs _ (parse_string _ _) => apply errs_parse_string
  | |- errs _ (Ok _) => exact I
  | |- errs _ (Err _) => simpl; tauto
  | |- errs _ (if ?b then _ else _) => destruct b
  | |- errs _ (match ?x with _ => _ end) => destruct x
  end.

Lemma errs_parse_info ign d : errs parse_errs (parse_info ign d).
Proof. unfold parse_info. cbv zeta. repeat errs_step. Qed.
Lemma errs_parse_info_multi ign d : errs parse_errs (parse_info_multi ign d).
Proof. unfold parse_info_multi. repeat first [apply errs_parse_info | errs_step]. Qed.
Lemma errs_parse_pdef ign d : errs parse_errs (parse_pdef ign d).
Proof. unfold parse_pdef. repeat first [apply errs_parse_info | errs_step]. Qed.
Lemma errs_parse_flags d : errs parse_errs (parse_flags d).
Proof. unfold parse_flags, unpack_bytes8, unpack_u64x3. repeat errs_step. Qed.

Lemma errs_int_digits s : forall acc d, errs [ValueError] (int_digits acc d s).
Proof.
  induction s as [|c s IH]; intros acc d; simpl.
  - destruct d; simpl; auto.
  - destruct (is_digit c); auto. destruct ((c =? 95) && d); auto. simpl; auto.
Qed.
Lemma errs_py_int s : errs parse_errs (py_int s).
Proof.
  assert (H : forall a d s, errs parse_errs (int_digits a d s)).
  { intros. pose proof (errs_int_digits s0 a d). destruct (int_digits a d s0); simpl in *; tauto. }
  unfold py_int.
  repeat match goal with
  | |- errs _ (match ?x with _ => _ end) => destruct x
  | |- errs _ (bind _ _) => apply errs_bind; [|intros; exact I]
  | |- _ => apply H
  end.
Qed.
Lemma errs_extract_type s : errs parse_errs (extract_type s).
Proof. unfold extract_type. cbv zeta. repeat first [apply errs_py_int | errs_step]. Qed.
Lemma errs_parse_format ign d : errs parse_errs (parse_format ign d).
Proof.
  unfold parse_format. cbv zeta.
  repeat first [apply errs_mapM; intros; apply errs_extract_type | errs_step].
Qed.
Lemma errs_parse_logging ign d : errs parse_errs (parse_logging ign d).
Proof. unfold parse_logging. repeat errs_step. Qed.
Lemma errs_parse_tagged ign d : errs parse_errs (parse_tagged ign d).
Proof. unfold parse_tagged. repeat errs_step. Qed.
Lemma errs_parse_dropout d t : errs parse_errs (parse_dropout d t).
Proof. unfold parse_dropout. repeat errs_step. Qed.

Lemma errs_parse_nested depth fmts : forall prefix tn st, errs parse_errs (parse_nested depth fmts prefix tn st).
Proof.
  induction depth as [|d IH]; intros; simpl; [tauto|].
  destruct (sget tn fmts) as [fmt|]; [|simpl; tauto].
  apply errs_foldM. intros s [[t a] n]. destruct (ctype_of t); [exact I|].
  destruct (0 <? a); [|apply IH]. apply errs_foldM. intros; apply IH.
Qed.
Lemma errs_np_dtype l : errs parse_errs (np_dtype l).
Proof.
  unfold np_dtype. generalize 0, (@nil str). induction l as [|fd l IH]; intros i seen; simpl; [exact I|].
  match goal with |- errs _ (if ?b then _ else _) => destruct b end; [simpl; tauto|]. apply errs_bind; [apply IH|intros; exact I].
Qed.
Lemma errs_parse_add cf fmts d : errs parse_errs (parse_add cf fmts d).
Proof.
  unfold parse_add. cbv zeta. repeat first [apply errs_parse_nested | apply errs_np_dtype | errs_step].
Qed.
Lemma errs_append_last l x : errs parse_errs (append_last l x).
Proof.
  induction l as [|g l IH]; simpl; [tauto|]. destruct l; [exact I|].
  apply errs_bind; [apply IH|intros; exact I].
Qed.
Lemma errs_add_info_multi c m u : errs parse_errs (add_info_multi c m u).
Proof.
  unfold add_info_multi. destruct (sget _ _); [|exact I]. destruct (negb _); [|exact I].
  apply errs_bind; [apply errs_append_last|intros; exact I].
Qed.

Ltac parse_errs_tac :=
  repeat first [apply errs_parse_info | apply errs_parse_info_multi | apply errs_parse_format
               | apply errs_parse_pdef | apply errs_parse_flags | apply errs_add_info_multi
               | apply errs_parse_add | apply errs_parse_logging | apply errs_parse_tagged
               | apply errs_parse_dropout | errs_step].

Lemma errs_def_effect cf ty d u r : def_effect cf ty d u = Some r -> errs parse_errs r.
Proof.
  unfold def_effect. cbv zeta. intros H.
  repeat match type of H with
  | (if ?b then _ else _) = _ => destruct b; [injection H as <-; parse_errs_tac|]
  end. discriminate.
Qed.

Lemma data_msg_err d u u' e : data_msg d u = (u', Some e) -> e = StructError.
Proof.
  unfold data_msg. destruct (unpack_u 2 (takeZ 2 d)) as [id|e1] eqn:E1.
  - destruct (zget id (u_subs u)) as [s|].
    + cbv zeta. destruct (_ || _); [congruence|].
      destruct (unpack_u 8 _) eqn:E2; [congruence|]. apply unpack_u_Err in E2. intros H; injection H; intuition congruence.
    + destruct (existsb _ _); congruence.
  - apply unpack_u_Err in E1. intros H; injection H; intuition congruence.
Qed.

Lemma errs_eff_of u r u' e : eff_of u r = (u', Some e) -> r = Err e.
Proof. destruct r; simpl; congruence. Qed.

Lemma errs_data_effect cf ty d u u' e : data_effect cf ty d u = Some (u', Some e) -> In e parse_errs.
Proof.
  unfold data_effect. cbv zeta. intros H.
  assert (Hr : forall r, Some (eff_of u r) = Some (u', Some e) -> errs parse_errs r -> In e parse_errs).
  { intros r E. injection E as E. apply errs_eff_of in E. subst r. auto. }
  repeat match type of H with
  | (if ?b then Some (eff_of _ _) else _) = _ => destruct b; [apply (Hr _ H); parse_errs_tac|]
  end.
  destruct (ty =? T_DATA). { injection H as H. apply data_msg_err in H. subst. simpl; tauto. }
  destruct (ty =? T_DROP). { apply (Hr _ H); parse_errs_tac. }
  destruct (ty =? T_SYNC); congruence.
Qed.

Lemma errs_dataset_of s : errs parse_errs (dataset_of s).
Proof. unfold dataset_of. cbv zeta. repeat errs_step. Qed.
Lemma errs_finalize u : errs parse_errs (finalize u).
Proof.
  unfold finalize. apply errs_bind; [apply errs_mapM; apply errs_dataset_of|intros; exact I].
Qed.

Definition load_errs := OSError :: OverflowError :: parse_errs.

Lemma errs_def_loop fuel cf f : forall pos u r, def_loop fuel cf f pos u = Some r -> errs load_errs r.
Proof.
  assert (Hw : forall A (r : res A), errs parse_errs r -> errs load_errs r).
  { intros A [|]; simpl; tauto. }
  induction fuel as [|k IH]; intros pos u r H; [discriminate|]. cbn [def_loop] in H.
  destruct (def_step cf f pos u) as [p u'|p u'|e] eqn:E; [eapply IH; eauto|injection H as <-; exact I|].
  injection H as <-. unfold def_step in E. cbv zeta in E.
  destruct (rd f pos 3) as [|s0 [|s1 [|ty [|]]]]; try (injection E as <-; simpl; tauto); try discriminate.
  destruct (def_effect cf ty _ u) as [[u'|e']|] eqn:Ee.
  - discriminate.
  - pose proof (errs_def_effect _ _ _ _ _ Ee) as He. 
    assert (Hin : In e' load_errs) by (apply (Hw unit (Err e')); exact He).
    destruct e'; try discriminate E; injection E as <-; exact Hin.
  - destruct (_ || _ || _).
    + unfold seek_rel in E. destruct (_ <? 0); [destruct (cf_kind cf)|]; try discriminate. injection E as <-. simpl; auto.
    + destruct (packet_corrupt _ _); [|discriminate].
      unfold seek_rel in E. destruct (_ <? 0); [destruct (cf_kind cf)|]; try discriminate. injection E as <-. simpl; auto.
Qed.

Lemma errs_data_loop fuel cf until f : forall pos cfp u r,
  data_loop fuel cf until f pos cfp u = Some r -> errs parse_errs r.
Proof.
  induction fuel as [|k IH]; intros pos cfp u r H; [discriminate|]. cbn [data_loop] in H.
  destruct (data_step (S k) cf until f pos cfp u) as [p c u'|u'|e|] eqn:E;
    [eapply IH; eauto|injection H as <-; exact I| |discriminate].
  injection H as <-. unfold data_step in E. cbv zeta in E.
  destruct (rd f pos 3) as [|s0 [|s1 [|ty [|]]]]; try discriminate.
  destruct (_ <? _); [discriminate|]. destruct (_ <? _); [discriminate|].
  destruct (data_effect cf ty _ u) as [[u' [e'|]]|] eqn:Ee.
  - pose proof (errs_data_effect _ _ _ _ _ _ Ee) as He.
    destruct e'; try discriminate E; injection E as <-; exact He.
  - discriminate.
  - destruct (packet_corrupt _ _).
    + destruct (u_has_sync _); [|discriminate]. destruct (find_sync _ _ _ _) as [[]|]; discriminate.
    + destruct (u_has_sync _); [|discriminate]. destruct (find_sync_last _ _ _ _); discriminate.
Qed.

Lemma errs_read_data fuel cf until f pos u r :
  read_data fuel cf until f pos u = Some r -> errs parse_errs r.
Proof.
  unfold read_data. intros H. destruct (data_loop _ _ _ _ _ _ _) as [[u'|e]|] eqn:E; [| |discriminate].
  - injection H as <-. apply errs_finalize.
  - injection H as <-. apply (errs_data_loop _ _ _ _ _ _ _ _ E).
Qed.

Lemma errs_read_sections fuel cf f offs : forall pos u r,
  read_sections fuel cf f offs pos u = Some r -> errs load_errs r.
Proof.
  assert (Hw : forall A (r : res A), errs parse_errs r -> errs load_errs r).
  { intros A [|]; simpl; tauto. }
  induction offs as [|o offs IH]; intros pos u r; cbn [read_sections]; intros H.
  - apply Hw. eapply errs_read_data; eauto.
  - destruct (read_data _ _ _ _ _ _) as [[u'|e]|] eqn:E; [| |discriminate].
    + destruct (seek_abs _ _) as [p|e] eqn:Es; [eapply IH; eauto|].
      injection H as <-. unfold seek_abs in Es.
      destruct (cf_kind cf); repeat match type of Es with (if ?b then _ else _) = _ => destruct b end;
        try discriminate; injection Es as <-; simpl; tauto.
    + injection H as <-. apply Hw. eapply errs_read_data; eauto.
Qed.

(** When the header is good the constructor does not raise TypeError. *)
Lemma load_no_TypeError fuel cf f v t r :
  read_header f 0 = Ok (v, t) -> load fuel cf f = Some r -> errs load_errs r.
Proof.
  intros Hh. unfold load, load_at. rewrite Hh.
  destruct (def_loop _ _ _ _ _) as [[[p u]|e]|] eqn:E; [| |discriminate]; intros H.
  - destruct (cf_hdr cf); [injection H as <-; exact I|]. eapply errs_read_sections; eauto.
  - injection H as <-. apply (errs_def_loop _ _ _ _ _ _ E).
Qed.

Lemma read_header_cases f : bytes_ok f ->
  (lenZ f < 16 \/ takeZ 7 f <> HEADER_BYTES) /\ read_header f 0 = Err TypeError \/
  (exists v t rest, f = file_header v t ++ rest /\ header_fits v t /\ read_header f 0 = Ok (v, t)).
Proof.
  intros Hok. destruct (Z.lt_ge_cases (lenZ f) 16) as [Hs|Hs].
  - left. split; [auto|]. unfold read_header, rd. rewrite dropZ_nonpos by lia.
    cbv zeta. rewrite takeZ_all by lia.
    assert (E : Nat.eqb (length f) 16 = false) by (apply Nat.eqb_neq; unfold lenZ in Hs; lia).
    rewrite E. reflexivity.
  - destruct (str_eqb_spec (takeZ 7 f) HEADER_BYTES) as [Em|Em].
    + right. exists (le_dec (slice 7 8 f)), (le_dec (slice 8 16 f)), (dropZ 16 f).
      assert (H1 : lenZ (slice 7 8 f) = 1) by (rewrite lenZ_slice; lia).
      assert (H8 : lenZ (slice 8 16 f) = 8) by (rewrite lenZ_slice; lia).
      assert (O1 : bytes_ok (slice 7 8 f)) by now apply Forall_slice.
      assert (O8 : bytes_ok (slice 8 16 f)) by now apply Forall_slice.
      assert (Hfit : header_fits (le_dec (slice 7 8 f)) (le_dec (slice 8 16 f))).
      { split.
        - pose proof (le_dec_range _ O1) as R. unfold lenZ in H1.
          replace (length (slice 7 8 f)) with 1%nat in R by lia. exact R.
        - pose proof (le_dec_range _ O8) as R. unfold lenZ in H8.
          replace (length (slice 8 16 f)) with 8%nat in R by lia. exact R. }
      assert (Ef : f = file_header (le_dec (slice 7 8 f)) (le_dec (slice 8 16 f)) ++ dropZ 16 f).
      { unfold file_header. change [85; 76; 111; 103; 1; 18; 53] with HEADER_BYTES. rewrite <- Em.
        assert (E1 : [le_dec (slice 7 8 f)] = slice 7 8 f).
        { clear Hfit. destruct (slice 7 8 f) as [|b [|b2 l]]; unfold lenZ in H1; cbn [length] in H1; try lia. cbn [le_dec]. f_equal. lia. }
        rewrite E1.
        assert (E8 : le_enc 8 (le_dec (slice 8 16 f)) = slice 8 16 f).
        { replace 8%nat with (length (slice 8 16 f)) at 1 by (unfold lenZ in H8; lia). now apply le_enc_dec. }
        rewrite E8. unfold slice. change (8 - 7) with 1. change (16 - 8) with 8.
        rewrite <- !app_assoc.
        replace (dropZ 16 f) with (dropZ 8 (dropZ 8 f)) by (rewrite dropZ_dropZ by lia; reflexivity).
        rewrite (takeZ_dropZ_app 8 (dropZ 8 f)).
        replace (dropZ 8 f) with (dropZ 1 (dropZ 7 f)) by (rewrite dropZ_dropZ by lia; reflexivity).
        rewrite (takeZ_dropZ_app 1 (dropZ 7 f)). now rewrite (takeZ_dropZ_app 7 f). }
      split; [exact Ef|]. split; [exact Hfit|]. rewrite Ef at 1. now apply read_header_ok.
    + left. split; [auto|]. unfold read_header, rd. rewrite dropZ_nonpos by lia. cbv zeta.
      assert (E : Nat.eqb (length (takeZ 16 f)) 16 = true).
      { apply Nat.eqb_eq. assert (lenZ (takeZ 16 f) = 16) by (rewrite lenZ_takeZ; lia). unfold lenZ in *; lia. }
      rewrite E. cbn [negb].
      assert (E7 : takeZ 7 (takeZ 16 f) = takeZ 7 f).
      { rewrite <- (takeZ_dropZ_app 16 f) at 2. rewrite takeZ_app_le; [reflexivity|].
        rewrite lenZ_takeZ; lia. }
      rewrite E7. rewrite (str_eqb_neq _ _ Em). reflexivity.
Qed.
