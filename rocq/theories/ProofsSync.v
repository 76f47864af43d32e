(** Sync search, termination, rejection of bad headers. *)
From Verif Require Import Base Dict Utf8 PyStr PyFloat Struct PySort ModelTypes ModelRead Spec ProofsRead.
Ltac Zify.zify_post_hook ::= Z.div_mod_to_equations.

Lemma occurs_len p s : occurs p s -> lenZ p <= lenZ s.
Proof.
  intros (a & b & ->). rewrite !lenZ_app. pose proof (lenZ_nonneg a). pose proof (lenZ_nonneg b). lia.
Qed.

Lemma find_sub_occurs p s : 0 <= find_sub p s <-> occurs p s.
Proof.
  split.
  - intros H. destruct (find_sub_spec p s _ eq_refl H) as [(a & b & E & _) _]. exists a, b; auto.
  - intros (a & b & ->). apply find_sub_found.
Qed.

Lemma find_sub_first p s : 0 <= find_sub p s -> first_occurrence p s (find_sub p s).
Proof. intros H. exact (find_sub_spec p s _ eq_refl H). Qed.

Lemma first_occurrence_fun p s i j : first_occurrence p s i -> first_occurrence p s j -> i = j.
Proof.
  intros [(a & b & E & Ea) Hm] [(a' & b' & E' & Ea') Hm'].
  specialize (Hm _ _ E'). specialize (Hm' _ _ E). lia.
Qed.

Lemma first_occurrence_find p s i : first_occurrence p s i -> find_sub p s = i.
Proof.
  intros H. eapply first_occurrence_fun; [|exact H]. apply find_sub_first.
  apply find_sub_occurs. destruct H as [(a & b & E & _) _]. exists a, b; auto.
Qed.

(** occurrence inside a prefix *)
Lemma app_split_le {A} (a b c d : list A) : a ++ b = c ++ d -> lenZ a <= lenZ c -> exists e, c = a ++ e.
Proof.
  intros E H. exists (dropZ (lenZ a) c).
  rewrite <- (takeZ_dropZ_app (lenZ a) c) at 1. f_equal.
  apply (f_equal (takeZ (lenZ a))) in E. rewrite takeZ_app_exact in E by reflexivity.
  rewrite takeZ_app_le in E by assumption. auto.
Qed.

Lemma occ_prefix (p chunk rest a b : bytes) : chunk ++ rest = a ++ p ++ b -> lenZ a + lenZ p <= lenZ chunk ->
  exists b', chunk = a ++ p ++ b'.
Proof.
  intros E H. rewrite app_assoc in E. symmetry in E.
  destruct (app_split_le _ _ _ _ E) as [e He]; [rewrite lenZ_app; lia|].
  exists e. now rewrite He, <- app_assoc.
Qed.

Lemma occ_suffix (p s : bytes) k a b : s = a ++ p ++ b -> 0 <= k <= lenZ a -> dropZ k s = dropZ k a ++ p ++ b.
Proof. intros -> H. apply dropZ_app_le. lia. Qed.

(** The chunked search finds the first occurrence in the rest of the file (1). *)
Lemma find_sync_loop_spec f : forall fuel pos, 0 <= pos -> lenZ f - pos < Z.of_nat fuel ->
  (0 < fuel)%nat ->
  find_sync_loop fuel f pos =
  Some (let i := find_sub sync_sequence (dropZ pos f) in if 0 <=? i then Some (pos + i + 8) else None).
Proof.
  induction fuel as [|k IH]; intros pos Hp Hf Hk; [lia|].
  cbn [find_sync_loop]. cbv zeta. change SYNC_BYTES with sync_sequence.
  unfold rd. set (rest := dropZ pos f). set (chunk := takeZ 512 rest).
  assert (Hlr : lenZ rest = Z.max 0 (lenZ f - pos)) by (apply lenZ_dropZ; lia).
  assert (Hlc : lenZ chunk = Z.min 512 (lenZ rest)) by (apply lenZ_takeZ; lia).
  assert (Hsplit : chunk ++ dropZ 512 rest = rest) by apply takeZ_dropZ_app.
  destruct (Z.ltb_spec (lenZ chunk) 8) as [Hs|Hs].
  - destruct (Z.leb_spec 0 (find_sub sync_sequence rest)) as [H|H]; [|reflexivity].
    apply find_sub_occurs, occurs_len in H. change (lenZ sync_sequence) with 8 in H. lia.
  - destruct (Z.leb_spec 0 (find_sub sync_sequence chunk)) as [H|H].
    + assert (E : find_sub sync_sequence rest = find_sub sync_sequence chunk).
      { apply first_occurrence_find. apply find_sub_first in H as [(a & b & Ea & El) Hm].
        split.
        - exists a, (b ++ dropZ 512 rest). rewrite <- Hsplit at 1. rewrite Ea at 1.
          rewrite <- !app_assoc. auto.
        - intros a' b' E'. destruct (Z.le_gt_cases (lenZ a' + 8) (lenZ chunk)).
          + rewrite <- Hsplit in E'. destruct (occ_prefix _ _ _ _ _ E') as [b'' E'']; auto.
            eapply Hm; eauto.
          + assert (lenZ a + 8 <= lenZ chunk).
            { rewrite Ea, !lenZ_app. change (lenZ sync_sequence) with 8. pose proof (lenZ_nonneg b). lia. }
            lia. }
      rewrite E. destruct (Z.leb_spec 0 (find_sub sync_sequence chunk)); [reflexivity|lia].
    + rewrite IH; [|lia|lia|lia].
      replace (dropZ (pos + lenZ chunk - 7) f) with (dropZ (lenZ chunk - 7) rest).
      2:{ unfold rest. rewrite dropZ_dropZ by lia. f_equal. lia. }
      assert (Hocc : forall a b, rest = a ++ sync_sequence ++ b -> lenZ chunk - 7 <= lenZ a).
      { intros a b E. destruct (Z.le_gt_cases (lenZ chunk - 7) (lenZ a)); auto. exfalso.
        rewrite <- Hsplit in E. destruct (occ_prefix _ _ _ _ _ E) as [b'' E''].
        { change (lenZ sync_sequence) with 8. lia. }
        pose proof (find_sub_found sync_sequence a b''). rewrite <- E'' in H1. lia. }
      set (rest' := dropZ (lenZ chunk - 7) rest). cbv zeta.
      destruct (Z.leb_spec 0 (find_sub sync_sequence rest)) as [Hr|Hr].
      * pose proof (find_sub_first _ _ Hr) as [(a & b & Ea & El) Hm].
        assert (E : find_sub sync_sequence rest' = find_sub sync_sequence rest - (lenZ chunk - 7)).
        { apply first_occurrence_find. pose proof (Hocc _ _ Ea) as Hla. split.
          - exists (dropZ (lenZ chunk - 7) a), b. split.
            + unfold rest'. apply occ_suffix; auto. lia.
            + rewrite lenZ_dropZ by lia. lia.
          - intros a' b' E'.
            assert (Hr2 : rest = (takeZ (lenZ chunk - 7) rest ++ a') ++ sync_sequence ++ b').
            { rewrite <- app_assoc, <- E'. symmetry. apply takeZ_dropZ_app. }
            specialize (Hm _ _ Hr2). rewrite lenZ_app, lenZ_takeZ in Hm by lia. lia. }
        rewrite E. specialize (Hocc _ _ Ea).
        destruct (Z.leb_spec 0 (find_sub sync_sequence rest - (lenZ chunk - 7))); [|lia].
        f_equal. f_equal. lia.
      * destruct (Z.leb_spec 0 (find_sub sync_sequence rest')) as [H'|H']; [|reflexivity].
        apply find_sub_occurs in H' as (a & b & E). exfalso.
        apply (find_sub_none _ _ Hr (takeZ (lenZ chunk - 7) rest ++ a) b).
        rewrite <- app_assoc, <- E. symmetry. apply takeZ_dropZ_app.
Qed.

Lemma find_sync_spec f fuel pos u : 0 <= pos -> lenZ f - pos < Z.of_nat fuel -> (0 < fuel)%nat ->
  find_sync fuel f pos u =
  Some (let i := find_sub sync_sequence (dropZ pos f) in
        if 0 <=? i then (pos + i + 8, set_corrupt true u) else (pos, set_has_sync false u)).
Proof.
  intros Hp Hf Hk. unfold find_sync. rewrite find_sync_loop_spec by assumption. cbv zeta.
  destruct (0 <=? _); reflexivity.
Qed.

(** ** The data section terminates from every position and state *)
Lemma data_step_progress fuel cf until f pos cfp u :
  0 <= pos -> lenZ f - pos < Z.of_nat fuel -> bytes_ok f ->
  match data_step fuel cf until f pos cfp u with
  | SNext p _ _ => pos < p <= lenZ f
  | SNoFuel => False
  | _ => True
  end.
Proof.
  intros Hp Hf Hok. unfold data_step.
  destruct (rd f pos 3) as [|s0 [|s1 [|ty [|]]]] eqn:E; try exact I.
  assert (Hpos : pos + 3 <= lenZ f).
  { apply (f_equal lenZ) in E. unfold rd in E. rewrite lenZ_takeZ, lenZ_dropZ in E by lia.
    change (lenZ [s0; s1; ty]) with 3 in E. lia. }
  assert (Hs : 0 <= le_dec [s0; s1]).
  { apply (le_dec_range [s0; s1]). assert (H : bytes_ok (rd f pos 3)) by (apply Forall_takeZ, Forall_dropZ, Hok).
    rewrite E in H. inversion H as [|? ? Ha H2]; inversion H2 as [|? ? Hb _]; subst.
    constructor; [exact Ha|]. constructor; [exact Hb|constructor]. }
  cbv zeta. set (size := le_dec [s0; s1]) in *. clearbody size.
  destruct (Z.ltb_spec (lenZ (rd f (pos + 3) size)) size) as [Hl|Hl]; [exact I|].
  assert (Hend : pos + 3 + size <= lenZ f).
  { unfold rd in Hl. rewrite lenZ_takeZ, lenZ_dropZ in Hl by lia. lia. }
  destruct (until <? cfp + 3 + size); [exact I|].
  destruct (data_effect cf ty _ u) as [[u' [[]|]]|]; try exact I; try lia.
  destruct (packet_corrupt ty size).
  - destruct (u_has_sync (set_corrupt true u)); [|lia].
    rewrite find_sync_spec; [|lia|lia|lia]. cbv zeta.
    set (p := pos + 3 + size + (-2 - size)).
    destruct (Z.leb_spec 0 (find_sub sync_sequence (dropZ p f))) as [H|H]; [|lia].
    apply find_sub_first in H as H'. destruct H' as [(a & b & Ea & El) _].
    apply (f_equal lenZ) in Ea. rewrite !lenZ_app, lenZ_dropZ in Ea by lia.
    change (lenZ sync_sequence) with 8 in Ea. pose proof (lenZ_nonneg b). lia.
  - destruct (u_has_sync u); [|lia]. unfold find_sync_last.
    destruct (_ <? 8); [lia|]. change SYNC_BYTES with sync_sequence.
    set (ch := rd f (pos + 3 + size - size) size) in *.
    destruct (Z.leb_spec 0 (find_sub sync_sequence ch)) as [H|H]; [|lia].
    apply find_sub_first in H as H'. destruct H' as [(a & b & Ea & El) _].
    apply (f_equal lenZ) in Ea. rewrite !lenZ_app in Ea.
    change (lenZ sync_sequence) with 8 in Ea. pose proof (lenZ_nonneg b).
    assert (lenZ ch <= size). { unfold ch, rd. rewrite lenZ_takeZ by lia. lia. }
    lia.
Qed.

Lemma data_loop_terminates cf until f fuel : bytes_ok f -> forall pos cfp u,
  0 <= pos -> lenZ f - pos < Z.of_nat fuel -> (0 < fuel)%nat ->
  exists r, data_loop fuel cf until f pos cfp u = Some r.
Proof.
  intros Hok. induction fuel as [|k IH]; intros pos cfp u Hp Hf Hk; [lia|].
  cbn [data_loop]. pose proof (data_step_progress (S k) cf until f pos cfp u Hp Hf Hok) as H.
  destruct (data_step (S k) cf until f pos cfp u) as [p c u'|u'|e|]; eauto; [|contradiction].
  apply IH; lia.
Qed.

Lemma read_data_terminates cf until f pos u : bytes_ok f -> 0 <= pos ->
  exists n r, forall k, read_data (n + k) cf until f pos u = Some r.
Proof.
  intros Hok Hp.
  set (n := S (Z.to_nat (lenZ f))).
  destruct (data_loop_terminates cf until f n Hok pos pos u Hp) as [r Hr]; [unfold n; lia|unfold n; lia|].
  exists n. unfold read_data. exists (match r with Ok u' => finalize u' | Err e => Err e end). intros k.
  rewrite (data_loop_mono _ _ _ _ (n + k) _ _ _ _ Hr) by lia. destruct r; reflexivity.
Qed.

Lemma seek_abs_nonneg k o p : 0 <= o -> seek_abs k o = Ok p -> p = o.
Proof.
  unfold seek_abs. destruct k; repeat match goal with |- context [if ?b then _ else _] => destruct b end;
    intros ? H; congruence.
Qed.

Lemma read_sections_terminates cf f : bytes_ok f -> forall offs pos u, 0 <= pos ->
  Forall (fun o => 0 <= o) offs ->
  exists n r, forall k, read_sections (n + k) cf f offs pos u = Some r.
Proof.
  intros Hok. induction offs as [|o offs IH]; intros pos u Hp Ho.
  - destruct (read_data_terminates cf 1125899906842624 f pos u Hok Hp) as (n & r & H). exists n, r. exact H.
  - inversion Ho as [|? ? Ho1 Ho2]; subst.
    destruct (read_data_terminates cf o f pos u Hok Hp) as (n & r & H).
    destruct r as [u'|e].
    + destruct (seek_abs (cf_kind cf) o) as [p|e] eqn:Es.
      * assert (p = o) by (eapply seek_abs_nonneg; eauto). subst p.
        destruct (IH o u' Ho1 Ho2) as (n2 & r2 & H2). exists (n + n2)%nat, r2. intros k. cbn [read_sections].
        replace (n + n2 + k)%nat with (n + (n2 + k))%nat by lia. rewrite H, Es.
        replace (n + (n2 + k))%nat with (n2 + (n + k))%nat by lia. apply H2.
      * exists n, (Err e). intros k. cbn [read_sections]. now rewrite H, Es.
    + exists n, (Err e). intros k. cbn [read_sections]. now rewrite H.
Qed.
