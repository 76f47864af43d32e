(** When loading does not terminate: exactly if the definition reader comes to a place twice. *)
From Verif Require Import Base Dict Utf8 PyStr PyFloat Struct PySort ModelTypes ModelRead Spec SpecHang
  ProofsRead ProofsFile ProofsSync ProofsInv ProofsTrace ProofsChange ProofsLoad.

(** ** Exceptions of a definition do not depend on what was read before *)
Lemma append_last_err l x e : append_last l x = Err e -> e = IndexError.
Proof.
  induction l as [|g [|h l] IH]; intros H; [injection H as <-; reflexivity|discriminate H|].
  change (append_last (g :: h :: l) x) with (let* r' := append_last (h :: l) x in Ok (g :: r')) in H.
  destruct (append_last (h :: l) x) as [y|e0]; cbn [bind] in H; [discriminate H|].
  injection H as <-. now apply IH.
Qed.

Lemma effect_error cf ty d u w e : def_effect cf ty d u = Some (Err e) -> e <> IndexError ->
  def_effect cf ty d w = Some (Err e).
Proof.
  unfold def_effect. cbv zeta. intros H He.
  destruct (ty =? T_INFO). { destruct (parse_info _ _); [discriminate H|exact H]. }
  destruct (ty =? T_MULTI).
  { destruct (parse_info_multi _ _) as [[c m]|]; [|exact H]. cbn [bind fst snd] in *.
    apply (f_equal (fun o => match o with Some r => r | None => Err IndexError end)) in H. cbv beta iota in H.
    exfalso. apply He. unfold add_info_multi in H. destruct (sget (im_key m) (u_multi u)); [|discriminate].
    destruct (negb (c =? 0)); [|discriminate]. destruct (append_last l (im_value m)) eqn:E; [discriminate|].
    cbn [bind] in H. injection H as <-. eapply append_last_err, E. }
  destruct (ty =? T_FORMAT). { destruct (parse_format _ _); [discriminate H|exact H]. }
  destruct (ty =? T_PARAM). { destruct (parse_info _ _); [discriminate H|exact H]. }
  destruct (ty =? T_PDEF). { destruct (parse_pdef _ _); [discriminate H|exact H]. }
  destruct (ty =? T_FLAGS); [|exact H].
  destruct (parse_flags d) as [[[c i] o]|]; [|exact H]. cbn [bind] in *.
  destruct (negb (Z.land (nth 0 i 0) (Z.lnot 1) =? 0)); [exact H|].
  destruct (existsb _ _); [exact H|discriminate].
Qed.

Definition passes (cf : cfg) (ty : Z) (d : bytes) (u : ulog) : Prop :=
  match def_effect cf ty d u with Some (Err e) => e = IndexError | _ => True end.
Lemma passes_any cf ty d u w : passes cf ty d u -> passes cf ty d w.
Proof.
  unfold passes. intros H. destruct (def_effect cf ty d w) as [[|e]|] eqn:E; auto.
  assert (D : {e = IndexError} + {e <> IndexError}) by (destruct e; auto; right; discriminate).
  destruct D as [|D]; [assumption|]. rewrite (effect_error _ _ _ _ u _ E D) in H. exact H.
Qed.

Lemma harmless_passes cf ty p u : In ty def_types -> byte_ok ty -> bytes_ok p -> lenZ p < 65536 ->
  (harmless cf ty p <-> passes cf ty p u).
Proof.
  intros Hty Hb Hp Hl.
  set (cf' := mkCfg (cf_ign cf) (cf_filter cf) true (cf_depth cf) (cf_kind cf)).
  assert (Hpl : plain_def (ty, p)).
  { split; [split; [exact Hb|split; assumption]|]. split; [|left; exact Hty]. cbn [fst].
    unfold def_types in Hty. unfold end_types. cbn [In] in *. lia. }
  assert (Hh : header_fits 1 0) by (unfold header_fits, byte_ok; lia).
  assert (Ef : file_header 1 0 ++ frame ty p = file_header 1 0 ++ frames [(ty, p)] ++ []).
  { unfold frames. cbn [map concat fst snd]. now rewrite !app_nil_r. }
  assert (Heff : def_effect cf' ty p (after_header 1 0) = def_effect cf ty p (after_header 1 0)) by reflexivity.
  split.
  - intros (w & n & Hn). apply (passes_any _ _ _ (after_header 1 0)). fold cf' in Hn.
    assert (Hn2 : load (1 + n) cf' (file_header 1 0 ++ frame ty p) = Some (Ok w)) by (eapply load_mono; [exact Hn|lia]).
    unfold load, load_at in Hn2. rewrite (read_header_ok 1 0 (frame ty p) Hh) in Hn2. fold (after_header 1 0) in Hn2.
    change (0 + 16) with 16 in Hn2.
    assert (Ed : dropZ 16 (file_header 1 0 ++ frame ty p) = frames [(ty, p)] ++ []).
    { rewrite Ef. apply dropZ_app_exact. now rewrite lenZ_file_header. }
    pose proof (def_loop_frames cf' _ [(ty, p)] n 16 (after_header 1 0) [] ltac:(lia) Ed (Forall_cons (ty, p) Hpl (Forall_nil plain_def))) as Hd.
    cbn [length] in Hd. rewrite Hd in Hn2. cbn [run_def] in Hn2. unfold passes.
    rewrite Heff in Hn2. destruct (def_effect cf ty p (after_header 1 0)) as [[|e]|]; auto.
    destruct e; auto; discriminate.
  - intros Hps. apply (passes_any _ _ _ _ (after_header 1 0)) in Hps.
    assert (Hr : exists w, run_def cf' [(ty, p)] (after_header 1 0) = Ok w).
    { cbn [run_def]. unfold passes in Hps. rewrite Heff. destruct (def_effect cf ty p (after_header 1 0)) as [[|e]|]; eauto.
      subst e. eauto. }
    destruct Hr as [w Hw]. exists w.
    refine (load_header_only cf' 1 0 [(ty, p)] w [] [] _ _ Hh eq_refl _ Hw I _ _).
    + rewrite Ef. reflexivity.
    + exact (Forall_cons (ty, p) Hpl (Forall_nil plain_def)).
    + reflexivity.
    + constructor.
Qed.

(** ** One step *)
Lemma step_moves cf f q q' u : bytes_ok f -> 0 <= q ->
  (moves cf f q q' <-> exists u', def_step cf f q u = DNext q' u').
Proof.
  intros Hok Hq.
  assert (Esl : slice q (q + 3) f = rd f q 3) by (unfold slice, rd; f_equal; lia).
  assert (Hb : forall s0 s1 ty, rd f q 3 = [s0; s1; ty] -> byte_ok s0 /\ byte_ok s1 /\ byte_ok ty).
  { intros s0 s1 ty E. assert (H : bytes_ok (rd f q 3)) by (apply Forall_takeZ, Forall_dropZ, Hok).
    rewrite E in H. inversion H as [|? ? Ha H2]; inversion H2 as [|? ? Hb' H3]; inversion H3; subst. auto. }
  assert (Hlen3 : forall s0 s1 ty, rd f q 3 = [s0; s1; ty] -> q + 3 <= lenZ f).
  { intros s0 s1 ty E. apply (f_equal lenZ) in E. unfold rd in E. rewrite lenZ_takeZ, lenZ_dropZ in E by lia.
    change (lenZ [s0; s1; ty]) with 3 in E. lia. }
  assert (Edata : forall s0 s1, slice (q + 3) (q + 3 + (s0 + 256 * s1)) f = rd f (q + 3) (le_dec [s0; s1])).
  { intros s0 s1. unfold slice, rd. f_equal. cbn [le_dec]. lia. }
  assert (Hlen : forall s0 s1, byte_ok s0 -> byte_ok s1 -> q + 3 <= lenZ f ->
            lenZ (rd f (q + 3) (le_dec [s0; s1])) = Z.min (s0 + 256 * s1) (lenZ f - (q + 3))).
  { intros s0 s1 H0 H1 H3. unfold byte_ok in *. unfold rd. rewrite lenZ_takeZ, lenZ_dropZ by (cbn [le_dec]; lia). cbn [le_dec]. lia. }
  assert (Hkn : forall ty d, (forall x, def_effect cf ty d u <> Some x) <-> ~ In ty def_types).
  { intros ty d. split; intros H.
    - intros Hin. destruct (def_effect_known cf ty d u Hin) as [x Hx]. now apply (H x).
    - intros x Hx. rewrite def_effect_None in Hx by exact H. discriminate. }
  assert (Hend : forall ty, (ty =? T_ADD) || (ty =? T_LOG) || (ty =? T_LOGT) = true <-> In ty end_types).
  { intros ty. unfold T_ADD, T_LOG, T_LOGT, end_types. cbn [In]. lia. }
  split.
  - intros H. unfold def_step. cbv zeta.
    assert (Hgo : forall s0 s1 ty, slice q (q + 3) f = [s0; s1; ty] -> ~ In ty def_types -> ~ In ty end_types ->
              def_effect cf ty (rd f (q + 3) (le_dec [s0; s1])) u = None /\
              (ty =? T_ADD) || (ty =? T_LOG) || (ty =? T_LOGT) = false).
    { intros s0 s1 ty E Hd He. split; [now apply def_effect_None|]. apply not_true_is_false. now rewrite Hend. }
    destruct H as [s0 s1 ty E Hd Hh|s0 s1 ty E Hd He H0 Hs|s0 s1 ty q' E Hd He Hc Hback].
    + rewrite Esl in E. destruct (Hb _ _ _ E) as (B0 & B1 & Bt). pose proof (Hlen3 _ _ _ E) as H3. rewrite E.
      rewrite Edata in Hh.
      pose proof (Hlen s0 s1 B0 B1 H3) as HL.
      apply (harmless_passes cf ty _ u Hd Bt) in Hh;
        [|apply Forall_takeZ, Forall_dropZ, Hok | unfold byte_ok in *; lia].
      unfold passes in Hh. destruct (def_effect_known cf ty (rd f (q + 3) (le_dec [s0; s1])) u Hd) as [x Hx].
      rewrite Hx in Hh |- *. replace (Z.min _ _) with (q + 3 + lenZ (rd f (q + 3) (le_dec [s0; s1]))) by lia.
      destruct x as [v|e]; [eauto|]. subst e. eauto.
    + destruct (Hgo _ _ _ E Hd He) as [G1 G2]. rewrite Esl in E. destruct (Hb _ _ _ E) as (B0 & B1 & Bt). pose proof (Hlen3 _ _ _ E) as H3. rewrite E.
      rewrite G1, G2. pose proof (Hlen s0 s1 B0 B1 H3) as HL.
      unfold packet_corrupt. replace (le_dec [s0; s1]) with (s0 + 256 * s1) in * by (cbn [le_dec]; lia).
      assert ((ty =? 0) || (s0 + 256 * s1 =? 0) || (10000 <? s0 + 256 * s1) = false) as -> by lia.
      replace (Z.min _ _) with (q + 3 + lenZ (rd f (q + 3) (s0 + 256 * s1))) by lia. eauto.
    + destruct (Hgo _ _ _ E Hd He) as [G1 G2]. rewrite Esl in E. destruct (Hb _ _ _ E) as (B0 & B1 & Bt). pose proof (Hlen3 _ _ _ E) as H3. rewrite E.
      rewrite G1, G2. pose proof (Hlen s0 s1 B0 B1 H3) as HL.
      unfold packet_corrupt. replace (le_dec [s0; s1]) with (s0 + 256 * s1) in * by (cbn [le_dec]; lia).
      assert ((ty =? 0) || (s0 + 256 * s1 =? 0) || (10000 <? s0 + 256 * s1) = true) as -> by lia.
      cbv zeta in Hback. unfold seek_rel.
      destruct Hback as [[Hn ->]|(Hn & -> & ->)].
      * destruct (Z.ltb_spec (q + 3 + lenZ (rd f (q + 3) (s0 + 256 * s1)) + (-2 - (s0 + 256 * s1))) 0); [lia|].
        replace (Z.min _ _ - _ - 2) with (q + 3 + lenZ (rd f (q + 3) (s0 + 256 * s1)) + (-2 - (s0 + 256 * s1))) by lia. eauto.
      * destruct (Z.ltb_spec (q + 3 + lenZ (rd f (q + 3) (s0 + 256 * s1)) + (-2 - (s0 + 256 * s1))) 0); [|lia]. eauto.
  - intros [u' H]. unfold def_step in H. cbv zeta in H.
    destruct (rd f q 3) as [|s0 [|s1 [|ty [|]]]] eqn:E; try discriminate.
    destruct (Hb _ _ _ eq_refl) as (B0 & B1 & Bt). pose proof (Hlen3 _ _ _ eq_refl) as H3.
    pose proof (Hlen s0 s1 B0 B1 H3) as HL.
    assert (Hps : In ty def_types -> passes cf ty (rd f (q + 3) (le_dec [s0; s1])) u ->
                  moves cf f q (q + 3 + lenZ (rd f (q + 3) (le_dec [s0; s1])))).
    { intros Hin Hps. replace (q + 3 + _) with (Z.min (q + 3 + (s0 + 256 * s1)) (lenZ f)) by lia.
      apply moves_definition with ty; [exact Esl|exact Hin|]. rewrite Edata.
      apply (harmless_passes cf ty _ u Hin Bt); [apply Forall_takeZ, Forall_dropZ, Hok|unfold byte_ok in *; lia|exact Hps]. }
    assert (Hin : forall x, def_effect cf ty (rd f (q + 3) (le_dec [s0; s1])) u = Some x -> In ty def_types).
    { intros x Hx. destruct (in_dec Z.eq_dec ty def_types) as [|n]; [assumption|].
      exfalso. revert x Hx. apply (Hkn ty (rd f (q + 3) (le_dec [s0; s1]))). exact n. }
    destruct (def_effect cf ty (rd f (q + 3) (le_dec [s0; s1])) u) as [[v|e]|] eqn:Ee.
    + injection H as <- _. apply Hps; [eapply Hin; eauto|]. unfold passes. now rewrite Ee.
    + destruct e; try discriminate. injection H as <- _. apply Hps; [eapply Hin; eauto|]. unfold passes. now rewrite Ee.
    + assert (Hd : ~ In ty def_types).
      { apply (Hkn ty (rd f (q + 3) (le_dec [s0; s1]))). intros x. rewrite Ee. discriminate. }
      destruct (_ || _ || _) eqn:Eend; [destruct (seek_rel _ _ _); discriminate|].
      assert (He : ~ In ty end_types) by (rewrite <- Hend, Eend; discriminate).
      unfold packet_corrupt in H. replace (le_dec [s0; s1]) with (s0 + 256 * s1) in * by (cbn [le_dec]; lia).
      destruct ((ty =? 0) || (s0 + 256 * s1 =? 0) || (10000 <? s0 + 256 * s1)) eqn:Ep.
      * destruct (seek_rel _ _ _) as [p|] eqn:Es; [|discriminate]. injection H as <- _.
        apply moves_corrupt with s0 s1 ty; [exact Esl|exact Hd|exact He|lia|]. cbv zeta.
        unfold seek_rel in Es.
        destruct (Z.ltb_spec (q + 3 + lenZ (rd f (q + 3) (s0 + 256 * s1)) + (-2 - (s0 + 256 * s1))) 0).
        -- right. destruct (cf_kind cf); [discriminate|]. injection Es as <-. split; [lia|auto].
        -- left. apply (f_equal (fun r => match r with Ok x => x | Err _ => 0 end)) in Es. cbv beta iota in Es. lia.
      * apply (f_equal (fun r => match r with DNext x _ => x | _ => 0 end)) in H. cbv beta iota in H.
        assert (q' = Z.min (q + 3 + (s0 + 256 * s1)) (lenZ f)) as -> by (unfold byte_ok in *; lia).
        apply moves_unknown with ty; [exact Esl|exact Hd|exact He|unfold byte_ok in *; lia|unfold byte_ok in *; lia].
Qed.

Lemma moves_range cf f q q' : bytes_ok f -> 0 <= q -> moves cf f q q' -> 0 <= q' <= lenZ f.
Proof.
  intros Hok Hq H.
  assert (Hx : forall s0 s1 ty, slice q (q + 3) f = [s0; s1; ty] -> byte_ok s0 /\ byte_ok s1 /\ q + 3 <= lenZ f).
  { intros s0 s1 ty E. assert (Hb : bytes_ok (slice q (q + 3) f)) by (apply Forall_slice, Hok).
    apply (f_equal lenZ) in E as E2. unfold slice in E2. rewrite lenZ_takeZ, lenZ_dropZ in E2 by lia.
    change (lenZ [s0; s1; ty]) with 3 in E2.
    rewrite E in Hb. inversion Hb as [|? ? Ha H2]; inversion H2; subst. repeat split; try assumption; unfold byte_ok in *; lia. }
  destruct H as [s0 s1 ty E|s0 s1 ty E|s0 s1 ty q' E ? ? ? Hb]; destruct (Hx _ _ _ E) as (B0 & B1 & H3); unfold byte_ok in *.
  - lia.
  - lia.
  - cbv zeta in Hb. pose proof (lenZ_nonneg f). lia.
Qed.

Lemma many_range cf f q q' : bytes_ok f -> 0 <= q -> moves_many cf f q q' -> 0 <= q'.
Proof. intros Hok Hq H. revert Hq. induction H; intros; auto. apply IHmoves_many. eapply moves_range; eauto. Qed.

(** ** Coming back is never finishing *)
Lemma many_loop cf f q s : bytes_ok f -> moves_many cf f q s -> 0 <= q -> forall n u r, def_loop n cf f q u = Some r ->
  exists m u', (m <= n)%nat /\ def_loop m cf f s u' = Some r.
Proof.
  intros Hok H. induction H as [q|q r0 s Hm Hs IH]; intros Hq n u r Hn; [eauto|].
  destruct n as [|n]; [discriminate|].
  pose proof (moves_range _ _ _ _ Hok Hq Hm) as [Hr _].
  apply (step_moves cf f q r0 u Hok Hq) in Hm as [u' Hu]. cbn [def_loop] in Hn. rewrite Hu in Hn.
  destruct (IH Hr n u' r Hn) as (m & w & Hle & Hw). exists m, w. split; [lia|exact Hw].
Qed.

Lemma back_loop cf f q r : bytes_ok f -> 0 <= q -> moves cf f q r -> moves_many cf f r q ->
  forall n u, def_loop n cf f q u = None.
Proof.
  intros Hok Hq Hm Hs n. induction n as [n IH] using lt_wf_ind. intros u.
  destruct (def_loop n cf f q u) as [x|] eqn:E; [|reflexivity].
  destruct n as [|n]; [discriminate|].
  pose proof (moves_range _ _ _ _ Hok Hq Hm) as [Hr _].
  pose proof Hm as Hm'. apply (step_moves cf f q r u Hok Hq) in Hm' as [u' Hu]. cbn [def_loop] in E. rewrite Hu in E.
  destruct (many_loop _ _ _ _ Hok Hs Hr _ _ _ E) as (m & w & Hle & Hw).
  rewrite IH in Hw by lia. discriminate.
Qed.

(** ** Not finishing is coming back *)
Fixpoint path (cf : cfg) (f : bytes) (q : Z) (l : list Z) : Prop :=
  match l with [] => True | r :: l' => moves cf f q r /\ path cf f r l' end.

Lemma loop_path cf f n : bytes_ok f -> forall q u, 0 <= q -> def_loop n cf f q u = None ->
  exists l, length l = n /\ path cf f q l.
Proof.
  intros Hok. induction n as [|n IH]; intros q u Hq H; [exists []; split; [reflexivity|exact I]|].
  cbn [def_loop] in H. destruct (def_step cf f q u) as [r u'|r u'|e] eqn:E; try discriminate.
  assert (Hm : moves cf f q r) by (apply (step_moves cf f q r u Hok Hq); eauto).
  pose proof (moves_range _ _ _ _ Hok Hq Hm) as [Hr _].
  destruct (IH r u' Hr H) as (l & Hl & Hp). exists (r :: l). split; [cbn; lia|]. split; assumption.
Qed.

Lemma path_range cf f l : bytes_ok f -> forall q, 0 <= q -> path cf f q l -> Forall (fun r => 0 <= r <= lenZ f) l.
Proof.
  intros Hok. induction l as [|r l IH]; intros q Hq H; constructor; destruct H as [H1 H2].
  - eapply moves_range; eauto.
  - eapply IH; [|exact H2]. eapply moves_range; eauto.
Qed.

Lemma repeated (l : list Z) : ~ NoDup l -> exists a x b c, l = a ++ x :: b ++ x :: c.
Proof.
  induction l as [|x l IH]; intros H; [exfalso; apply H; constructor|].
  destruct (in_dec Z.eq_dec x l) as [Hin|Hin].
  - apply in_split in Hin as (b & c & ->). exists [], x, b, c. reflexivity.
  - destruct IH as (a & y & b & c & ->).
    + intros Hnd. apply H. now constructor.
    + exists (x :: a), y, b, c. reflexivity.
Qed.

Lemma path_app cf f a : forall q x b, path cf f q (a ++ x :: b) -> moves_many cf f q x /\ path cf f x b.
Proof.
  induction a as [|r a IH]; intros q x b H; cbn [app path] in H; destruct H as [H1 H2].
  - split; [econstructor; [exact H1|constructor]|exact H2].
  - apply IH in H2 as [H2 H3]. split; [econstructor; eauto|exact H3].
Qed.

Lemma path_plus cf f a : forall q x b, path cf f q (a ++ x :: b) ->
  exists r, moves cf f q r /\ moves_many cf f r x.
Proof.
  intros q x b H. destruct a as [|r a]; cbn [app path] in H; destruct H as [H1 H2].
  - exists x. split; [exact H1|constructor].
  - exists r. split; [exact H1|]. apply path_app in H2. apply H2.
Qed.

Lemma path_back cf f l : bytes_ok f -> path cf f 16 l -> lenZ f + 1 < Z.of_nat (length l) -> comes_back cf f.
Proof.
  intros Hok Hp Hl.
  assert (Hn : ~ NoDup l).
  { intros Hnd.
    assert (Hincl : incl l (map Z.of_nat (seq 0 (S (length f))))).
    { intros r Hr. pose proof (path_range cf f l Hok 16 ltac:(lia) Hp) as HF.
      rewrite Forall_forall in HF. specialize (HF r Hr). unfold lenZ in HF.
      replace r with (Z.of_nat (Z.to_nat r)) by lia. apply in_map. apply in_seq. lia. }
    pose proof (NoDup_incl_length Hnd Hincl) as H. rewrite map_length, seq_length in H. unfold lenZ in Hl. lia. }
  apply repeated in Hn as (a & x & b & c & ->).
  apply path_app in Hp as [H1 H2]. apply path_plus in H2 as (r & H3 & H4).
  exists x, r. auto.
Qed.

(** ** The law *)
Theorem diverges_iff cf f : bytes_ok f -> (diverges cf f <-> has_header f /\ comes_back cf f).
Proof.
  intros Hok. destruct (read_header_cases f Hok) as [[Hbad Hh]|(v & t & rest & Ef & Hfit & Hh)].
  - split.
    + intros H. specialize (H O). unfold load, load_at in H. rewrite Hh in H. discriminate.
    + intros [(v & t & rest & Hfit & ->) _]. rewrite (read_header_ok v t rest Hfit) in Hh. discriminate.
  - split.
    + intros H. split; [exists v, t, rest; auto|].
      destruct (def_loop (Z.to_nat (lenZ f + 2)) cf f 16 (after_header v t)) as [r|] eqn:E.
      * destruct (load_terminates_after cf f v t _ r Hok Hh E) as (r' & n & Hn). rewrite H in Hn. discriminate.
      * destruct (loop_path cf f _ Hok 16 _ ltac:(lia) E) as (l & Hl & Hp).
        apply (path_back cf f l Hok Hp). pose proof (lenZ_nonneg f). lia.
    + intros [_ (q & r & H1 & H2 & H3)] n. unfold load, load_at. rewrite Hh. cbv zeta. fold (after_header v t).
      change (0 + 16) with 16.
      destruct (def_loop n cf f 16 (after_header v t)) as [x|] eqn:E; [|reflexivity].
      exfalso. pose proof (many_range cf f 16 q Hok ltac:(lia) H1) as Hq.
      destruct (many_loop cf f 16 q Hok H1 ltac:(lia) _ _ _ E) as (m & w & _ & Hw).
      rewrite (back_loop cf f q r Hok Hq H2 H3 m w) in Hw. discriminate.
Qed.

(** Whether a load finishes is decided after as many messages as the file has bytes. *)
Theorem finishes_or_not cf f : bytes_ok f -> (exists r, produces cf f r) \/ diverges cf f.
Proof.
  intros Hok. destruct (read_header_cases f Hok) as [[Hbad Hh]|(v & t & rest & Ef & Hfit & Hh)].
  - left. exists (Err TypeError), O. unfold load, load_at. now rewrite Hh.
  - destruct (def_loop (Z.to_nat (lenZ f + 2)) cf f 16 (after_header v t)) as [r|] eqn:E.
    + left. eapply load_terminates_after; eauto.
    + right. apply diverges_iff; [exact Hok|]. split; [exists v, t, rest; auto|].
      destruct (loop_path cf f _ Hok 16 _ ltac:(lia) E) as (l & Hl & Hp).
      apply (path_back cf f l Hok Hp). pose proof (lenZ_nonneg f). lia.
Qed.
