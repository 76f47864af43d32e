(** Proofs about the way of the reader through an arbitrary file (C70). *)
From Coq Require Import Permutation Sorted.
From Verif Require Import Base Dict Utf8 PyStr PyFloat Struct PySort ModelTypes ModelRead Spec SpecSection SpecDefect SpecWalk
  ProofsRead ProofsFile ProofsSync ProofsInv ProofsTrace ProofsChange ProofsLoad ProofsSection ProofsData ProofsWhole ProofsDefect.
Ltac Zify.zify_post_hook ::= Z.div_mod_to_equations.
Local Ltac unbind H := repeat match type of H with
  | bind _ _ = Ok _ => let x := fresh "x" in let E := fresh "E" in apply bind_Ok_inv in H as (x & E & H)
  end.

(** ** Messages at a place *)
Lemma rd_slice f q n : rd f q n = slice q (q + n) f.
Proof. unfold rd, slice. f_equal. lia. Qed.
Lemma message_at_drop f q ty p : message_at f q ty p -> exists tail, dropZ q f = frame ty p ++ tail.
Proof.
  intros H. exists (dropZ (3 + lenZ p) (dropZ q f)). rewrite <- H. unfold slice.
  replace (q + 3 + lenZ p - q) with (3 + lenZ p) by lia. now rewrite takeZ_dropZ_app.
Qed.
Lemma message_at_fits f q ty p : bytes_ok f -> message_at f q ty p -> frame_fits (ty, p).
Proof.
  intros Hb H. assert (B : bytes_ok (frame ty p)) by (rewrite <- H; apply Forall_slice, Hb).
  unfold frame in B. inversion B as [|? ? _ B1]; subst. inversion B1 as [|? ? B2 B3]; subst. inversion B3 as [|? ? B4 B5]; subst.
  split; [exact B4|]. split; [exact B5|]. cbn [snd]. unfold byte_ok in B2. pose proof (lenZ_nonneg p). lia.
Qed.
(** reading a header and its payload *)
Lemma message_at_rd f q ty p : 0 <= q -> bytes_ok f -> message_at f q ty p ->
  exists s0 s1, rd f q 3 = [s0; s1; ty] /\ le_dec [s0; s1] = lenZ p /\ rd f (q + 3) (lenZ p) = p /\ q + 3 + lenZ p <= lenZ f.
Proof.
  intros Hq Hb H. destruct (message_at_fits f q ty p Hb H) as (_ & _ & Hl). cbn [snd] in Hl. pose proof (lenZ_nonneg p).
  destruct (message_at_drop f q ty p H) as (tail & E). exists (lenZ p mod 256), (lenZ p / 256).
  split; [eapply rd_frame_hd; eauto|]. split; [apply le2; lia|]. split; [eapply rd_frame_payload; eauto|].
  assert (L : lenZ (dropZ q f) = lenZ (frame ty p ++ tail)) by now rewrite E.
  rewrite lenZ_app, lenZ_frame in L. pose proof (lenZ_nonneg tail). destruct (Z.le_gt_cases q (lenZ f)) as [C|C].
  - rewrite lenZ_dropZ in L by lia. lia.
  - exfalso. assert (D : dropZ q f = []) by (apply dropZ_all; lia). rewrite D in L. change (lenZ (@nil Z)) with 0 in L. lia.
Qed.
Lemma rd_message_at f q s0 s1 ty : 0 <= q -> bytes_ok f -> rd f q 3 = [s0; s1; ty] ->
  lenZ (rd f (q + 3) (le_dec [s0; s1])) = le_dec [s0; s1] -> message_at f q ty (rd f (q + 3) (le_dec [s0; s1])).
Proof. intros Hq Hb H1 H2. unfold message_at. rewrite H2 at 1. now apply rd_frame_back. Qed.
Lemma message_at_fun f q ty p ty' p' : 0 <= q -> bytes_ok f -> message_at f q ty p -> message_at f q ty' p' -> ty' = ty /\ p' = p.
Proof.
  intros Hq Hb H H'. destruct (message_at_rd _ _ _ _ Hq Hb H) as (s0 & s1 & A & B & C & _).
  destruct (message_at_rd _ _ _ _ Hq Hb H') as (t0 & t1 & A' & B' & C' & _). rewrite A in A'.
  assert (E1 : s0 = t0) by congruence. assert (E2 : s1 = t1) by congruence. assert (E3 : ty' = ty) by congruence. subst.
  split; [reflexivity|]. rewrite B in B'. rewrite <- C, <- C'. now rewrite B'.
Qed.
(** there is a message at [q] or there is none *)
Lemma message_at_dec f q : 0 <= q -> bytes_ok f ->
  (exists ty p, message_at f q ty p) \/ (forall ty p, ~ message_at f q ty p).
Proof.
  intros Hq Hb. destruct (rd f q 3) as [|s0 [|s1 [|ty [|]]]] eqn:E;
    try (right; intros ty0 p0 H; destruct (message_at_rd _ _ _ _ Hq Hb H) as (t0 & t1 & A & _); congruence).
  destruct (Z.eq_dec (lenZ (rd f (q + 3) (le_dec [s0; s1]))) (le_dec [s0; s1])) as [L|L].
  - left. exists ty, (rd f (q + 3) (le_dec [s0; s1])). now apply rd_message_at.
  - right. intros ty0 p0 H. destruct (message_at_rd _ _ _ _ Hq Hb H) as (t0 & t1 & A & B & C & _).
    apply L. rewrite E in A. assert (E1 : s0 = t0) by congruence. assert (E2 : s1 = t1) by congruence. subst. rewrite B, C. reflexivity.
Qed.

Lemma doubtful_corrupt ty n : 0 <= n -> packet_corrupt ty n = true <-> doubtful ty n.
Proof. intros H. unfold packet_corrupt, doubtful. lia. Qed.
Lemma doubtful_dec ty n : doubtful ty n \/ ~ doubtful ty n.
Proof. unfold doubtful. lia. Qed.
Lemma occurs_dec s : (exists i, first_occurrence sync_sequence s i) \/ ~ occurs sync_sequence s.
Proof.
  destruct (Z.le_gt_cases 0 (find_sub sync_sequence s)) as [H|H].
  - left. exists (find_sub sync_sequence s). now apply find_sub_first.
  - right. intros C. apply find_sub_occurs in C. lia.
Qed.
Lemma first_occurs s i : first_occurrence sync_sequence s i -> occurs sync_sequence s /\ 0 <= i /\ i + 8 <= lenZ s.
Proof.
  intros [(a & b & E & L) _]. split; [exists a, b; exact E|]. pose proof (lenZ_nonneg a). split; [lia|].
  rewrite E, !lenZ_app. pose proof (lenZ_nonneg b). change (lenZ sync_sequence) with 8. lia.
Qed.

(** ** Every section can be walked, in one way *)
Lemma walk_exists f limit : bytes_ok f -> forall q c look, 0 <= q -> exists evs, walk f limit q c look evs.
Proof.
  intros Hb. assert (G : forall n q c look, 0 <= q -> lenZ f - q < Z.of_nat n -> exists evs, walk f limit q c look evs).
  2:{ intros q c look Hq. apply (G (S (Z.to_nat (lenZ f))) q c look Hq). lia. }
  induction n as [|n IH]; intros q c look Hq Hn.
  - exists []. apply walk_end. intros ty p H. destruct (message_at_rd _ _ _ _ Hq Hb H) as (_ & _ & _ & _ & _ & L). pose proof (lenZ_nonneg p). lia.
  - destruct (message_at_dec f q Hq Hb) as [(ty & p & H)|H]; [|exists []; apply walk_end; intros ty p C; destruct (H _ _ C)].
    destruct (message_at_rd _ _ _ _ Hq Hb H) as (_ & _ & _ & _ & _ & L). pose proof (lenZ_nonneg p) as Lp.
    destruct (Z.le_gt_cases (c + 3 + lenZ p) limit) as [Hc|Hc].
    2:{ exists []. apply walk_end. intros ty' p' H'. destruct (message_at_fun _ _ _ _ _ _ Hq Hb H H') as [-> ->]. lia. }
    destruct (in_dec Z.eq_dec ty data_types) as [Ht|Ht].
    { destruct (IH (q + 3 + lenZ p) (c + 3 + lenZ p) look) as (evs & E); [lia|lia|]. exists (EMsg ty p :: evs). now apply walk_message. }
    destruct (doubtful_dec ty (lenZ p)) as [Hd|Hd].
    + destruct look.
      * destruct (occurs_dec (dropZ (q + 1) f)) as [(i & Hi)|Hi].
        -- destruct (first_occurs _ _ Hi) as (_ & Hi0 & Hi1). rewrite lenZ_dropZ in Hi1 by lia.
           destruct (IH (q + 1 + i + 8) (q + 1) true) as (evs & E); [lia|lia|]. exists (ECorrupt :: evs). eapply walk_sync; eauto.
        -- destruct (IH (q + 1) (q + 1) false) as (evs & E); [lia|lia|]. exists (ECorrupt :: ENoSync :: evs). eapply walk_no_sync; eauto.
      * destruct (IH (q + 1) (q + 1) false) as (evs & E); [lia|lia|]. exists (ECorrupt :: evs). eapply walk_byte; eauto.
    + destruct (occurs_dec p) as [(i & Hi)|Hi].
      * destruct (first_occurs _ _ Hi) as (_ & Hi0 & Hi1). destruct look.
        -- destruct (IH (q + 3 + i + 8) (c + 3 + lenZ p) true) as (evs & E); [lia|lia|]. exists (ECorrupt :: evs). eapply walk_inside; eauto.
        -- destruct (IH (q + 3 + lenZ p) (c + 3 + lenZ p) false) as (evs & E); [lia|lia|]. exists evs. eapply walk_skip; eauto. discriminate.
      * destruct (IH (q + 3 + lenZ p) (c + 3 + lenZ p) look) as (evs & E); [lia|lia|]. exists evs. eapply walk_skip; eauto.
Qed.

(** ** What the reader does is the walk *)
Definition fixed (u : ulog) := (u_has_sync u, u_formats u, u_offsets u, u_incompat u).
Lemma data_effect_fixed cf ty p u v e : data_effect cf ty p u = Some (v, e) -> fixed v = fixed u.
Proof.
  intros H. unfold eff_of in *.
  apply data_effect_shape in H as [(-> & H)|[(-> & H)|[(-> & H)|[(-> & H)|[(-> & H)|[(-> & H)|[(-> & H)|[(-> & H)|[(-> & H)|(-> & H)]]]]]]]]];
    unfold eff_of in H.
  all: try (match type of H with (_, _) = match ?r with Ok _ => _ | Err _ => _ end => destruct r as [w|] eqn:E; injection H as -> ->; [|reflexivity] end;
      unbind E; try (injection E as <-; reflexivity)).
  - apply add_info_multi_inv in E as (a & b & ->). reflexivity.
  - injection E as <-. destruct (cf_filter cf _); reflexivity.
  - unfold data_msg in H. cbv zeta in H.
    destruct (unpack_u 2 _); [|injection H as -> ->; reflexivity]. destruct (zget _ (u_subs u)) as [s|].
    + destruct (_ || _); [injection H as -> ->; reflexivity|].
      match type of H with context [set_subs ?x u] => set (sb := x) in H end.
      destruct (unpack_u 8 _) as [ts|]; [destruct (u_last u <? _)|]; injection H as -> ->; reflexivity.
    + destruct (existsb _ _); injection H as -> ->; reflexivity.
  - injection H as -> _. reflexivity.
Qed.

Lemma data_effect_sync cf ty p u v e : data_effect cf ty p u = Some (v, e) -> u_has_sync v = u_has_sync u.
Proof. intros H. apply data_effect_fixed in H. exact (f_equal (fun x => fst (fst (fst x))) H). Qed.

Lemma data_step_none fuel cf limit f q c u : 0 <= q -> bytes_ok f ->
  (forall ty p, message_at f q ty p -> limit < c + 3 + lenZ p) -> data_step fuel cf limit f q c u = SStop u.
Proof.
  intros Hq Hb H. unfold data_step. cbv zeta. destruct (rd f q 3) as [|s0 [|s1 [|ty [|]]]] eqn:E; auto.
  destruct (Z.ltb_spec (lenZ (rd f (q + 3) (le_dec [s0; s1]))) (le_dec [s0; s1])) as [L|L]; auto.
  assert (S0 : 0 <= le_dec [s0; s1]).
  { assert (B : bytes_ok [s0; s1; ty]) by (rewrite <- E; apply Forall_takeZ, Forall_dropZ, Hb).
    inversion B as [|? ? B0 B1]; subst. inversion B1 as [|? ? B2 _]; subst. unfold byte_ok in *. cbn [le_dec]. lia. }
  assert (L' : lenZ (rd f (q + 3) (le_dec [s0; s1])) = le_dec [s0; s1]).
  { assert (lenZ (rd f (q + 3) (le_dec [s0; s1])) <= le_dec [s0; s1]) by (unfold rd; rewrite lenZ_takeZ by lia; lia). lia. }
  pose proof (H _ _ (rd_message_at f q s0 s1 ty Hq Hb E L')) as C. rewrite L' in C.
  destruct (Z.ltb_spec limit (c + 3 + le_dec [s0; s1])); [reflexivity|lia].
Qed.
(** one iteration at a message within the limit *)
Lemma data_step_at fuel cf limit f q c u ty p : 0 <= q -> bytes_ok f -> message_at f q ty p -> c + 3 + lenZ p <= limit ->
  data_step fuel cf limit f q c u =
  match data_effect cf ty p u with
  | Some (u', None) => SNext (q + 3 + lenZ p) (c + 3 + lenZ p) u'
  | Some (u', Some IndexError) => SNext (q + 3 + lenZ p) (c + 3 + lenZ p) (set_corrupt true u')
  | Some (u', Some StructError) => SStop u'
  | Some (_, Some e) => SRaise e
  | None =>
    if packet_corrupt ty (lenZ p) then
      if u_has_sync u then
        match find_sync fuel f (q + 1) (set_corrupt true u) with Some (r, u2) => SNext r (q + 1) u2 | None => SNoFuel end
      else SNext (q + 1) (q + 1) (set_corrupt true u)
    else
      if u_has_sync u then let '(r, u2) := find_sync_last f (q + 3 + lenZ p) (lenZ p) u in SNext r (c + 3 + lenZ p) u2
      else SNext (q + 3 + lenZ p) (c + 3 + lenZ p) u
  end.
Proof.
  intros Hq Hb H Hc. destruct (message_at_rd _ _ _ _ Hq Hb H) as (s0 & s1 & A & B & C & _).
  unfold data_step. cbv zeta. rewrite A, B, C. rewrite Z.ltb_irrefl. destruct (Z.ltb_spec limit (c + 3 + lenZ p)); [lia|].
  destruct (data_effect cf ty p u) as [[u' [[]|]]|]; try reflexivity.
  replace (q + 3 + lenZ p + (-2 - lenZ p)) with (q + 1) by lia. reflexivity.
Qed.

Definition loop_result (r : run) : res ulog := match r with RDone u' | RStop u' => Ok u' | RRaise e => Err e end.
Lemma data_loop_walk cf f limit q c look evs : bytes_ok f -> walk f limit q c look evs -> 0 <= q -> forall fuel u,
  u_has_sync u = look -> lenZ f - q < Z.of_nat fuel -> (0 < fuel)%nat ->
  data_loop fuel cf limit f q c u = Some (loop_result (run_events cf evs u)).
Proof.
  intros Hb W. induction W as [q c look H|q c look ty p evs H Hc Ht W IH|q c look ty p evs H Hc Ht Hd Ho W IH|q c ty p i evs H Hc Ht Hd Ho W IH|q c ty p i evs H Hc Ht Hd Ho W IH|q c ty p evs H Hc Ht Hd Ho W IH|q c ty p evs H Hc Ht Hd W IH];
    intros Hq fuel u Hs Hf H0; (destruct fuel as [|k]; [lia|]); cbn [data_loop].
  - rewrite data_step_none by assumption. reflexivity.
  - destruct (message_at_rd _ _ _ _ Hq Hb H) as (_ & _ & _ & _ & _ & L). pose proof (lenZ_nonneg p) as Lp.
    rewrite (data_step_at _ _ _ _ _ _ _ _ _ Hq Hb H Hc). destruct (data_effect_known cf ty p u Ht) as ([u' e] & Ee).
    pose proof (data_effect_sync _ _ _ _ _ _ Ee) as Es.
    cbn [run_events data_event run_data]. rewrite Ee. destruct e as [[]|]; try reflexivity; apply IH; cbn [set_corrupt u_has_sync]; (congruence || lia).
  - destruct (message_at_rd _ _ _ _ Hq Hb H) as (_ & _ & _ & _ & _ & L). pose proof (lenZ_nonneg p) as Lp.
    rewrite (data_step_at _ _ _ _ _ _ _ _ _ Hq Hb H Hc). rewrite data_effect_None by assumption.
    destruct (packet_corrupt ty (lenZ p)) eqn:Ec; [apply doubtful_corrupt in Ec; [contradiction|lia]|].
    destruct (u_has_sync u) eqn:Es.
    + assert (Fl : find_sync_last f (q + 3 + lenZ p) (lenZ p) u = (q + 3 + lenZ p, u)).
      { unfold find_sync_last. cbv zeta. replace (q + 3 + lenZ p - lenZ p) with (q + 3) by lia.
        destruct (message_at_rd _ _ _ _ Hq Hb H) as (_ & _ & _ & _ & C & _). rewrite C. destruct (lenZ p <? 8); [reflexivity|].
        change SYNC_BYTES with sync_sequence. rewrite not_occurs_find by (apply Ho; congruence). reflexivity. }
      rewrite Fl. apply IH; (congruence || lia).
    + apply IH; (congruence || lia).
  - destruct (message_at_rd _ _ _ _ Hq Hb H) as (_ & _ & _ & _ & C & L). pose proof (lenZ_nonneg p) as Lp.
    rewrite (data_step_at _ _ _ _ _ _ _ _ _ Hq Hb H Hc). rewrite data_effect_None by assumption.
    destruct (packet_corrupt ty (lenZ p)) eqn:Ec; [apply doubtful_corrupt in Ec; [contradiction|lia]|]. rewrite Hs.
    destruct (first_occurs _ _ Ho) as (_ & Hi0 & Hi1).
    assert (Fl : find_sync_last f (q + 3 + lenZ p) (lenZ p) u = (q + 3 + i + 8, set_corrupt true u)).
    { unfold find_sync_last. cbv zeta. replace (q + 3 + lenZ p - lenZ p) with (q + 3) by lia. rewrite C.
      destruct (Z.ltb_spec (lenZ p) 8); [lia|]. change SYNC_BYTES with sync_sequence. rewrite (first_occurrence_find _ _ _ Ho).
      destruct (Z.leb_spec 0 i); [reflexivity|lia]. }
    rewrite Fl. rewrite (IH ltac:(lia) k (set_corrupt true u)); [reflexivity|assumption|lia|lia].
  - destruct (message_at_rd _ _ _ _ Hq Hb H) as (_ & _ & _ & _ & C & L). pose proof (lenZ_nonneg p) as Lp.
    rewrite (data_step_at _ _ _ _ _ _ _ _ _ Hq Hb H Hc). rewrite data_effect_None by assumption.
    destruct (packet_corrupt ty (lenZ p)) eqn:Ec; [|apply doubtful_corrupt in Hd; [congruence|lia]]. rewrite Hs.
    rewrite find_sync_spec by lia. cbv zeta. rewrite (first_occurrence_find _ _ _ Ho). destruct (first_occurs _ _ Ho) as (_ & Hi0 & Hi1).
    destruct (Z.leb_spec 0 i); [|lia]. rewrite lenZ_dropZ in Hi1 by lia.
    rewrite (IH ltac:(lia) k (set_corrupt true (set_corrupt true u))); [reflexivity|assumption|lia|lia].
  - destruct (message_at_rd _ _ _ _ Hq Hb H) as (_ & _ & _ & _ & C & L). pose proof (lenZ_nonneg p) as Lp.
    rewrite (data_step_at _ _ _ _ _ _ _ _ _ Hq Hb H Hc). rewrite data_effect_None by assumption.
    destruct (packet_corrupt ty (lenZ p)) eqn:Ec; [|apply doubtful_corrupt in Hd; [congruence|lia]]. rewrite Hs.
    rewrite find_sync_spec by lia. cbv zeta. rewrite not_occurs_find by assumption.
    rewrite (IH ltac:(lia) k (set_has_sync false (set_corrupt true u))); [reflexivity|reflexivity|lia|lia].
  - destruct (message_at_rd _ _ _ _ Hq Hb H) as (_ & _ & _ & _ & C & L). pose proof (lenZ_nonneg p) as Lp.
    rewrite (data_step_at _ _ _ _ _ _ _ _ _ Hq Hb H Hc). rewrite data_effect_None by assumption.
    destruct (packet_corrupt ty (lenZ p)) eqn:Ec; [|apply doubtful_corrupt in Hd; [congruence|lia]]. rewrite Hs.
    rewrite (IH ltac:(lia) k (set_corrupt true u)); [reflexivity|assumption|lia|lia].
Qed.

Lemma walk_fun f limit q c look evs : bytes_ok f -> walk f limit q c look evs -> 0 <= q -> forall evs', walk f limit q c look evs' -> evs' = evs.
Proof.
  intros Hb W. induction W as [q c look H|q c look ty p evs H Hc Ht W IH|q c look ty p evs H Hc Ht Hd Ho W IH|q c ty p i evs H Hc Ht Hd Ho W IH|q c ty p i evs H Hc Ht Hd Ho W IH|q c ty p evs H Hc Ht Hd Ho W IH|q c ty p evs H Hc Ht Hd W IH];
    intros Hq evs' W'.
  1:{ inversion W' as [? ? ? H'|? ? ? ty' p' ? H' Hc'|? ? ? ty' p' ? H' Hc'|? ? ty' p' ? ? H' Hc'|? ? ty' p' ? ? H' Hc'|? ? ty' p' ? H' Hc'|? ? ty' p' ? H' Hc']; subst;
      auto; exfalso; specialize (H _ _ H'); lia. }
  all: pose proof (lenZ_nonneg p) as Lp.
  all: try (destruct (first_occurs _ _ Ho) as (Hocc & Hi0 & Hi1)).
  all: inversion W' as [? ? ? H'|? ? ? ty' p' ? H' Hc' Ht' W2|? ? ? ty' p' ? H' Hc' Ht' Hd' Ho' W2|? ? ty' p' j ? H' Hc' Ht' Hd' Ho' W2|? ? ty' p' j ? H' Hc' Ht' Hd' Ho' W2|? ? ty' p' ? H' Hc' Ht' Hd' Ho' W2|? ? ty' p' ? H' Hc' Ht' Hd' W2]; subst;
    try (exfalso; specialize (H' _ _ H); lia);
    try (destruct (message_at_fun _ _ _ _ _ _ Hq Hb H H') as [-> ->]; clear H');
    try contradiction;
    try (exfalso; now apply Ho');
    try (exfalso; destruct (first_occurs _ _ Ho') as (Hocc' & _); now apply Ho);
    try (pose proof (first_occurrence_fun _ _ _ _ Ho Ho'); subst j);
    repeat f_equal; apply IH; (assumption || lia).
Qed.

(** ** Sections *)
Lemma read_data_walk cf f limit q u evs : bytes_ok f -> 0 <= q -> walk f limit q q (u_has_sync u) evs ->
  forall fuel, lenZ f - q < Z.of_nat fuel -> (0 < fuel)%nat -> read_data fuel cf limit f q u = Some (end_data (run_events cf evs u)).
Proof.
  intros Hb Hq W fuel Hf H0. unfold read_data. rewrite (data_loop_walk _ _ _ _ _ _ _ Hb W Hq fuel u eq_refl Hf H0).
  unfold loop_result, end_data. destruct (run_events cf evs u); reflexivity.
Qed.
Lemma seek_abs_works k o : seek_works k o -> seek_abs k o = Ok o.
Proof. unfold seek_works, seek_abs. change (2 ^ 63) with 9223372036854775808. destruct k as [m|]; intros [A B]; destruct (Z.leb_spec 9223372036854775808 o); try lia; [|reflexivity]. destruct (Z.ltb_spec m o); [lia|reflexivity]. Qed.
Lemma seek_abs_fails k o e : seek_fails k o e -> seek_abs k o = Err e.
Proof.
  intros H. unfold seek_abs. destruct H as [-> H|m -> H|m -> H H']; change (2 ^ 63) with 9223372036854775808 in *; destruct (Z.leb_spec 9223372036854775808 o); try lia; try reflexivity.
  destruct (Z.ltb_spec m o); [reflexivity|lia].
Qed.
Lemma seek_cases k o : seek_works k o \/ exists e, seek_fails k o e.
Proof.
  unfold seek_works. destruct (Z.lt_ge_cases o (2 ^ 63)) as [H|H]; destruct k as [m|].
  - destruct (Z.le_gt_cases o m) as [C|C]; [auto|]. right. eexists. eapply sf_system; eauto.
  - auto.
  - right. eexists. eapply sf_value; eauto.
  - right. eexists. eapply sf_memory; eauto.
Qed.
Lemma sections_give_reads cf f offs q u r : bytes_ok f -> sections_give cf f offs q u r -> 0 <= q -> Forall (fun o => 0 <= o) offs ->
  read_sections (S (Z.to_nat (lenZ f))) cf f offs q u = Some r.
Proof.
  intros Hb W. induction W as [q u evs W|o offs q u evs e W E|o offs q u evs u1 e W E Hs|o offs q u evs u1 r W E Hs W2 IH]; intros Hq Ho; cbn [read_sections];
    rewrite (read_data_walk _ _ _ _ _ _ Hb Hq W) by lia; try (rewrite E); auto.
  - now rewrite (seek_abs_fails _ _ _ Hs).
  - rewrite (seek_abs_works _ _ Hs). inversion Ho; subst. now apply IH.
Qed.
Lemma sections_give_exists cf f : bytes_ok f -> forall offs q u, 0 <= q -> Forall (fun o => 0 <= o) offs -> exists r, sections_give cf f offs q u r.
Proof.
  intros Hb. induction offs as [|o offs IH]; intros q u Hq Ho.
  - destruct (walk_exists f BIG Hb q q (u_has_sync u) Hq) as (evs & W). eexists. eapply sg_last; eauto.
  - inversion Ho as [|? ? Ho1 Ho2]; subst. destruct (walk_exists f o Hb q q (u_has_sync u) Hq) as (evs & W).
    destruct (end_data (run_events cf evs u)) as [u1|e] eqn:E; [|eexists; eapply sg_error; eauto].
    destruct (seek_cases (cf_kind cf) o) as [Hs|(e & Hs)]; [|eexists; eapply sg_seek; eauto].
    destruct (IH o u1 Ho1 Ho2) as (r & W2). exists r. eapply sg_more; eauto.
Qed.

(** ** Definitions *)
Lemma header_at_rd f q ty size p : header_at f q ty size p -> bytes_ok f -> exists s0 s1, rd f q 3 = [s0; s1; ty] /\ le_dec [s0; s1] = size /\ rd f (q + 3) size = p /\ 0 <= size.
Proof.
  intros (s0 & s1 & A & B & C) Hb. exists s0, s1. rewrite !rd_slice. split; [exact A|].
  assert (Hs : bytes_ok [s0; s1; ty]) by (rewrite <- A; apply Forall_slice, Hb).
  inversion Hs as [|? ? B0 B1]; subst. inversion B1 as [|? ? B2 _]; subst. unfold byte_ok in *.
  split; [cbn [le_dec]; lia|]. split; [reflexivity|lia].
Qed.
Lemma rd_header_at f q s0 s1 ty : rd f q 3 = [s0; s1; ty] -> header_at f q ty (le_dec [s0; s1]) (rd f (q + 3) (le_dec [s0; s1])).
Proof. intros H. exists s0, s1. rewrite rd_slice in H. split; [exact H|]. split; [cbn [le_dec]; lia|]. now rewrite rd_slice. Qed.
Lemma seek_rel_back cf pos d q : goes_back cf (pos + d) q -> seek_rel (cf_kind cf) pos d = Ok q.
Proof. unfold seek_rel. cbv zeta. intros [(A & ->)|(A & -> & ->)]; destruct (Z.ltb_spec (pos + d) 0); (lia || reflexivity). Qed.
Lemma seek_rel_cases cf pos d : (exists q, goes_back cf (pos + d) q /\ 0 <= q) \/ (pos + d < 0 /\ exists m, cf_kind cf = OsFile m).
Proof.
  destruct (Z.lt_ge_cases (pos + d) 0) as [H|H]; [|left; exists (pos + d); split; [left; auto|exact H]].
  destruct (cf_kind cf) eqn:E; [right; eauto|left; exists 0; split; [right; auto|lia]].
Qed.
Lemma end_types_test ty : (ty =? T_ADD) || (ty =? T_LOG) || (ty =? T_LOGT) = true <-> In ty end_types.
Proof. unfold T_ADD, T_LOG, T_LOGT, end_types. cbn [In]. lia. Qed.
Lemma end_not_def ty : In ty end_types -> ~ In ty def_types.
Proof. unfold end_types, def_types. cbn [In]. lia. Qed.
Lemma end_types_false ty : ~ In ty end_types -> (ty =? T_ADD) || (ty =? T_LOG) || (ty =? T_LOGT) = false.
Proof. intros H. destruct (_ || _ || _) eqn:E; [|reflexivity]. apply end_types_test in E. contradiction. Qed.

Lemma def_step_hop cf f q u evs q' u' : bytes_ok f -> hop cf f q evs q' -> run_def_events cf evs u = Ok u' -> def_step cf f q u = DNext q' u'.
Proof.
  intros Hb H Hr. destruct H as [ty size p H Ht|ty size p H Ht He Hd|ty size p q' H Ht He Hd Hg];
    destruct (header_at_rd _ _ _ _ _ H Hb) as (s0 & s1 & A & B & C & D); unfold def_step; cbv zeta; rewrite A, B, C.
  - destruct (def_effect_known cf ty p u Ht) as (e & Ee). cbn [run_def_events def_event run_def] in Hr. rewrite Ee in *.
    destruct e as [v|[]]; cbn [bind] in Hr; try discriminate; injection Hr as <-; reflexivity.
  - rewrite def_effect_None by assumption. rewrite end_types_false by assumption.
    destruct (packet_corrupt ty size) eqn:Ec; [apply doubtful_corrupt in Ec; [contradiction|lia]|]. injection Hr as <-. reflexivity.
  - rewrite def_effect_None by assumption. rewrite end_types_false by assumption.
    destruct (packet_corrupt ty size) eqn:Ec; [|apply doubtful_corrupt in Hd; [congruence|lia]].
    rewrite (seek_rel_back cf _ (-2 - size) q') by (replace (q + 3 + lenZ p + (-2 - size)) with (q + 3 + lenZ p - size - 2) by lia; exact Hg).
    injection Hr as <-. reflexivity.
Qed.
Lemma def_step_definitions_end cf f q u d : bytes_ok f -> definitions_end cf f q d -> def_step cf f q u = DStop d u.
Proof.
  intros Hb [(A & ->)|(ty & size & p & H & Ht & Hg)]; unfold def_step; cbv zeta.
  - now rewrite rd_slice, A.
  - destruct (header_at_rd _ _ _ _ _ H Hb) as (s0 & s1 & A & B & C & D). rewrite A, B, C. rewrite def_effect_None by now apply end_not_def.
    rewrite (proj2 (end_types_test ty) Ht). rewrite (seek_rel_back cf _ (- (3 + size)) d) by (replace (q + 3 + lenZ p + - (3 + size)) with (q + 3 + lenZ p - (3 + size)) by lia; exact Hg).
    reflexivity.
Qed.
Lemma def_step_fails cf f q u e : bytes_ok f -> hop_fails cf f q u e -> def_step cf f q u = DRaise e.
Proof.
  intros Hb [H|ty size p x H Ht He|ty size p m H Ht He Hd Hg Hk|ty size p m H Ht Hg Hk]; unfold def_step; cbv zeta.
  - rewrite rd_slice. destruct (slice q (q + 3) f) as [|a [|b [|c l]]]; try reflexivity.
    + change (lenZ (@nil Z)) with 0 in H. lia.
    + exfalso. rewrite !lenZ_cons in H. pose proof (lenZ_nonneg l). lia.
  - destruct (header_at_rd _ _ _ _ _ H Hb) as (s0 & s1 & A & B & C & D). rewrite A, B, C.
    cbn [def_event run_def] in He. destruct (def_effect cf ty p u) as [[v|[]]|]; try discriminate; injection He as <-; reflexivity.
  - destruct (header_at_rd _ _ _ _ _ H Hb) as (s0 & s1 & A & B & C & D). rewrite A, B, C.
    rewrite def_effect_None by assumption. rewrite end_types_false by assumption.
    destruct (packet_corrupt ty size) eqn:Ec; [|apply doubtful_corrupt in Hd; [congruence|lia]].
    unfold seek_rel. cbv zeta. rewrite Hk. destruct (Z.ltb_spec (q + 3 + lenZ p + (-2 - size)) 0); [reflexivity|lia].
  - destruct (header_at_rd _ _ _ _ _ H Hb) as (s0 & s1 & A & B & C & D). rewrite A, B, C. rewrite def_effect_None by now apply end_not_def.
    rewrite (proj2 (end_types_test ty) Ht). unfold seek_rel. cbv zeta. rewrite Hk. destruct (Z.ltb_spec (q + 3 + lenZ p + - (3 + size)) 0); [reflexivity|lia].
Qed.
(** one of the three happens *)
Lemma def_cases cf f q u : 0 <= q -> bytes_ok f ->
  (exists evs q' u', hop cf f q evs q' /\ 0 <= q' /\ run_def_events cf evs u = Ok u') \/ (exists d, definitions_end cf f q d /\ 0 <= d) \/ (exists e, hop_fails cf f q u e).
Proof.
  intros Hq Hb. destruct (rd f q 3) as [|s0 [|s1 [|ty [|]]]] eqn:E.
  - right. left. exists q. split; [left; split; [now rewrite <- rd_slice|reflexivity]|exact Hq].
  - right. right. exists StructError. apply hf_header. rewrite <- rd_slice, E. unfold lenZ. simpl. lia.
  - right. right. exists StructError. apply hf_header. rewrite <- rd_slice, E. unfold lenZ. simpl. lia.
  - pose proof (rd_header_at f q s0 s1 ty E) as H. set (size := le_dec [s0; s1]) in *. set (p := rd f (q + 3) size) in *. pose proof (lenZ_nonneg p) as Lp.
    destruct (in_dec Z.eq_dec ty def_types) as [Ht|Ht].
    { destruct (def_event cf (EMsg ty p) u) as [u'|e] eqn:Ee; [|right; right; exists e; eapply hf_message; eauto].
      left. exists [EMsg ty p], (q + 3 + lenZ p), u'. split; [eapply hop_message; eauto|]. split; [lia|]. cbn [run_def_events]. now rewrite Ee. }
    destruct (in_dec Z.eq_dec ty end_types) as [He|He].
    { right. destruct (seek_rel_cases cf (q + 3 + lenZ p) (- (3 + size))) as [(d & Hg & Hd)|(Hg & m & Hk)].
      - left. exists d. split; [right; exists ty, size, p; auto|exact Hd].
      - right. exists OSError. eapply hf_end; eauto. }
    destruct (doubtful_dec ty size) as [Hd|Hd].
    + destruct (seek_rel_cases cf (q + 3 + lenZ p) (- size - 2)) as [(d & Hg & Hd2)|(Hg & m & Hk)].
      * left. exists [ECorrupt], d, (set_corrupt true u). split; [|split; [exact Hd2|reflexivity]]. eapply hop_garbage; eauto.
        replace (q + 3 + lenZ p - size - 2) with (q + 3 + lenZ p + (- size - 2)) by lia. exact Hg.
      * right. right. exists OSError. eapply hf_back; eauto. lia.
    + left. exists [], (q + 3 + lenZ p), u. split; [eapply hop_skip; eauto|]. split; [lia|reflexivity].
  - exfalso. assert (L : lenZ (rd f q 3) <= 3) by (unfold rd; rewrite lenZ_takeZ by lia; lia). rewrite E in L. rewrite !lenZ_cons in L. pose proof (lenZ_nonneg l). lia.
Qed.

(** ** The loop over the definitions *)
Lemma def_loop_hops cf f q defs q' : bytes_ok f -> hops cf f q defs q' -> forall u u', run_def_events cf defs u = Ok u' ->
  exists n, forall k, def_loop (n + k) cf f q u = def_loop k cf f q' u'.
Proof.
  intros Hb H. induction H as [q|q a q1 b q2 H W IH]; intros u u' Hr.
  - injection Hr as <-. exists O. reflexivity.
  - rewrite run_def_events_app in Hr. apply bind_Ok_inv in Hr as (u1 & E1 & E2). destruct (IH u1 u' E2) as (n & Hn).
    exists (S n). intros k. cbn [Nat.add def_loop]. rewrite (def_step_hop _ _ _ _ _ _ _ Hb H E1). apply Hn.
Qed.
Lemma hop_nonneg cf f q evs q' : 0 <= q -> hop cf f q evs q' -> 0 <= q'.
Proof. intros Hq [ty size p H Ht|ty size p H Ht He Hd|ty size p q2 H Ht He Hd [[A ->]|(A & -> & _)]]; try (pose proof (lenZ_nonneg p)); lia. Qed.
Lemma hops_nonneg cf f q evs q' : hops cf f q evs q' -> 0 <= q -> 0 <= q'.
Proof. intros H. induction H as [q|q a q1 b q2 H W IH]; intros Hq; auto. apply IH. eapply hop_nonneg; eauto. Qed.
Lemma def_loop_outcome cf f : bytes_ok f -> forall n q u r, 0 <= q -> def_loop n cf f q u = Some r ->
  exists defs q' u', hops cf f q defs q' /\ run_def_events cf defs u = Ok u' /\
    match r with Ok (d, v) => v = u' /\ definitions_end cf f q' d /\ 0 <= d | Err e => hop_fails cf f q' u' e end.
Proof.
  intros Hb. induction n as [|n IH]; intros q u r Hq H; [discriminate|]. cbn [def_loop] in H.
  destruct (def_cases cf f q u Hq Hb) as [(evs & q1 & u1 & A & B & C)|[(d & A & B)|(e & A)]].
  - rewrite (def_step_hop _ _ _ _ _ _ _ Hb A C) in H. destruct (IH q1 u1 r B H) as (defs & q' & u' & D & E & F).
    exists (evs ++ defs), q', u'. split; [econstructor; eauto|]. split; [rewrite run_def_events_app, C; exact E|exact F].
  - rewrite (def_step_definitions_end _ _ _ _ _ Hb A) in H. injection H as <-. exists [], q, u. split; [constructor|]. auto.
  - rewrite (def_step_fails _ _ _ _ _ Hb A) in H. injection H as <-. exists [], q, u. split; [constructor|]. auto.
Qed.
Lemma hops_offs cf f q defs q' : bytes_ok f -> hops cf f q defs q' -> forall u u', run_def_events cf defs u = Ok u' -> offs_nonneg u -> offs_nonneg u'.
Proof.
  intros Hb H. induction H as [q|q a q1 b q2 H W IH]; intros u u' Hr Hu.
  - now injection Hr as <-.
  - rewrite run_def_events_app in Hr. apply bind_Ok_inv in Hr as (u1 & E1 & E2). apply (IH u1 u' E2). clear IH W E2.
    destruct H as [ty size p H Ht|ty size p H Ht He Hd|ty size p q2' H Ht He Hd Hg].
    + destruct (header_at_rd _ _ _ _ _ H Hb) as (s0 & s1 & _ & _ & C & _).
      assert (B : bytes_ok p) by (rewrite <- C; apply Forall_takeZ, Forall_dropZ, Hb).
      cbn [run_def_events def_event run_def] in E1. destruct (def_effect cf ty p u) as [[v|[]]|] eqn:Ee; cbn [bind] in E1; try discriminate; injection E1 as <-; auto.
      eapply def_effect_offs; eauto.
    + now injection E1 as <-.
    + now injection E1 as <-.
Qed.
Lemma starts_nonneg u : offs_nonneg u -> Forall (fun o => 0 <= o) (section_starts u).
Proof. intros H. unfold section_starts. destruct (has_appended u); [exact H|constructor]. Qed.
Lemma end_nonneg cf f q d : 0 <= q -> definitions_end cf f q d -> 0 <= d.
Proof. intros Hq [(_ & ->)|(ty & size & p & _ & _ & [[A ->]|(A & -> & _)])]; lia. Qed.

(** ** The whole file *)
Theorem outcome_produces cf f r : bytes_ok f -> outcome cf f r -> produces cf f r.
Proof.
  intros Hb [H|v t rest defs q u e Ef Hh Hd Hr Hf|v t rest defs q d u Ef Hh Hd He Hr Hc|v t rest defs q d u r' Ef Hh Hd He Hr Hc Hg].
  - destruct (read_header_cases f Hb) as [[_ E]|(v & t & rest & Ef & Hh & _)].
    + exists O. unfold load, load_at. now rewrite E.
    + exfalso. rewrite Ef in H. destruct H as [H|H]; [rewrite lenZ_app, lenZ_file_header in H; pose proof (lenZ_nonneg rest); lia|]. now apply H.
  - destruct (def_loop_hops _ _ _ _ _ Hb Hd _ _ Hr) as (n & Hn). exists (n + 1)%nat. unfold load, load_at. rewrite Ef at 1. rewrite read_header_ok by exact Hh.
    cbv zeta. fold (after_header v t). change (0 + 16) with 16. rewrite Hn. cbn [def_loop]. now rewrite (def_step_fails _ _ _ _ _ Hb Hf).
  - destruct (def_loop_hops _ _ _ _ _ Hb Hd _ _ Hr) as (n & Hn). exists (n + 1)%nat. unfold load, load_at. rewrite Ef at 1. rewrite read_header_ok by exact Hh.
    cbv zeta. fold (after_header v t). change (0 + 16) with 16. rewrite Hn. cbn [def_loop]. rewrite (def_step_definitions_end _ _ _ _ _ Hb He). now rewrite Hc.
  - destruct (def_loop_hops _ _ _ _ _ Hb Hd _ _ Hr) as (n & Hn).
    assert (Hq : 0 <= q) by (eapply hops_nonneg; eauto; lia). assert (Hd0 : 0 <= d) by (eapply end_nonneg; eauto).
    pose proof (sections_give_reads _ _ _ _ _ _ Hb Hg Hd0 (starts_nonneg _ (hops_offs _ _ _ _ _ Hb Hd _ _ Hr (offs_nonneg_init _ _)))) as G.
    exists (n + S (Z.to_nat (lenZ f)))%nat. unfold load, load_at. rewrite Ef at 1. rewrite read_header_ok by exact Hh.
    cbv zeta. fold (after_header v t). change (0 + 16) with 16. rewrite Hn. cbn [def_loop]. rewrite (def_step_definitions_end _ _ _ _ _ Hb He). rewrite Hc.
    apply (read_sections_mono _ _ (S (Z.to_nat (lenZ f)))); [lia|exact G].
Qed.
Theorem produces_outcome cf f r : bytes_ok f -> produces cf f r -> outcome cf f r.
Proof.
  intros Hb Hp. destruct (read_header_cases f Hb) as [[H E]|(v & t & rest & Ef & Hh & E)].
  - destruct Hp as (n & Hn). unfold load, load_at in Hn. rewrite E in Hn. injection Hn as <-. apply out_no_log.
    destruct H as [H|H]; [auto|]. right. rewrite takeZ_firstn in H. exact H.
  - pose proof Hp as (n & Hn). unfold load, load_at in Hn. rewrite E in Hn. cbv zeta in Hn. fold (after_header v t) in Hn. change (0 + 16) with 16 in Hn.
    destruct (def_loop n cf f 16 (after_header v t)) as [r0|] eqn:Ed; [|discriminate].
    destruct (def_loop_outcome cf f Hb n 16 _ r0 ltac:(lia) Ed) as (defs & q & u & Hd & Hr & Hc). destruct r0 as [[d w]|e].
    + destruct Hc as (-> & He & Hd0). destruct (cf_hdr cf) eqn:Ec.
      * injection Hn as <-. eapply out_header; eauto.
      * destruct (sections_give_exists cf f Hb (section_starts u) d u Hd0 (starts_nonneg _ (hops_offs _ _ _ _ _ Hb Hd _ _ Hr (offs_nonneg_init _ _)))) as (r' & G).
        assert (O : outcome cf f r') by (eapply out_data; eauto). rewrite (produces_fun _ _ _ _ Hp (outcome_produces _ _ _ Hb O)). exact O.
    + injection Hn as <-. eapply out_error; eauto.
Qed.

(** ** What is processed of a section *)
Lemma stops_iff cf pre ty p u u2 : u_subs u = [] -> bytes_ok p -> run_events cf pre u = RDone u2 -> In ty data_types ->
  (stops cf (u_formats u) pre (ty, p) <-> exists u3, data_event cf (EMsg ty p) u2 = RStop u3).
Proof.
  intros Hs Hb Hr Hin.
  assert (K : (exists u3, data_event cf (EMsg ty p) u2 = RStop u3) <-> exists u3, data_effect cf ty p u2 = Some (u3, Some StructError)).
  { cbn [data_event run_data]. destruct (data_effect cf ty p u2) as [[w [[]|]]|]; split; intros (u3 & E); try discriminate; eauto. }
  rewrite K. clear K. destruct (Z.eq_dec ty 68) as [->|N].
  - pose proof (finishes_sec cf pre u u2 Hs (fin_done _ _ _ _ Hr)) as [_ Hsub _ _ _ _].
    change (data_effect cf 68 p u2) with (Some (data_msg p u2)). pose proof (data_msg_spec p u2) as Hsp. unfold stops. cbn [fst snd].
    destruct (msg_id p) as [id|] eqn:Ei.
    + rewrite Hsub in Hsp. destruct (subscription cf (u_formats u) pre id) as [[s rs]|] eqn:Es; cbn [option_map fst snd] in Hsp.
      * assert (Ho : 0 <= sb_tsoff (set_buf (concat rs) s)) by (change (0 <= sb_tsoff s); eapply subscription_ok; eauto).
        specialize (Hsp Ho). change (fits (set_buf (concat rs) s) p) with (fits s p) in Hsp. change (stamp (set_buf (concat rs) s) p) with (stamp s p) in Hsp.
        split.
        -- intros [(C & _)|(_ & [C|(id' & s' & rs' & A & B & C & D)])]; [lia|discriminate|]. injection A as <-. rewrite Es in B. injection B as <- <-.
           rewrite C in Hsp. cbv zeta in Hsp. rewrite D in Hsp. rewrite Hsp. eauto.
        -- intros (u3 & E). right. split; [reflexivity|]. right. exists id, s, rs. split; [reflexivity|]. split; [exact Es|].
           destruct (fits s p); [|rewrite Hsp in E; discriminate]. split; [reflexivity|]. cbv zeta in Hsp. destruct (stamp s p); [|reflexivity].
           rewrite Hsp in E. discriminate.
      * split; [intros [(C & _)|(_ & [C|(id' & s' & rs' & A & B & _)])]; [lia|discriminate|congruence]|].
        intros (u3 & E). rewrite Hsp in E. destruct (existsb _ _); discriminate.
    + split; [intros _; rewrite Hsp; eauto|]. intros _. right. auto.
  - rewrite (stops_defect cf _ _ (ty, p) Hb). symmetry. apply (defect_not_data cf _ _ ty p u2 N Hb).
Qed.

(** the messages of a walk are known and made of bytes *)
Definition known_event (e : event) : Prop := match e with EMsg ty p => In ty data_types /\ bytes_ok p | _ => True end.
Lemma walk_known f limit q c look evs : bytes_ok f -> walk f limit q c look evs -> Forall known_event evs.
Proof.
  intros Hb W. induction W; auto; constructor; auto; try exact I; [|constructor; auto; exact I].
  split; [assumption|]. destruct (message_at_fits _ _ _ _ Hb H) as (_ & B & _). exact B.
Qed.
Lemma scattered_le f evs : forall a b, a <= b -> scattered f b evs -> scattered f a evs.
Proof.
  induction evs as [|[ty p| |] evs IH]; intros a b Hab; simpl; auto.
  - intros (q & H1 & H2). exists q. split; [lia|exact H2].
  - intros H. eapply IH; eauto.
  - intros H. eapply IH; eauto.
Qed.
Lemma walk_scattered f limit q c look evs : bytes_ok f -> walk f limit q c look evs -> 0 <= q -> scattered f q evs.
Proof.
  intros Hb W. induction W as [q c look H|q c look ty p evs H Hc Ht W IH|q c look ty p evs H Hc Ht Hd Ho W IH|q c ty p i evs H Hc Ht Hd Ho W IH|q c ty p i evs H Hc Ht Hd Ho W IH|q c ty p evs H Hc Ht Hd Ho W IH|q c ty p evs H Hc Ht Hd W IH];
    intros Hq; try (pose proof (lenZ_nonneg p) as Lp); try (destruct (first_occurs _ _ Ho) as (_ & Hi0 & _)); cbn [scattered]; auto.
  - exists q. split; [lia|]. split; [exact H|]. apply IH. lia.
  - eapply scattered_le; [|apply IH; lia]. lia.
  - eapply scattered_le; [|apply IH; lia]. lia.
  - eapply scattered_le; [|apply IH; lia]. lia.
  - eapply scattered_le; [|apply IH; lia]. lia.
  - eapply scattered_le; [|apply IH; lia]. lia.
Qed.

Lemma goes_on_nil cf fmts : goes_on cf fmts [].
Proof. intros pre ty p post E. destruct pre; discriminate. Qed.
Lemma goes_on_snoc cf fmts evs e : goes_on cf fmts evs -> match e with EMsg ty p => ~ stops cf fmts evs (ty, p) | _ => True end -> goes_on cf fmts (evs ++ [e]).
Proof.
  intros H He pre ty p post E. assert (L : post = [] \/ exists post' x, post = post' ++ [x]).
  { destruct post as [|y post]; [auto|]. right. destruct (exists_last (l := y :: post)) as (a & b & Eq); [discriminate|eauto]. }
  destruct L as [->|(post' & x & ->)].
  - apply app_inj_tail in E as [<- ->]. exact He.
  - rewrite app_comm_cons, app_assoc in E. apply app_inj_tail in E as [E ->]. eapply H; eauto.
Qed.
Lemma taken_run cf u post : u_subs u = [] -> Forall known_event post -> forall pre u2, run_events cf pre u = RDone u2 -> goes_on cf (u_formats u) pre ->
  match run_events cf post u2 with
  | RDone _ => goes_on cf (u_formats u) (pre ++ post)
  | RStop u3 => exists a ty p b u4, post = a ++ EMsg ty p :: b /\ goes_on cf (u_formats u) (pre ++ a) /\ stops cf (u_formats u) (pre ++ a) (ty, p) /\
      run_events cf (pre ++ a) u = RDone u4 /\ data_event cf (EMsg ty p) u4 = RStop u3
  | RRaise _ => True
  end.
Proof.
  intros Hs. induction post as [|e post IH]; intros Hk pre u2 Hr Hg.
  - cbn [run_events]. now rewrite app_nil_r.
  - cbn [run_events]. inversion Hk as [|? ? Hk1 Hk2]; subst. destruct (data_event cf e u2) as [u3|u3|x] eqn:Ee; [| |exact I].
    + assert (Hr' : run_events cf (pre ++ [e]) u = RDone u3) by (rewrite run_events_app, Hr; cbn [run_events]; now rewrite Ee).
      assert (Hg' : goes_on cf (u_formats u) (pre ++ [e])).
      { apply goes_on_snoc; [exact Hg|]. destruct e as [ty p| |]; auto. destruct Hk1 as [A B]. intros C. apply (stops_iff cf pre ty p u u2 Hs B Hr A) in C as (u4 & C). congruence. }
      specialize (IH Hk2 (pre ++ [e]) u3 Hr' Hg'). destruct (run_events cf post u3) as [u4|u4|x]; [| |exact I].
      * now rewrite <- app_assoc in IH.
      * destruct IH as (a & ty & p & b & u5 & -> & A & B & C & D). rewrite <- app_assoc in A, B, C. exists (e :: a), ty, p, b, u5. auto.
    + destruct e as [ty p| |]; try discriminate. destruct Hk1 as [A B]. exists [], ty, p, post, u2. rewrite app_nil_r.
      split; [reflexivity|]. split; [exact Hg|]. split; [|auto]. apply (stops_iff cf pre ty p u u2 Hs B Hr A). eauto.
Qed.
Lemma section_taken cf all u r : u_subs u = [] -> Forall known_event all -> end_data (run_events cf all u) = Ok r ->
  exists evs rest u1, taken cf (u_formats u) all evs /\ all = evs ++ rest /\ finishes cf evs u u1 /\ finalize u1 = Ok r.
Proof.
  intros Hs Hk H. pose proof (taken_run cf u all Hs Hk [] u eq_refl (goes_on_nil _ _)) as T. cbn [app] in T.
  destruct (run_events cf all u) as [u1|u1|x] eqn:E; cbn [end_data] in H; [| |discriminate].
  - exists all, [], u1. split; [left; auto|]. split; [now rewrite app_nil_r|]. split; [now apply fin_done|exact H].
  - destruct T as (a & ty & p & b & u4 & -> & A & B & C & D). exists (a ++ [EMsg ty p]), b, u1.
    split; [right; exists a, ty, p, b; auto|]. split; [now rewrite <- app_assoc|]. split; [eapply fin_stop; eauto|exact H].
Qed.
Lemma taken_fun cf fmts all evs evs' : taken cf fmts all evs -> taken cf fmts all evs' -> evs' = evs.
Proof.
  intros [(-> & H)|(pre & ty & p & post & E & -> & H & S)] [(-> & H')|(pre' & ty' & p' & post' & E' & -> & H' & S')]; auto.
  - exfalso. eapply H; eauto.
  - exfalso. eapply H'; eauto.
  - rewrite E in E'. clear E. assert (G : pre' = pre /\ ty' = ty /\ p' = p).
    { revert E'. enough (K : (exists x, pre = pre' ++ x) \/ (exists x, pre' = pre ++ x) -> pre ++ EMsg ty p :: post = pre' ++ EMsg ty' p' :: post' -> pre' = pre /\ ty' = ty /\ p' = p).
      - intros E. apply K; [|exact E]. clear - E. revert pre' E. induction pre as [|e pre IH]; intros [|e' pre'] E; [left; exists []; reflexivity|right; eexists; reflexivity|left; eexists; reflexivity|].
        injection E as <- E. destruct (IH _ E) as [(x & ->)|(x & ->)]; [left|right]; exists x; reflexivity.
      - intros [(x & ->)|(x & ->)] E; rewrite <- app_assoc in E; apply app_inv_head in E; destruct x as [|e x]; cbn [app] in E.
        + rewrite app_nil_r. injection E as <- <- _. auto.
        + exfalso. injection E as -> _. eapply H; [reflexivity|exact S'].
        + rewrite app_nil_r. injection E as <- <- _. auto.
        + exfalso. injection E as <- _. eapply H'; [reflexivity|exact S]. }
    destruct G as (-> & -> & ->). reflexivity.
Qed.

(** ** The trace *)
Lemma event_sync cf e u u' : (data_event cf e u = RDone u' \/ data_event cf e u = RStop u') ->
  u_has_sync u' = looking (u_has_sync u) [e] /\ u_formats u' = u_formats u /\ u_offsets u' = u_offsets u /\ u_incompat u' = u_incompat u.
Proof.
  unfold looking. destruct e as [ty p| |]; cbn [existsb data_event run_data orb negb].
  - rewrite andb_true_r. intros H. assert (F : fixed u' = fixed u).
    { destruct (data_effect cf ty p u) as [[w x]|] eqn:Ee.
      - apply data_effect_fixed in Ee. destruct x as [[]|]; destruct H as [H|H]; try discriminate; injection H as <-; exact Ee.
      - destruct H as [H|H]; [injection H as <-; reflexivity|discriminate]. }
    unfold fixed in F. repeat split; [exact (f_equal (fun x => fst (fst (fst x))) F)|exact (f_equal (fun x => snd (fst (fst x))) F)|exact (f_equal (fun x => snd (fst x)) F)|exact (f_equal snd F)].
  - rewrite andb_true_r. intros [H|H]; [injection H as <-; auto|discriminate].
  - rewrite andb_false_r. intros [H|H]; [injection H as <-; auto|discriminate].
Qed.
Lemma looking_app look a b : looking look (a ++ b) = looking (looking look a) b.
Proof. unfold looking. rewrite existsb_app. destruct look, (existsb _ a); reflexivity. Qed.
Lemma finishes_sync cf evs u u' : finishes cf evs u u' ->
  u_has_sync u' = looking (u_has_sync u) evs /\ u_formats u' = u_formats u /\ u_offsets u' = u_offsets u /\ u_incompat u' = u_incompat u.
Proof.
  intros H. revert H. apply (finishes_inv cf u (fun evs w => u_has_sync w = looking (u_has_sync u) evs /\ u_formats w = u_formats u /\ u_offsets w = u_offsets u /\ u_incompat w = u_incompat u)).
  - unfold looking. cbn. now rewrite andb_true_r.
  - intros pre e u1 u2 (A & B & C & D) H. apply event_sync in H as (A' & B' & C' & D'). rewrite looking_app, <- A. repeat split; congruence.
Qed.
Lemma finalize_keeps u u' : finalize u = Ok u' -> u_subs u' = [] /\ u_has_sync u' = u_has_sync u /\ u_formats u' = u_formats u /\ u_offsets u' = u_offsets u /\ u_incompat u' = u_incompat u.
Proof. unfold finalize. intros H. apply bind_Ok_inv in H as (ds & _ & H). injection H as <-. repeat split. Qed.
Lemma sections_walked cf f fmts offs d u r : bytes_ok f -> sections_give cf f offs d u r -> forall v, r = Ok v -> 0 <= d -> Forall (fun o => 0 <= o) offs -> u_subs u = [] -> u_formats u = fmts ->
  exists secs, sections_walk cf fmts f offs d (u_has_sync u) secs /\ section_chain cf secs u v /\ Forall (scattered f 0) secs /\
    u_formats v = fmts /\ u_offsets v = u_offsets u /\ u_incompat v = u_incompat u.
Proof.
  intros Hb W. induction W as [d u evs W|o offs d u evs e W E|o offs d u evs u1 e W E Hs|o offs d u evs u1 r W E Hs W2 IH]; intros v Hv Hd Ho Hsub Hf; try discriminate.
  - destruct (section_taken cf evs u v Hsub (walk_known _ _ _ _ _ _ Hb W) Hv) as (evs' & rest & u1 & A & B & C & D).
    destruct (finishes_sync _ _ _ _ C) as (F1 & F2 & F3 & F4). destruct (finalize_keeps _ _ D) as (G0 & G1 & G2 & G3 & G4).
    exists [evs']. rewrite Hf in A. split; [eapply sw_last; eauto|]. split; [econstructor; eauto; constructor|].
    split; [constructor; [|constructor]; pose proof (walk_scattered _ _ _ _ _ _ Hb W Hd) as S; rewrite B in S; apply scattered_app in S; eapply scattered_le; [|exact S]; lia|].
    repeat split; congruence.
  - subst r. destruct (section_taken cf evs u u1 Hsub (walk_known _ _ _ _ _ _ Hb W) E) as (evs' & rest & u2 & A & B & C & D).
    destruct (finishes_sync _ _ _ _ C) as (F1 & F2 & F3 & F4). destruct (finalize_keeps _ _ D) as (G0 & G1 & G2 & G3 & G4).
    inversion Ho as [|? ? Ho1 Ho2]; subst. destruct (IH v eq_refl Ho1 Ho2 G0 ltac:(congruence)) as (secs & I1 & I2 & I3 & I4 & I5 & I6).
    exists (evs' :: secs). split; [eapply sw_more; eauto; rewrite <- F1, <- G1; exact I1|]. split; [econstructor; eauto|].
    split; [constructor; [|exact I3]; pose proof (walk_scattered _ _ _ _ _ _ Hb W Hd) as S; apply scattered_app in S; eapply scattered_le; [|exact S]; lia|].
    repeat split; congruence.
Qed.
Lemma hops_sync cf f q defs q' : hops cf f q defs q' -> forall u u', run_def_events cf defs u = Ok u' -> u_has_sync u' = u_has_sync u.
Proof.
  intros H. induction H as [q|q a q1 b q2 H W IH]; intros u u' Hr; [now injection Hr as <-|].
  rewrite run_def_events_app in Hr. apply bind_Ok_inv in Hr as (u1 & E1 & E2). rewrite (IH _ _ E2). clear IH W E2.
  destruct H as [ty size p H Ht|ty size p H Ht He Hd|ty size p q2' H Ht He Hd Hg]; try (now injection E1 as <-).
  cbn [run_def_events def_event run_def] in E1. destruct (def_effect cf ty p u) as [[v|[]]|] eqn:Ee; cbn [bind] in E1; try discriminate; injection E1 as <-; auto.
  apply def_effect_shape in Ee as [(-> & Ee)|[(-> & Ee)|[(-> & Ee)|[(-> & Ee)|[(-> & Ee)|(-> & Ee)]]]]];
      symmetry in Ee; unbind Ee; try (injection Ee as <-; reflexivity).
  - apply add_info_multi_inv in Ee as (x' & y' & ->). reflexivity.
  - destruct x as [[c i] o]. cbv beta iota zeta in Ee. destruct (negb _); [discriminate|]. destruct (existsb _ _); [discriminate|]. injection Ee as <-. reflexivity.
Qed.
Lemma hops_found cf f q defs q' : hops cf f q defs q' -> 0 <= q -> Forall (found_in f) defs.
Proof.
  intros H. induction H as [q|q a q1 b q2 H W IH]; intros Hq; [constructor|]. apply Forall_app. split; [|apply IH; eapply hop_nonneg; eauto].
  destruct H as [ty size p (s0 & s1 & A & B & C) Ht|ty size p H Ht He Hd|ty size p q2' H Ht He Hd Hg]; repeat constructor.
  exists q. split; [exact Hq|]. exists s0, s1. split; [exact A|]. now rewrite <- B.
Qed.
Lemma def_subs cf defs u u' : run_def_events cf defs u = Ok u' -> u_subs u' = u_subs u.
Proof.
  intros H. pose proof (def_const def_rest cf (fun e a b => def_rest_same cf e a b) _ _ _ H) as R. unfold def_rest in R. congruence.
Qed.

Lemma outcome_Ok cf f u : outcome cf f (Ok u) -> cf_hdr cf = false -> exists v t rest defs q d u1, f = file_header v t ++ rest /\ header_fits v t /\
  hops cf f 16 defs q /\ definitions_end cf f q d /\ run_def_events cf defs (after_header v t) = Ok u1 /\ sections_give cf f (section_starts u1) d u1 (Ok u).
Proof.
  intros O Hc. remember (Ok u) as r eqn:Er. destruct O as [H|v t rest defs q u1 e Ef Hh Hd Hr Hf|v t rest defs q d u1 Ef Hh Hd He Hr Hc'|v t rest defs q d u1 r Ef Hh Hd He Hr Hc' Hg]; try discriminate; [congruence|].
  subst r. exists v, t, rest, defs, q, d, u1. auto 10.
Qed.
Theorem load_walked cf f u : bytes_ok f -> cf_hdr cf = false -> produces cf f (Ok u) ->
  exists defs secs, walked cf f u defs secs /\ Forall (found_in f) defs /\ Forall (scattered f 0) secs /\ (0 < length secs)%nat /\
    read_as cf (u_version u) (u_start u) defs secs u.
Proof.
  intros Hb Hc Hp. destruct (version_start cf f u Hb Hp) as (rest0 & Ef0 & Hh0). pose proof (produces_outcome cf f (Ok u) Hb Hp) as O.
  destruct (outcome_Ok _ _ _ O Hc) as (v & t & rest & defs & q & d & u1 & Ef & Hh & Hd & He & Hr & Hg).
  assert (E : v = u_version u /\ t = u_start u).
  { pose proof (read_header_ok v t rest Hh) as A. pose proof (read_header_ok _ _ rest0 Hh0) as B. rewrite <- Ef in A. rewrite <- Ef0 in B. rewrite A in B. injection B as -> ->. auto. }
  destruct E as [-> ->].
  assert (Hq : 0 <= q) by (eapply hops_nonneg; eauto; lia). assert (Hd0 : 0 <= d) by (eapply end_nonneg; eauto).
  destruct (sections_walked cf f (u_formats u1) (section_starts u1) d u1 (Ok u) Hb Hg u eq_refl Hd0) as (secs & W1 & W2 & W3 & W4 & W5 & W6); [|now rewrite (def_subs _ _ _ _ Hr)|reflexivity|].
  { apply starts_nonneg. eapply hops_offs; eauto. apply offs_nonneg_init. }
  exists defs, secs. split; [|split; [|split; [exact W3|split]]].
  - exists q, d. split; [exact Hd|]. split; [exact He|]. rewrite W4. unfold section_starts, has_appended. rewrite W5, W6.
    rewrite (hops_sync _ _ _ _ _ Hd _ _ Hr) in W1. exact W1.
  - eapply hops_found; eauto. lia.
  - destruct W1; cbn; lia.
  - exists u1. auto.
Qed.

(** the same with only the header: the definitions do not depend on that *)
Lemma hops_hdr b cf f q a q1 : hops cf f q a q1 -> hops (with_hdr b cf) f q a q1.
Proof.
  intros H. induction H as [|q a q1 c q2 H H2 IH]; [constructor|]. econstructor; [|exact IH].
  destruct H as [ty size p H Ht|ty size p H Ht He Hd|ty size p x H Ht He Hd Hg]; [eapply hop_message|eapply hop_skip|eapply hop_garbage]; eauto.
Qed.
Lemma run_def_events_hdr b cf evs : forall u, run_def_events (with_hdr b cf) evs u = run_def_events cf evs u.
Proof.
  induction evs as [|e evs IH]; intros u; [reflexivity|]. cbn [run_def_events].
  replace (def_event (with_hdr b cf) e u) with (def_event cf e u) by (destruct e; reflexivity). destruct (def_event cf e u); [apply IH|reflexivity].
Qed.
Theorem header_walked cf f u : bytes_ok f -> cf_hdr cf = false -> produces cf f (Ok u) ->
  exists u0 defs secs, produces (with_hdr true cf) f (Ok u0) /\
    (walked cf f u defs secs /\ Forall (found_in f) defs /\ Forall (scattered f 0) secs /\ (0 < length secs)%nat /\ read_as cf (u_version u) (u_start u) defs secs u) /\
    read_as cf (u_version u) (u_start u) defs [] u0.
Proof.
  intros Hb Hc Hp. destruct (version_start cf f u Hb Hp) as (rest0 & Ef0 & Hh0). destruct (load_walked cf f u Hb Hc Hp) as (defs & secs & W & A & B & C & R).
  pose proof R as (u1 & R1 & _). pose proof W as (q & d & W1 & W2 & _). exists u1, defs, secs. split; [|split; [auto 10|exists u1; split; [exact R1|constructor]]].
  apply outcome_produces; [exact Hb|]. eapply out_header; [exact Ef0|exact Hh0|apply hops_hdr; exact W1|exact W2|rewrite run_def_events_hdr; exact R1|reflexivity].
Qed.

(** ** Only one way *)
Lemma header_at_fun f q ty size p ty' size' p' : header_at f q ty size p -> header_at f q ty' size' p' -> ty' = ty /\ size' = size /\ p' = p.
Proof.
  intros (s0 & s1 & A & B & C) (t0 & t1 & A' & B' & C'). rewrite A in A'. assert (E1 : s0 = t0) by congruence. assert (E2 : s1 = t1) by congruence. assert (E3 : ty = ty') by congruence.
  subst. auto.
Qed.
Lemma goes_back_fun cf b q q' : goes_back cf b q -> goes_back cf b q' -> q' = q.
Proof. intros [(A & ->)|(A & -> & _)] [(B & ->)|(B & -> & _)]; lia. Qed.
Lemma hop_fun cf f q a q1 b q2 : hop cf f q a q1 -> hop cf f q b q2 -> b = a /\ q2 = q1.
Proof.
  intros [ty size p H Ht|ty size p H Ht He Hd|ty size p x H Ht He Hd Hg] [ty' size' p' H' Ht'|ty' size' p' H' Ht' He' Hd'|ty' size' p' x' H' Ht' He' Hd' Hg'];
    destruct (header_at_fun _ _ _ _ _ _ _ _ H H') as (-> & -> & ->); try contradiction; auto.
  split; [reflexivity|]. eapply goes_back_fun; eauto.
Qed.
Lemma hop_no_end cf f q a q1 d : hop cf f q a q1 -> definitions_end cf f q d -> False.
Proof.
  intros H [(A & _)|(ty & size & p & A & B & _)].
  - destruct H as [? ? ? (s0 & s1 & E & _)|? ? ? (s0 & s1 & E & _)|? ? ? ? (s0 & s1 & E & _)]; rewrite E in A; discriminate.
  - destruct H as [ty' ? ? H Ht|? ? ? H Ht He|? ? ? ? H Ht He]; destruct (header_at_fun _ _ _ _ _ _ _ _ H A) as (-> & _); try contradiction. now apply end_not_def in B.
Qed.
Lemma hops_fun cf f q a q1 d : hops cf f q a q1 -> definitions_end cf f q1 d -> forall b q2 d2, hops cf f q b q2 -> definitions_end cf f q2 d2 -> b = a /\ q2 = q1.
Proof.
  intros H He. induction H as [q|q a q1 b q2 H W IH]; intros c q3 d2 H' He'.
  - inversion H' as [|? x ? y ? A B]; subst; [auto|]. destruct (hop_no_end _ _ _ _ _ _ A He).
  - inversion H' as [|? x ? y ? A B]; subst; [destruct (hop_no_end _ _ _ _ _ _ H He')|]. destruct (hop_fun _ _ _ _ _ _ _ H A) as (-> & ->).
    destruct (IH He _ _ _ B He') as (-> & ->). auto.
Qed.
Lemma definitions_end_fun cf f q d d' : definitions_end cf f q d -> definitions_end cf f q d' -> d' = d.
Proof.
  intros [(A & ->)|(ty & size & p & A & _ & G)] [(B & ->)|(ty' & size' & p' & B & _ & G')]; auto.
  - destruct B as (s0 & s1 & B & _). congruence.
  - destruct A as (s0 & s1 & A & _). congruence.
  - destruct (header_at_fun _ _ _ _ _ _ _ _ A B) as (-> & -> & ->). eapply goes_back_fun; eauto.
Qed.
Lemma sections_walk_fun cf fmts f offs d look secs : bytes_ok f -> sections_walk cf fmts f offs d look secs -> 0 <= d -> Forall (fun o => 0 <= o) offs ->
  forall secs', sections_walk cf fmts f offs d look secs' -> secs' = secs.
Proof.
  intros Hb H. induction H as [d look all evs W T|o offs d look all evs secs W T S IH]; intros Hd Ho secs' H'.
  - inversion H' as [? ? all' evs' W' T'|]; subst. pose proof (walk_fun _ _ _ _ _ _ Hb W Hd _ W'). subst all'. now rewrite (taken_fun _ _ _ _ _ T T').
  - inversion H' as [|? ? ? ? all' evs' secs2 W' T' S']; subst. pose proof (walk_fun _ _ _ _ _ _ Hb W Hd _ W'). subst all'. rewrite (taken_fun _ _ _ _ _ T T') in *.
    inversion Ho; subst. f_equal. now apply IH.
Qed.
Theorem walked_fun cf f u defs secs defs' secs' : bytes_ok f -> Forall (fun o => 0 <= o) (section_starts u) -> walked cf f u defs secs -> walked cf f u defs' secs' -> defs' = defs /\ secs' = secs.
Proof.
  intros Hb Ho (q & d & A & B & C) (q' & d' & A' & B' & C'). destruct (hops_fun _ _ _ _ _ _ A B _ _ _ A' B') as (-> & ->).
  rewrite (definitions_end_fun _ _ _ _ _ B B') in C'. split; [reflexivity|].
  assert (Hd : 0 <= d) by (eapply end_nonneg; [|exact B]; eapply hops_nonneg; eauto; lia). eapply sections_walk_fun; eauto.
Qed.
Theorem walked_unique cf f u defs secs defs' secs' : bytes_ok f -> cf_hdr cf = false -> produces cf f (Ok u) ->
  walked cf f u defs secs -> walked cf f u defs' secs' -> defs' = defs /\ secs' = secs.
Proof.
  intros Hb Hc Hp W W'. eapply walked_fun; eauto. clear W W'.
  pose proof (produces_outcome cf f (Ok u) Hb Hp) as O. destruct (outcome_Ok _ _ _ O Hc) as (v & t & rest & defs0 & q & d & u1 & Ef & Hh & Hd & He & Hr & Hg).
  assert (Hq : 0 <= q) by (eapply hops_nonneg; eauto; lia). assert (Hd0 : 0 <= d) by (eapply end_nonneg; eauto).
  pose proof (starts_nonneg _ (hops_offs _ _ _ _ _ Hb Hd _ _ Hr (offs_nonneg_init _ _))) as Ho.
  destruct (sections_walked cf f (u_formats u1) (section_starts u1) d u1 (Ok u) Hb Hg u eq_refl Hd0 Ho) as (_ & _ & _ & _ & _ & W5 & W6); [now rewrite (def_subs _ _ _ _ Hr)|reflexivity|].
  unfold section_starts, has_appended in *. now rewrite W5, W6.
Qed.
