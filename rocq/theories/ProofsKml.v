(** Tracks in KML files, names of output files and topics. *)
From Verif Require Import Base Dict PyStr PyFloat Struct PySort ModelTypes ModelRead ModelApi ModelTools SpecTools.
From Coq Require Import Permutation Sorted.

Definition idx_at (changes : list (Z * Z)) (t : Z) (idx : nat) : Prop :=
  (forall j c, (1 <= j <= idx)%nat -> nth_error changes j = Some c -> fst c <= t) /\
  (forall j c, (idx < j)%nat -> nth_error changes j = Some c -> t < fst c).

Lemma filter_all {A} (p : A -> bool) l : Forall (fun x => p x = true) l -> filter p l = l.
Proof. induction 1 as [|x l H _ IH]; [reflexivity|]. cbn. rewrite H, IH. reflexivity. Qed.
Lemma filter_none {A} (p : A -> bool) l : Forall (fun x => p x = false) l -> filter p l = [].
Proof. induction 1 as [|x l H _ IH]; [reflexivity|]. cbn. rewrite H. exact IH. Qed.

Lemma last_firstn {A} (l : list A) n x d : nth_error l n = Some x -> last (firstn (S n) l) d = x.
Proof.
  revert n. induction l as [|y l IH]; intros [|n] H; try discriminate.
  - cbn in H. injection H as <-. reflexivity.
  - cbn in H. specialize (IH n H). destruct l as [|z l]; [destruct n; discriminate|].
    change (firstn (S (S n)) (y :: z :: l)) with (y :: z :: firstn n l). change (firstn (S n) (z :: l)) with (z :: firstn n l) in IH.
    exact IH.
Qed.

Lemma SS_nth (changes : list (Z * Z)) i j a b : StronglySorted (fun a b => fst a <= fst b) changes -> (i <= j)%nat ->
  nth_error changes i = Some a -> nth_error changes j = Some b -> fst a <= fst b.
Proof.
  intros H. revert i j. induction H as [|x l Hl IH F]; intros i j Hij Ha Hb; [destruct i; discriminate|].
  destruct i, j; cbn in Ha, Hb; try lia.
  - injection Ha as <-. injection Hb as <-. lia.
  - injection Ha as <-. rewrite Forall_forall in F. apply F. eapply nth_error_In. exact Hb.
  - apply (IH i j); [lia|assumption|assumption].
Qed.

Lemma mode_at_idx changes t idx c : StronglySorted (fun a b => fst a <= fst b) changes -> idx_at changes t idx ->
  nth_error changes idx = Some c -> mode_at changes t = snd c.
Proof.
  intros Hs (H1 & H2) Hc. unfold mode_at. f_equal.
  rewrite <- (firstn_skipn (S idx) changes) at 1. rewrite filter_app.
  rewrite (filter_none _ (skipn (S idx) changes)).
  2:{ apply Forall_forall. intros x Hx. apply In_nth_error in Hx. destruct Hx as (j & Hj).
      assert (E : nth_error changes (S idx + j) = Some x).
      { rewrite <- Hj, <- (firstn_skipn (S idx) changes) at 1. assert (L : length (firstn (S idx) changes) = S idx).
        { apply firstn_length_le. assert (idx < length changes)%nat by (apply nth_error_Some; congruence). lia. }
        rewrite nth_error_app2 by lia. rewrite L. f_equal. lia. }
      specialize (H2 (S idx + j)%nat x ltac:(lia) E). lia. }
  rewrite app_nil_r. destruct changes as [|c0 r]; [destruct idx; discriminate|].
  destruct (Z.leb_spec (fst c0) t) as [L|L].
  - rewrite filter_all; [apply last_firstn; exact Hc|]. apply Forall_forall. intros x Hx. apply In_nth_error in Hx. destruct Hx as (j & Hj).
    assert (Hlt : (j < S idx)%nat). { apply Nat.lt_le_trans with (length (firstn (S idx) (c0 :: r))); [apply nth_error_Some; congruence|]. apply firstn_le_length. }
    assert (E : nth_error (c0 :: r) j = Some x).
    { rewrite <- (firstn_skipn (S idx) (c0 :: r)), nth_error_app1; [exact Hj|]. apply nth_error_Some. congruence. }
    destruct j as [|j]; [cbn in E; injection E as <-; lia|]. specialize (H1 (S j) x ltac:(lia) E). lia.
  - destruct idx as [|idx].
    + cbn [firstn filter]. destruct (Z.leb_spec (fst c0) t); [lia|]. cbn. cbn in Hc. injection Hc as <-. reflexivity.
    + exfalso. specialize (H1 (S idx) c ltac:(lia) Hc). pose proof (SS_nth _ O (S idx) c0 c Hs ltac:(lia) eq_refl Hc). lia.
Qed.

(** the loop over mode changes *)
Definition idx_ok (changes : list (Z * Z)) (k : kml) : Prop :=
  match changes with [] => kml_idx k = O /\ fst (kml_cur k) = 0
  | _ => exists c, nth_error changes (kml_idx k) = Some c /\ fst (kml_cur k) = snd c end.

(** lines after the current point is p, with modes correct before it *)
Definition linked (ls : list line) : Prop := consecutive touches ls.

Lemma linked_snoc ls l m : linked (ls ++ [l]) -> touches l m -> linked (ls ++ [l] ++ [m]).
Proof.
  intros H T a b x y E. destruct b as [|z b] using rev_ind.
  - assert (E' : (ls ++ [l]) ++ [m] = (a ++ [x]) ++ [y]) by (rewrite <- !app_assoc; exact E). apply app_inj_tail in E'. destruct E' as (E1 & <-).
    apply app_inj_tail in E1. destruct E1 as (_ & <-). exact T.
  - clear IHb. assert (E' : (ls ++ [l]) ++ [m] = (a ++ x :: y :: b) ++ [z]) by (rewrite <- !app_assoc; exact E).
    apply app_inj_tail in E'. destruct E' as (E1 & _). exact (H _ _ _ _ E1).
Qed.

Lemma path_snoc ls l p : ls ++ [l] <> [] -> path ((ls ++ [l]) ++ [(p : line)]) = path (ls ++ [l]) ++ tl (snd p).
Proof.
  intros _. destruct ls as [|x r]; cbn [app path].
  - cbn. rewrite !app_nil_r. reflexivity.
  - rewrite !map_app, !concat_app. cbn [map concat]. rewrite !app_nil_r, <- !app_assoc. reflexivity.
Qed.

Definition all_lines (k : kml) : list line := kml_done k ++ [kml_cur k].

Lemma coloured_single changes m p : coloured changes (m, [p]).
Proof. intros a b x y E. destruct a as [|? [|? ?]]; discriminate. Qed.

Lemma next_modes_spec changes p : forall fuel k, (length changes <= fuel + kml_idx k)%nat -> idx_ok changes k ->
  (forall j c, (1 <= j <= kml_idx k)%nat -> nth_error changes j = Some c -> fst c <= fst p) ->
  (exists a, snd (kml_cur k) = a ++ [p]) -> StronglySorted (fun a b => fst a <= fst b) changes ->
  let k' := next_modes fuel changes p k in
  idx_ok changes k' /\ idx_at changes (fst p) (kml_idx k') /\ kml_last k' = kml_last k /\
  path (all_lines k') = path (all_lines k) /\ (linked (all_lines k) -> linked (all_lines k')) /\
  (Forall (coloured changes) (all_lines k) -> Forall (coloured changes) (all_lines k')) /\
  ((kml_done k' = kml_done k /\ kml_cur k' = kml_cur k) \/ snd (kml_cur k') = [p]).
Proof.
  induction fuel as [|fuel IH]; intros k Hf Hi Hj (a & Ha) Hs; cbn [next_modes]; cbv zeta.
  - split; [exact Hi|]. split.
    + split; [exact Hj|]. intros j c Hjj Hc. exfalso. assert (j < length changes)%nat by (apply nth_error_Some; congruence). lia.
    + repeat split; try tauto; left; split; reflexivity.
  - destruct (nth_error changes (S (kml_idx k))) as [(t, mode)|] eqn:E.
    + destruct (Z.leb_spec t (fst p)) as [L|L].
      * set (k1 := mkKml (kml_done k ++ [kml_cur k]) (mode, [p]) (kml_last k) (S (kml_idx k))).
        destruct (IH k1) as (A1 & A2 & A3 & A4 & A5 & A6 & A7).
        -- cbn. lia.
        -- unfold idx_ok. destruct changes as [|c0 r]; [destruct (kml_idx k); discriminate|]. exists (t, mode). split; [exact E|reflexivity].
        -- intros j c Hjj Hc. cbn in Hjj. destruct (Nat.eq_dec j (S (kml_idx k))) as [->|N]; [rewrite E in Hc; injection Hc as <-; exact L|].
           apply (Hj j c); [lia|exact Hc].
        -- exists []. reflexivity.
        -- exact Hs.
        -- assert (T : touches (kml_cur k) (mode, [p])) by (exists a, p, []; split; [exact Ha|reflexivity]).
           split; [exact A1|]. split; [exact A2|]. split; [exact A3|]. split.
           { rewrite A4. unfold all_lines, k1. cbn [kml_done kml_cur]. rewrite path_snoc by (destruct (kml_done k); discriminate). cbn. rewrite app_nil_r. reflexivity. }
           split.
           { intros HL. apply A5. unfold all_lines, k1. cbn [kml_done kml_cur]. rewrite <- app_assoc. apply linked_snoc; assumption. }
           split.
           { intros HC. apply A6. unfold all_lines, k1. cbn [kml_done kml_cur]. apply Forall_app. split; [exact HC|]. constructor; [|constructor]. apply coloured_single. }
           right. destruct A7 as [(_ & A7)|A7]; [rewrite A7; reflexivity|exact A7].
      * split; [exact Hi|]. split.
        -- split; [exact Hj|]. intros j c Hjj Hc. pose proof (SS_nth _ (S (kml_idx k)) j _ _ Hs ltac:(lia) E Hc). cbn in H. lia.
        -- repeat split; try tauto; left; split; reflexivity.
    + split; [exact Hi|]. split.
      * split; [exact Hj|]. intros j c Hjj Hc. exfalso. apply nth_error_None in E. assert (j < length changes)%nat by (apply nth_error_Some; congruence). lia.
      * repeat split; try tauto; left; split; reflexivity.
Qed.

(** what holds between samples *)
Definition kml_inv (changes : list (Z * Z)) (k : kml) (kept : list (Z * Z)) : Prop :=
  idx_ok changes k /\ path (all_lines k) = kept /\ linked (all_lines k) /\ Forall (coloured changes) (all_lines k) /\
  match rev kept with
  | [] => kml_idx k = O /\ snd (kml_cur k) = [] /\ kml_done k = [] /\ kml_last k = 0
  | q :: _ => idx_at changes (fst q) (kml_idx k) /\ kml_last k = fst q /\ exists a, snd (kml_cur k) = a ++ [q]
  end.

Lemma path_extend ls (l : line) p : path (ls ++ [(fst l, snd l ++ [p])]) = path (ls ++ [l]) ++ [p] \/ (ls <> [] /\ snd l = []).
Proof.
  destruct ls as [|x r]; [left; cbn; rewrite !app_nil_r; reflexivity|]. destruct (snd l) as [|y s] eqn:E; [right; split; [discriminate|reflexivity]|].
  left. cbn [app path]. rewrite !map_app, !concat_app. cbn [map concat snd]. rewrite E. cbn [app tl]. rewrite !app_nil_r, <- !app_assoc. reflexivity.
Qed.

Lemma linked_extend ls (l : line) p : linked (ls ++ [l]) -> linked (ls ++ [(fst l, snd l ++ [p])]).
Proof.
  intros H a b x y E. destruct b as [|z b] using rev_ind.
  - assert (E' : ls ++ [(fst l, snd l ++ [p])] = (a ++ [x]) ++ [y]) by (rewrite <- app_assoc; exact E). apply app_inj_tail in E'. destruct E' as (-> & <-).
    specialize (H a [] x l). rewrite <- app_assoc in H. specialize (H eq_refl). destruct H as (u & q & v & E1 & E2).
    exists u, q, (v ++ [p]). split; [exact E1|]. cbn [snd]. rewrite E2. reflexivity.
  - clear IHb. assert (E' : ls ++ [(fst l, snd l ++ [p])] = (a ++ x :: y :: b) ++ [z]) by (rewrite <- app_assoc; exact E).
    apply app_inj_tail in E'. destruct E' as (-> & _). apply (H a (b ++ [l]) x y). rewrite <- app_assoc. reflexivity.
Qed.

Lemma coloured_extend changes m s q p : coloured changes (m, s ++ [q]) -> m = mode_at changes (fst q) -> coloured changes (m, s ++ [q] ++ [p]).
Proof.
  intros H Hm a b x y E. cbn [fst snd] in *. destruct b as [|z b] using rev_ind.
  - assert (E' : (s ++ [q]) ++ [p] = (a ++ [x]) ++ [y]) by (rewrite <- !app_assoc; exact E). apply app_inj_tail in E'. destruct E' as (E1 & _).
    apply app_inj_tail in E1. destruct E1 as (_ & <-). exact Hm.
  - clear IHb. assert (E' : (s ++ [q]) ++ [p] = (a ++ x :: y :: b) ++ [z]) by (rewrite <- !app_assoc; exact E).
    apply app_inj_tail in E'. destruct E' as (E1 & _). exact (H a b x y E1).
Qed.

Lemma kml_step min changes k kept p : StronglySorted (fun a b => fst a <= fst b) changes -> kml_inv changes k kept ->
  0 <= kml_last k <= fst p -> fst p < 2 ^ 64 ->
  let k' := kml_point min changes k p in
  (min < fst p - kml_last k /\ kml_inv changes k' (kept ++ [p]) /\ kml_last k' = fst p) \/
  (fst p - kml_last k <= min /\ k' = k).
Proof.
  intros Hs (I1 & I2 & I3 & I4 & I5) Ht Hp. cbv zeta. unfold kml_point.
  rewrite Z.mod_small by (change (2 ^ 64) with 18446744073709551616 in Hp; lia).
  destruct (Z.ltb_spec min (fst p - kml_last k)) as [L|L]; [left|right; split; [exact L|reflexivity]].
  set (k1 := mkKml (kml_done k) (fst (kml_cur k), snd (kml_cur k) ++ [p]) (fst p) (kml_idx k)).
  assert (Q : path (all_lines k1) = kept ++ [p]).
  { unfold all_lines, k1. cbn [kml_done kml_cur]. destruct (path_extend (kml_done k) (kml_cur k) p) as [X|(X & Y)]; [refine (eq_trans X _); f_equal; exact I2|].
    exfalso. destruct (rev kept); [tauto|]. destruct I5 as (_ & _ & a & Ea). rewrite Y in Ea. destruct a; discriminate. }
  destruct (next_modes_spec changes p (length changes) k1) as (A1 & A2 & A3 & A4 & A5 & A6 & A7).
  - lia.
  - exact I1.
  - intros j c Hj Hc. cbn in Hj. destruct (rev kept) as [|q r]; [lia|]. destruct I5 as ((J & _) & El & _). specialize (J j c Hj Hc). lia.
  - exists (snd (kml_cur k)). reflexivity.
  - exact Hs.
  - split; [exact L|]. split; [|exact A3]. split; [exact A1|]. split; [rewrite A4; exact Q|]. split; [apply A5; apply linked_extend; exact I3|]. split.
    + apply A6. unfold all_lines, k1. cbn [kml_done kml_cur]. apply Forall_app in I4. destruct I4 as (F1 & F2). apply Forall_app. split; [exact F1|].
      constructor; [|constructor]. pose proof (Forall_inv F2) as F3. destruct (rev kept) as [|q r] eqn:R.
      * destruct I5 as (_ & E & _). rewrite E. apply coloured_single.
      * destruct I5 as (J & _ & a & Ea). rewrite Ea, <- app_assoc. apply coloured_extend.
        -- rewrite <- Ea. destruct (kml_cur k). exact F3.
        -- unfold idx_ok in I1. destruct changes as [|c0 cs] eqn:Ech; [cbn; apply I1|]. destruct I1 as (c & Hc & Em).
           rewrite (mode_at_idx _ _ _ c Hs J Hc). exact Em.
    + rewrite rev_app_distr. cbn [rev app]. split; [exact A2|]. split; [exact A3|]. destruct A7 as [(_ & A7)|A7].
      * rewrite A7. exists (snd (kml_cur k)). reflexivity.
      * rewrite A7. exists []. reflexivity.
Qed.

Lemma kml_fold min changes ps : StronglySorted (fun a b => fst a <= fst b) changes -> forall k kept, kml_inv changes k kept ->
  Forall (fun p => kml_last k <= fst p) ps -> StronglySorted (fun a b => fst a <= fst b) ps -> 0 <= kml_last k -> Forall (fun p => fst p < 2 ^ 64) ps ->
  exists more, thinned min (kml_last k) ps more /\ kml_inv changes (fold_left (kml_point min changes) ps k) (kept ++ more).
Proof.
  intros Hs. induction ps as [|p ps IH]; intros k kept Hk Hge Hsp H0 Hlt.
  - exists []. split; [constructor|]. rewrite app_nil_r. exact Hk.
  - inversion Hge as [|? ? G1 G2]; inversion Hsp as [|? ? S1 S2]; inversion Hlt as [|? ? L1 L2]; subst. cbn [fold_left].
    destruct (kml_step min changes k kept p Hs Hk ltac:(lia) L1) as [(A & B & C)|(A & B)].
    + destruct (IH _ _ B) as (more & T & I).
      * rewrite C. exact S2.
      * exact S1.
      * rewrite C. lia.
      * exact L2.
      * exists (p :: more). split; [apply thinned_keep; [exact A|rewrite C in T; exact T]|]. rewrite <- app_assoc in I. exact I.
    + rewrite B. destruct (IH k kept Hk G2 S1 H0 L2) as (more & T & I). exists more. split; [apply thinned_drop; assumption|exact I].
Qed.

Lemma kml_spec min changes ps : StronglySorted (fun a b => fst a <= fst b) changes -> StronglySorted (fun a b => fst a <= fst b) ps ->
  Forall (fun p => 0 <= fst p < 2 ^ 64) ps ->
  thinned min 0 ps (path (kml_lines min changes ps)) /\ linked (kml_lines min changes ps) /\ Forall (coloured changes) (kml_lines min changes ps).
Proof.
  intros Hs Hp Hr. destruct (kml_fold min changes ps Hs (kml_start changes) []) as (more & T & I).
  - unfold kml_inv, kml_start, idx_ok, all_lines. cbn. split; [destruct changes as [|(t, m) r]; [split; reflexivity|exists (t, m); split; reflexivity]|].
    split; [reflexivity|]. split; [intros a b x y E; destruct a as [|? [|? ?]]; discriminate|]. split; [|repeat split].
    constructor; [|constructor]. intros a b x y E. destruct a; discriminate.
  - eapply Forall_impl; [|exact Hr]. cbn. lia.
  - exact Hp.
  - cbn. lia.
  - eapply Forall_impl; [|exact Hr]. cbn. lia.
  - destruct I as (_ & I2 & I3 & I4 & _). cbn [app] in *. unfold kml_lines. cbv zeta. fold (all_lines (fold_left (kml_point min changes) ps (kml_start changes))).
    rewrite I2. split; [exact T|]. split; assumption.
Qed.

Lemma thinned_sub min last l k : thinned min last l k -> subsequence k l.
Proof. induction 1; [constructor|constructor; assumption|constructor; assumption]. Qed.
Lemma thinned_spaced min last l k : thinned min last l k ->
  (forall p r, k = p :: r -> min < fst p - last) /\ consecutive (fun p q => min < fst q - fst p) k.
Proof.
  induction 1 as [last|last p r k H T IH|last p r k H T IH].
  - split; [discriminate|]. intros a b x y E. destruct a; discriminate.
  - destruct IH as (I1 & I2). split; [intros q s E; injection E as <- <-; exact H|].
    intros a b x y E. destruct a as [|z a]; cbn in E; [injection E as <- ->; apply (I1 y b eq_refl)|injection E as _ ->; apply (I2 a b x y eq_refl)].
  - exact IH.
Qed.

(** ** from the log to the track *)
Lemma mode_fold (l : list (Z * Z)) t (d : Z * Z) : snd (last (filter (fun c => fst c <=? t) l) d) = fold_left (fun m c => if fst c <=? t then snd c else m) l (snd d).
Proof.
  revert d. induction l as [|c l IH]; intros d; [reflexivity|]. cbn [filter fold_left]. destruct (fst c <=? t).
  - rewrite <- IH. destruct (filter (fun c0 => fst c0 <=? t) l) as [|x r]; [reflexivity|].
    change (last (c :: x :: r) d) with (last (x :: r) d). f_equal. clear IH; revert x; induction r as [|y r IHr]; intros x; [reflexivity|]. apply (IHr y).
  - apply IH.
Qed.

Definition val (t : nptype) (x : Z) : Z := match np_elem t x with VInt z => z | _ => 0 end.
Definition vals (tt tm : nptype) (l : list (Z * Z)) : list (Z * Z) := map (fun p => (val tt (fst p), val tm (snd p))) l.

Lemma fold_late (l : list (Z * Z)) t m : Forall (fun c => t < fst c) l -> fold_left (fun m c => if fst c <=? t then snd c else m) l m = m.
Proof. induction 1 as [|c l H _ IH]; [reflexivity|]. cbn. destruct (Z.leb_spec (fst c) t); [lia|exact IH]. Qed.

Lemma In_changes tm l : forall prev x, In x (changes_from tm prev l) -> In x l.
Proof.
  induction l as [|(t, y) l IH]; intros prev x H; [destruct H|]. cbn in H. apply in_app_iff in H. destruct H as [H|H].
  - destruct (np_eqb tm prev y); [destruct H|]. destruct H as [<-|[]]. left. reflexivity.
  - right. apply (IH _ _ H).
Qed.

Lemma changes_fold tt n sg l t : StronglySorted (fun a b => fst a <= fst b) (vals tt (NI n sg) l) -> forall prev,
  fold_left (fun m c => if fst c <=? t then snd c else m) (vals tt (NI n sg) (changes_from (NI n sg) prev l)) (val (NI n sg) prev) =
  fold_left (fun m c => if fst c <=? t then snd c else m) (vals tt (NI n sg) l) (val (NI n sg) prev).
Proof.
  induction l as [|(ts, x) l IH]; intros Hs prev; [reflexivity|]. cbn [changes_from vals map fst snd] in *. inversion Hs as [|? ? Hl Hf]; subst. cbn [fold_left fst snd].
  destruct (Z.leb_spec (val tt ts) t) as [L|L].
  - assert (E : vals tt (NI n sg) ((if np_eqb (NI n sg) prev x then [] else [(ts, x)]) ++ changes_from (NI n sg) x l) =
       (if np_eqb (NI n sg) prev x then [] else [(val tt ts, val (NI n sg) x)]) ++ vals tt (NI n sg) (changes_from (NI n sg) x l))
      by (destruct (np_eqb (NI n sg) prev x); reflexivity).
    fold (vals tt (NI n sg)). change (map (fun p => (val tt (fst p), val (NI n sg) (snd p)))) with (vals tt (NI n sg)). rewrite E. clear E.
    destruct (np_eqb (NI n sg) prev x) eqn:Eq; cbn [app fold_left fst snd].
    + assert (prev = x) by (unfold np_eqb in Eq; cbn in Eq; lia). subst prev. apply IH. exact Hl.
    + destruct (Z.leb_spec (val tt ts) t); [|lia]. apply IH. exact Hl.
  - assert (F : Forall (fun c => t < fst c) (vals tt (NI n sg) l)) by (eapply Forall_impl; [|exact Hf]; cbn; lia).
    change (map (fun p => (val tt (fst p), val (NI n sg) (snd p))) l) with (vals tt (NI n sg) l). rewrite !fold_late; [reflexivity|exact F|].
    apply Forall_forall. intros c Hc. apply in_map_iff in Hc. destruct Hc as (p & <- & Hp). cbn [fst]. apply in_app_iff in Hp. destruct Hp as [Hp|Hp].
    + destruct (np_eqb (NI n sg) prev x); [destruct Hp|]. destruct Hp as [<-|[]]. exact L.
    + apply In_changes in Hp. rewrite Forall_forall in F. apply (F (val tt (fst p), val (NI n sg) (snd p))). exact (in_map _ _ _ Hp).
Qed.

Lemma SS_sub {A} (R : A -> A -> Prop) l : forall k, StronglySorted R l -> subsequence k l -> StronglySorted R k.
Proof.
  intros k H S. revert H. induction S as [|x k l S IH|x k l S IH]; intros H; [constructor| |]; inversion H as [|? ? Hl Hf]; subst.
  - constructor; [apply IH; exact Hl|]. clear -Hf S. induction S; [constructor| |]; inversion Hf; subst; [constructor|]; auto.
  - apply IH. exact Hl.
Qed.
Lemma sub_In {A} (k l : list A) x : subsequence k l -> In x k -> In x l.
Proof. induction 1 as [|y k l S IH|y k l S IH]; intros H; [exact H|destruct H as [<-|H]; [left; reflexivity|right; auto]|right; auto]. Qed.
Lemma sub_changes tm l : forall prev, subsequence (changes_from tm prev l) l.
Proof.
  induction l as [|(t, y) l IH]; intros prev; [constructor|]. cbn. destruct (np_eqb tm prev y); cbn; constructor; apply IH.
Qed.
Lemma sub_map {A B} (f : A -> B) k l : subsequence k l -> subsequence (map f k) (map f l).
Proof. induction 1; constructor; assumption. Qed.
Lemma sub_snoc {A} (k l m : list A) : subsequence k l -> subsequence (k ++ m) (l ++ m).
Proof. induction 1; cbn; [induction m; constructor; assumption|constructor; assumption|constructor; assumption]. Qed.
Lemma sub_filter {A} (p : A -> bool) l : subsequence (filter p l) l.
Proof. induction l as [|x l IH]; [constructor|]. cbn. destruct (p x); constructor; exact IH. Qed.

Lemma mapM_ints t raws l : map (np_elem t) raws = map VInt l -> mapM (int_of t) raws = Ok l /\ map (val t) raws = l.
Proof.
  revert l. induction raws as [|x r IH]; intros [|z l] E; try discriminate; [split; reflexivity|]. cbn [map] in E. injection E as E1 E2.
  destruct (IH _ E2) as (A & B). split.
  - cbn [mapM]. unfold int_of at 1. rewrite E1. cbn [bind]. rewrite A. reflexivity.
  - cbn [map]. unfold val at 1. rewrite E1, B. reflexivity.
Qed.

Lemma combine_vals tt tm a b : map (fun p => (val tt (fst p), val tm (snd p))) (combine a b) = combine (map (val tt) a) (map (val tm) b).
Proof. revert b. induction a as [|x a IH]; intros [|y b]; try reflexivity. cbn. f_equal. apply IH. Qed.

Definition int_type (t : nptype) : Prop := match t with NI _ _ => True | NF _ => False end.
Lemma int_of_val t x : int_type t -> int_of t x = Ok (val t x).
Proof. destruct t; [reflexivity|intros []]. Qed.

(** raw and seen values are both zero or both not, for unsigned columns; in general the model tests the raw one *)
Lemma changes_spec u vs ts ms : get_dataset u (lit "vehicle_status") 0 = Ok vs ->
  int_field vs (lit "timestamp") ts -> (exists c, sget (lit "timestamp") (ds_data vs) = Some c /\ c_type c = NI 8 false) ->
  int_field vs (lit "nav_state") ms -> length ts = length ms ->
  StronglySorted Z.le ts -> Forall (fun t => t <= u_last u) ts ->
  exists changes, kml_changes u = Ok changes /\ StronglySorted (fun a b => fst a <= fst b) changes /\
    (forall t, mode_at changes t = mode_at (mode_samples u ts ms) t) /\ incl changes (mode_samples u ts ms) /\ changes <> [].
Proof.
  intros Hd (c & size & sg & Hc & Ht & Hm) (c' & Hc' & Ht') (x & n & g & Hx & Hxt & Hxm) Hlen Hs Hlast.
  rewrite Hc in Hc'. injection Hc' as <-. rewrite Ht' in *. clear Ht size sg. rewrite Hxt in Hxm.
  destruct (mapM_ints _ _ _ Hm) as (_ & Vt). destruct (mapM_ints _ _ _ Hxm) as (_ & Vx).
  assert (Ll : length (c_raw c) = length (c_raw x)) by (rewrite <- Vt, <- Vx, !map_length in Hlen; exact Hlen).
  set (l := filter (fun p => np_nonzero (NI 8 false) (fst p)) (combine (c_raw c) (c_raw x))).
  set (tu := NI 8 false) in *. set (tn := NI n g) in *.
  assert (Vl : vals tu tn l = filter (fun p => negb (fst p =? 0)) (combine ts ms)).
  { rewrite <- Vt, <- Vx, <- combine_vals. unfold l. generalize (combine (c_raw c) (c_raw x)). clear. intros l. induction l as [|(a, b) l IH]; [reflexivity|].
    cbn [map filter fst snd]. change (val tu a) with a. change (np_nonzero tu a) with (negb (a =? 0)). destruct (negb (a =? 0)); cbn [vals map fst snd]; [f_equal|]; exact IH. }
  set (ch := match l with [] => [] | p :: r => p :: changes_from tn (snd p) r end).
  assert (Ech : list_value_changes vs (lit "nav_state") = Ok ch).
  { unfold list_value_changes. rewrite Hc, Hx. rewrite (proj2 (Nat.eqb_eq _ _) Ll). cbn [negb]. rewrite Ht', Hxt. fold tu tn l. unfold ch. destruct l; reflexivity. }
  assert (Sc : StronglySorted (fun a b : Z * Z => fst a <= fst b) (combine ts ms)).
  { clear -Hs. revert ms. induction Hs as [|t ts Hs IH F]; intros [|m ms]; try constructor; [apply IH|]. apply Forall_forall. intros (a, b) Hin.
    apply in_combine_l in Hin. rewrite Forall_forall in F. apply F. exact Hin. }
  assert (Sl : StronglySorted (fun a b => fst a <= fst b) (vals tu tn l)) by (rewrite Vl; eapply SS_sub; [exact Sc|apply sub_filter]).
  assert (Subch : subsequence ch l) by (unfold ch; destruct l as [|p r]; constructor; apply sub_changes).
  exists (vals tu tn ch ++ [(u_last u, -1)]). split; [|split; [|split]].
  - unfold kml_changes. rewrite Hd. cbn [bind]. rewrite Ech. cbn [bind]. unfold col_type. rewrite Hc, Hx, Ht', Hxt. fold tu tn.
    rewrite (mapM_all_Ok _ (fun p => (val tu (fst p), val tn (snd p)))); [reflexivity|]. intros p _. rewrite !int_of_val by exact I. reflexivity.
  - assert (S2 : StronglySorted (fun a b : Z * Z => fst a <= fst b) (vals tu tn ch)) by (eapply SS_sub; [exact Sl|apply sub_map; exact Subch]).
    assert (F2 : Forall (fun p : Z * Z => fst p <= u_last u) (vals tu tn ch)).
    { apply Forall_forall. intros p Hp. assert (Hin : In p (combine ts ms)).
      { assert (In p (vals tu tn l)). { exact (sub_In _ _ _ (sub_map (fun p => (val tu (fst p), val tn (snd p))) _ _ Subch) Hp). }
        rewrite Vl in H. apply filter_In in H. apply H. }
      destruct p as (a, b). apply in_combine_l in Hin. rewrite Forall_forall in Hlast. apply Hlast. exact Hin. }
    clear -S2 F2. induction S2 as [|p k S2 IH Fp]; cbn; [repeat constructor|]. inversion F2; subst. constructor; [apply IH; assumption|].
    apply Forall_app. split; [exact Fp|]. constructor; [assumption|constructor].
  - intros t. unfold mode_at, mode_samples. rewrite <- Vl, !mode_fold, !fold_left_app. f_equal.
    unfold ch. destruct l as [|p r]; [reflexivity|]. cbn [vals map hd app snd fold_left fst].
    assert (Sr : StronglySorted (fun a b => fst a <= fst b) (vals tu tn r)) by (inversion Sl; assumption).
    destruct (val tu (fst p) <=? t); apply (changes_fold tu n g r t Sr (snd p)).
  - split; [|destruct (vals tu tn ch); discriminate]. unfold mode_samples. rewrite <- Vl. intros p Hp. apply in_app_or in Hp. apply in_or_app. destruct Hp as [Hp|Hp]; [left|right; exact Hp].
    exact (sub_In _ _ _ (sub_map (fun p => (val tu (fst p), val tn (snd p))) _ _ Subch) Hp).
Qed.

Lemma np_ints t raws l : map (np_elem t) raws = map VInt l -> mapM (int_of t) raws = Ok l.
Proof. intros H. apply (mapM_ints _ _ _ H). Qed.

Lemma seq_combine ts : forall a, combine ts (map Z.of_nat (seq a (length ts))) = map (fun i => (nth (i - a) ts 0, Z.of_nat i)) (seq a (length ts)).
Proof.
  induction ts as [|t ts IH]; intros a; [reflexivity|]. cbn [length seq map combine]. rewrite Nat.sub_diag. f_equal. rewrite IH.
  apply map_ext_in. intros i Hi. apply in_seq in Hi. f_equal. replace (i - a)%nat with (S (i - S a)) by lia. reflexivity.
Qed.

Lemma fix_filter (f : nat -> Z * Z) fs : forall a,
  map fst (filter (fun p : Z * Z * Z => 2 <? snd p) (combine (map f (seq a (length fs))) fs)) =
  map f (filter (fun i => 2 <? nth (i - a) fs 0) (seq a (length fs))).
Proof.
  induction fs as [|x fs IH]; intros a; [reflexivity|]. cbn [length seq map combine filter snd]. rewrite Nat.sub_diag. change (nth 0 (x :: fs) 0) with x.
  specialize (IH (S a)).
  assert (E : filter (fun i => 2 <? nth (i - a) (x :: fs) 0) (seq (S a) (length fs)) = filter (fun i => 2 <? nth (i - S a) fs 0) (seq (S a) (length fs))).
  { apply filter_ext_in. intros i Hi. apply in_seq in Hi. replace (i - a)%nat with (S (i - S a)) by lia. reflexivity. }
  rewrite E. destruct (2 <? x); cbn [map fst]; [f_equal|]; exact IH.
Qed.

Lemma positions_spec u topic d ts : get_dataset u topic 0 = Ok d ->
  (exists c, either d (lit "lon") (lit "longitude_deg") = Ok c) -> (exists c, either d (lit "lat") (lit "latitude_deg") = Ok c) ->
  (exists c, either d (lit "alt") (lit "altitude_msl_m") = Ok c) -> int_field d (lit "timestamp") ts ->
  forall fixes, match fixes with Some fs => int_field d (lit "fix_type") fs /\ length fs = length ts | None => sget (lit "fix_type") (ds_data d) = None end ->
  kml_positions u topic = Ok (fix_samples ts fixes).
Proof.
  intros Hd (c1 & H1) (c2 & H2) (c3 & H3) (c & size & sg & Hc & Ht & Hm) fixes Hf.
  unfold kml_positions. rewrite Hd. cbn [bind]. rewrite H1. cbn [bind]. rewrite H2. cbn [bind]. rewrite H3. cbn [bind]. rewrite Hc.
  rewrite (np_ints _ _ _ Hm). cbn [bind]. rewrite seq_combine. unfold fix_samples.
  assert (E0 : map (fun i => (nth (i - 0) ts 0, Z.of_nat i)) (seq 0 (length ts)) = map (fun i => (nth i ts 0, Z.of_nat i)) (seq 0 (length ts)))
    by (apply map_ext; intros i; rewrite Nat.sub_0_r; reflexivity).
  rewrite E0. destruct fixes as [fs|].
  - destruct Hf as ((f & s2 & g2 & Hf & Hft & Hfm) & Hl). rewrite Hf. rewrite (np_ints _ _ _ Hfm). cbn [bind]. rewrite (proj2 (Nat.eqb_eq _ _) Hl). cbn [negb].
    f_equal. rewrite <- Hl. rewrite (fix_filter (fun i => (nth i ts 0, Z.of_nat i)) fs 0). f_equal. apply filter_ext. intros i. rewrite Nat.sub_0_r. reflexivity.
  - rewrite Hf. f_equal. rewrite filter_all; [reflexivity|]. apply Forall_forall. reflexivity.
Qed.

Lemma fix_samples_sorted ts fixes : StronglySorted Z.le ts -> StronglySorted (fun a b => fst a <= fst b) (fix_samples ts fixes).
Proof.
  intros H. eapply SS_sub; [|apply sub_map, sub_filter].
  assert (E : map (fun i => (nth i ts 0, Z.of_nat i)) (seq 0 (length ts)) = combine ts (map Z.of_nat (seq 0 (length ts)))).
  { rewrite seq_combine. apply map_ext. intros i. rewrite Nat.sub_0_r. reflexivity. }
  rewrite E. generalize (map Z.of_nat (seq 0 (length ts))). clear E. induction H as [|t ts Hs IH F]; intros [|m ms]; try constructor; [apply IH|].
  apply Forall_forall. intros (a, b) Hin. apply in_combine_l in Hin. rewrite Forall_forall in F. apply F. exact Hin.
Qed.

Lemma track_spec min u topic vs vts ms d ts fixes : get_dataset u (lit "vehicle_status") 0 = Ok vs ->
  int_field vs (lit "timestamp") vts -> (exists c, sget (lit "timestamp") (ds_data vs) = Some c /\ c_type c = NI 8 false) ->
  int_field vs (lit "nav_state") ms -> length vts = length ms -> StronglySorted Z.le vts -> Forall (fun t => t <= u_last u) vts ->
  get_dataset u topic 0 = Ok d ->
  (exists c, either d (lit "lon") (lit "longitude_deg") = Ok c) -> (exists c, either d (lit "lat") (lit "latitude_deg") = Ok c) ->
  (exists c, either d (lit "alt") (lit "altitude_msl_m") = Ok c) ->
  int_field d (lit "timestamp") ts -> StronglySorted Z.le ts -> Forall (fun t => 0 <= t < 2 ^ 64) ts ->
  match fixes with Some fs => int_field d (lit "fix_type") fs /\ length fs = length ts | None => sget (lit "fix_type") (ds_data d) = None end ->
  exists lines, kml_track min u topic = Ok lines /\ thinned min 0 (fix_samples ts fixes) (path lines) /\
    consecutive touches lines /\ Forall (coloured (mode_samples u vts ms)) lines.
Proof.
  intros H1 H2 H3 H4 H5 H6 H7 D1 D2 D3 D4 D5 D6 D7 D8.
  destruct (changes_spec u vs vts ms H1 H2 H3 H4 H5 H6 H7) as (changes & E & S & M & _).
  exists (kml_lines min changes (fix_samples ts fixes)). unfold kml_track. rewrite E. cbn [bind].
  rewrite (positions_spec u topic d ts D1 D2 D3 D4 D5 fixes D8). cbn [bind]. split; [reflexivity|].
  destruct (kml_spec min changes (fix_samples ts fixes) S (fix_samples_sorted ts fixes D6)) as (A & B & C).
  - apply Forall_forall. intros p Hp. unfold fix_samples in Hp. apply in_map_iff in Hp. destruct Hp as (i & <- & Hi). apply filter_In in Hi. destruct Hi as (Hi & _).
    apply in_seq in Hi. rewrite Forall_forall in D7. apply D7. apply nth_In. lia.
  - split; [exact A|]. split; [exact B|]. eapply Forall_impl; [|exact C]. intros l Hl a b x y El. cbv beta. rewrite <- M. exact (Hl a b x y El).
Qed.

(** ** names *)
Lemma last_sep a b c d : ~ In 95 b -> ~ In 95 d -> a ++ 95 :: b = c ++ 95 :: d -> a = c /\ b = d.
Proof.
  intros Hb Hd E. apply (f_equal (@rev Z)) in E. rewrite !rev_app_distr in E. cbn [rev] in E. rewrite <- !app_assoc in E. cbn [app] in E.
  assert (G : forall x y r s : list Z, ~ In 95 x -> ~ In 95 y -> x ++ 95 :: r = y ++ 95 :: s -> x = y /\ r = s).
  { clear. induction x as [|u x IH]; intros [|v y] r s Hx Hy E; cbn in *.
    - injection E as ->. split; reflexivity.
    - injection E as E1 _. exfalso. apply Hy. left. symmetry. exact E1.
    - injection E as E1 _. exfalso. apply Hx. left. exact E1.
    - injection E as -> E. destruct (IH y r s) as (-> & ->); try tauto. }
  destruct (G (rev b) (rev d) (rev a) (rev c)) as (E1 & E2).
  - intros H. apply in_rev in H. contradiction.
  - intros H. apply in_rev in H. contradiction.
  - exact E.
  - apply (f_equal (@rev Z)) in E1, E2. rewrite !rev_involutive in E1, E2. split; assumption.
Qed.

Lemma digits_no95 n : 0 <= n -> ~ In 95 (str_of_Z n).
Proof. intros H Hin. rewrite str_of_Z_nonneg in Hin by exact H. apply str_of_nonneg_digits in Hin; lia. Qed.
Lemma str_of_Z_inj a b : 0 <= a -> 0 <= b -> str_of_Z a = str_of_Z b -> a = b.
Proof. intros Ha Hb. rewrite !str_of_Z_nonneg by assumption. apply str_of_nonneg_inj; assumption. Qed.

Lemma suffix_inj x y a b : 0 <= a -> 0 <= b -> x ++ lit "_" ++ str_of_Z a = y ++ lit "_" ++ str_of_Z b -> x = y /\ a = b.
Proof.
  intros Ha Hb E. destruct (last_sep x (str_of_Z a) y (str_of_Z b)) as (E1 & E2); [apply digits_no95; exact Ha|apply digits_no95; exact Hb|exact E|].
  split; [exact E1|]. apply str_of_Z_inj; assumption.
Qed.

Lemma csv_name_inj prefix d e : 0 <= ds_multi d -> 0 <= ds_multi e -> csv_name prefix d = csv_name prefix e ->
  no_slash (ds_name d) = no_slash (ds_name e) /\ ds_multi d = ds_multi e.
Proof.
  intros Hd He E. unfold csv_name in E. apply app_inv_head in E. apply app_inv_head in E. rewrite !app_assoc in E. apply app_inv_tail in E.
  rewrite <- !app_assoc in E. apply suffix_inj; assumption.
Qed.

Lemma no_slash_id s : ~ In 47 s -> no_slash s = s.
Proof.
  intros H. unfold no_slash. rewrite <- (map_id s) at 2. apply map_ext_in. intros c Hc. destruct (Z.eqb_spec c 47) as [->|N]; [contradiction|reflexivity].
Qed.

Lemma ros2_inj u d e : In d (u_data u) -> In e (u_data u) -> 0 <= ds_multi d -> 0 <= ds_multi e ->
  (forall a b k, In a (u_data u) -> In b (u_data u) -> 0 <= k -> ds_name a <> ds_name b ++ lit "_" ++ str_of_Z k) ->
  ros2_topic u d = ros2_topic u e -> ds_name d = ds_name e /\ ds_multi d = ds_multi e.
Proof.
  intros Hd He Md Me Hn E. unfold ros2_topic in E.
  assert (Z0 : forall x, In x (u_data u) -> forallb (Z.eqb 0) (multi_ids u (ds_name x)) = true -> ds_multi x = 0).
  { intros x Hx H. rewrite forallb_forall in H. specialize (H (ds_multi x)). symmetry. apply Z.eqb_eq. apply H. unfold multi_ids. apply in_map. apply filter_In.
    split; [exact Hx|apply str_eqb_refl]. }
  destruct (forallb (Z.eqb 0) (multi_ids u (ds_name d))) eqn:Bd, (forallb (Z.eqb 0) (multi_ids u (ds_name e))) eqn:Be; apply app_inv_head in E.
  - split; [exact E|]. rewrite (Z0 _ Hd Bd), (Z0 _ He Be). reflexivity.
  - exfalso. exact (Hn d e _ Hd He Me E).
  - exfalso. symmetry in E. exact (Hn e d _ He Hd Md E).
  - apply suffix_inj; assumption.
Qed.

(** ** loads at the same time *)
Lemma run_alone_end {S} (step : bool -> S -> option S) b n s : step b s = None -> run_alone step b n s = s.
Proof. intros H. destruct n; cbn; [reflexivity|rewrite H; reflexivity]. Qed.
Lemma run_alone_step {S} (step : bool -> S -> option S) b n : forall s, run_alone step b (Datatypes.S n) s =
  match step b (run_alone step b n s) with Some t => t | None => run_alone step b n s end.
Proof.
  induction n as [|n IH]; intros s.
  - cbn. destruct (step b s); reflexivity.
  - cbn [run_alone] in *. destruct (step b s) as [t|] eqn:E; [apply IH|rewrite E; reflexivity].
Qed.

Lemma same_flag {S} (step : bool -> S -> option S) start i b es2 : 
  (forall j b', In (Begin j b') es2 -> j <> i /\ b' = b) -> forall w n, w_flag w = b -> w_load w i = Some (run_alone step b n (start i)) ->
  w_load (fold_left (happen step start) es2 w) i = Some (run_alone step b (n + moves i es2) (start i)).
Proof.
  induction es2 as [|e es2 IH]; intros Hb w n Hf Hw; [cbn; rewrite Nat.add_0_r; exact Hw|].
  assert (Hb' : forall j b', In (Begin j b') es2 -> j <> i /\ b' = b) by (intros j b' Hin; apply Hb; right; exact Hin).
  cbn [fold_left]. destruct e as [j b'|j].
  - destruct (Hb j b' (or_introl eq_refl)) as (Hj & ->). cbn [moves]. apply IH; [exact Hb'|reflexivity|]. cbn. unfold upd. destruct (Nat.eqb_spec i j); [congruence|exact Hw].
  - cbn [moves happen]. destruct (Nat.eqb_spec j i) as [->|N].
    + rewrite Hw. rewrite <- Nat.add_succ_comm, Hf. destruct (step b (run_alone step b n (start i))) as [t|] eqn:E.
      * apply IH; [exact Hb'|reflexivity|]. cbn [w_load]. unfold upd. rewrite Nat.eqb_refl, run_alone_step, E. reflexivity.
      * apply IH; [exact Hb'|exact Hf|]. rewrite run_alone_step, E. exact Hw.
    + destruct (w_load w j) as [s|]; [|apply IH; assumption]. destruct (step (w_flag w) s) as [t|]; [|apply IH; assumption].
      apply IH; [exact Hb'|exact Hf|]. cbn [w_load]. unfold upd. destruct (Nat.eqb_spec i j); [congruence|exact Hw].
Qed.
