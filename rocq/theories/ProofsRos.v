From Verif Require Import Base Dict PyStr PyFloat Struct ModelTypes ModelApi ModelTools ModelBag ModelCommand ModelRos SpecBag SpecRos ProofsBag.

(** ** Versions *)
(** the order of [p ++ x] and [q], where [p] decides it *)
Fixpoint decided (p q : str) : option comparison :=
  match p, q with
  | [], _ => None
  | _ :: _, [] => Some Gt
  | c :: p', d :: q' => match c ?= d with Eq => decided p' q' | r => Some r end
  end.
Lemma decided_cmp p : forall q r x, decided p q = Some r -> str_cmp (p ++ x) q = r.
Proof.
  induction p as [|c p IH]; intros [|d q] r x H; cbn in *; try discriminate; [now injection H|]. destruct (c ?= d); [auto|now injection H|now injection H].
Qed.
Lemma leb_decided p q x r : decided p q = Some r -> str_leb q (p ++ x) = match r with Lt => false | _ => true end.
Proof. intros H. unfold str_leb. rewrite str_cmp_antisym, (decided_cmp _ _ _ x H). now destruct r. Qed.
Definition before_patch (b : Z) : str := lit "0." ++ str_of_Z b ++ lit ".".
Lemma text_0 b c : version_text 0 b c = before_patch b ++ str_of_Z c.
Proof. unfold version_text, before_patch. change (str_of_Z 0) with (lit "0"). now rewrite <- !app_assoc. Qed.
Definition texts_agree (y : Z) (q : str) (b : Z) : bool :=
  match decided (before_patch b) q with Some r => Bool.eqb (match r with Lt => false | _ => true end) (y <? b) | None => false end.
Definition texts_differ (y : Z) (q : str) (b : Z) : bool :=
  match decided (before_patch b) q with Some r => Bool.eqb (match r with Lt => false | _ => true end) (negb (y <? b)) | None => false end.
Definition range (a n : nat) : list Z := map Z.of_nat (seq a n).
Lemma in_range a n b : Z.of_nat a <= b < Z.of_nat (a + n) -> In b (range a n).
Proof. intros H. apply in_map_iff. exists (Z.to_nat b). split; [lia|]. apply in_seq. lia. Qed.
Lemma leb_lt c d a b : c < d -> str_leb (c :: a) (d :: b) = true.
Proof. intros H. unfold str_leb. cbn [str_cmp]. apply Z.compare_lt_iff in H. now rewrite H. Qed.
Lemma leb_same c a b : str_leb (c :: a) (c :: b) = str_leb a b.
Proof. unfold str_leb. cbn [str_cmp]. now rewrite Z.compare_refl. Qed.
Lemma leb_zero c : 0 <= c -> str_leb (lit "0") (str_of_Z c) = true.
Proof.
  intros H. rewrite str_of_Z_nonneg by lia. destruct (str_of_nonneg_spec c H) as (D & N & _). destruct (str_of_nonneg c) as [|x r]; [easy|].
  inversion D as [|? ? Dx Dr]; subst. unfold is_digit in Dx. change (lit "0") with [48].
  destruct (Z.eq_dec x 48) as [->|]; [rewrite leb_same; now destruct r|apply leb_lt; lia].
Qed.
Lemma cmp_prefix p : forall a b, str_cmp (p ++ a) (p ++ b) = str_cmp a b.
Proof. induction p as [|c p IH]; intros a b; cbn; [reflexivity|]. now rewrite Z.compare_refl. Qed.
Lemma later_major q a b c : 1 <= a -> q = lit "0.25.0" \/ q = lit "0.32.0" -> str_leb q (version_text a b c) = true.
Proof.
  intros H Hq. unfold version_text. rewrite (str_of_Z_nonneg a) by lia.
  assert (F : exists x r, str_of_nonneg a = x :: r /\ (48 < x \/ x = 48 /\ exists y r', r = y :: r' /\ 48 <= y)).
  { destruct (str_of_nonneg_spec a ltac:(lia)) as (D & N & V). destruct (str_of_nonneg a) as [|x r]; [easy|]. exists x, r. split; auto.
    apply Forall_cons_iff in D as [Dx Dr]. unfold is_digit in Dx. destruct (Z.eq_dec x 48) as [->|]; [right|left; lia]. split; auto.
    destruct r as [|y r']; [change (dec_val [48]) with 0 in V; lia|]. exists y, r'. split; auto. apply Forall_cons_iff in Dr as [Dy _]. unfold is_digit in Dy. lia. }
  destruct F as (x & r & -> & F). assert (exists s, q = 48 :: 46 :: s) as (s & ->) by (destruct Hq as [->| ->]; eexists; reflexivity).
  cbn [app]. destruct F as [F|(-> & y & r' & -> & F)]; [now apply leb_lt|]. rewrite leb_same. apply leb_lt. lia.
Qed.
Section versions.
  Variables (y : Z) (q : str) (agrees : list Z) (differs : list Z).
  Hypothesis Hq : q = before_patch y ++ lit "0".
  Hypothesis Qs : q = lit "0.25.0" \/ q = lit "0.32.0".
  Hypothesis HA : forallb (texts_agree y q) agrees = true.
  Hypothesis HD : forallb (texts_differ y q) differs = true.
  Lemma right_version a b c : 0 <= a -> 0 <= b -> 0 <= c -> 1 <= a \/ b = y \/ In b agrees -> 0 < y ->
    (str_leb q (version_text a b c) = true <-> at_least (a, b, c) (0, y, 0)).
  Proof.
    intros Ha Hb Hc H Hy. destruct (Z_le_gt_dec 1 a) as [La|La].
    { rewrite later_major by auto. cbn. split; intros; [lia|reflexivity]. }
    assert (a = 0) as -> by lia. unfold at_least. destruct H as [H|[->|H]]; [lia| |].
    - rewrite text_0. unfold str_leb. rewrite Hq, cmp_prefix. change (match str_cmp (lit "0") (str_of_Z c) with Gt => false | _ => true end) with (str_leb (lit "0") (str_of_Z c)).
      rewrite leb_zero by lia. split; intros; [lia|reflexivity].
    - rewrite forallb_forall in HA. specialize (HA b H). unfold texts_agree in HA. destruct (decided (before_patch b) q) as [r|] eqn:E; [|discriminate].
      rewrite text_0, (leb_decided _ _ _ _ E). apply Bool.eqb_prop in HA. rewrite HA.
      assert (b <> y). { intros ->. revert E. rewrite Hq. clear. induction (before_patch y) as [|z p IH]; cbn; [discriminate|]. now rewrite Z.compare_refl. }
      rewrite Z.ltb_lt. lia.
  Qed.
  Lemma wrong_version b c : In b differs -> (str_leb q (version_text 0 b c) = true <-> ~ at_least (0, b, c) (0, y, 0)).
  Proof.
    intros H. rewrite forallb_forall in HD. specialize (HD b H). unfold texts_differ in HD. destruct (decided (before_patch b) q) as [r|] eqn:E; [|discriminate].
    assert (b <> y). { intros ->. revert E. rewrite Hq. clear. induction (before_patch y) as [|z p IH]; cbn; [discriminate|]. now rewrite Z.compare_refl. }
    rewrite text_0, (leb_decided _ _ _ _ E). apply Bool.eqb_prop in HD. rewrite HD. unfold at_least. rewrite negb_true_iff, Z.ltb_ge. lia.
  Qed.
End versions.

(** ** Names *)
Lemma split1_parts c a : forall b, split1 c (a ++ c :: b) = split1 c a ++ split1 c b.
Proof.
  induction a as [|x a IH]; intros b; cbn [app split1]; [now rewrite Z.eqb_refl|]. rewrite IH. destruct (x =? c); [reflexivity|].
  pose proof (split1_nonempty c a). destruct (split1 c a); [easy|reflexivity].
Qed.
Lemma last_snoc {A} (l : list A) x d : last (l ++ [x]) d = x.
Proof. induction l as [|y l IH]; [reflexivity|]. cbn [app last]. destruct (l ++ [x]) eqn:E; [now destruct l|exact IH]. Qed.
Lemma path_last base : ~ In 47 base -> base <> [] -> base <> [46] ->
  path_name base = base /\ forall dir, path_name (dir ++ 47 :: base) = base.
Proof.
  intros H N D. assert (K : negb (str_eqb base []) && negb (str_eqb base [46]) = true).
  { destruct (str_eqb_spec base []); [easy|]. destruct (str_eqb_spec base [46]); [easy|]. reflexivity. }
  unfold path_name. split.
  - rewrite split1_nosep by auto. cbn [filter]. now rewrite K.
  - intros dir. rewrite split1_parts, filter_app, (split1_nosep 47 base) by auto. cbn [filter]. rewrite K. apply last_snoc.
Qed.
Lemma skipn_exact {A} (a b : list A) n : n = length a -> skipn n (a ++ b) = b.
Proof. intros ->. induction a; auto. Qed.
Lemma firstn_exact {A} (a b : list A) n : n = length a -> firstn n (a ++ b) = a.
Proof. intros ->. induction a as [|x a IH]; cbn; [reflexivity|now rewrite IH]. Qed.
Lemma sub_ending base : sub_ulg (base ++ lit ".ulg") = base.
Proof.
  unfold sub_ulg. rewrite (skipn_exact base) by (rewrite app_length; cbn; lia). rewrite (proj2 (str_eqb_eq _ _) eq_refl).
  apply firstn_exact. rewrite app_length. cbn. lia.
Qed.
Lemma sub_newline base : sub_ulg (base ++ lit ".ulg" ++ [10]) = base ++ [10].
Proof.
  unfold sub_ulg. assert (L : length (base ++ lit ".ulg" ++ [10]) = (length base + 5)%nat) by (rewrite !app_length; cbn; lia). rewrite L.
  destruct (str_eqb_spec (skipn (length base + 5 - 4) (base ++ lit ".ulg" ++ [10])) (lit ".ulg")) as [E|_].
  { exfalso. rewrite skipn_app, skipn_all2 in E by lia. replace (length base + 5 - 4 - length base)%nat with 1%nat in E by lia.
    apply (f_equal (@hd Z 0)) in E. cbv in E. discriminate E. }
  replace (length base + 5 - 5)%nat with (length base) by lia. rewrite (skipn_exact base) by reflexivity.
  rewrite (proj2 (str_eqb_eq _ _) eq_refl). f_equal. now apply firstn_exact.
Qed.
Lemma storage_is m : storage m = storage_name m.
Proof. now destruct m. Qed.
Lemma sub_other s : (forall a, s <> a ++ lit ".ulg") -> (forall a, s <> a ++ lit ".ulg" ++ [10]) -> sub_ulg s = s.
Proof.
  intros H1 H2. unfold sub_ulg.
  destruct (str_eqb_spec (skipn (length s - 4) s) (lit ".ulg")) as [E|_].
  { exfalso. apply (H1 (firstn (length s - 4) s)). rewrite <- E. symmetry. apply firstn_skipn. }
  destruct (str_eqb_spec (skipn (length s - 5) s) (lit ".ulg" ++ [10])) as [E|_]; [|reflexivity].
  exfalso. apply (H2 (firstn (length s - 5) s)). rewrite <- E. symmetry. apply firstn_skipn.
Qed.

(** ** Samples and topics *)
Lemma sample_same e ro topic fields d i : v_seq e = uses_seqnum (v_version e) -> ros_sample e ro topic fields d i = write_sample ro topic fields d i.
Proof. intros H. unfold ros_sample, write_sample. now rewrite H, Bool.eqb_reflx. Qed.
Definition with_msgs (b : bag) (ms : list (str * rosmsg * Z)) : bag := mkBag (b_topics b) (b_msgs b ++ ms) (b_skipped b) (b_ntopics b) (b_nmsgs b).
Lemma samples_run e ro topic fields d l : forall b, v_seq e = uses_seqnum (v_version e) ->
  (exists ms, mapM (write_sample ro topic fields d) l = Ok ms /\ ros_samples e ro topic fields d l b = (Ok tt, with_msgs b ms)) \/
  (exists l1 i l2 ms x, l = l1 ++ i :: l2 /\ mapM (write_sample ro topic fields d) l1 = Ok ms /\ write_sample ro topic fields d i = Err x /\
     mapM (write_sample ro topic fields d) l = Err x /\ ros_samples e ro topic fields d l b = (Err x, with_msgs b ms)).
Proof.
  induction l as [|i l IH]; intros b V; cbn [mapM ros_samples].
  - left. exists []. split; [reflexivity|]. unfold with_msgs. rewrite app_nil_r. now destruct b.
  - rewrite (sample_same e) by auto. destruct (write_sample ro topic fields d i) as [m|x] eqn:E.
    + destruct (IH (mkBag (b_topics b) (b_msgs b ++ [m]) (b_skipped b) (b_ntopics b) (b_nmsgs b)) V) as [(ms & E1 & E2)|(l1 & j & l2 & ms & x & -> & E1 & E2 & E3 & E4)].
      * left. exists (m :: ms). cbn [bind]. rewrite E1, E2. split; [reflexivity|]. unfold with_msgs. cbn [b_topics b_msgs b_skipped b_ntopics b_nmsgs]. now rewrite <- app_assoc.
      * right. exists (i :: l1), j, l2, (m :: ms), x. split; [reflexivity|]. cbn [mapM bind]. rewrite E. cbn [bind]. rewrite E1, E3, E4. split; [reflexivity|]. split; [exact E2|].
        split; [reflexivity|]. unfold with_msgs. cbn [b_topics b_msgs b_skipped b_ntopics b_nmsgs]. now rewrite <- app_assoc.
    + right. exists [], i, l, [], x. split; [reflexivity|]. split; [reflexivity|]. split; [exact E|]. split; [reflexivity|]. unfold with_msgs. rewrite app_nil_r. now destruct b.
Qed.
(** what one topic leaves *)
Lemma topic_run e ro u b d : matches e ->
  (exists b', bag_topic ro u b d = Ok b' /\ ros_topic e ro u b d = (Ok tt, b')) \/
  (exists x, bag_topic ro u b d = Err x /\ len_ts d = Err x /\ ros_topic e ro u b d = (Err x, b)) \/
  (exists x ty fields n i ms, bag_topic ro u b d = Err x /\ calc_msgtype ro (ds_name d) = Some ty /\ sget ty (r_types ro) = Some fields /\ len_ts d = Ok n /\ (i < n)%nat /\
     mapM (write_sample ro (ros2_topic u d) fields d) (seq 0 i) = Ok ms /\ write_sample ro (ros2_topic u d) fields d i = Err x /\
     ros_topic e ro u b d = (Err x, begun b (ros2_topic u d, lit "px4_msgs/msg/" ++ ty) ms)).
Proof.
  intros [V1 V2]. unfold bag_topic, ros_topic. destruct (len_ts d) as [n|x] eqn:El; cbn [bind]; [|right; left; eauto].
  destruct (calc_msgtype ro (ds_name d)) as [ty|] eqn:Et; [|left; eauto]. destruct (sget ty (r_types ro)) as [fields|] eqn:Ef; [|left; eauto].
  destruct (existsb _ (ds_fields d)); [left; eauto|]. destruct (negb (forallb _ (ds_fields d))); [left; eauto|].
  rewrite V1, Bool.eqb_reflx. cbn [negb].
  destruct (samples_run e ro (ros2_topic u d) fields d (seq 0 n) (mkBag (b_topics b ++ [(ros2_topic u d, lit "px4_msgs/msg/" ++ ty)]) (b_msgs b) (b_skipped b) (b_ntopics b) (b_nmsgs b)) V2)
    as [(ms & E1 & E2)|(l1 & i & l2 & ms & x & E0 & E1 & E2 & E3 & E4)].
  - left. rewrite E1, E2. cbn [bind]. eexists. split; [reflexivity|]. reflexivity.
  - right. right. rewrite E3, E4. exists x, ty, fields, n, (length l1), ms.
    assert (l1 = seq 0 (length l1) /\ i = length l1 /\ (length l1 < n)%nat) as (Hl & Hi & Hn).
    { assert (L : length (seq 0 n) = length (l1 ++ i :: l2)) by now rewrite E0. rewrite seq_length, app_length in L. cbn in L.
      replace n with (length l1 + S (length l2))%nat in E0 by lia. rewrite seq_app in E0. cbn [seq] in E0.
      apply app_eq_app in E0. destruct E0 as (m & [[A B]|[A B]]).
      - assert (m = []) by (apply (f_equal (@length _)) in A; rewrite app_length, seq_length in A; destruct m; [auto|cbn in A; lia]). subst m.
        rewrite app_nil_r in A. cbn in B. injection B as Bi _. split; [now symmetry|]. split; lia.
      - assert (m = []) by (apply (f_equal (@length _)) in A; rewrite app_length, seq_length in A; destruct m; [auto|cbn in A; lia]). subst m.
        rewrite app_nil_r in A. cbn in B. injection B as Bi _. split; [exact A|]. split; lia. }
    rewrite <- Hl. rewrite Hi in E2. split; [reflexivity|]. split; [reflexivity|]. split; [exact Ef|]. split; [reflexivity|]. split; [exact Hn|]. split; [exact E1|].
    split; [exact E2|]. reflexivity.
Qed.
Lemma topics_run e ro u l : forall b, matches e ->
  (exists b', foldM (bag_topic ro u) l b = Ok b' /\ ros_topics e ro u l b = (Ok tt, b')) \/
  (exists ds d ds' b1 x b2, l = ds ++ d :: ds' /\ foldM (bag_topic ro u) ds b = Ok b1 /\ foldM (bag_topic ro u) l b = Err x /\
     bag_topic ro u b1 d = Err x /\ ros_topic e ro u b1 d = (Err x, b2) /\ ros_topics e ro u l b = (Err x, b2)).
Proof.
  induction l as [|d l IH]; intros b V; cbn [foldM ros_topics]; [left; eauto|].
  destruct (topic_run e ro u b d V) as [(b' & E1 & E2)|H].
  - rewrite E1, E2. cbn [bind]. destruct (IH b' V) as [H|(ds & d1 & ds' & b1 & x & b2 & -> & H1 & H2 & H3 & H4 & H5)]; [now left|]. right.
    exists (d :: ds), d1, ds', b1, x, b2. split; [reflexivity|]. cbn [foldM]. rewrite E1. cbn [bind]. auto 10.
  - right. assert (exists x b2, bag_topic ro u b d = Err x /\ ros_topic e ro u b d = (Err x, b2)) as (x & b2 & E1 & E2).
    { destruct H as [(x & E1 & _ & E2)|(x & ty & fields & n & i & ms & E1 & _ & _ & _ & _ & _ & _ & E2)]; eauto. }
    exists [], d, l, b, x, b2. rewrite E1, E2. cbn [bind]. auto 10.
Qed.

(** ** Bags from contributions *)
Lemma fold_bag ro u ds l : contributions ro u ds l -> foldM (bag_topic ro u) ds empty_bag = Ok (bag_of l).
Proof. intros H. rewrite (bag_fold _ _ _ _ _ H). reflexivity. Qed.
Lemma topics_app e ro u ds : forall r b,
  ros_topics e ro u (ds ++ r) b = match ros_topics e ro u ds b with (Ok _, b') => ros_topics e ro u r b' | (Err x, b') => (Err x, b') end.
Proof. induction ds as [|d ds IH]; intros r b; cbn [app ros_topics]; [reflexivity|]. destruct (ros_topic e ro u b d) as [[|] b']; [apply IH|reflexivity]. Qed.
Lemma topics_contributed e ro u ds l : matches e -> contributions ro u ds l -> ros_topics e ro u ds empty_bag = (Ok tt, bag_of l).
Proof.
  intros V H. pose proof (fold_bag _ _ _ _ H) as E. destruct (topics_run e ro u ds empty_bag V) as [(b' & E1 & E2)|(? & ? & ? & ? & x & ? & _ & _ & E1 & _)]; [|congruence].
  rewrite E2. congruence.
Qed.
Lemma left_out_run e ro u b d b' : bag_topic ro u b d = Ok b' -> b_topics b' = b_topics b -> ros_topic e ro u b d = (Ok tt, b').
Proof.
  unfold bag_topic, ros_topic. destruct (len_ts d) as [n|x]; cbn [bind]; [|discriminate].
  destruct (calc_msgtype ro (ds_name d)) as [ty|]; [|intros [= <-] _; reflexivity]. destruct (sget ty (r_types ro)) as [fields|]; [|intros [= <-] _; reflexivity].
  destruct (existsb _ (ds_fields d)); [intros [= <-] _; reflexivity|]. destruct (negb (forallb _ (ds_fields d))); [intros [= <-] _; reflexivity|].
  destruct (mapM _ _) as [ms|x]; cbn [bind]; [|discriminate]. intros E T. apply (f_equal (fun r => match r with Ok b => length (b_topics b) | Err _ => O end)) in E.
  cbv beta iota in E. rewrite T in E. cbn [b_topics] in E. rewrite app_length in E. cbn in E. lia.
Qed.
Definition add (b : bag) (c : list (str * str) * list (str * rosmsg * Z) * list (str * reason)) : bag :=
  mkBag (b_topics b ++ fst (fst c)) (b_msgs b ++ snd (fst c)) (b_skipped b ++ snd c) (b_ntopics b + lenZ (fst (fst c))) (b_nmsgs b + lenZ (snd (fst c))).
Lemma left_outs_run e ro u ds : forall l b, contributions ro u ds l -> Forall (fun c => fst (fst c) = []) l ->
  exists b', ros_topics e ro u ds b = (Ok tt, b') /\ foldM (bag_topic ro u) ds b = Ok b'.
Proof.
  induction ds as [|d ds IH]; intros l b H N; inversion H as [|? c ? l' C H' E1 E2]; subst; [exists b; now split|].
  apply Forall_cons_iff in N as [N1 N]. cbn [ros_topics foldM]. pose proof (bag_step ro u b d _ _ _ C) as E. rewrite E. cbn [bind].
  rewrite (left_out_run e _ _ _ _ _ E) by (cbn [b_topics]; rewrite N1; apply app_nil_r). apply (IH l'); auto.
Qed.
(** a topic that fits a class *)
Lemma fits_run e ro u b d t fields ts : type_of ro (ds_name d) t -> sget t (r_types ro) = Some fields -> fits ro fields d ts ->
  ros_topic e ro u b d =
  if Bool.eqb (v_id e) (uses_id (v_version e)) then
    match ros_samples e ro (ros2_topic u d) fields d (seq 0 (length ts)) (begun b (ros2_topic u d, lit "px4_msgs/msg/" ++ t) []) with
    | (Err x, b') => (Err x, b')
    | (Ok _, b') => (Ok tt, mkBag (b_topics b') (b_msgs b') (b_skipped b') (b_ntopics b' + 1) (b_nmsgs b' + Z.of_nat (length ts)))
    end
  else (Err TypeError, b).
Proof.
  intros T G F. unfold ros_topic, len_ts. rewrite (fi_time _ _ _ _ F). cbn [c_raw bind]. apply calc_type in T as (T & K). rewrite T, G.
  rewrite existsb_none.
  2:{ intros f Hf. apply composed_no_dot. destruct (fi_slots _ _ _ _ F f Hf) as (ty & Sl & _). apply (slot_name _ _ _ Sl). }
  replace (forallb _ (ds_fields d)) with true.
  2:{ symmetry. apply forallb_forall. intros f Hf. destruct (fi_slots _ _ _ _ F f Hf) as (ty & Sl & _). destruct (slot_name _ _ _ Sl) as (_ & x & ->). reflexivity. }
  cbn [negb]. unfold begun. rewrite app_nil_r. destruct (Bool.eqb _ _); reflexivity.
Qed.
Lemma seq_fails e ro topic fields d ts b : v_seq e <> uses_seqnum (v_version e) -> fits ro fields d ts -> ts <> [] ->
  ros_samples e ro topic fields d (seq 0 (length ts)) b = (Err TypeError, b).
Proof.
  intros V F N. assert (L : (0 < length ts)%nat) by (destruct ts; [easy|cbn; lia]). destruct (length ts) as [|n] eqn:El; [lia|]. cbn [seq ros_samples].
  assert (E : exists ns, nanoseconds (r_np2 ro) (NI 8 false) (nth 0 ts 0) = Ok ns) by (unfold nanoseconds; destruct (r_np2 ro); cbn; eauto). destruct E as (ns & E).
  unfold ros_sample. rewrite (ros2_msg_ok _ _ _ _ 0%nat F) by lia. cbn [bind]. unfold elem. rewrite (fi_time _ _ _ _ F). cbn [c_raw c_type].
  unfold py_nth. rewrite (nth_error_nth' ts 0) by lia. cbn [bind fst snd]. rewrite E. cbn [bind].
  destruct (Bool.eqb (v_seq e) (uses_seqnum (v_version e))) eqn:B; [apply Bool.eqb_prop in B; congruence|]. reflexivity.
Qed.
(** the sample that is not accepted as a time of a bag *)
Lemma late_fails e ro topic fields d ts1 t ts2 b : v_seq e = uses_seqnum (v_version e) -> fits ro fields d (ts1 ++ t :: ts2) -> Forall (small_time ro) ts1 ->
  (forall w, ~ written_at (r_np2 ro) 8 false t w) ->
  ros_samples e ro topic fields d (seq 0 (length (ts1 ++ t :: ts2))) b =
  (Err TypeError, with_msgs b (map (fun i => (topic, message ro fields d i, 1000 * nth i ts1 0)) (seq 0 (length ts1)))).
Proof.
  intros V F Sm W. set (ts := ts1 ++ t :: ts2) in *.
  assert (Lt : (length ts1 < length ts)%nat) by (unfold ts; rewrite app_length; cbn; lia).
  assert (At : forall i, (i < length ts)%nat -> ros_sample e ro topic fields d i =
    let* ns := nanoseconds (r_np2 ro) (NI 8 false) (nth i ts 0) in
    if (- 9223372036854775808 <=? ns) && (ns <? 9223372036854775808) then Ok (topic, message ro fields d i, ns) else Err TypeError).
  { intros i Hi. rewrite (sample_same _ _ _ _ _ _ V). unfold write_sample. rewrite (ros2_msg_ok _ _ _ _ _ F) by lia. cbn [bind]. unfold elem. rewrite (fi_time _ _ _ _ F). cbn [c_raw c_type].
    unfold py_nth. rewrite (nth_error_nth' ts 0) by lia. reflexivity. }
  assert (Bad : ros_sample e ro topic fields d (length ts1) = Err TypeError).
  { rewrite At by lia. unfold ts at 1. rewrite nth_middle.
    destruct (nanoseconds (r_np2 ro) (NI 8 false) t) as [ns|x] eqn:E.
    - cbn [bind]. destruct (Z.leb_spec (- 9223372036854775808) ns); [|reflexivity]. destruct (Z.ltb_spec ns 9223372036854775808); [|reflexivity].
      exfalso. apply (W ns). apply nanoseconds_inv; [lia|exact E|]. change (2 ^ 63) with 9223372036854775808. lia.
    - exfalso. unfold nanoseconds in E. destruct (r_np2 ro); cbn in E; discriminate. }
  assert (Good : forall k j, (k + j = length ts1)%nat -> forall b, ros_samples e ro topic fields d (seq k (j + S (length ts2))) b =
    (Err TypeError, with_msgs b (map (fun i => (topic, message ro fields d i, 1000 * nth i ts1 0)) (seq k j)))).
  { intros k j. revert k. induction j as [|j IH]; intros k Hk b0; cbn [Nat.add seq map ros_samples].
    - rewrite Nat.add_0_r in Hk. subst k. rewrite Bad. unfold with_msgs. rewrite app_nil_r. now destruct b0.
    - rewrite At by lia. unfold ts at 1. rewrite app_nth1 by lia.
      assert (Hs : small_time ro (nth k ts1 0)) by (rewrite Forall_forall in Sm; apply Sm, nth_In; lia).
      destruct (nanoseconds_ok ro _ Hs) as (E & B). rewrite E. cbn [bind]. change (2 ^ 63) with 9223372036854775808 in B.
      destruct (Z.leb_spec (- 9223372036854775808) (1000 * nth k ts1 0)); [|lia]. destruct (Z.ltb_spec (1000 * nth k ts1 0) 9223372036854775808); [|lia]. cbn [andb].
      rewrite IH by lia. unfold with_msgs. cbn [b_topics b_msgs b_skipped b_ntopics b_nmsgs]. now rewrite <- app_assoc. }
  replace (length ts) with (length ts1 + S (length ts2))%nat by (unfold ts; rewrite app_length; reflexivity). apply (Good 0%nat). reflexivity.
Qed.
Lemma opened_run e ld a k ro u r b : opened e ld a k ro u -> ros_topics e ro u (u_data u) empty_bag = (r, b) ->
  ros_command e ld a k = mkRosRun (match r with Ok _ => Exit 0 | Err x => Raised x end) (Some (bag_name (ra_file a) (ra_bag a), storage_name (ra_mcap a), b)).
Proof.
  intros [O1 O2 O3 O4] H. unfold ros_command. rewrite O1, O2, !storage_is, O3.
  assert (E : exists s, (if ra_verbose a then get_version_info_str u (lit "ver_sw_release") else Ok None) = Ok s) by (destruct (ra_verbose a); [now apply O4|eauto]).
  destruct E as (s & ->). fold empty_bag. now rewrite H.
Qed.
(** ** The two versions *)
Definition id_agrees := range 0 3 ++ range 10 15 ++ range 26 74 ++ range 250 750.
Definition id_differs := range 3 7 ++ range 100 150.
Definition seq_agrees := range 0 4 ++ range 10 22 ++ range 33 67 ++ range 320 680.
Definition seq_differs := range 4 6 ++ range 100 220.
Lemma in_app4 {A} (x : A) a b c d : In x a \/ In x b \/ In x c \/ In x d -> In x (a ++ b ++ c ++ d).
Proof. rewrite !in_app_iff. tauto. Qed.
Lemma id_right a b c : 0 <= a -> 0 <= b -> 0 <= c -> 1 <= a \/ b <= 2 \/ 10 <= b <= 99 \/ 250 <= b <= 999 ->
  (uses_id (version_text a b c) = true <-> at_least (a, b, c) (0, 25, 0)).
Proof.
  intros Ha Hb Hc W. apply (right_version 25 (lit "0.25.0") id_agrees [] eq_refl (or_introl eq_refl)); try assumption; [vm_compute; reflexivity| |lia].
  destruct W as [W|W]; [now left|]. right. destruct (Z.eq_dec b 25); [now left|]. right. apply in_app4.
  destruct W as [W|[W|W]]; [left|right; destruct (Z_lt_le_dec b 25); [left|right; left]|do 3 right]; apply in_range; lia.
Qed.
Lemma id_wrong b c : 3 <= b <= 9 \/ 100 <= b <= 249 -> (uses_id (version_text 0 b c) = true <-> ~ at_least (0, b, c) (0, 25, 0)).
Proof.
  intros W. apply (wrong_version 25 (lit "0.25.0") [] id_differs eq_refl); [vm_compute; reflexivity|]. apply in_or_app. destruct W; [left|right]; apply in_range; lia.
Qed.
Lemma seq_right a b c : 0 <= a -> 0 <= b -> 0 <= c -> 1 <= a \/ b <= 3 \/ 10 <= b <= 99 \/ 320 <= b <= 999 ->
  (uses_seqnum (version_text a b c) = true <-> at_least (a, b, c) (0, 32, 0)).
Proof.
  intros Ha Hb Hc W. apply (right_version 32 (lit "0.32.0") seq_agrees [] eq_refl (or_intror eq_refl)); try assumption; [vm_compute; reflexivity| |lia].
  destruct W as [W|W]; [now left|]. right. destruct (Z.eq_dec b 32); [now left|]. right. apply in_app4.
  destruct W as [W|[W|W]]; [left|right; destruct (Z_lt_le_dec b 32); [left|right; left]|do 3 right]; apply in_range; lia.
Qed.
Lemma seq_wrong b c : 4 <= b <= 9 \/ 100 <= b <= 319 -> (uses_seqnum (version_text 0 b c) = true <-> ~ at_least (0, b, c) (0, 32, 0)).
Proof.
  intros W. apply (wrong_version 32 (lit "0.32.0") [] seq_differs eq_refl); [vm_compute; reflexivity|]. apply in_or_app. destruct W; [left|right]; apply in_range; lia.
Qed.
(** ** The topics that a filter leaves keep their names *)
Lemma topic_kept (u w : ulog) keep d : u_data w = filter (fun d => keep (ds_name d)) (u_data u) -> keep (ds_name d) = true -> ros2_topic w d = ros2_topic u d.
Proof.
  intros E K. unfold ros2_topic. replace (multi_ids w (ds_name d)) with (multi_ids u (ds_name d)); [reflexivity|]. unfold multi_ids. f_equal. rewrite E. clear E.
  induction (u_data u) as [|x l IH]; [reflexivity|]. cbn [filter]. destruct (str_eqb_spec (ds_name x) (ds_name d)) as [Q|Q].
  - rewrite Q, K. cbn [filter]. rewrite Q, (proj2 (str_eqb_eq _ _) eq_refl). f_equal. exact IH.
  - destruct (keep (ds_name x)); cbn [filter]; [|exact IH]. destruct (str_eqb_spec (ds_name x) (ds_name d)); [easy|exact IH].
Qed.
Lemma contribution_same ro (u w : ulog) d tp ms sk : ros2_topic w d = ros2_topic u d -> contribution ro u d tp ms sk -> contribution ro w d tp ms sk.
Proof. intros E C. destruct C as [t fields ts T G F Sm|why c H1 H2 H3]; [rewrite <- E; now apply co_written|now apply (co_left_out _ _ _ _ c)]. Qed.
Lemma contributions_same ro (u w : ulog) keep l : u_data w = filter (fun d => keep (ds_name d)) (u_data u) ->
  contributions ro u (filter (fun d => keep (ds_name d)) (u_data u)) l -> contributions ro w (filter (fun d => keep (ds_name d)) (u_data u)) l.
Proof.
  intros E C. assert (TK : forall d, keep (ds_name d) = true -> ros2_topic w d = ros2_topic u d) by (intros d; now apply topic_kept). clear E.
  assert (K : Forall (fun d => keep (ds_name d) = true) (filter (fun d => keep (ds_name d)) (u_data u))) by (apply Forall_forall; intros d Hd; apply filter_In in Hd; tauto).
  unfold contributions in *. induction C as [|d c ds l' H C IH]; [constructor|]. apply Forall_cons_iff in K as [K1 K2]. constructor; [|auto].
  apply (contribution_same ro u); [now apply TK|exact H].
Qed.
