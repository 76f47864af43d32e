(** Exactly when writing a log again gives the same file. *)
From Coq Require Import Permutation Sorted.
From Verif Require Import Base Dict Utf8 PyStr PyFloat Struct PySort ModelTypes ModelRead ModelWrite
  Spec SpecSection SpecMsg SpecLog SpecWrite ProofsRead ProofsMsg ProofsInv ProofsTrace ProofsChange ProofsSection ProofsFields ProofsLog ProofsEq ProofsWrite
  ProofsRound ProofsBack ProofsSame ProofsCopy ProofsStable.
Ltac Zify.zify_post_hook ::= Z.div_mod_to_equations.

(** ** Frames can be told apart *)
Lemma app_eq_length {A} (a a' b b' : list A) : length a = length a' -> a ++ b = a' ++ b' -> a = a' /\ b = b'.
Proof.
  revert a'. induction a as [|x a IH]; intros [|x' a'] L E; try discriminate; [auto|]. cbn in *. injection E as -> E.
  injection L as L. destruct (IH a' L E) as [-> ->]. auto.
Qed.
Lemma frames_inj l : forall l', frames l = frames l' -> l = l'.
Proof.
  induction l as [|[t p] l IH]; intros [|[t' p'] l'] H; try discriminate; [reflexivity|].
  unfold frames in H. cbn [map concat fst snd] in H. unfold frame in H. rewrite <- !app_assoc in H. cbn [app] in H.
  injection H as H1 H2 H3 H. assert (L : lenZ p = lenZ p') by lia.
  apply app_eq_length in H as [-> H]; [|unfold lenZ in L; lia]. rewrite H3. f_equal. apply IH. exact H.
Qed.

(** ** First messages *)
Fixpoint firstm (seen : list Z) (l : list tagmsg) : list tagmsg :=
  match l with
  | [] => []
  | m :: r => if existsb (Z.eqb (tg_tag m)) seen then firstm seen r else m :: firstm (tg_tag m :: seen) r
  end.
Lemma firstm_tags l : forall seen, map tg_tag (firstm seen l) = firsts seen (map tg_tag l).
Proof. induction l as [|m l IH]; intros seen; [reflexivity|]. cbn [firstm map firsts]. destruct (existsb _ seen); [apply IH|]. cbn [map]. now rewrite IH. Qed.
Lemma firstm_app a : forall seen b, firstm seen (a ++ b) = firstm seen a ++ firstm (rev (map tg_tag a) ++ seen) b.
Proof.
  assert (X : forall l a b, (forall y, In y a <-> In y b) -> firstm a l = firstm b l).
  { induction l as [|x l IH]; intros p q H; [reflexivity|]. cbn [firstm]. rewrite (existsb_ext (tg_tag x) p q H).
    destruct (existsb _ q); [now apply IH|]. f_equal. apply IH. intros y. cbn [In]. now rewrite H. }
  induction a as [|m a IH]; intros seen b; [reflexivity|]. cbn [app firstm map rev].
  destruct (existsb (Z.eqb (tg_tag m)) seen) eqn:E.
  - rewrite IH. f_equal. apply X. intros y. rewrite !in_app_iff. cbn [In]. apply existsb_In in E. intuition congruence.
  - cbn [app]. f_equal. rewrite IH. f_equal. apply X. intros y. rewrite !in_app_iff. cbn [In]. tauto.
Qed.
Definition other (k : Z) (m : tagmsg) : bool := negb (tg_tag m =? k).
Lemma firstm_drop k l : forall seen, firstm (k :: seen) l = firstm seen (filter (other k) l).
Proof.
  induction l as [|m l IH]; intros seen; [reflexivity|]. cbn [firstm filter existsb]. unfold other at 1.
  destruct (tg_tag m =? k) eqn:E; cbn [orb negb]; [apply IH|]. cbn [firstm]. destruct (existsb (Z.eqb (tg_tag m)) seen); [apply IH|]. f_equal.
  rewrite <- IH. change (tg_tag m :: k :: seen) with ([tg_tag m] ++ k :: seen).
  assert (X : forall l a b, (forall y, In y a <-> In y b) -> firstm a l = firstm b l).
  { clear. induction l as [|x l IH]; intros p q H; [reflexivity|]. cbn [firstm]. rewrite (existsb_ext (tg_tag x) p q H).
    destruct (existsb _ q); [now apply IH|]. f_equal. apply IH. intros y. cbn [In]. now rewrite H. }
  apply X. intros y. cbn [app In]. tauto.
Qed.
(** where an element is put *)
Lemma insert_at (x : tagmsg) l : sorted tag_leb l -> exists a b, l = a ++ b /\ insert tag_leb x l = a ++ x :: b /\
  Forall (fun y => tg_ts y < tg_ts x) a /\ Forall (fun y => tg_ts x <= tg_ts y) b.
Proof.
  induction 1 as [|y l H IH Hy]; [exists [], []; repeat split; constructor|]. cbn [insert]. unfold tag_leb at 1. destruct (Z.leb_spec (tg_ts x) (tg_ts y)).
  - exists [], (y :: l). split; [reflexivity|]. split; [reflexivity|]. split; [constructor|]. constructor; [assumption|].
    eapply Forall_impl; [|exact Hy]. intros z Hz. unfold tag_leb in Hz. lia.
  - destruct IH as (a & b & -> & E & A & B). exists (y :: a), b. rewrite E. split; [reflexivity|]. split; [reflexivity|]. split; [constructor; [lia|exact A]|exact B].
Qed.
Lemma insert_between (x : tagmsg) a b : Forall (fun y => tg_ts y < tg_ts x) a -> Forall (fun y => tg_ts x <= tg_ts y) b ->
  insert tag_leb x (a ++ b) = a ++ x :: b.
Proof.
  intros A B. induction A as [|y a Hy A IH]; cbn [app].
  - apply insert_min. eapply Forall_impl; [|exact B]. intros y Hy. unfold tag_leb. apply Z.leb_le. exact Hy.
  - cbn [insert]. unfold tag_leb at 1. destruct (Z.leb_spec (tg_ts x) (tg_ts y)); [lia|]. now rewrite IH.
Qed.
Lemma firstm_incl l : forall seen m, In m (firstm seen l) -> In m l.
Proof. induction l as [|x l IH]; intros seen m H; [exact H|]. cbn [firstm] in H. destruct (existsb _ seen); [right; eauto|]. destruct H as [->|H]; [now left|right; eauto]. Qed.

Definition leads (d : dict Z (list tagmsg)) : list tagmsg := flat_map (fun tl => firstn 1 (snd tl)) d.
Lemma first_messages d : tag_dict d -> firstm [] (ssort tag_leb (concat (map snd d))) = ssort tag_leb (leads d).
Proof.
  induction d as [|[t l] d IH]; intros [Hn Hl]; [reflexivity|].
  destruct (Hl t l (or_introl eq_refl)) as (L1 & L2 & L3). destruct l as [|m rest]; [congruence|].
  inversion L3 as [|? ? Ht L3']; subst. cbn [map fst] in Hn. inversion Hn as [|? ? Hn1 Hn2]; subst. cbn [map] in L2. inversion L2 as [|? ? _ L2']; subst.
  assert (Hd : tag_dict d) by (split; [exact Hn2|]; intros; eapply Hl; right; eassumption).
  change (leads ((tg_tag m, m :: rest) :: d)) with (m :: leads d). cbn [map snd concat app ssort]. rewrite <- (IH Hd).
  set (M := ssort tag_leb (rest ++ concat (map snd d))).
  assert (S : sorted tag_leb M) by (apply ssort_sorted; [exact tag_total|exact tag_trans]).
  assert (Fd : Forall (fun x => other (tg_tag m) x = true) (concat (map snd d))).
  { apply Forall_forall. intros x Hx. apply in_concat in Hx as (l & Hl1 & Hx). apply in_map_iff in Hl1 as ([t' l'] & <- & Hin). cbn [snd] in Hx.
    destruct (proj2 Hd t' l' Hin) as (_ & _ & F). rewrite Forall_forall in F. unfold other. rewrite (F x Hx).
    destruct (Z.eqb_spec t' (tg_tag m)) as [->|]; [|reflexivity]. exfalso. apply Hn1. change (tg_tag m) with (fst (tg_tag m, l')). now apply in_map. }
  assert (FM : filter (other (tg_tag m)) M = ssort tag_leb (concat (map snd d))).
  { unfold M. rewrite (filter_ssort tag_leb) by (exact tag_total || exact tag_trans). f_equal. rewrite filter_app, filter_none, (filter_all _ _ Fd); [reflexivity|].
    eapply Forall_impl; [|exact L3']. intros x Hx. unfold other. now rewrite Hx, Z.eqb_refl. }
  destruct (insert_at m M S) as (A & B & EM & E & HA & HB). rewrite E, <- FM, EM, filter_app.
  assert (NA : Forall (fun x => other (tg_tag m) x = true) A).
  { apply Forall_forall. intros x Hx. rewrite Forall_forall in HA. specialize (HA x Hx). assert (I : In x M) by (rewrite EM; apply in_or_app; now left).
    unfold M in I. apply (Permutation_in x (Permutation_sym (ssort_perm tag_leb _))) in I. apply in_app_or in I as [I|I].
    - rewrite Forall_map, Forall_forall in L2'. specialize (L2' x I). cbn in L2'. lia.
    - rewrite Forall_forall in Fd. exact (Fd x I). }
  rewrite (filter_all _ _ NA), !firstm_app, !app_nil_r. cbn [firstm].
  replace (existsb (Z.eqb (tg_tag m)) (rev (map tg_tag A))) with false.
  2:{ symmetry. apply Bool.not_true_iff_false. intros Q. apply existsb_In, in_rev, in_map_iff in Q as (x & Ex & I). rewrite Forall_forall in NA. specialize (NA x I).
      unfold other in NA. rewrite Ex, Z.eqb_refl in NA. discriminate. }
  rewrite firstm_drop. symmetry. apply insert_between; apply Forall_forall; intros x Hx; apply firstm_incl in Hx.
  - rewrite Forall_forall in HA. auto.
  - apply filter_In in Hx as [Hx _]. rewrite Forall_forall in HB. auto.
Qed.

(** ** The tags of the log that is read back *)
Definition lead (e : Z * list tagmsg) : Z := match snd e with m :: _ => tg_ts m | [] => 0 end.
Definition lead_leb (a b : Z * list tagmsg) : bool := lead a <=? lead b.
Lemma lead_total a b : lead_leb a b = true \/ lead_leb b a = true.
Proof. unfold lead_leb. lia. Qed.
Lemma lead_trans a b c : lead_leb a b = true -> lead_leb b c = true -> lead_leb a c = true.
Proof. unfold lead_leb. lia. Qed.
Lemma insert_map {A B} (p : B -> B -> bool) (q : A -> A -> bool) (f : A -> B) x l : (forall y, In y l -> p (f x) (f y) = q x y) ->
  insert p (f x) (map f l) = map f (insert q x l).
Proof.
  induction l as [|y l IH]; intros H; [reflexivity|]. cbn [map insert]. rewrite (H y (or_introl eq_refl)). destruct (q x y); [reflexivity|].
  cbn [map]. rewrite IH; [reflexivity|]. intros; apply H; now right.
Qed.
Lemma leads_sorted d : tag_dict d -> map tg_tag (ssort tag_leb (leads d)) = map fst (ssort lead_leb d).
Proof.
  intros [_ Hl]. set (g := fun e : Z * list tagmsg => match snd e with m :: _ => m | [] => mkTag 0 0 0 [] end).
  assert (H : forall d, (forall t l, In (t, l) d -> l <> [] /\ Forall (fun m => tg_tag m = t) l) ->
    ssort tag_leb (leads d) = map g (ssort lead_leb d)).
  { clear. induction d as [|[t l] d IH]; intros H; [reflexivity|]. destruct (H t l (or_introl eq_refl)) as [L1 _]. destruct l as [|m r]; [congruence|].
    change (leads ((t, m :: r) :: d)) with (m :: leads d). cbn [ssort]. rewrite IH by (intros; apply H; now right).
    change m with (g (t, m :: r)) at 1. apply insert_map. intros [t' l'] I. apply (Permutation_in _ (Permutation_sym (ssort_perm lead_leb d))) in I.
    destruct (H t' l' (or_intror I)) as [L _]. destruct l'; [congruence|]. reflexivity. }
  rewrite H by (intros t l I; destruct (Hl t l I) as (A & _ & B); auto). rewrite map_map. apply map_ext_in. intros [t l] I.
  apply (Permutation_in _ (Permutation_sym (ssort_perm lead_leb d))) in I. destruct (Hl t l I) as (A & _ & B). destruct l; [congruence|].
  inversion B; subst. reflexivity.
Qed.
Lemma regrouped d d' : tag_dict d -> d' = fold_left ins_tag (ssort tag_leb (concat (map snd d))) [] ->
  (forall t, zget t d' = zget t d) -> d' = ssort lead_leb d.
Proof.
  intros T E G. assert (K : map fst d' = map fst (ssort lead_leb d)).
  { rewrite E, fold_keys. cbn [map app]. now rewrite <- firstm_tags, first_messages, leads_sorted. }
  assert (N : NoDup (map fst (ssort lead_leb d))).
  { eapply Permutation_NoDup; [apply Permutation_map, (ssort_perm lead_leb)|apply T]. }
  apply (dict_ext Z.eqb Zeqb_spec); [exact K|rewrite K; exact N|]. intros k _. rewrite G.
  destruct (zget k d) as [l|] eqn:Ek.
  - symmetry. apply (In_dget Z.eqb Zeqb_spec); [exact N|]. apply (Permutation_in _ (ssort_perm lead_leb d)). now apply (dget_In Z.eqb Zeqb_spec).
  - symmetry. apply (dget_None Z.eqb Zeqb_spec). apply (dget_None Z.eqb Zeqb_spec) in Ek. intros I. apply Ek.
    eapply Permutation_in; [apply Permutation_map, Permutation_sym, (ssort_perm lead_leb)|exact I].
Qed.

(** ** The messages of one time *)
Definition timed_at (t : Z) (m : tagmsg) : bool := tg_ts m =? t.
Lemma filter_concat {A} (p : A -> bool) ls : filter p (concat ls) = concat (map (filter p) ls).
Proof. induction ls as [|l ls IH]; [reflexivity|]. cbn [concat map]. now rewrite filter_app, IH. Qed.
Definition has_time (t : Z) (e : Z * list tagmsg) : bool := existsb (timed_at t) (snd e).
Lemma none_at t l : existsb (timed_at t) l = false -> filter (timed_at t) l = [].
Proof. induction l as [|m l IH]; [reflexivity|]. cbn [existsb filter]. destruct (timed_at t m); [discriminate|]. exact IH. Qed.
Lemma at_time_of t d : filter (timed_at t) (concat (map snd d)) = concat (map (fun e => filter (timed_at t) (snd e)) (filter (has_time t) d)).
Proof.
  rewrite filter_concat, map_map. induction d as [|[k l] d IH]; [reflexivity|]. cbn [map concat filter]. rewrite IH. unfold has_time at 2. cbn [snd].
  destruct (existsb (timed_at t) l) eqn:E; [reflexivity|]. now rewrite (none_at t l E).
Qed.
Lemma agree_sorted d t : tag_dict d ->
  (forall d1 a la d2 b lb d3 ma mb x y, d = d1 ++ (a, la) :: d2 ++ (b, lb) :: d3 -> In ma la -> In mb lb -> tg_ts ma = tg_ts mb ->
    hd_error la = Some x -> hd_error lb = Some y -> tg_ts x <= tg_ts y) ->
  sorted lead_leb (filter (has_time t) d).
Proof.
  induction d as [|[a la] d IH]; intros [Hn Hl] H; [constructor|].
  assert (Hd : tag_dict d) by (inversion Hn; subst; split; [assumption|]; intros; eapply Hl; right; eassumption).
  cbn [filter]. assert (S : sorted lead_leb (filter (has_time t) d)).
  { apply IH; [exact Hd|]. intros d1 a' la' d2 b lb d3 ma mb x y E. apply (H ((a, la) :: d1) a' la' d2 b lb d3). cbn [app]. now rewrite <- E. }
  destruct (has_time t (a, la)) eqn:Ea; [|exact S]. constructor; [exact S|]. apply Forall_forall. intros [b lb] I. apply filter_In in I as [I Eb].
  unfold has_time in Ea, Eb. cbn [snd] in *. apply existsb_exists in Ea as (ma & Ia & Ta), Eb as (mb & Ib & Tb). unfold timed_at in *.
  destruct (in_split _ _ I) as (d2 & d3 & ->). unfold lead_leb, lead. cbn [snd].
  destruct la as [|x la]; [destruct Ia|]. destruct lb as [|y lb]; [destruct Ib|].
  apply Z.leb_le. apply (H [] a (x :: la) d2 b (y :: lb) d3 ma mb x y); auto. lia.
Qed.
Lemma agree_times d t : tag_dict d ->
  (forall d1 a la d2 b lb d3 ma mb x y, d = d1 ++ (a, la) :: d2 ++ (b, lb) :: d3 -> In ma la -> In mb lb -> tg_ts ma = tg_ts mb ->
    hd_error la = Some x -> hd_error lb = Some y -> tg_ts x <= tg_ts y) ->
  filter (timed_at t) (concat (map snd (ssort lead_leb d))) = filter (timed_at t) (concat (map snd d)).
Proof.
  intros T H. rewrite !at_time_of, (filter_ssort lead_leb) by (exact lead_total || exact lead_trans).
  rewrite (ssort_id lead_leb) by now apply agree_sorted. reflexivity.
Qed.
(** the messages of two tags at one time *)
Definition of_two (a b t : Z) (m : tagmsg) : bool := ((tg_tag m =? a) || (tg_tag m =? b)) && timed_at t m.
Lemma two_of a b t d : tag_dict d -> filter (of_two a b t) (concat (map snd d)) =
  concat (map (fun e => filter (timed_at t) (snd e)) (filter (fun e => (fst e =? a) || (fst e =? b)) d)).
Proof.
  intros [_ Hl]. rewrite filter_concat, map_map. induction d as [|[k l] d IH]; [reflexivity|]. cbn [map concat filter fst]. rewrite IH by (intros; apply Hl; now right).
  destruct (Hl k l (or_introl eq_refl)) as (_ & _ & F). cbn [snd].
  assert (E : filter (of_two a b t) l = if (k =? a) || (k =? b) then filter (timed_at t) l else []).
  { clear -F. induction F as [|m l Hm F IH]; [now destruct ((k =? a) || (k =? b))|]. cbn [filter]. unfold of_two at 1. rewrite Hm, IH.
    destruct ((k =? a) || (k =? b)); [|reflexivity]. reflexivity. }
  rewrite E. destruct ((k =? a) || (k =? b)); reflexivity.
Qed.
Lemma two_sorted a b t l : filter (of_two a b t) (ssort tag_leb l) = filter (of_two a b t) l.
Proof.
  rewrite (filter_ssort tag_leb) by (exact tag_total || exact tag_trans). apply ssort_id.
  assert (H : Forall (fun m => tg_ts m = t) (filter (of_two a b t) l)).
  { apply Forall_forall. intros m I. apply filter_In in I as [_ I]. unfold of_two, timed_at in I. lia. }
  revert H. generalize (filter (of_two a b t) l). induction l0 as [|m r IH]; intros H; [constructor|]. inversion H; subst. constructor; [apply IH; assumption|].
  eapply Forall_impl; [|eassumption]. intros y Hy. cbv beta in *. unfold tag_leb. lia.
Qed.
Lemma swapped d a la b lb d1 d2 d3 ma mb : tag_dict d -> d = d1 ++ (a, la) :: d2 ++ (b, lb) :: d3 -> In ma la -> In mb lb ->
  tg_ts ma = tg_ts mb -> lead (b, lb) < lead (a, la) ->
  map (fun m => (tg_tag m, tg_ts m)) (ssort tag_leb (concat (map snd (ssort lead_leb d)))) <>
  map (fun m => (tg_tag m, tg_ts m)) (ssort tag_leb (concat (map snd d))).
Proof.
  intros T E Ia Ib Et Hlt Q. set (t := tg_ts ma) in *.
  set (key := fun m => (tg_tag m, tg_ts m)) in Q.
  assert (P : forall l, map key (filter (of_two a b t) l) = filter (fun k => ((fst k =? a) || (fst k =? b)) && (snd k =? t)) (map key l)).
  { induction l as [|m l IH]; [reflexivity|]. cbn [map filter]. unfold of_two at 1, timed_at. change (fst (key m)) with (tg_tag m). change (snd (key m)) with (tg_ts m).
    destruct (((tg_tag m =? a) || (tg_tag m =? b)) && (tg_ts m =? t)); [cbn [map]; now rewrite IH|exact IH]. }
  apply (f_equal (filter (fun k => ((fst k =? a) || (fst k =? b)) && (snd k =? t)))) in Q. rewrite <- !P, !two_sorted in Q.
  assert (T' : tag_dict (ssort lead_leb d)).
  { destruct T as [N Hl]. split; [eapply Permutation_NoDup; [apply Permutation_map, (ssort_perm lead_leb)|exact N]|].
    intros k l I. apply Hl. exact (Permutation_in _ (Permutation_sym (ssort_perm lead_leb d)) I). }
  rewrite !two_of in Q by assumption. rewrite (filter_ssort lead_leb) in Q by (exact lead_total || exact lead_trans).
  assert (F : filter (fun e => (fst e =? a) || (fst e =? b)) d = [(a, la); (b, lb)] /\ a <> b).
  { destruct T as [N _]. rewrite E in N. rewrite map_app in N. cbn [map fst] in N. rewrite map_app in N. cbn [map fst] in N.
    assert (ab : a <> b) by (intros ->; apply NoDup_remove_2 in N; apply N; apply in_or_app; right; apply in_or_app; right; now left).
    split; [|exact ab].
    assert (Out : forall l, (forall x, In x (map fst l) -> x <> a /\ x <> b) -> filter (fun e : Z * list tagmsg => (fst e =? a) || (fst e =? b)) l = []).
    { intros l H. apply filter_none, Forall_forall. intros e I. destruct (H (fst e) (in_map fst _ _ I)). lia. }
    pose proof (NoDup_remove_2 _ _ _ N) as Na. rewrite app_comm_cons, app_assoc in N. pose proof (NoDup_remove_2 _ _ _ N) as Nb.
    rewrite E, filter_app. cbn [filter fst]. rewrite Z.eqb_refl. cbn [orb]. rewrite filter_app. cbn [filter fst]. rewrite Z.eqb_refl, Bool.orb_true_r.
    rewrite !Out; [reflexivity|..]; intros x I; split; intros ->.
    - apply Na. rewrite !in_app_iff. cbn [In]. tauto.
    - apply Nb. rewrite !in_app_iff. cbn [In]. tauto.
    - apply Na. rewrite !in_app_iff. cbn [In]. tauto.
    - apply Nb. rewrite !in_app_iff. cbn [In]. tauto.
    - apply Na. rewrite !in_app_iff. tauto.
    - apply Nb. rewrite !in_app_iff. cbn [In]. tauto. }
  destruct F as [F ab]. rewrite F in Q. cbn [ssort insert] in Q. unfold lead_leb in Q. replace (lead (a, la) <=? lead (b, lb)) with false in Q by lia.
  cbn [map snd concat] in Q. rewrite !app_nil_r, !map_app in Q. destruct T as [_ Hl].
  assert (Ga : exists m r, filter (timed_at t) la = m :: r /\ tg_tag m = a).
  { destruct (Hl a la) as (_ & _ & FA); [rewrite E; apply in_or_app; right; now left|]. rewrite Forall_forall in FA.
    destruct (filter (timed_at t) la) as [|m r] eqn:Ef; [|exists m, r; split; [reflexivity|apply FA; assert (I : In m (m :: r)) by (now left); rewrite <- Ef in I; now apply filter_In in I]].
    assert (I : In ma (filter (timed_at t) la)) by (apply filter_In; split; [exact Ia|apply Z.eqb_refl]). rewrite Ef in I. destruct I. }
  assert (Gb : exists m r, filter (timed_at t) lb = m :: r /\ tg_tag m = b).
  { destruct (Hl b lb) as (_ & _ & FB); [rewrite E; apply in_or_app; right; right; apply in_or_app; right; now left|]. rewrite Forall_forall in FB.
    destruct (filter (timed_at t) lb) as [|m r] eqn:Ef; [|exists m, r; split; [reflexivity|apply FB; assert (I : In m (m :: r)) by (now left); rewrite <- Ef in I; now apply filter_In in I]].
    assert (I : In mb (filter (timed_at t) lb)) by (apply filter_In; split; [exact Ib|unfold timed_at; lia]). rewrite Ef in I. destruct I. }
  destruct Ga as (xa & ra & Ea & Ta), Gb as (xb & rb & Eb & Tb). rewrite Ea, Eb in Q. cbn [map app] in Q. apply (f_equal (@hd_error _)) in Q. cbn [hd_error] in Q.
  unfold key in Q. injection Q as Q _. congruence.
Qed.

(** ** The written files *)
Lemma write_both u u' : fits_format u -> fits_format u' -> copy_of u u' ->
  exists pre pc, Forall2 is_change (u_changed u) pc /\
    write u = Ok (pre ++ frames (map wire (map snd (sorted_items u pc)))) /\
    write u' = Ok (pre ++ frames (map wire (map snd (ssort time_leb (p_data u ++ p_log u ++ p_tag u' ++ p_drop u ++ pc))))).
Proof.
  intros F F' C. destruct (info_written u F) as (mi & I1 & _). destruct (multi_written u F) as (mm & M1 & _).
  destruct (param_written (u_params u) (proj2 (ff_params u F))) as (mp & P1 & _).
  destruct (defaults_written u F) as (mq & Q1 & _). destruct (change_written u F) as (pc & C1 & C2').
  pose proof (tag_written u' F') as T'. pose proof (write_flags_ok u) as W. destruct (formats_written u F) as [F1 _].
  destruct (ff_flags u F) as (A1 & A2 & A3 & A4 & _).
  destruct C as [(D1 & D2 & D3) (D4 & D5 & D6) D7 (D8 & D9) (D10 & D11) (D12 & D13 & D14) (D15 & _) D17 D18 _].
  assert (Fl : write_flags u' = write_flags u).
  { unfold write_flags. rewrite D4, D5. destruct (u_incompat u) as [|x r]; [reflexivity|]. cbn [without_append].
    rewrite <- Z.land_assoc. reflexivity. }
  exists (file_header (u_version u) (u_start u) ++ frames (map wire (m_flags u :: m_formats u ++ mi ++ mm ++ mp ++ mq)) ++ frames (map wire (map m_add (by_id u)))), pc.
  split; [exact C2'|].
  assert (Eq : forall p, map snd (ssort item_leb (map it (p_data u) ++ map it (p_log u) ++ map it p ++ map it (p_drop u) ++ map it pc)) =
    map fr (map snd (ssort time_leb (p_data u ++ p_log u ++ p ++ p_drop u ++ pc)))).
  { intros p. rewrite <- !map_app, (ssort_map time_leb item_leb it) by reflexivity. now rewrite !map_map. }
  split.
  - unfold write. rewrite write_header_ok by exact (ff_header u F). cbn [bind].
    rewrite W by assumption. cbn [bind].
    rewrite F1. cbn [bind]. rewrite I1. cbn [bind]. rewrite M1. cbn [bind]. unfold write_params. rewrite P1. cbn [bind].
    rewrite Q1. cbn [bind]. rewrite subs_written by exact F. cbn [bind]. unfold write_data.
    rewrite data_written, log_written, tag_written, drop_written, C1 by exact F. cbn [bind]. rewrite Eq.
    fold (p_items u pc). fold (sorted_items u pc). rewrite <- !map_app, frames_cons_wire, !frames_fr, <- !app_assoc. reflexivity.
  - unfold write. rewrite Fl. unfold write_header, write_formats, write_info, write_multi, write_params, write_defaults, write_subscriptions, write_data,
      data_items, logged_items, dropout_items, changed_items, by_id.
    rewrite D1, D2, D7, D8, D9, D10, D11, D12, D13, D14, D15, D17, D18, T'. fold (by_id u).
    fold (write_header u) (write_formats u) (write_info u) (write_multi u) (write_params u) (write_defaults u) (write_subscriptions u) (data_items u) (logged_items u) (dropout_items u) (changed_items u).
    rewrite write_header_ok by exact (ff_header u F). cbn [bind].
    rewrite W by assumption. cbn [bind].
    rewrite F1. cbn [bind]. rewrite I1. cbn [bind]. rewrite M1. cbn [bind]. unfold write_params. rewrite P1. cbn [bind].
    rewrite Q1. cbn [bind]. rewrite subs_written by exact F. cbn [bind].
    rewrite data_written, log_written, drop_written, C1 by exact F. cbn [bind]. rewrite Eq.
    rewrite <- !map_app, frames_cons_wire, !frames_fr, <- !app_assoc. reflexivity.
Qed.
Definition tag_key (w : Z * bytes) : list (Z * Z) :=
  if fst w =? 67 then [(le_dec (slice 1 3 (snd w)), le_dec (slice 3 11 (snd w)))] else [].
Lemma wire_keys u l pc : fits_format u -> Forall2 is_change l pc ->
  flat_map tag_key (map wire (map snd (sorted_items u pc))) = map (fun m => (tg_tag m, tg_ts m)) (ssort tag_leb (concat (map snd (u_tagged u)))).
Proof.
  intros F H. rewrite (flat_map_map tag_key wire), (selected (fun m => tag_key (wire m)) 67).
  2:{ intros m Hm. unfold tag_key. destruct (Z.eqb_spec (fst (wire m)) 67); [contradiction|reflexivity]. }
  rewrite (select u pc l 67 H). cbn [Z.eqb Pos.eqb]. unfold p_tag. rewrite (ssort_map tag_leb) by reflexivity. rewrite map_map, flat_map_map.
  assert (K : Forall (fun m => In m (concat (map snd (u_tagged u)))) (ssort tag_leb (concat (map snd (u_tagged u))))).
  { apply Forall_forall. intros m I. exact (Permutation_in m (Permutation_sym (ssort_perm tag_leb _)) I). }
  induction K as [|m r Hm K IH]; [reflexivity|]. cbn [flat_map map]. rewrite IH. clear IH.
  destruct (tags_ok u m F Hm) as [(B1 & B2 & B3 & _) _].
  cbn [t_tag snd wire]. unfold tag_key. cbn [fst snd]. change (67 =? 67) with true. cbn iota.
  replace (slice 1 3 ([tg_level m] ++ le_enc 2 (tg_tag m) ++ le_enc 8 (tg_ts m) ++ utf8 (tg_msg m))) with (le_enc 2 (tg_tag m))
    by (symmetry; apply slice_app_mid; [reflexivity|rewrite lenZ_le; reflexivity]).
  replace (slice 3 11 ([tg_level m] ++ le_enc 2 (tg_tag m) ++ le_enc 8 (tg_ts m) ++ utf8 (tg_msg m))) with (le_enc 8 (tg_ts m)).
  2:{ symmetry. rewrite (app_assoc [tg_level m]). apply slice_app_mid; [rewrite lenZ_app, lenZ_le; reflexivity|rewrite lenZ_le; reflexivity]. }
  rewrite !le_dec_enc by (unfold u16, u64 in *; cbn; lia). reflexivity.
Qed.
Theorem stable_law u f : fits_format u -> write u = Ok f -> lenZ f <= BIG ->
  exists depth, forall cf, (depth <= cf_depth cf)%nat -> cf_hdr cf = false -> (forall n, cf_filter cf n = true) ->
    exists u' f', (forall r, produces cf f r <-> r = Ok u') /\ write u' = Ok f' /\ (f' = f <-> tags_agree u).
Proof.
  intros F E Hl. destruct (round_trip u F) as (f0 & E0 & H). rewrite E in E0. injection E0 as <-.
  destruct (H Hl) as (depth & Hd). exists depth. intros cf H1 H2 H3. destruct (Hd cf H1 H2 H3) as (u' & A & C & S & D).
  pose proof (fits_tag_dict u F) as T. destruct (reread_dict u u' F C D) as [T' _]. pose proof (refits u u' F C T' S) as F'.
  assert (R : u_tagged u' = ssort lead_leb (u_tagged u)) by (apply regrouped; [exact T|exact D|apply (cp_messages _ _ C)]).
  destruct (write_both u u' F F' C) as (pre & pc & Hc & W & W'). rewrite E in W. injection W as ->.
  eexists u', _. split; [exact A|]. split; [exact W'|].
  split.
  - intros Q. apply app_inv_head in Q. apply frames_inj in Q.
    assert (Q' : map wire (map snd (sorted_items u' pc)) = map wire (map snd (sorted_items u pc))).
    { rewrite <- Q. unfold sorted_items, p_items, p_data, p_log, p_drop, by_id.
      destruct C as [_ _ _ _ _ _ (D15 & _) D17 D18 _]. now rewrite D15, D17, D18. }
    apply (f_equal (flat_map tag_key)) in Q'. rewrite (wire_keys u' _ pc F' Hc), (wire_keys u _ pc F Hc), R in Q'.
    intros d1 a la d2 b lb d3 ma mb x y Ed Ia Ib Et Hx Hy. destruct (Z.le_gt_cases (tg_ts x) (tg_ts y)) as [|G]; [assumption|exfalso].
    apply (swapped (u_tagged u) a la b lb d1 d2 d3 ma mb T Ed Ia Ib Et); [|exact Q'].
    unfold lead. cbn [snd]. destruct la; [discriminate|]. destruct lb; [discriminate|]. injection Hx as ->. injection Hy as ->. lia.
  - intros Ag. f_equal. f_equal. f_equal. f_equal. unfold sorted_items, p_items.
    apply (ssort_unique time_leb time_total time_trans).
    + apply ssort_sorted; [exact time_total|exact time_trans].
    + intros p. rewrite ssort_stable by (exact time_total || exact time_trans). rewrite !filter_app. f_equal. f_equal. f_equal.
      unfold p_tag. assert (K : forall l, filter (equivb time_leb p) (map t_tag l) = map t_tag (filter (timed_at (fst p)) l)).
      { induction l as [|m l IH]; [reflexivity|]. cbn [map filter]. rewrite IH.
        replace (equivb time_leb p (t_tag m)) with (timed_at (fst p) m) by (unfold equivb, time_leb, timed_at; cbn [t_tag fst]; lia). destruct (timed_at (fst p) m); reflexivity. }
      rewrite !K, R. f_equal. apply agree_times; [exact T|]. exact Ag.
Qed.
