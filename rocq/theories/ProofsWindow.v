(** Time windows, dictionaries of samples and tables of text. *)
From Verif Require Import Base Dict PyStr PyFloat Struct PySort ModelTypes ModelRead ModelApi ModelTools SpecTools.
From Verif Require Sql ProofsKeep.
From Coq Require Import Permutation Sorted.

Lemma rnd_exact z : - 2 ^ 53 <= z <= 2 ^ 53 -> rnd z = z.
Proof. intros H. unfold rnd. rewrite ProofsKeep.float_int by exact H. reflexivity. Qed.

Lemma filter_range a b n : (b <= n)%nat -> filter (fun i => Nat.leb a i && Nat.ltb i b) (seq 0 n) = seq a (b - a).
Proof.
  revert b. induction n as [|n IH]; intros b H.
  - cbn. destruct b; [|lia]. reflexivity.
  - rewrite seq_S, filter_app, Nat.add_0_l. cbn [filter].
    destruct (Nat.eq_dec b (S n)) as [->|Hb].
    + rewrite (filter_ext_in _ (fun i => Nat.leb a i && Nat.ltb i n)), (IH n) by
        (try lia; intros i Hi; apply in_seq in Hi; f_equal; destruct (Nat.ltb_spec i (S n)), (Nat.ltb_spec i n); try reflexivity; lia).
      destruct (Nat.leb_spec a n); cbn [andb].
      * destruct (Nat.ltb_spec n (S n)); [|lia]. replace (S n - a)%nat with (S (n - a)) by lia.
        rewrite seq_S. f_equal. f_equal. lia.
      * replace (n - a)%nat with O by lia. replace (S n - a)%nat with O by lia. reflexivity.
    + rewrite IH by lia. destruct (Nat.ltb_spec n b); [lia|]. rewrite andb_false_r, app_nil_r. reflexivity.
Qed.

Lemma first_index_some {A} (p : A -> bool) l : Exists (fun x => p x = true) l ->
  exists i, first_index p l = Some i /\ (i < length l)%nat /\
            (forall j x, nth_error l j = Some x -> (j < i)%nat -> p x = false) /\
            (exists x, nth_error l i = Some x /\ p x = true).
Proof.
  induction l as [|x r IH]; intros H; [inversion H|].
  cbn [first_index]. destruct (p x) eqn:E.
  - exists O. repeat split; [cbn; lia|intros; lia|exists x; split; [reflexivity|exact E]].
  - assert (H' : Exists (fun x => p x = true) r) by (inversion H; subst; [congruence|assumption]).
    destruct (IH H') as (i & Hi & Hl & Hb & y & Hy & Hp). exists (S i). rewrite Hi. cbn [option_map]. split; [reflexivity|].
    split; [cbn; lia|]. split.
    + intros [|j] z Hz Hj; [cbn in Hz; injection Hz as <-; exact E|]. cbn in Hz. apply (Hb j z Hz). lia.
    + exists y. split; [exact Hy|exact Hp].
Qed.

(** timestamps of a dataset, as the model's element list *)
Lemma np_elem_ints t raws ts : map (np_elem t) raws = map VInt ts -> length raws = length ts /\
  forall j x, nth_error raws j = Some x -> exists z, nth_error ts j = Some z /\ np_elem t x = VInt z.
Proof.
  revert ts. induction raws as [|x r IH]; intros [|z ts] E; try discriminate.
  - split; [reflexivity|]. intros [|j] x H; discriminate.
  - cbn [map] in E. injection E as E1 E2. destruct (IH _ E2) as (L & N). split; [cbn; lia|].
    intros [|j] y H; cbn in H |- *.
    + injection H as <-. exists z. split; [reflexivity|assumption].
    + apply N. exact H.
Qed.

Lemma sorted_nth ts i j : StronglySorted Z.le ts -> (i <= j)%nat -> (j < length ts)%nat -> nth i ts 0 <= nth j ts 0.
Proof.
  intros H. revert i j. induction H as [|t r Hr IH Hf]; intros i j Hij Hj; [cbn in Hj; lia|].
  destruct i, j; cbn; try lia.
  - rewrite Forall_forall in Hf. apply Hf. apply nth_In. cbn in Hj. lia.
  - apply IH; [lia|]. cbn in Hj. lia.
Qed.

Lemma index_at_spec d ts b : int_field d (lit "timestamp") ts -> proper_times ts ->
  reached ts (Some b) -> exists i, index_at d b = Ok i /\ (i <= length ts)%nat /\
    forall j, (j < length ts)%nat -> (Nat.leb i j = (b * 1000000 <=? nth j ts 0)).
Proof.
  intros (c & size & sg & Hc & Ht & Hm) (Hs & Hr) (H0 & Hb & He).
  assert (Hk : -2 ^ 53 <= b <= 2 ^ 53) by (change (2 ^ 53) with 9007199254740992 in *; lia).
  destruct (np_elem_ints _ _ _ Hm) as (HL & HN).
  rewrite Forall_forall in Hr.
  assert (HP : forall j x, nth_error (c_raw c) j = Some x -> reaches b (c_type c) x = (b * 1000000 <=? nth j ts 0)).
  { intros j x Hx. destruct (HN _ _ Hx) as (z & Hz & Ez). unfold reaches. rewrite Ez.
    rewrite (nth_error_nth _ _ 0 Hz). rewrite (rnd_exact b Hk), (rnd_exact _ Hb), rnd_exact; [reflexivity|].
    apply nth_error_In in Hz. specialize (Hr _ Hz). change (2 ^ 53) with 9007199254740992 in *. lia. }
  assert (HE : Exists (fun x => reaches b (c_type c) x = true) (c_raw c)).
  { apply Exists_exists in He. destruct He as (t & Hin & Hle). destruct (In_nth _ _ 0 Hin) as (j & Hj & Ej).
    destruct (nth_error (c_raw c) j) as [x|] eqn:Ex; [|apply nth_error_None in Ex; lia].
    apply Exists_exists. exists x. split; [eapply nth_error_In; exact Ex|]. rewrite (HP _ _ Ex), Ej. lia. }
  destruct (first_index_some _ _ HE) as (i & Hi & Hl & Hbef & x & Hx & Hpx).
  exists i. split.
  - unfold index_at. rewrite Hc. destruct (c_type c) as [n g|n]; [|congruence]. rewrite Hi. reflexivity.
  - split; [lia|]. intros j Hj. destruct (Nat.leb_spec i j) as [Hij|Hij].
    + rewrite (HP _ _ Hx) in Hpx. pose proof (sorted_nth ts i j Hs Hij Hj). lia.
    + destruct (nth_error (c_raw c) j) as [y|] eqn:Ey; [|apply nth_error_None in Ey; lia].
      specialize (Hbef _ _ Ey Hij). rewrite (HP _ _ Ey) in Hbef. symmetry. exact Hbef.
Qed.

Definition lower_ok (ts : list Z) (s : option Z) : Prop := s = Some 0 \/ reached ts s.

Lemma window_spec d ts s e : int_field d (lit "timestamp") ts -> proper_times ts ->
  lower_ok ts s -> reached ts e ->
  exists a b, window d s e = Ok (a, b) /\ seq a (b - a) = window_samples ts s e.
Proof.
  intros Hi Hp Hs He.
  assert (A : exists a, match given s with Some x => index_at d x | None => Ok O end = Ok a /\
     forall j, (j < length ts)%nat -> Nat.leb a j = match s with Some x => x * 1000000 <=? nth j ts 0 | None => true end).
  { destruct Hs as [->|Hs].
    - exists O. split; [reflexivity|]. intros j Hj. cbn. destruct Hp as (_ & Hp). rewrite Forall_forall in Hp.
      specialize (Hp _ (nth_In _ 0 Hj)). lia.
    - destruct s as [x|]; [|exists O; split; [reflexivity|reflexivity]].
      destruct (index_at_spec d ts x Hi Hp Hs) as (i & E & _ & Hj).
      exists i. split; [|exact Hj]. cbn [given]. destruct Hs as (H0 & _). destruct x; [congruence|exact E|exact E]. }
  assert (B : exists b, match given e with Some x => index_at d x | None => len_ts d end = Ok b /\ (b <= length ts)%nat /\
     forall j, (j < length ts)%nat -> Nat.ltb j b = match e with Some x => nth j ts 0 <? x * 1000000 | None => true end).
  { destruct e as [x|].
    - destruct (index_at_spec d ts x Hi Hp He) as (i & E & L & Hj).
      exists i. split; [|split; [exact L|]].
      + cbn [given]. destruct He as (H0 & _). destruct x; [congruence|exact E|exact E].
      + intros j Hjl. specialize (Hj _ Hjl). rewrite Z.ltb_antisym, <- Hj, Nat.ltb_antisym. reflexivity.
    - exists (length ts). destruct Hi as (c & size & sg & Hc & Ht & Hm). cbn [given]. unfold len_ts. rewrite Hc.
      split; [|split; [lia|]].
      + f_equal. apply (np_elem_ints _ _ _ Hm).
      + intros j Hj. apply Nat.ltb_lt. exact Hj. }
  destruct A as (a & Ea & Ha). destruct B as (b & Eb & Lb & Hb).
  exists a, b. unfold window. rewrite Ea. cbn [bind]. rewrite Eb. cbn [bind]. split; [reflexivity|].
  rewrite <- (filter_range a b _ Lb). unfold window_samples. apply filter_ext_in. intros j Hj. apply in_seq in Hj.
  unfold in_window. rewrite Ha, Hb by lia. reflexivity.
Qed.

(** ** All limits *)
Lemma first_index_none {A} (p : A -> bool) l : Forall (fun x => p x = false) l -> first_index p l = None.
Proof. induction 1 as [|x l Hx _ IH]; [reflexivity|]. cbn [first_index]. rewrite Hx, IH. reflexivity. Qed.
Lemma index_at_none d ts b : int_field d (lit "timestamp") ts -> proper_times ts ->
  -2 ^ 53 <= b * 1000000 <= 2 ^ 53 -> ~ Exists (fun t => b * 1000000 <= t) ts -> index_at d b = Err IndexError.
Proof.
  intros (c & size & sg & Hc & Ht & Hm) (_ & Hr) Hb He.
  assert (Hk : -2 ^ 53 <= b <= 2 ^ 53) by (change (2 ^ 53) with 9007199254740992 in *; lia).
  destruct (np_elem_ints _ _ _ Hm) as (HL & HN). rewrite Forall_forall in Hr.
  assert (F : first_index (reaches b (c_type c)) (c_raw c) = None);
    [apply first_index_none|unfold index_at; rewrite Hc; destruct (c_type c); [now rewrite F|congruence]].
  apply Forall_forall. intros x Hx. apply In_nth_error in Hx as (j & Hx). destruct (HN _ _ Hx) as (z & Hz & Ez). unfold reaches. rewrite Ez.
  apply nth_error_In in Hz. pose proof (Hr _ Hz) as Hz'. rewrite (rnd_exact b Hk), (rnd_exact _ Hb), rnd_exact by (change (2 ^ 53) with 9007199254740992 in *; lia).
  apply Z.leb_gt. destruct (Z.lt_ge_cases z (b * 1000000)) as [L|L]; [exact L|]. destruct He. apply Exists_exists. exists z. auto.
Qed.
Lemma met_reached ts b : exact_limit b -> met ts b -> reached ts (limit b).
Proof.
  unfold exact_limit, met, reached. destruct b as [x|]; [|exact (fun _ _ => I)]. destruct x; cbn [limit]; [exact (fun _ _ => I)| |]; intros H1 H2; (split; [discriminate|auto]).
Qed.
Lemma met_dec ts b : met ts b \/ ~ met ts b.
Proof.
  unfold met. destruct (limit b) as [x|]; [|now left].
  destruct (Exists_dec (fun t => x * 1000000 <= t) ts) as [H|H]; [intros t; apply Z_le_dec|now left|now right].
Qed.
Lemma window_limits d ts s e : int_field d (lit "timestamp") ts -> proper_times ts -> exact_limit s -> exact_limit e ->
  (met ts s /\ met ts e -> exists a b, window d s e = Ok (a, b) /\ seq a (b - a) = window_samples ts (limit s) (limit e)) /\
  (~ (met ts s /\ met ts e) -> window d s e = Err IndexError).
Proof.
  intros Hi Hp Xs Xe.
  assert (Eg : window d s e = window d (limit s) (limit e)).
  { unfold window. destruct s as [[| |]|], e as [[| |]|]; reflexivity. }
  split.
  - intros (Ms & Me). rewrite Eg. apply window_spec; auto.
    + right. now apply met_reached.
    + now apply met_reached.
  - intros N. unfold window. change given with limit.
    assert (Hs : forall b, exact_limit b -> ~ met ts b -> exists x, limit b = Some x /\ index_at d x = Err IndexError).
    { intros b Xb Nb. unfold met in Nb. destruct b as [x|]; [|now destruct Nb]. destruct x as [|x|x]; cbn [limit] in *; [now destruct Nb| |];
      eexists; (split; [reflexivity|]); exact (index_at_none d ts _ Hi Hp Xb Nb). }
    destruct (met_dec ts s) as [Ms|Ms].
    + destruct (met_dec ts e) as [Me|Me]; [tauto|]. destruct (Hs e Xe Me) as (x & Ex & Ei).
      destruct (limit s) as [y|] eqn:Ey; [|cbn [bind]; rewrite Ex, Ei; reflexivity].
      destruct (index_at_spec d ts y Hi Hp) as (i & E & _); [rewrite <- Ey; now apply met_reached|]. rewrite E. cbn [bind]. rewrite Ex, Ei. reflexivity.
    + destruct (Hs s Xs Ms) as (x & Ex & Ei). rewrite Ex, Ei. reflexivity.
Qed.

(** ** timestamp first *)
Lemma remove_first_filter x l : NoDup l -> In x l -> remove_first x l = Ok (filter (fun k => negb (str_eqb k x)) l).
Proof.
  induction 1 as [|y r Hy Hr IH]; intros Hin; [destruct Hin|].
  cbn [remove_first filter]. destruct (str_eqb_spec x y) as [<-|Hn].
  - rewrite str_eqb_refl. cbn [negb]. f_equal. symmetry. clear -Hy.
    induction r as [|z r IH]; [reflexivity|]. cbn [filter]. rewrite str_eqb_neq by (intros ->; apply Hy; left; reflexivity).
    cbn [negb]. f_equal. apply IH. intros H. apply Hy. right. exact H.
  - rewrite (str_eqb_neq y x) by congruence. destruct Hin as [->|Hin]; [congruence|]. rewrite (IH Hin). reflexivity.
Qed.

Lemma timestamp_first_spec l : NoDup l -> In (lit "timestamp") l -> timestamp_first l = Ok (time_first l).
Proof. intros H1 H2. unfold timestamp_first. rewrite (remove_first_filter _ _ H1 H2). reflexivity. Qed.

Lemma time_first_NoDup l : NoDup l -> NoDup (time_first l).
Proof.
  intros H. constructor.
  - intros Hin. apply filter_In in Hin. destruct Hin as (_ & E). rewrite str_eqb_refl in E. discriminate.
  - apply NoDup_filter. exact H.
Qed.
Lemma time_first_In l k : In (lit "timestamp") l -> In k (time_first l) <-> In k l.
Proof.
  intros H. cbn [time_first In]. rewrite filter_In. split.
  - intros [<-|(Hk & _)]; assumption.
  - intros Hk. destruct (str_eqb_spec k (lit "timestamp")) as [->|N]; [left; reflexivity|right].
    split; [exact Hk|]. reflexivity.
Qed.
Lemma time_first_Perm l : NoDup l -> In (lit "timestamp") l -> Permutation (time_first l) l.
Proof.
  intros H1 H2. apply NoDup_Permutation; [apply time_first_NoDup; exact H1|exact H1|].
  intros k. apply time_first_In. exact H2.
Qed.

(** ** rows of extract_message *)
Lemma elem_cell d k i v : cell d k i = Some v -> exists x, elem d k i = Ok x /\ np_elem (fst x) (snd x) = v.
Proof.
  unfold cell, elem. destruct (sget k (ds_data d)) as [c|]; [|discriminate]. unfold py_nth.
  destruct (nth_error (c_raw c) i) as [x|]; [|discriminate]. intros E. injection E as <-.
  exists (c_type c, x). split; reflexivity.
Qed.

Lemma dset_fresh {V} (k : str) (v : V) d : ~ In k (map fst d) -> sset k v d = d ++ [(k, v)].
Proof.
  induction d as [|(k', v') d IH]; intros H; [reflexivity|]. cbn. cbn in H.
  rewrite str_eqb_neq by (intros ->; apply H; left; reflexivity). cbn [app]. f_equal. apply IH. tauto.
Qed.

Lemma row_dict_spec d i keys : forall acc, NoDup (map fst acc ++ keys) ->
  (forall k, In k keys -> exists v, cell d k i = Some v) ->
  exists r, foldM (fun r k => let* x := elem d k i in Ok (sset k (np_elem (fst x) (snd x)) r)) keys acc = Ok (acc ++ r) /\
            record d keys i r.
Proof.
  induction keys as [|k keys IH]; intros acc Hn Hc.
  - exists []. rewrite app_nil_r. split; [reflexivity|constructor].
  - destruct (Hc k (or_introl eq_refl)) as (v & Hv). destruct (elem_cell _ _ _ _ Hv) as (x & Ex & Ev).
    cbn [foldM]. rewrite Ex. cbn [bind]. rewrite Ev. rewrite dset_fresh.
    2:{ apply NoDup_remove_2 in Hn. intros H. apply Hn. apply in_or_app. left. exact H. }
    destruct (IH (acc ++ [(k, v)])) as (r & Er & Hr).
    + rewrite map_app. cbn [map fst]. rewrite <- app_assoc. exact Hn.
    + intros k' Hk'. apply Hc. right. exact Hk'.
    + exists ((k, v) :: r). rewrite Er, <- app_assoc. split; [reflexivity|]. constructor; [split; [reflexivity|exact Hv]|exact Hr].
Qed.

Lemma mapM_F2 {A B} (f : A -> res B) (P : A -> B -> Prop) l :
  (forall x, In x l -> exists y, f x = Ok y /\ P x y) -> exists r, mapM f l = Ok r /\ Forall2 P l r.
Proof.
  induction l as [|x l IH]; intros H; [exists []; split; [reflexivity|constructor]|].
  destruct (H x (or_introl eq_refl)) as (y & Ey & Py). destruct IH as (r & Er & Pr); [intros z Hz; apply H; right; exact Hz|].
  exists (y :: r). cbn [mapM]. rewrite Ey. cbn [bind]. rewrite Er. split; [reflexivity|]. constructor; assumption.
Qed.

Lemma rect_cell d n k i : rectangular d n -> In k (names d) -> (i < n)%nat -> exists v, cell d k i = Some v.
Proof.
  intros Hr Hk Hi. apply in_map_iff in Hk. destruct Hk as (f & <- & Hf). destruct (Hr f Hf) as (c & Hc & Hl).
  unfold cell. rewrite Hc. destruct (nth_error (c_raw c) i) as [x|] eqn:E; [eexists; reflexivity|].
  apply nth_error_None in E. lia.
Qed.

Lemma window_samples_lt ts s e i : In i (window_samples ts s e) -> (i < length ts)%nat.
Proof. intros H. apply filter_In in H. destruct H as (H & _). apply in_seq in H. lia. Qed.

Lemma extract_spec u name s e d ts : get_dataset u name 0 = Ok d ->
  int_field d (lit "timestamp") ts -> proper_times ts -> lower_ok ts s -> reached ts e ->
  rectangular d (length ts) -> NoDup (names d) -> In (lit "timestamp") (names d) ->
  exists rows, extract_message (Ok u) name s e = Ok rows /\
               Forall2 (record d (time_first (names d))) (window_samples ts s e) rows.
Proof.
  intros Hd Hi Hp Hs He Hr Hn Ht. destruct (window_spec d ts s e Hi Hp Hs He) as (a & b & Ew & Es).
  destruct (mapM_F2 (row_dict d (time_first (names d))) (record d (time_first (names d))) (window_samples ts s e)) as (rows & Er & Hrows).
  - intros i Hin. apply window_samples_lt in Hin. destruct (row_dict_spec d i (time_first (names d)) []) as (r & E & R).
    + apply time_first_NoDup. exact Hn.
    + intros k Hk. apply (proj1 (time_first_In _ _ Ht)) in Hk. apply (rect_cell d _ k i Hr Hk Hin).
    + exists r. split; assumption.
  - exists rows. split; [|exact Hrows]. unfold extract_message. cbn [bind]. rewrite Hd. cbn [bind].
    change (map fd_name (ds_fields d)) with (names d). rewrite (timestamp_first_spec _ Hn Ht). cbn [bind].
    rewrite Ew. cbn [bind fst snd]. rewrite Es. exact Er.
Qed.

Lemma extract_limits u name s e d ts : get_dataset u name 0 = Ok d ->
  int_field d (lit "timestamp") ts -> proper_times ts -> exact_limit s -> exact_limit e ->
  rectangular d (length ts) -> NoDup (names d) -> In (lit "timestamp") (names d) ->
  (met ts s /\ met ts e -> exists rows, extract_message (Ok u) name s e = Ok rows /\
     Forall2 (record d (time_first (names d))) (window_samples ts (limit s) (limit e)) rows) /\
  (~ (met ts s /\ met ts e) -> extract_message (Ok u) name s e = Err IndexError).
Proof.
  intros Hd Hi Hp Xs Xe Hr Hn Ht. destruct (window_limits d ts s e Hi Hp Xs Xe) as (W1 & W2). split.
  - intros M. destruct (W1 M) as (a & b & Ew & Es). destruct M as (Ms & Me).
    destruct (extract_spec u name (limit s) (limit e) d ts Hd Hi Hp (or_intror (met_reached _ _ Xs Ms)) (met_reached _ _ Xe Me) Hr Hn Ht) as (rows & E & F).
    exists rows. split; [|exact F]. rewrite <- E. unfold extract_message. cbn [bind]. rewrite Hd. cbn [bind].
    destruct (timestamp_first _) as [k|]; [|reflexivity]. cbn [bind]. unfold window. destruct s as [[| |]|], e as [[| |]|]; reflexivity.
  - intros N. unfold extract_message. cbn [bind]. rewrite Hd. cbn [bind]. change (map fd_name (ds_fields d)) with (names d).
    rewrite (timestamp_first_spec _ Hn Ht). cbn [bind]. rewrite (W2 N). reflexivity.
Qed.

(** ** CSV: the columns *)
Lemma starts_with_ext p name r : ~ In 91 p -> starts_with p (name ++ 91 :: r) = starts_with p name.
Proof.
  revert name. induction p as [|a p IH]; intros name H; [reflexivity|].
  destruct name as [|b name]; cbn.
  - destruct (Z.eqb_spec a 91) as [->|N]; [exfalso; apply H; left; reflexivity|reflexivity].
  - rewrite IH; [reflexivity|]. intros Hp. apply H. right. exact Hp.
Qed.

Lemma item_eq name k : item name k = name ++ 91 :: str_of_Z (Z.of_nat k) ++ [93].
Proof. reflexivity. Qed.

Lemma digits_of k c : In c (str_of_Z (Z.of_nat k)) -> 48 <= c <= 57.
Proof. rewrite str_of_Z_nonneg by lia. apply str_of_nonneg_digits. lia. Qed.

Lemma existsb_false c (l : list Z) : ~ In c l -> existsb (Z.eqb c) l = false.
Proof.
  intros H. destruct (existsb (Z.eqb c) l) eqn:E; [|reflexivity]. apply existsb_exists in E.
  destruct E as (x & Hx & E). apply Z.eqb_eq in E. subst. contradiction.
Qed.

Lemma array_match_item name k : ~ In 10 name -> array_match (item name k) = Some (name, str_of_Z (Z.of_nat k)).
Proof.
  intros H. unfold array_match. rewrite existsb_false.
  2:{ rewrite item_eq, in_app_iff. cbn [In]. rewrite in_app_iff. cbn [In]. intros [A|[A|[A|[A|[]]]]]; try discriminate; [auto|].
      apply digits_of in A. lia. }
  rewrite item_eq.
  assert (R : rev (name ++ 91 :: str_of_Z (Z.of_nat k) ++ [93]) = 93 :: rev (str_of_Z (Z.of_nat k)) ++ 91 :: rev name).
  { rewrite rev_app_distr. cbn [rev]. rewrite rev_app_distr. cbn [rev app]. rewrite <- app_assoc. reflexivity. }
  rewrite R. cbv iota. rewrite find_char_app.
  2:{ intros A. apply in_rev in A. apply digits_of in A. lia. }
  set (ds := rev (str_of_Z (Z.of_nat k))). cbv zeta.
  destruct (lenZ ds <? 0) eqn:L; [unfold lenZ in L; lia|].
  unfold lenZ. rewrite Nat2Z.id. rewrite firstn_app, firstn_all, Nat.sub_diag. cbn [firstn]. rewrite app_nil_r.
  replace (S (length ds)) with (length ds + 1)%nat by lia. rewrite skipn_app.
  rewrite skipn_all2 by lia. replace (length ds + 1 - length ds)%nat with 1%nat by lia. cbn [skipn app].
  unfold ds. rewrite !rev_involutive. reflexivity.
Qed.

Lemma py_int_of_nat k : py_int (str_of_Z (Z.of_nat k)) = Ok (Z.of_nat k).
Proof. rewrite str_of_Z_nonneg by lia. apply py_int_str_of_nonneg. lia. Qed.

Lemma csv_item keys sizes name k : starts_with (lit "_padding") name = false -> ~ In 10 name ->
  csv_field (keys, sizes) (mkFD (item name k) CChar) =
  Ok (if Z.of_nat k =? 0 then keys ++ [name] else keys,
      sset name (Z.max (Z.of_nat k + 1) (match sget name sizes with Some n => n | None => 0 end)) sizes).
Proof.
  intros Hp Hn. unfold csv_field. cbn [fd_name fd_type].
  rewrite item_eq, starts_with_ext, Hp.
  2:{ cbn. intros X. repeat (destruct X as [X|X]; [discriminate X|]). exact X. }
  rewrite <- item_eq, (array_match_item name k Hn), py_int_of_nat. cbn [bind]. reflexivity.
Qed.

Lemma sget_sset {V} (k x : str) (v : V) d : sget x (sset k v d) = if str_eqb x k then Some v else sget x d.
Proof.
  destruct (str_eqb_spec x k) as [->|N].
  - induction d as [|(k', v') d IH]; cbn; [rewrite str_eqb_refl; reflexivity|].
    destruct (str_eqb k k') eqn:E; cbn; [rewrite E; reflexivity|rewrite E; exact IH].
  - induction d as [|(k', v') d IH]; cbn; [rewrite str_eqb_neq by exact N; reflexivity|].
    destruct (str_eqb k k') eqn:E; cbn.
    + apply str_eqb_eq in E. subst k'. rewrite !(str_eqb_neq x k) by exact N. reflexivity.
    + destruct (str_eqb x k'); [reflexivity|exact IH].
Qed.

Lemma csv_items name m : starts_with (lit "_padding") name = false -> ~ In 10 name ->
  forall k (keys : list str) (sizes : dict str Z), match sget name sizes with Some n => n | None => 0 end = Z.of_nat k -> (0 < k + m)%nat ->
  (k = 0%nat \/ sget name sizes = Some (Z.of_nat k)) ->
  exists sizes', foldM csv_field (map (fun k => mkFD (item name k) CChar) (seq k m)) (keys, sizes) =
                 Ok (if (k =? 0)%nat then keys ++ [name] else keys, sizes') /\
    forall x, sget x sizes' = if str_eqb x name then Some (Z.of_nat (k + m)) else sget x sizes.
Proof.
  intros Hp Hn. induction m as [|m IH]; intros k keys sizes Hk Hpos Hs.
  - exists sizes. cbn [seq map foldM]. destruct k; [lia|]. cbn [Nat.eqb]. split; [reflexivity|].
    intros x. destruct (str_eqb_spec x name) as [->|N]; [|reflexivity].
    destruct Hs as [Hs|Hs]; [discriminate|]. rewrite Hs. f_equal. lia.
  - cbn [seq map foldM]. rewrite csv_item by assumption. cbn [bind]. rewrite Hk.
    replace (Z.max (Z.of_nat k + 1) (Z.of_nat k)) with (Z.of_nat (S k)) by lia.
    destruct (IH (S k) (if Z.of_nat k =? 0 then keys ++ [name] else keys) (sset name (Z.of_nat (S k)) sizes)) as (sizes' & E & L).
    + rewrite sget_sset, str_eqb_refl. reflexivity.
    + lia.
    + right. rewrite sget_sset, str_eqb_refl. reflexivity.
    + exists sizes'. split.
      * refine (eq_trans E _). destruct k; reflexivity.
      * intros x. rewrite L, sget_sset. destruct (str_eqb x name); [f_equal; lia|reflexivity].
Qed.

Lemma array_match_end s a : array_match s = Some a -> exists b, s = b ++ lit "]".
Proof.
  unfold array_match. destruct (existsb (Z.eqb 10) s); [discriminate|].
  destruct (rev s) as [|x r] eqn:R; [discriminate|]. intros H.
  assert (x = 93). { destruct x as [|p|p]; try discriminate. repeat (destruct p; try discriminate H). reflexivity. }
  subst x. exists (rev r). rewrite <- (rev_involutive s), R. reflexivity.
Qed.

Lemma csv_value keys sizes name ty : starts_with (lit "_padding") name = false ->
  (ty = CChar -> forall a, name <> a ++ lit "]") -> csv_field (keys, sizes) (mkFD name ty) = Ok (keys ++ [name], sizes).
Proof.
  intros Hp Hc. unfold csv_field. cbn [fd_name fd_type]. rewrite Hp.
  destruct (array_match name) as [(f, ix)|] eqn:E; [|reflexivity].
  destruct ty; try reflexivity. apply array_match_end in E. destruct E as (b & ->). destruct (Hc eq_refl b eq_refl).
Qed.

Definition is_text (x : str) (f : tfield) : bool := match f with FText n _ => str_eqb x n | _ => false end.

Lemma csv_fields fs : Forall sane fs -> NoDup (map tname (filter shown fs)) ->
  forall (keys : list str) (sizes : dict str Z), (forall f, In f fs -> shown f = true -> sget (tname f) sizes = None) ->
  exists sizes', foldM csv_field (flat_map elements fs) (keys, sizes) = Ok (keys ++ map tname (filter shown fs), sizes') /\
    (forall x n, In (FText x n) fs -> sget x sizes' = Some (Z.of_nat n)) /\
    (forall x, existsb (is_text x) fs = false -> sget x sizes' = sget x sizes).
Proof.
  induction 1 as [|f fs Hf Hfs IH]; intros Hn keys sizes Hs.
  - exists sizes. cbn. rewrite app_nil_r. split; [reflexivity|]. split; [intros x n []|reflexivity].
  - cbn [flat_map]. rewrite foldM_app.
    destruct f as [name ty|name n|name ty]; cbn [filter shown] in *; cbn [map tname] in *.
    + destruct Hf as (Hp & Hc). change (elements (FValue name ty)) with [mkFD name ty]. cbn [foldM]. rewrite csv_value by assumption. cbn [bind].
      destruct (IH ltac:(inversion Hn; assumption) (keys ++ [name]) sizes) as (sizes' & E & T & O).
      { intros g Hg Sg. apply Hs; [right; exact Hg|exact Sg]. }
      exists sizes'. split; [refine (eq_trans E _); rewrite <- app_assoc; reflexivity|]. split.
      * intros x n [Hx|Hx]; [discriminate|]. apply T. exact Hx.
      * intros x Hx. cbn [existsb is_text orb] in Hx. apply O. exact Hx.
    + destruct Hf as (Hp & Hnl & Hpos).
      assert (H0 : sget name sizes = None) by (apply (Hs (FText name n)); [left; reflexivity|reflexivity]).
      destruct (csv_items name n Hp Hnl O keys sizes) as (s1 & E1 & L1); [rewrite H0; reflexivity|lia|left; reflexivity|].
      change (elements (FText name n)) with (map (fun k => mkFD (item name k) CChar) (seq 0 n)).
      rewrite E1. cbn [bind Nat.eqb]. inversion Hn as [|? ? Hni Hn']; subst.
      destruct (IH Hn' (keys ++ [name]) s1) as (sizes' & E & T & O).
      { intros g Hg Sg. rewrite L1. destruct (str_eqb_spec (tname g) name) as [Eg|Ng].
        - exfalso. apply Hni. rewrite <- Eg. apply in_map. apply filter_In. split; assumption.
        - apply Hs; [right; exact Hg|exact Sg]. }
      exists sizes'. split; [refine (eq_trans E _); rewrite <- app_assoc; reflexivity|]. split.
      * intros x m [Hx|Hx]; [|apply T; exact Hx]. injection Hx as <- <-. rewrite O, L1, str_eqb_refl; [reflexivity|].
        destruct (existsb (is_text name) fs) eqn:Ex; [|reflexivity]. exfalso. apply existsb_exists in Ex. destruct Ex as (g & Hg & Tg).
        destruct g as [|m k|]; try discriminate. cbn in Tg. apply str_eqb_eq in Tg. subst m. apply Hni.
        change name with (tname (FText name k)). apply in_map. apply filter_In. split; [exact Hg|reflexivity].
      * intros x Hx. cbn [existsb is_text] in Hx. apply orb_false_iff in Hx. destruct Hx as (Hx1 & Hx2).
        rewrite O by exact Hx2. rewrite L1, Hx1. reflexivity.
    + change (elements (FPadding name ty)) with [mkFD (lit "_padding" ++ name) ty]. cbn [foldM]. unfold csv_field at 1. cbn [fd_name]. rewrite starts_with_app. cbn [bind].
      destruct (IH Hn keys sizes) as (sizes' & E & T & O).
      { intros g Hg Sg. apply Hs; [right; exact Hg|exact Sg]. }
      exists sizes'. split; [exact E|]. split.
      * intros x n [Hx|Hx]; [discriminate|]. apply T. exact Hx.
      * intros x Hx. cbn [existsb is_text orb] in Hx. apply O. exact Hx.
Qed.

(** ** CSV: the cells *)
Lemma read_string_spec d name i m : forall j l s,
  Forall2 (fun k c => cell d (item name k) i = Some (VInt c)) (seq j m) l -> chars l = Some s ->
  read_string d name m (Z.of_nat j) i = Ok s.
Proof.
  induction m as [|m IH]; intros j l s H E.
  - inversion H; subst. cbn in E. injection E as <-. reflexivity.
  - cbn [seq] in H. inversion H as [|? c ? r Hc Hr]; subst. cbn [read_string].
    destruct (elem_cell _ _ _ _ Hc) as (x & Ex & Ev). change (name ++ lit "[" ++ str_of_Z (Z.of_nat j) ++ lit "]") with (item name j).
    rewrite Ex. cbn [bind]. rewrite Ev. cbn [chars fold_right] in E. destruct (c =? 0); [injection E as <-; reflexivity|].
    destruct ((c <? 0) || (1114111 <? c)); [discriminate|]. fold (chars r) in E.
    destruct (chars r) as [t|] eqn:Et; [|discriminate]. injection E as <-.
    replace (Z.of_nat j + 1) with (Z.of_nat (S j)) by lia. rewrite (IH (S j) r t Hr Et). reflexivity.
Qed.

Lemma csv_cell_spec fstr d sizes i f : shown f = true ->
  (forall x n, f = FText x n -> sget x sizes = Some (Z.of_nat n)) ->
  (forall x ty, f = FValue x ty -> sget x sizes = None) ->
  forall s, printed fstr d i f s -> csv_cell fstr d sizes i (tname f) = Ok s.
Proof.
  intros Hf HT HV s H. inversion H; subst; cbn [tname]; unfold csv_cell.
  - rewrite (HV _ _ eq_refl). destruct (elem_cell _ _ _ _ H0) as (x & Ex & Ev). rewrite Ex. cbn [bind]. unfold np_str. rewrite Ev. reflexivity.
  - rewrite (HV _ _ eq_refl). unfold elem. rewrite H0. unfold py_nth. rewrite H2. cbn [bind]. unfold np_str. cbn [fst snd]. rewrite H1.
    cbn [np_elem]. destruct size as [|[|[|[|[|]]]]]; reflexivity.
  - rewrite (HT _ _ eq_refl), Nat2Z.id. apply (read_string_spec d name i n 0%nat l); assumption.
Qed.

Lemma join_separated sep l : join sep l = separated sep l.
Proof.
  destruct l as [|x r]; [reflexivity|]. cbn [separated]. revert x. induction r as [|y r IH]; intros x; cbn [join].
  - cbn. rewrite app_nil_r. reflexivity.
  - change (x ++ sep ++ join sep (y :: r) = x ++ concat (map (fun y => sep ++ y) (y :: r))). rewrite IH. cbn [map concat].
    rewrite <- app_assoc. reflexivity.
Qed.

(** ** CSV: the whole file *)
Lemma columns_names fs ty : NoDup (map tname (filter shown fs)) -> In (FValue (lit "timestamp") ty) fs ->
  map tname (table_columns fs) = time_first (map tname (filter shown fs)).
Proof.
  intros Hn Hin. unfold table_columns, time_first. rewrite map_app.
  assert (A : forall fs, NoDup (map tname (filter shown fs)) -> In (FValue (lit "timestamp") ty) fs -> filter is_time fs = [FValue (lit "timestamp") ty]).
  { clear. induction fs as [|f fs IH]; intros Hn Hin; [destruct Hin|]. cbn [filter].
    destruct Hin as [->|Hin].
    - cbn [is_time]. rewrite str_eqb_refl. f_equal. cbn [filter shown map tname] in Hn. inversion Hn as [|? ? Hni _]; subst.
      destruct (filter is_time fs) as [|g r] eqn:E; [reflexivity|]. exfalso. apply Hni.
      assert (Hg : In g (filter is_time fs)) by (rewrite E; left; reflexivity). apply filter_In in Hg. destruct Hg as (Hg & Tg).
      destruct g as [m t| |]; try discriminate. cbn in Tg. apply str_eqb_eq in Tg. subst m.
      refine (in_map tname _ (FValue _ t) _). apply filter_In. split; [exact Hg|reflexivity].
    - assert (Hf : is_time f = false).
      { destruct f as [m t| |]; try reflexivity. cbn. apply str_eqb_neq. intros ->. cbn [filter shown map tname] in Hn.
        inversion Hn as [|? ? Hni _]; subst. apply Hni. refine (in_map tname _ (FValue _ ty) _). apply filter_In. split; [exact Hin|reflexivity]. }
      rewrite Hf. apply IH; [|exact Hin]. cbn [filter] in Hn. destruct (shown f); [cbn in Hn; inversion Hn; assumption|exact Hn]. }
  rewrite (A fs Hn Hin). cbn [map tname app]. f_equal.
  assert (B : forall n, ~ In (FText (lit "timestamp") n) fs).
  { intros n Ht. assert (C : FText (lit "timestamp") n = FValue (lit "timestamp") ty); [|discriminate].
    clear A. assert (Hx : In (FText (lit "timestamp") n) (filter shown fs)) by (apply filter_In; split; [exact Ht|reflexivity]).
    assert (Hy : In (FValue (lit "timestamp") ty) (filter shown fs)) by (apply filter_In; split; [exact Hin|reflexivity]).
    revert Hn Hx Hy. generalize (filter shown fs). clear. induction l as [|g l IH]; intros Hn Hx Hy; [destruct Hx|].
    cbn [map] in Hn. inversion Hn as [|? ? Hni Hn']; subst. destruct Hx as [->|Hx], Hy as [Hy|Hy].
    - exact Hy.
    - exfalso. apply Hni. exact (in_map tname _ _ Hy).
    - subst g. exfalso. apply Hni. exact (in_map tname _ _ Hx).
    - apply IH; assumption. }
  clear A Hn Hin. induction fs as [|f fs IH]; [reflexivity|]. cbn [filter].
  assert (IH' := IH (fun n Hn => B n (or_intror Hn))). clear IH.
  destruct f as [m t|m n|m t]; cbn [shown is_time andb].
  - cbn [map filter tname]. destruct (str_eqb m (lit "timestamp")); cbn [negb map tname]; [exact IH'|f_equal; exact IH'].
  - cbn [map filter tname negb andb]. destruct (str_eqb_spec m (lit "timestamp")) as [->|N]; [destruct (B n (or_introl eq_refl))|].
    cbn [negb map tname]. f_equal. exact IH'.
  - exact IH'.
Qed.

Lemma columns_In fs f : In f (table_columns fs) -> In f fs /\ shown f = true.
Proof.
  unfold table_columns. rewrite in_app_iff, !filter_In. intros [(H & E)|(H & E)]; (split; [exact H|]).
  - destruct f; [reflexivity|discriminate|discriminate].
  - apply andb_true_iff in E. apply E.
Qed.

Lemma NoDup_named fs f g : NoDup (map tname (filter shown fs)) -> In f fs -> In g fs -> shown f = true -> shown g = true ->
  tname f = tname g -> f = g.
Proof.
  intros Hn Hf Hg Sf Sg E. assert (Hx : In f (filter shown fs)) by (apply filter_In; auto).
  assert (Hy : In g (filter shown fs)) by (apply filter_In; auto). clear Hf Hg.
  revert Hn Hx Hy. generalize (filter shown fs). induction l as [|h l IH]; intros Hn Hx Hy; [destruct Hx|].
  cbn [map] in Hn. inversion Hn as [|? ? Hni Hn']; subst. destruct Hx as [->|Hx], Hy as [Hy|Hy].
  - exact Hy.
  - exfalso. apply Hni. rewrite E. exact (in_map tname _ _ Hy).
  - subst h. exfalso. apply Hni. rewrite <- E. exact (in_map tname _ _ Hx).
  - apply IH; assumption.
Qed.

Lemma value_printed fstr d n name ty i : rectangular d n -> In (mkFD name ty) (ds_fields d) -> (i < n)%nat ->
  exists s, printed fstr d i (FValue name ty) s.
Proof.
  intros Hr Hin Hi. destruct (Hr _ Hin) as (c & Hc & Hl). cbn [fd_name] in Hc.
  destruct (nth_error (c_raw c) i) as [x|] eqn:Ex; [|apply nth_error_None in Ex; lia].
  destruct (c_type c) as [size sg|size] eqn:Et.
  - eexists. apply (printed_int _ _ _ _ _ (if sg then to_signed size x else x)). unfold cell. rewrite Hc, Ex, Et. reflexivity.
  - eexists. eapply printed_float; eassumption.
Qed.

Lemma mapM_map {A B C} (f : B -> res C) (g : A -> B) l : mapM f (map g l) = mapM (fun x => f (g x)) l.
Proof. induction l as [|x l IH]; [reflexivity|]. cbn [map mapM]. rewrite IH. reflexivity. Qed.

Lemma csv_spec fstr sep s e d fs ty ts : ds_fields d = flat_map elements fs -> Forall sane fs ->
  NoDup (map tname (filter shown fs)) -> In (FValue (lit "timestamp") ty) fs ->
  int_field d (lit "timestamp") ts -> proper_times ts -> lower_ok ts s -> reached ts e ->
  rectangular d (length ts) -> (forall i, In i (window_samples ts s e) -> texts_ok d fs i) ->
  exists rows, csv_text fstr sep s e d = Ok (table_text sep (map tname (table_columns fs) :: rows)) /\
    Forall2 (fun i row => Forall2 (printed fstr d i) (table_columns fs) row) (window_samples ts s e) rows.
Proof.
  intros Hfs Hsane Hn Ht Hi Hp Hs He Hr Htx.
  destruct (window_spec d ts s e Hi Hp Hs He) as (a & b & Ew & Es).
  destruct (csv_fields fs Hsane Hn [] []) as (sizes & Ef & Hsz & Hno); [reflexivity|].
  assert (Hkeys : In (lit "timestamp") (map tname (filter shown fs))).
  { refine (in_map tname _ (FValue _ ty) _). apply filter_In. split; [exact Ht|reflexivity]. }
  destruct (mapM_F2 (fun i => mapM (csv_cell fstr d sizes i) (time_first (map tname (filter shown fs))))
    (fun i row => Forall2 (printed fstr d i) (table_columns fs) row) (window_samples ts s e)) as (rows & Er & Hrows).
  - intros i Hin. pose proof (Htx i Hin) as Hti. apply window_samples_lt in Hin. rewrite <- (columns_names fs ty Hn Ht), mapM_map.
    apply mapM_F2. intros f Hf. apply columns_In in Hf. destruct Hf as (Hf & Sf).
    assert (P : exists t, printed fstr d i f t).
    { destruct f as [name t|name n|]; [| |discriminate].
      - apply (value_printed fstr d (length ts)); [exact Hr| |exact Hin]. rewrite Hfs. apply in_flat_map.
        exists (FValue name t). split; [exact Hf|left; reflexivity].
      - destruct (Hti name n Hf) as (l & t & H1 & H2). exists t. econstructor; eassumption. }
    destruct P as (t & P). exists t. split; [|exact P]. apply csv_cell_spec; [exact Sf| | |exact P].
    + intros x n ->. apply Hsz. exact Hf.
    + intros x t' ->. rewrite Hno; [reflexivity|]. destruct (existsb (is_text x) fs) eqn:E; [|reflexivity].
      exfalso. apply existsb_exists in E. destruct E as (g & Hg & Tg). destruct g as [|m n|]; try discriminate. cbn in Tg.
      apply str_eqb_eq in Tg. subst m. assert (X := NoDup_named fs (FText x n) (FValue x t') Hn Hg Hf eq_refl eq_refl eq_refl). discriminate X.
  - exists rows. split; [|exact Hrows]. unfold csv_text.
    destruct Hi as (c & size & sg & Hc & _). unfold len_ts at 1. rewrite Hc. cbn [bind].
    assert (G : get_fields d = Ok (time_first (map tname (filter shown fs)), sizes)).
    { unfold get_fields. rewrite Hfs. refine (eq_trans (f_equal (fun r => bind r _) Ef) _). cbn [bind fst snd app].
      rewrite (timestamp_first_spec _ Hn Hkeys). reflexivity. }
    rewrite G. cbn [bind fst snd]. rewrite Ew. cbn [bind fst snd]. rewrite Es.
    rewrite Er. cbn [bind]. f_equal. unfold table_text. rewrite (columns_names fs ty Hn Ht).
    f_equal. apply map_ext. intros r. rewrite join_separated. reflexivity.
Qed.

(** Reading such a file back by splitting at newlines and separators *)
Lemma split_separated c l : l <> [] -> Forall (fun s => ~ In c s) l -> split1 c (separated [c] l) = l.
Proof.
  destruct l as [|x r]; [congruence|]. intros _. revert x. induction r as [|y r IH]; intros x H.
  - inversion H; subst. cbn. rewrite app_nil_r. apply split1_nosep. assumption.
  - inversion H as [|? ? Hx Hr]; subst. cbn [separated map concat app].
    change (split1 c (x ++ c :: separated [c] (y :: r)) = x :: y :: r). rewrite split1_app by assumption. f_equal. apply IH. exact Hr.
Qed.

Lemma separated_In c sep l : In c (separated sep l) -> In c sep \/ exists s, In s l /\ In c s.
Proof.
  destruct l as [|x r]; [intros []|]. cbn [separated]. rewrite in_app_iff. intros [H|H]; [right; exists x; split; [left; reflexivity|exact H]|].
  apply in_concat in H. destruct H as (y & Hy & Hc). apply in_map_iff in Hy. destruct Hy as (z & <- & Hz).
  apply in_app_iff in Hc. destruct Hc as [Hc|Hc]; [left; exact Hc|right; exists z; split; [right; exact Hz|exact Hc]].
Qed.

Lemma split_table c rows : c <> 10 -> Forall (fun r => r <> [] /\ Forall (fun s => ~ In c s /\ ~ In 10 s) r) rows ->
  map (split1 c) (removelast (split1 10 (table_text [c] rows))) = rows.
Proof.
  intros Hc H. assert (E : split1 10 (table_text [c] rows) = map (separated [c]) rows ++ [[]]).
  { induction H as [|r rows (Hr & Hs) Hrs IH]; [reflexivity|]. unfold table_text in *. cbn [map concat app]. rewrite <- app_assoc. cbn [app].
    rewrite split1_app; [f_equal; exact IH|]. intros Hin. apply separated_In in Hin. destruct Hin as [[X|[]]|(s & Hs' & Hin)]; [congruence|].
    rewrite Forall_forall in Hs. apply (proj2 (Hs _ Hs')). exact Hin. }
  rewrite E, removelast_last, map_map. clear E. induction H as [|r rows (Hr & Hs) Hrs IH]; [reflexivity|]. cbn [map]. f_equal; [|exact IH].
  apply split_separated; [exact Hr|]. eapply Forall_impl; [|exact Hs]. cbn. tauto.
Qed.

(** ** GPS dumps *)
Lemma bit7 len : 0 <= len < 256 -> (Z.land len 128 =? 0) = negb (128 <=? len) /\ Z.land len 127 = len mod 128.
Proof.
  intros H. assert (A : forallb (fun k => let len := Z.of_nat k in
    Bool.eqb (Z.land len 128 =? 0) (negb (128 <=? len)) && (Z.land len 127 =? len mod 128)) (seq 0 256) = true) by (vm_compute; reflexivity).
  rewrite forallb_forall in A. specialize (A (Z.to_nat len)). rewrite Z2Nat.id in A by lia. cbv zeta in A.
  assert (B : In (Z.to_nat len) (seq 0 256)) by (apply in_seq; lia). specialize (A B). apply andb_true_iff in A. destruct A as (A1 & A2).
  split; [apply Bool.eqb_prop; exact A1|lia].
Qed.

Lemma byte_elem d k i b : byte_field d k i b -> elem d k i = Ok (NI 1 false, b).
Proof. intros (c & Hc & Ht & Hn & Hb). unfold elem. rewrite Hc. unfold py_nth. rewrite Hn. cbn [bind]. rewrite Ht. reflexivity. Qed.

Lemma le_enc1 b : 0 <= b < 256 -> le_enc 1 b = [b].
Proof. intros H. cbn. rewrite Z.mod_small by lia. reflexivity. Qed.

Lemma gps_bytes d i n : forall j l, Forall2 (fun k b => byte_field d (item (lit "data") k) i b) (seq j n) l ->
  exists bs, mapM (fun k => let* x := elem d (data_key k) i in Ok (le_enc (np_size (fst x)) (snd x))) (seq j n) = Ok bs /\ concat bs = l.
Proof.
  induction n as [|n IH]; intros j l H; [inversion H; exists []; split; reflexivity|].
  cbn [seq] in H. inversion H as [|? b ? r Hb Hr]; subst. destruct (IH _ _ Hr) as (bs & E & C).
  exists ([b] :: bs). cbn [seq mapM]. change (data_key j) with (item (lit "data") j). rewrite (byte_elem _ _ _ _ Hb). cbn [bind fst snd np_size].
  rewrite le_enc1 by (destruct Hb as (? & ? & ? & ? & ?); assumption). unfold data_key in *. rewrite E. split; [reflexivity|]. cbn. f_equal. exact C.
Qed.

Lemma gps_row_spec d inst i r t f : gps_sample d i r ->
  gps_row d inst (t, f) i = Ok (t ++ gps_stream inst true [r], f ++ gps_stream inst false [r]).
Proof.
  intros (Hi & Hl & Hd). unfold gps_row.
  assert (I : gps_instance d i = Ok (VInt (gps_inst r))).
  { unfold gps_instance. destruct (sget (lit "instance") (ds_data d)) as [c|] eqn:E; [|rewrite Hi; reflexivity].
    destruct (elem_cell _ _ _ _ Hi) as (x & Ex & Ev). rewrite Ex. cbn [bind]. rewrite Ev. reflexivity. }
  rewrite I. cbn [bind]. rewrite (byte_elem _ _ _ _ Hl). cbn [bind fst snd].
  change (value_eqb (VInt (gps_inst r)) (VInt inst)) with (gps_inst r =? inst).
  unfold gps_stream. cbn [filter]. destruct (gps_inst r =? inst); cbn [negb andb].
  2:{ cbn. rewrite !app_nil_r. reflexivity. }
  assert (Hr : 0 <= gps_len r < 256) by (destruct Hl as (? & ? & ? & ? & ?); assumption).
  destruct (bit7 _ Hr) as (B1 & B2). rewrite B1, B2. cbn [nptype_eqb Nat.eqb Bool.eqb andb negb].
  destruct (128 <=? gps_len r) eqn:L; cbn [negb].
  - destruct (gps_bytes d i _ O _ Hd) as (bs & E & C). rewrite E. cbn [bind]. rewrite C. cbn [Bool.eqb map concat]. rewrite !app_nil_r. reflexivity.
  - rewrite Z.mod_small in Hd by lia. destruct (gps_bytes d i _ O _ Hd) as (bs & E & C). rewrite E. cbn [bind]. rewrite C. cbn [Bool.eqb map concat]. rewrite !app_nil_r. reflexivity.
Qed.

Lemma gps_stream_app inst b l m : gps_stream inst b (l ++ m) = gps_stream inst b l ++ gps_stream inst b m.
Proof. unfold gps_stream. rewrite filter_app, map_app, concat_app. reflexivity. Qed.

Lemma gps_rows_spec d inst rows : forall is t f, Forall2 (gps_sample d) is rows ->
  foldM (gps_row d inst) is (t, f) = Ok (t ++ gps_stream inst true rows, f ++ gps_stream inst false rows).
Proof.
  induction rows as [|r rows IH]; intros is t f H; inversion H as [|i ? is' ? Hi His]; subst.
  - cbn. rewrite !app_nil_r. reflexivity.
  - cbn [foldM]. rewrite (gps_row_spec _ _ _ _ _ _ Hi). cbn [bind]. rewrite (IH _ _ _ His).
    change (r :: rows) with ([r] ++ rows). rewrite !gps_stream_app, <- !app_assoc. reflexivity.
Qed.

Lemma gps_spec u d rest ts inst rows : u_data u = d :: rest -> In (lit "len") (names d) -> In (lit "data[0]") (names d) ->
  int_field d (lit "timestamp") ts -> (exists c, sget (lit "len") (ds_data d) = Some c) -> Forall2 (gps_sample d) (seq 0 (length ts)) rows ->
  gps_dump u inst = Ok (GpsFiles (gps_stream inst true rows) (gps_stream inst false rows)).
Proof.
  intros Hu H1 H2 (c & size & sg & Hc & Ht & Hm) (cl & Hcl) Hrows. unfold gps_dump. rewrite Hu.
  assert (A : forall k, In k (names d) -> existsb (str_eqb k) (map fd_name (ds_fields d)) = true).
  { intros k Hk. apply existsb_exists. exists k. split; [exact Hk|apply str_eqb_refl]. }
  rewrite (A _ H1), (A _ H2). cbn [andb negb]. rewrite Hcl. cbn [bind]. unfold len_ts. rewrite Hc. cbn [bind].
  rewrite (proj1 (np_elem_ints _ _ _ Hm)). refine (eq_trans (f_equal (fun r => bind r _) (gps_rows_spec d inst rows _ [] [] Hrows)) _). reflexivity.
Qed.

Lemma csv_beyond fstr sep s e d fs ty ts : ds_fields d = flat_map elements fs -> Forall sane fs ->
  NoDup (map tname (filter shown fs)) -> In (FValue (lit "timestamp") ty) fs ->
  int_field d (lit "timestamp") ts -> proper_times ts -> exact_limit s -> exact_limit e ->
  ~ (met ts s /\ met ts e) -> csv_text fstr sep s e d = Err IndexError.
Proof.
  intros Hfs Hsane Hn Ht Hi Hp Xs Xe N. destruct (window_limits d ts s e Hi Hp Xs Xe) as (_ & W). specialize (W N).
  destruct (csv_fields fs Hsane Hn [] []) as (sizes & Ef & Hsz & Hno); [reflexivity|].
  assert (Hkeys : In (lit "timestamp") (map tname (filter shown fs))).
  { refine (in_map tname _ (FValue _ ty) _). apply filter_In. split; [exact Ht|reflexivity]. }
  unfold csv_text. destruct Hi as (c & size & sg & Hc & _). unfold len_ts at 1. rewrite Hc. cbn [bind].
  assert (G : get_fields d = Ok (time_first (map tname (filter shown fs)), sizes)).
  { unfold get_fields. rewrite Hfs. refine (eq_trans (f_equal (fun r => bind r _) Ef) _). cbn [bind fst snd app].
    rewrite (timestamp_first_spec _ Hn Hkeys). reflexivity. }
  rewrite G. cbn [bind fst snd]. rewrite W. reflexivity.
Qed.
Lemma csv_limit fstr sep s e d : csv_text fstr sep s e d = csv_text fstr sep (limit s) (limit e) d.
Proof. unfold csv_text, window. destruct s as [[| |]|], e as [[| |]|]; reflexivity. Qed.
