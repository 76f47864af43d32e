(** Exact laws for properties whose English statement the code does not meet: C42 (texts in CSV files). *)
From Verif Require Import Base Dict PyStr PyFloat Struct PySort ModelTypes ModelRead ModelApi ModelTools SpecTools.
From Verif Require Import ProofsWindow PropsTools.

(** ** C42 *)
Lemma read_string_bad d name i m : forall j l,
  Forall2 (fun k c => cell d (item name k) i = Some (VInt c)) (seq j m) l -> chars l = None ->
  read_string d name m (Z.of_nat j) i = Err ValueError.
Proof.
  induction m as [|m IH]; intros j l H C; inversion H as [|? c ? l' H1 H2]; subst; [discriminate|].
  cbn [read_string]. destruct (elem_cell _ _ _ _ H1) as (x & E & V).
  change (name ++ lit "[" ++ str_of_Z (Z.of_nat j) ++ lit "]") with (item name j). rewrite E. cbn [bind]. rewrite V.
  cbn [chars fold_right] in C. fold (chars l') in C. destruct (c =? 0); [discriminate|]. destruct ((c <? 0) || (1114111 <? c)); [reflexivity|].
  replace (Z.of_nat j + 1) with (Z.of_nat (S j)) by lia. rewrite (IH (S j) l' H2); [reflexivity|]. destruct (chars l'); [discriminate|reflexivity].
Qed.
Lemma mapM_some {A B} (f : A -> res B) e l : (forall x, In x l -> (exists y, f x = Ok y) \/ f x = Err e) ->
  (mapM f l = Err e <-> exists x, In x l /\ f x = Err e).
Proof.
  induction l as [|x l IH]; intros H; [split; [discriminate|intros (x & [] & _)]|]. cbn [mapM].
  specialize (IH (fun y Hy => H y (or_intror Hy))). destruct (H x (or_introl eq_refl)) as [(y & E)|E]; rewrite E; cbn [bind].
  - split.
    + destruct (mapM f l) as [r|e'] eqn:M; [discriminate|]. cbn [bind]. intros Q. destruct (proj1 IH Q) as (z & Hz & Ez). exists z. split; [right; exact Hz|exact Ez].
    + intros (z & [<-|Hz] & Ez); [congruence|]. rewrite (proj2 IH (ex_intro _ z (conj Hz Ez))). reflexivity.
  - split; [|reflexivity]. intros _. exists x. split; [left; reflexivity|exact E].
Qed.
Lemma mapM_ok_or {A B} (f : A -> res B) e l : (forall x, In x l -> (exists y, f x = Ok y) \/ f x = Err e) -> (exists ys, mapM f l = Ok ys) \/ mapM f l = Err e.
Proof.
  induction l as [|x l IH]; intros H; [left; eexists; reflexivity|]. cbn [mapM]. destruct (H x (or_introl eq_refl)) as [(y & ->)| ->]; [|right; reflexivity]. cbn [bind].
  destruct (IH (fun y Hy => H y (or_intror Hy))) as [(ys & ->)| ->]; [left; eexists; reflexivity|right; reflexivity].
Qed.

(** A text is no characters: a number below 0 or above the last code point stands before every 0. *)
Theorem C42_characters : forall l, chars l = None <-> exists a c b, l = a ++ c :: b /\ ~ In 0 a /\ (c < 0 \/ 1114111 < c).
Proof.
  induction l as [|x l IH]; [split; [discriminate|intros ([|] & c & b & E & _); discriminate]|].
  cbn [chars fold_right]. fold (chars l). destruct (Z.eqb_spec x 0) as [->|N].
  - split; [discriminate|]. intros ([|y a] & c & b & E & H1 & H2); injection E as E0 E; [lia|]. elim H1. left. congruence.
  - destruct ((x <? 0) || (1114111 <? x)) eqn:B.
    + split; [|reflexivity]. intros _. exists [], x, l. split; [reflexivity|]. split; [intros []|lia].
    + split.
      * intros H. destruct (chars l); [discriminate|]. destruct (proj1 IH eq_refl) as (a & c & b & -> & H1 & H2). exists (x :: a), c, b. split; [reflexivity|]. split; [|exact H2]. intros [E|H']; [congruence|auto].
      * intros ([|y a] & c & b & E & H1 & H2); injection E as E0 E; [lia|]. rewrite (proj2 IH); [reflexivity|]. exists a, c, b. split; [exact E|]. split; [|exact H2]. intros H'. apply H1. right. exact H'.
Qed.
(** With limits that are met and columns for all fields, the conversion of a topic raises ValueError exactly if a text in the window is
    no characters (and otherwise gives the table of C42_table): *)
Theorem C42_text_law : forall fstr sep s e d fs ty ts, ds_fields d = flat_map elements fs -> Forall sane fs ->
  NoDup (map tname (filter shown fs)) -> In (FValue (lit "timestamp") ty) fs ->
  int_field d (lit "timestamp") ts -> proper_times ts -> (s = Some 0 \/ reached ts s) -> reached ts e ->
  rectangular d (length ts) ->
  (forall name n k, In (FText name n) fs -> (k < n)%nat -> exists c, sget (item name k) (ds_data d) = Some c /\ exists w sg, c_type c = NI w sg) ->
  csv_text fstr sep s e d = Err ValueError <->
  exists i name n l, In i (window_samples ts s e) /\ In (FText name n) fs /\
    Forall2 (fun k c => cell d (item name k) i = Some (VInt c)) (seq 0 n) l /\ chars l = None.
Proof.
  intros fstr sep s e d fs ty ts Hfs Hsane Hn Ht Hi Hp Hs He Hr Htx.
  destruct (window_spec d ts s e Hi Hp Hs He) as (a & b & Ew & Es).
  destruct (csv_fields fs Hsane Hn [] []) as (sizes & Ef & Hsz & Hno); [reflexivity|].
  assert (Hkeys : In (lit "timestamp") (map tname (filter shown fs))).
  { refine (in_map tname _ (FValue _ ty) _). apply filter_In. split; [exact Ht|reflexivity]. }
  assert (Hv : forall x t, In (FValue x t) fs -> sget x sizes = None).
  { intros x t' Hf. rewrite Hno; [reflexivity|]. destruct (existsb (is_text x) fs) eqn:E; [|reflexivity].
    exfalso. apply existsb_exists in E. destruct E as (g & Hg & Tg). destruct g as [|m n|]; try discriminate. cbn in Tg.
    apply str_eqb_eq in Tg. subst m. assert (X := NoDup_named fs (FText x n) (FValue x t') Hn Hg Hf eq_refl eq_refl eq_refl). discriminate X. }
  assert (Hl : forall i name n, (i < length ts)%nat -> In (FText name n) fs -> exists l, Forall2 (fun k c => cell d (item name k) i = Some (VInt c)) (seq 0 n) l).
  { intros i name n Hlt Hin.
    assert (G : forall ks, (forall k, In k ks -> (k < n)%nat) -> exists l, Forall2 (fun k c => cell d (item name k) i = Some (VInt c)) ks l).
    { induction ks as [|k ks IH]; intros Hks; [exists []; constructor|]. destruct IH as (l & L); [intros; apply Hks; right; assumption|].
      destruct (Htx name n k Hin (Hks k (or_introl eq_refl))) as (c & Ec & w & sg & Tc).
      assert (Hfd : In (mkFD (item name k) CChar) (ds_fields d)).
      { rewrite Hfs. apply in_flat_map. exists (FText name n). split; [exact Hin|]. cbn [elements]. apply in_map_iff. exists k. split; [reflexivity|]. apply in_seq. specialize (Hks k (or_introl eq_refl)). lia. }
      destruct (Hr _ Hfd) as (c' & Ec' & Lc). cbn [fd_name] in Ec'. assert (c' = c) by congruence. subst c'.
      destruct (nth_error (c_raw c) i) as [x|] eqn:Nx; [|apply nth_error_None in Nx; lia].
      assert (exists z, np_elem (c_type c) x = VInt z) as (z & Ez) by (rewrite Tc; cbn; eauto).
      exists (z :: l). constructor; [|exact L]. unfold cell. rewrite Ec, Nx, Ez. reflexivity. }
    apply G. intros k Hk. apply in_seq in Hk. lia. }
  assert (Hc : forall i f, (i < length ts)%nat -> In f (table_columns fs) ->
     (exists t, csv_cell fstr d sizes i (tname f) = Ok t) \/ csv_cell fstr d sizes i (tname f) = Err ValueError /\ exists name n l, f = FText name n /\
       Forall2 (fun k c => cell d (item name k) i = Some (VInt c)) (seq 0 n) l /\ chars l = None).
  { intros i f Hlt Hf. apply columns_In in Hf. destruct Hf as (Hf & Sf). destruct f as [name t|name n|]; [| |discriminate].
    - left. destruct (value_printed fstr d (length ts) name t i Hr) as (q & P); [rewrite Hfs; apply in_flat_map; exists (FValue name t); split; [exact Hf|left; reflexivity]|exact Hlt|].
      exists q. apply csv_cell_spec; [reflexivity|discriminate| |exact P]. intros x t' E. injection E as <- <-. exact (Hv _ _ Hf).
    - destruct (Hl i name n Hlt Hf) as (l & L). destruct (chars l) as [q|] eqn:Q.
      + left. exists q. cbn [tname]. unfold csv_cell. rewrite (Hsz name n Hf), Nat2Z.id. exact (read_string_spec d name i n 0 l q L Q).
      + right. split; [|exists name, n, l; auto]. cbn [tname]. unfold csv_cell. rewrite (Hsz name n Hf), Nat2Z.id. exact (read_string_bad d name i n 0 l L Q). }
  assert (R : csv_text fstr sep s e d = let* rows := mapM (fun i => mapM (fun f => csv_cell fstr d sizes i (tname f)) (table_columns fs)) (window_samples ts s e) in
                Ok (concat (map (fun r => join sep r ++ [10]) (map tname (table_columns fs) :: rows)))).
  { unfold csv_text. destruct Hi as (c & size & sg & Hcc & _). unfold len_ts at 1. rewrite Hcc. cbn [bind].
    assert (G : get_fields d = Ok (map tname (table_columns fs), sizes)).
    { unfold get_fields. rewrite Hfs. refine (eq_trans (f_equal (fun r => bind r _) Ef) _). cbn [bind fst snd app].
      rewrite (timestamp_first_spec _ Hn Hkeys), (columns_names fs ty Hn Ht). reflexivity. }
    rewrite G. cbn [bind fst snd]. rewrite Ew. cbn [bind fst snd]. rewrite Es. f_equal.
    clear. induction (window_samples ts s e) as [|i is IH]; [reflexivity|]. cbn [mapM]. rewrite mapM_map, IH. reflexivity. }
  rewrite R. set (M := mapM (fun i => mapM (fun f => csv_cell fstr d sizes i (tname f)) (table_columns fs)) (window_samples ts s e)).
  transitivity (M = Err ValueError); [destruct M as [r|e']; cbn [bind]; [split; discriminate|split; intros Q; injection Q as ->; reflexivity]|].
  unfold M. rewrite (mapM_some _ ValueError).
  - split.
    + intros (i & Hin & E). pose proof (window_samples_lt _ _ _ _ Hin) as Hlt. apply (mapM_some _ ValueError) in E.
      * destruct E as (f & Hf & E). destruct (Hc i f Hlt Hf) as [(t & Q)|(_ & name & n & l & -> & L & C)]; [congruence|].
        exists i, name, n, l. split; [exact Hin|]. split; [apply columns_In in Hf; apply Hf|auto].
      * intros f Hf. destruct (Hc i f Hlt Hf) as [Q|(Q & _)]; auto.
    + intros (i & name & n & l & Hin & Hf & L & C). exists i. split; [exact Hin|]. pose proof (window_samples_lt _ _ _ _ Hin) as Hlt. apply (mapM_some _ ValueError).
      * intros f Hf'. destruct (Hc i f Hlt Hf') as [Q|(Q & _)]; auto.
      * exists (FText name n). split.
        -- unfold table_columns. apply in_or_app. right. apply filter_In. split; [exact Hf|reflexivity].
        -- cbn [tname]. unfold csv_cell. rewrite (Hsz name n Hf), Nat2Z.id. exact (read_string_bad d name i n 0 l L C).
  - intros i Hin. apply mapM_ok_or. intros f Hf. destruct (Hc i f (window_samples_lt _ _ _ _ Hin) Hf) as [Q|(Q & _)]; auto.
Qed.
(** the topic of C42_text_refuted meets the hypotheses: a text with a letter outside ASCII *)
Definition d_umlaut : dataset := mkDS 0 0 (lit "t") [mkFD (lit "timestamp") U64; mkFD (lit "n[0]") CChar; mkFD (lit "n[1]") CChar] 0
    [(lit "timestamp", col U64 [5]); (lit "n[0]", col CChar [195]); (lit "n[1]", col CChar [164])].
Definition fs_umlaut : list tfield := [FValue (lit "timestamp") U64; FText (lit "n") 2].
Example C42_ex_law : ds_fields d_umlaut = flat_map elements fs_umlaut /\ Forall sane fs_umlaut /\ NoDup (map tname (filter shown fs_umlaut)) /\
  int_field d_umlaut (lit "timestamp") [5] /\ rectangular d_umlaut 1 /\
  (forall name n k, In (FText name n) fs_umlaut -> (k < n)%nat -> exists c, sget (item name k) (ds_data d_umlaut) = Some c /\ exists w sg, c_type c = NI w sg) /\
  csv_text (fun _ _ => []) (lit ",") None None d_umlaut = Err ValueError /\ chars [-61; -92] = None.
Proof.
  split; [reflexivity|]. split.
  { repeat constructor; cbn; try reflexivity; try discriminate; try lia; intuition discriminate. }
  split; [repeat constructor; cbn; intuition discriminate|].
  split; [exists (col U64 [5]), 8%nat, false; repeat split; reflexivity|].
  split; [intros f Hf; cbn in Hf; repeat (destruct Hf as [<-|Hf]; [eexists; split; reflexivity|]); destruct Hf|].
  split; [|split; vm_compute; reflexivity].
  intros name n k H L. cbn in H. destruct H as [H|[H|[]]]; [discriminate|]. injection H as <- <-.
  destruct k as [|[|k]]; [| |lia]; (eexists; split; [vm_compute; reflexivity|]; do 2 eexists; reflexivity).
Qed.

Definition all_laws := (@C42_characters, @C42_text_law).
Print Assumptions all_laws.
