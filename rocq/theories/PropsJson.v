(** C72: the JSON copies of the values stored with save(append_json=True). *)
From Verif Require Import Base Dict PyStr PyFloat Struct ModelTypes ModelDb ModelJson SpecJson ProofsJson PropsDb.
From Coq Require Import Lia ZifyBool ZifyNat.

Lemma text_law frepr ts c samples : reprs frepr -> samples_of ts c samples ->
  exists d, values_json frepr ts c = object_text 34 (final frepr) d /\
    Forall (fun kv => plain (snd kv) /\ forall ch, In ch (fst kv) -> ch = 45 \/ 48 <= ch <= 57) d /\
    Forall2 (fun t kv => fst kv = str_of_Z t /\ last_at samples t (snd kv)) (firsts (map fst samples)) d.
Proof.
  intros Hr (times & E & ->). exists (values_dict frepr ts c). pose proof (values_dict_fits frepr ts c times E) as F. split; [|split].
  - unfold values_json. apply final_text; [exact Hr|exact F].
  - exact F.
  - apply values_dict_law. exact E.
Qed.

(** The text is JSON exactly if no value that counts, the last one of its time, is minus infinity. *)
Theorem C72_law frepr ts c samples : reprs frepr -> samples_of ts c samples ->
  (exists j, json_document (values_json frepr ts c) j) <-> (forall t, ~ last_at samples t (VFloat minus_infinity)).
Proof.
  intros Hr Hs. destruct (text_law frepr ts c samples Hr Hs) as (d & -> & F & L). split.
  - intros (j & Hj) t Ht. apply sc_document in Hj.
    assert (N : Forall (fun kv : str * value => snd kv <> VFloat minus_infinity) d) by (apply (sc_object frepr Hr d F); rewrite Hj; discriminate).
    destruct (F2_in_l _ _ _ t L (last_at_first _ _ _ Ht)) as (kv & Hkv & _ & Lt). rewrite Forall_forall in N. apply (N kv Hkv).
    exact (last_at_unique _ _ _ _ Lt Ht).
  - intros Hn. exists (JObj (map (fun kv => (fst kv, tree frepr (snd kv))) d)). exists [], (object_text 34 (final frepr) d), [].
    rewrite app_nil_r. repeat split; [constructor|constructor|]. apply object_json; [exact Hr|]. apply Forall_forall. intros kv Hkv.
    rewrite Forall_forall in F. destruct (F kv Hkv) as (F1 & F2). split; [exact F2|]. split; [exact F1|]. intros E.
    destruct (F2_in_r _ _ _ kv L Hkv) as (t & _ & _ & Lt). apply (Hn t). rewrite <- E. exact Lt.
Qed.
(** Then it is the object that has the times of the samples, each once, in the order in which they come first, and for
    each time the value of its last sample; a NaN or an infinity is null. *)
Theorem C72_object frepr ts c samples j : reprs frepr -> samples_of ts c samples -> json_document (values_json frepr ts c) j ->
  exists l, j = JObj l /\
    Forall2 (fun t kv => fst kv = str_of_Z t /\ exists v, last_at samples t v /\ copied frepr v (snd kv)) (firsts (map fst samples)) l.
Proof.
  intros Hr Hs Hj. pose proof (proj1 (C72_law frepr ts c samples Hr Hs) (ex_intro _ j Hj)) as Hn.
  destruct (text_law frepr ts c samples Hr Hs) as (d & E & F & L). rewrite E in Hj.
  assert (Q : Forall fits d).
  { apply Forall_forall. intros kv Hkv. rewrite Forall_forall in F. destruct (F kv Hkv) as (F1 & F2). split; [exact F2|]. split; [exact F1|]. intros X.
    destruct (F2_in_r _ _ _ kv L Hkv) as (t & _ & _ & Lt). apply (Hn t). rewrite <- X. exact Lt. }
  exists (map (fun kv => (fst kv, tree frepr (snd kv))) d). split.
  - apply (document_unique (object_text 34 (final frepr) d)); [exact Hj|]. exists [], (object_text 34 (final frepr) d), [].
    rewrite app_nil_r. repeat split; [constructor|constructor|]. apply object_json; [exact Hr|exact Q].
  - clear - L Q. induction L as [|t kv ks d (E & Lt) L IH]; [constructor|]. inversion Q as [|? ? (_ & Q1 & Q2) Q3]; subst. cbn [map]. constructor; [|auto].
    cbn [fst snd]. split; [exact E|]. exists (snd kv). split; [exact Lt|]. apply copied_tree; assumption.
Qed.

(** ** What save does with it *)
Lemma ints_inj n (sg : bool) x y : 0 <= x < 256 ^ Z.of_nat n -> 0 <= y < 256 ^ Z.of_nat n ->
  (if sg then to_signed n x else x) = (if sg then to_signed n y else y) -> x = y.
Proof.
  intros Hx Hy. destruct sg; [|auto]. unfold to_signed. generalize (256 ^ Z.of_nat n / 2) as h. intros h.
  destruct (Z.ltb_spec x h), (Z.ltb_spec y h); lia.
Qed.
Lemma last_raw {A B} (f : Z -> Z) (g : A -> B) (raws : list Z) (l : list A) t (v : A) :
  (forall x y, In x raws -> In y raws -> f x = f y -> x = y) ->
  (exists a b, combine raws l = a ++ (t, v) :: b /\ ~ In t (map fst b)) ->
  exists a b, combine (map f raws) (map g l) = a ++ (f t, g v) :: b /\ ~ In (f t) (map fst b).
Proof.
  intros Inj (a & b & E & Hn).
  assert (M : combine (map f raws) (map g l) = map (fun x => (f (fst x), g (snd x))) (combine raws l)).
  { clear. revert l. induction raws as [|x raws IH]; intros [|y l]; cbn; auto. now rewrite IH. }
  exists (map (fun x => (f (fst x), g (snd x))) a), (map (fun x => (f (fst x), g (snd x))) b). rewrite M, E, map_app. split; [reflexivity|].
  rewrite map_map. cbn [fst]. intros Hi. apply in_map_iff in Hi. destruct Hi as ([t' v'] & Ef & Hb). cbn [fst] in Ef.
  assert (X : t' = t).
  { apply Inj; [| |exact Ef].
    - apply (in_combine_l raws l t' v'). rewrite E. apply in_app_iff. right. now right.
    - apply (in_combine_l raws l t v). rewrite E. apply in_elt. }
  subst t'. apply Hn. apply in_map_iff. now exists (t, v').
Qed.
Lemma firsts_fst {V} (s : list (Z * V)) t : In t (firsts (map fst s)) -> exists v a b, s = a ++ (t, v) :: b /\ ~ In t (map fst b).
Proof.
  intros H. apply (proj1 (firsts_In _ _)) in H. induction s as [|[t' v'] s IH]; [destruct H|]. destruct (in_dec Z.eq_dec t (map fst s)) as [Y|N].
  - destruct (IH Y) as (v & a & b & -> & Hn). exists v, ((t', v') :: a), b. auto.
  - destruct H as [E|H]; [|contradiction]. cbn in E. subst t'. exists v', [], s. auto.
Qed.
(** the test of the model of save is whether the text is JSON *)
Lemma json_test frepr ts c : reprs frepr -> labels ts ->
  (exists j, json_document (values_json frepr ts c) j) <-> existsb (minus_inf c) (json_values ts c) = false.
Proof.
  intros Hr (n & sg & Et & Hz). set (key := fun x => if sg then to_signed n x else x).
  assert (Hs : samples_of ts c (combine (map key (c_raw ts)) (map (np_elem (c_type c)) (c_raw c)))).
  { exists (map key (c_raw ts)). split; [|reflexivity]. rewrite Et, map_map. reflexivity. }
  rewrite (C72_law frepr ts c _ Hr Hs).
  assert (Inj : forall x y, In x (c_raw ts) -> In y (c_raw ts) -> key x = key y -> x = y).
  { intros x y Hx Hy. rewrite Forall_forall in Hz. apply ints_inj; auto. }
  pose proof (filled Z.eqb Z.eqb_spec (fun z => z) (fun a b H => H) (combine (c_raw ts) (c_raw c))) as F. cbv beta zeta in F.
  replace (map (fun tv : Z * Z => (fst tv, snd tv)) (combine (c_raw ts) (c_raw c))) with (combine (c_raw ts) (c_raw c)) in F
    by (rewrite <- (map_id (combine _ _)) at 1; apply map_ext; intros []; reflexivity).
  unfold json_values. set (d := fold_left _ _ _) in *. split.
  - intros Hn. apply Bool.not_true_iff_false. intros X. apply existsb_exists in X. destruct X as (x & Hx & Hm). apply in_map_iff in Hx. destruct Hx as (kv & <- & Hkv).
    destruct (F2_in_r _ _ _ kv F Hkv) as (t & _ & _ & L). apply (Hn (key t)).
    replace (VFloat minus_infinity) with (np_elem (c_type c) (snd kv)).
    2: { unfold minus_inf in Hm. destruct (np_elem (c_type c) (snd kv)); try discriminate Hm. f_equal. now apply Z.eqb_eq. }
    apply (last_raw key (np_elem (c_type c)) (c_raw ts) (c_raw c) t (snd kv) Inj L).
  - intros X t Ht. pose proof (last_at_In _ _ _ Ht) as Hin.
    assert (M : combine (map key (c_raw ts)) (map (np_elem (c_type c)) (c_raw c)) = map (fun x => (key (fst x), np_elem (c_type c) (snd x))) (combine (c_raw ts) (c_raw c))).
    { clear. generalize (c_raw ts) (c_raw c). induction l as [|x raws IH]; intros [|y l']; cbn; auto. now rewrite IH. }
    rewrite M in Hin. apply in_map_iff in Hin. destruct Hin as ([x y] & E & Hxy). cbn [fst snd] in E.
    assert (Ek : key x = t) by congruence. clear E.
    destruct (firsts_fst (combine (c_raw ts) (c_raw c)) x) as (v & L). { apply firsts_In. apply in_map_iff. now exists (x, y). }
    assert (Ev : np_elem (c_type c) v = VFloat minus_infinity).
    { apply (last_at_unique _ t _ _) with (2 := Ht). rewrite <- Ek. exact (last_raw key (np_elem (c_type c)) (c_raw ts) (c_raw c) x v Inj L). }
    assert (Hx : In x (firsts (map fst (combine (c_raw ts) (c_raw c))))) by (apply firsts_In; apply in_map_iff; now exists (x, y)).
    destruct (F2_in_l _ _ _ x F Hx) as (kv & Hkv & _ & L').
    assert (Es : snd kv = v).
    { destruct L as (a & b & E1 & N1), L' as (a' & b' & E2 & N2). rewrite E1 in E2. clear - E2 N1 N2. revert a' E2.
      induction a as [|p a IH]; intros a' E2; destruct a' as [|p' a']; cbn [app] in E2.
      - congruence.
      - exfalso. apply N1. injection E2 as _ E2. rewrite E2, map_app, in_app_iff. right. now left.
      - exfalso. apply N2. injection E2 as _ E2. rewrite <- E2, map_app, in_app_iff. right. now left.
      - injection E2 as _ E2. exact (IH a' E2). }
    assert (existsb (minus_inf c) (map snd d) = true); [|congruence]. apply existsb_exists. exists (snd kv). split; [apply in_map; exact Hkv|].
    unfold minus_inf. rewrite Es, Ev. apply Z.eqb_refl.
Qed.
(** the datasets of a log, and the fields of one of them, with their JSON texts *)
Definition json_of (frepr : Z -> str) (ds : dataset) (fd : fielddata) (t : str) : Prop :=
  exists ts c, sget (lit "timestamp") (ds_data ds) = Some ts /\ sget (fd_name fd) (ds_data ds) = Some c /\ labels ts /\ t = values_json frepr ts c.
Lemma foldM_ext {A B} (f g : A -> B -> res A) l : (forall x a, In x l -> f a x = g a x) -> forall a, foldM f l a = foldM g l a.
Proof. intros H. induction l as [|x l IH]; intros a; [reflexivity|]. cbn. rewrite H by now left. destruct (g a x); [|reflexivity]. cbn. apply IH. intros y b Hy. apply H. now right. Qed.
(** If each text is JSON, save does with append_json what it does without. *)
Theorem C72_save frepr F o d : reprs frepr ->
  (forall ds fd, In ds (u_data (o_log o)) -> In fd (ds_fields ds) -> exists t j, json_of frepr ds fd t /\ json_document t j) ->
  save F true o d = save F false o d.
Proof.
  intros Hr H. unfold save. destruct (o_pk o); [reflexivity|]. destruct (primary_key_from_sha256sum d (o_sha o)) as [[k|]|e]; try reflexivity.
  unfold save_tx. destruct (ins F _ _ _ _) as [[pk s]|e]; [|reflexivity].
  replace (save_rest F true pk (o_log o) s) with (save_rest F false pk (o_log o) s); [reflexivity|].
  unfold save_rest. destruct (ins_many _ _ _ _ _) as [s1|e]; [|reflexivity]. cbn [bind].
  rewrite (foldM_ext (save_dataset F true pk) (save_dataset F false pk)); [reflexivity|].
  intros ds a Hds. unfold save_dataset. destruct (ins F a _ _ _) as [[id s2]|e]; [|reflexivity]. cbn [bind].
  apply foldM_ext. intros fd b Hfd. unfold save_field. destruct (H ds fd Hds Hfd) as (t & j & (ts & c & E1 & E2 & L & ->) & Hj).
  rewrite E2, E1. rewrite (proj1 (json_test frepr ts c Hr L) (ex_intro _ j Hj)). reflexivity.
Qed.
Lemma foldM_refused {A B} (f g : A -> B -> res A) e l : (forall x a b, In x l -> g a x = Ok b -> f a x = Ok b \/ f a x = Err e) ->
  (exists x, In x l /\ forall a b, g a x = Ok b -> f a x = Err e) -> forall a b, foldM g l a = Ok b -> foldM f l a = Err e.
Proof.
  induction l as [|x l IH]; intros H (x0 & Hx0 & H0) a b; [destruct Hx0|]. cbn. destruct (g a x) as [a'|] eqn:E; [|discriminate]. cbn [bind]. intros Hb.
  destruct (H x a a' (or_introl eq_refl) E) as [Ef|Ef]; rewrite Ef; [|reflexivity]. cbn [bind]. destruct Hx0 as [->|Hx0].
  - rewrite (H0 a a' E) in Ef. discriminate.
  - apply (IH (fun y c c' Hy => H y c c' (or_intror Hy)) (ex_intro _ x0 (conj Hx0 H0)) a' b Hb).
Qed.
Lemma foldM_either {A B} (f g : A -> B -> res A) e l : (forall x a b, In x l -> g a x = Ok b -> f a x = Ok b \/ f a x = Err e) ->
  forall a b, foldM g l a = Ok b -> foldM f l a = Ok b \/ foldM f l a = Err e.
Proof.
  induction l as [|x l IH]; intros H a b; [now left|]. cbn. destruct (g a x) as [a'|] eqn:E; [|discriminate]. cbn [bind]. intros Hb.
  destruct (H x a a' (or_introl eq_refl) E) as [Ef|Ef]; rewrite Ef; [|now right]. cbn [bind]. apply IH; [|exact Hb]. intros y c c' Hy. apply H. now right.
Qed.
(** If one is not, a save that would go through without append_json fails, and the database is as before. *)
Theorem C72_save_refused frepr F o d o' d' : reprs frepr -> save F false o d = (Ok tt, o', d') ->
  (forall ds fd, In ds (u_data (o_log o)) -> In fd (ds_fields ds) -> exists t, json_of frepr ds fd t) ->
  (exists ds fd t, In ds (u_data (o_log o)) /\ In fd (ds_fields ds) /\ json_of frepr ds fd t /\ ~ exists j, json_document t j) ->
  save F true o d = (Err OperationalError, o', d).
Proof.
  intros Hr Hok Hall (ds & fd & t & Hds & Hfd & Ht & Hno). revert Hok. unfold save. destruct (o_pk o); [discriminate|].
  destruct (primary_key_from_sha256sum d (o_sha o)) as [[k|]|e]; try discriminate.
  unfold save_tx. destruct (ins F _ _ _ _) as [[pk s]|e]; [|discriminate].
  destruct (save_rest F false pk (o_log o) s) as [s'|e] eqn:E; [|discriminate]. destruct (F (fst s')); [discriminate|].
  intros Hok. apply (f_equal (fun x => snd (fst x))) in Hok. cbn [fst snd] in Hok. subst o'.
  replace (save_rest F true pk (o_log o) s) with (@Err sst OperationalError); [reflexivity|]. symmetry. revert E.
  unfold save_rest. destruct (ins_many _ _ _ _ _) as [s1|e]; [|discriminate]. cbn [bind].
  destruct (foldM (save_dataset F false pk) (u_data (o_log o)) s1) as [s2|e] eqn:E2; [|discriminate]. intros _.
  assert (Field : forall ds fd id a b, In ds (u_data (o_log o)) -> In fd (ds_fields ds) -> save_field F false ds id a fd = Ok b ->
    save_field F true ds id a fd = Ok b \/ save_field F true ds id a fd = Err OperationalError).
  { clear - Hall. intros ds fd id a b Hds Hfd. destruct (Hall ds fd Hds Hfd) as (t & ts & c & E1 & E2 & _). unfold save_field. rewrite E2, E1.
    destruct (existsb _ _); cbn [bind]; [now right|]. now left. }
  rewrite (foldM_refused (save_dataset F true pk) (save_dataset F false pk) OperationalError (u_data (o_log o))) with (b := s2); [reflexivity| | |exact E2].
  - intros ds1 a b H1. unfold save_dataset. destruct (ins F a _ _ _) as [[id s3]|e]; [|discriminate]. cbn [bind fst snd].
    apply foldM_either. intros fd1 a1 b1 H2. apply Field; assumption.
  - exists ds. split; [exact Hds|]. intros a b. unfold save_dataset. destruct (ins F a _ _ _) as [[id s3]|e]; [|discriminate]. cbn [bind fst snd].
    apply foldM_refused; [intros fd1 a1 b1 H2; apply Field; assumption|]. exists fd. split; [exact Hfd|]. intros a1 b1 _.
    destruct Ht as (ts & c & E1 & E3 & L & ->). unfold save_field. rewrite E3, E1.
    destruct (existsb (minus_inf c) (json_values ts c)) eqn:X; [reflexivity|]. exfalso. apply Hno. apply (json_test frepr ts c Hr L). exact X.
Qed.

(** ** What it tells *)
Lemma combine_fst {A B} (l : list A) (m : list B) : length l = length m -> map fst (combine l m) = l.
Proof. revert m. induction l as [|a l IH]; intros [|b m] H; cbn in *; try discriminate; [reflexivity|]. f_equal. apply IH. lia. Qed.
Lemma firsts_nodup l : NoDup l -> firsts l = l.
Proof.
  induction 1 as [|x l Hx H IH]; [reflexivity|]. cbn. rewrite IH. f_equal. rewrite <- (map_id l) at 2.
  clear - Hx. induction l as [|y l IH]; [reflexivity|]. cbn. destruct (Z.eqb_spec y x) as [->|N]; [destruct Hx; now left|]. cbn. f_equal. apply IH. intros X. apply Hx. now right.
Qed.
Lemma last_nodup s t v : NoDup (map fst s) -> In (t, v) s -> last_at s t v.
Proof.
  intros H Hin. apply in_split in Hin. destruct Hin as (a & b & ->). exists a, b. split; [reflexivity|]. rewrite map_app in H. cbn in H.
  apply NoDup_remove_2 in H. rewrite in_app_iff in H. tauto.
Qed.
Lemma same_copied frepr v v' j : (forall a b, finite a -> finite b -> frepr a = frepr b -> a = b) ->
  (forall z b, v = VInt z -> v' = VFloat b -> False) -> (forall z b, v' = VInt z -> v = VFloat b -> False) ->
  told v -> told v' -> copied frepr v j -> copied frepr v' j -> v = v'.
Proof.
  intros Inj X1 X2. destruct v as [z| |b| |], v' as [z'| |b'| |]; cbn; try tauto.
  - intros _ _ -> E. injection E as E. f_equal. now apply int_inj.
  - intros _ _ _ _. destruct (X1 z b' eq_refl eq_refl).
  - intros _ _ _ _. destruct (X2 z' b eq_refl eq_refl).
  - intros F F' (E & _) (E' & _). f_equal. apply Inj; auto. rewrite (E F) in E'. specialize (E' F'). congruence.
Qed.
Lemma F2_both {A B} (P Q : A -> B -> Prop) l m a : Forall2 P l m -> Forall2 Q l m -> In a l -> exists b, P a b /\ Q a b.
Proof.
  induction 1 as [|x y l m Hxy F IH]; intros G Hin; [destruct Hin|]. inversion G; subst. destruct Hin as [->|Hin]; [eauto|auto].
Qed.
(** Numbers at different times: two fields of one type with the same text have the same values. *)
Theorem C72_told frepr ts c c' times : reprs frepr -> (forall a b, finite a -> finite b -> frepr a = frepr b -> a = b) ->
  map (np_elem (c_type ts)) (c_raw ts) = map VInt times -> NoDup times ->
  c_type c = c_type c' -> length (c_raw c) = length times -> length (c_raw c') = length times ->
  Forall told (map (np_elem (c_type c)) (c_raw c)) -> Forall told (map (np_elem (c_type c')) (c_raw c')) ->
  values_json frepr ts c = values_json frepr ts c' -> map (np_elem (c_type c)) (c_raw c) = map (np_elem (c_type c')) (c_raw c').
Proof.
  intros Hr Inj Et ND Ety L L' T T' E.
  set (vs := map (np_elem (c_type c)) (c_raw c)) in *. set (vs' := map (np_elem (c_type c')) (c_raw c')) in *.
  assert (Lv : length times = length vs) by (unfold vs; rewrite map_length; lia).
  assert (Lv' : length times = length vs') by (unfold vs'; rewrite map_length; lia).
  assert (S1 : samples_of ts c (combine times vs)) by (exists times; auto).
  assert (S2 : samples_of ts c' (combine times vs')) by (exists times; auto).
  assert (J : exists j, json_document (values_json frepr ts c) j).
  { apply (C72_law frepr ts c _ Hr S1). intros t Ht. apply last_at_In, in_combine_r in Ht. rewrite Forall_forall in T. destruct (T _ Ht) as (_ & _ & X). apply X; reflexivity. }
  destruct J as (j & Hj). destruct (C72_object frepr ts c _ j Hr S1 Hj) as (l & -> & F). rewrite E in Hj.
  destruct (C72_object frepr ts c' _ _ Hr S2 Hj) as (l' & El & F'). injection El as <-.
  rewrite combine_fst in F by exact Lv. rewrite combine_fst in F' by exact Lv'. rewrite firsts_nodup in F, F' by exact ND.
  assert (Kind : forall v v', In v vs -> In v' vs' -> (forall z b, v = VInt z -> v' = VFloat b -> False) /\ (forall z b, v' = VInt z -> v = VFloat b -> False)).
  { unfold vs, vs'. rewrite <- Ety. intros v v' Hv Hv'. apply in_map_iff in Hv, Hv'. destruct Hv as (x & <- & _), Hv' as (y & <- & _).
    unfold np_elem. destruct (c_type c) as [n sg|n]; [split; intros z b; discriminate|].
    assert (X : forall x, exists b, match n with 4%nat => VFloat (widen x) | _ => VFloat x end = VFloat b) by (intros w; do 5 (destruct n as [|n]; eauto)).
    destruct (X x) as (b1 & E1), (X y) as (b2 & E2). rewrite E1, E2. split; intros; discriminate. }
  assert (P : forall t v v', In (t, v) (combine times vs) -> In (t, v') (combine times vs') -> v = v').
  { intros t v v' Hv Hv'. assert (N1 : NoDup (map fst (combine times vs))) by (rewrite combine_fst; assumption).
    assert (N2 : NoDup (map fst (combine times vs'))) by (rewrite combine_fst; assumption).
    pose proof (last_nodup _ _ _ N1 Hv) as La. pose proof (last_nodup _ _ _ N2 Hv') as La'.
    assert (Ht : In t times) by exact (in_combine_l _ _ _ _ Hv).
    assert (Q : exists j w w', last_at (combine times vs) t w /\ last_at (combine times vs') t w' /\ copied frepr w j /\ copied frepr w' j).
    { destruct (F2_both _ _ _ _ t F F' Ht) as (kv & (_ & w & A1 & A2) & (_ & w' & B1 & B2)). exists (snd kv), w, w'. auto. }
    destruct Q as (j & w & w' & W1 & W2 & C1 & C2). rewrite (last_at_unique _ _ _ _ W1 La) in C1. rewrite (last_at_unique _ _ _ _ W2 La') in C2.
    pose proof (in_combine_r _ _ _ _ Hv) as I1. pose proof (in_combine_r _ _ _ _ Hv') as I2. destruct (Kind v v' I1 I2) as (K1 & K2).
    rewrite Forall_forall in T, T'. apply (same_copied frepr v v' j); auto. }
  clearbody vs vs'. clear - Lv Lv' P. revert vs vs' Lv Lv' P. induction times as [|t times IH]; intros [|v vs] [|v' vs'] Lv Lv' P; cbn in Lv, Lv'; try discriminate; [reflexivity|].
  f_equal; [apply (P t); now left|]. apply IH; try lia. intros t0 w w' Hw Hw'. apply (P t0); now right.
Qed.

(** ** Cases *)
Definition repr_ex (b : Z) : str := str_of_Z b.
Lemma reprs_ex : reprs repr_ex.
Proof. intros b _. apply int_number. Qed.
Definition times_ex : column := mkCol (NI 8 false) [5; 7; 5; 9].
(** the last two values: of time 5 the third one *)
Definition floats_ex (x : Z) : column := mkCol (NF 8) [x; 4607182418800017408; 4611686018427387904; plus_infinity].
(** minus infinity at a time that comes again does not count; NaN and infinity are both null *)
Example C72_ex : samples_of times_ex (floats_ex minus_infinity) [(5, VFloat minus_infinity); (7, VFloat 4607182418800017408); (5, VFloat 4611686018427387904); (9, VFloat plus_infinity)] /\
  values_json repr_ex times_ex (floats_ex minus_infinity) =
    [123; 34] ++ lit "5" ++ [34] ++ lit ": 4611686018427387904, " ++ [34] ++ lit "7" ++ [34] ++ lit ": 4607182418800017408, " ++ [34] ++ lit "9" ++ [34] ++ lit ": null}" /\
  (exists j, json_document (values_json repr_ex times_ex (floats_ex minus_infinity)) j) /\
  ~ (exists j, json_document (values_json repr_ex (mkCol (NI 8 false) [5; 7; 8; 9]) (floats_ex minus_infinity)) j).
Proof.
  assert (S0 : samples_of times_ex (floats_ex minus_infinity) [(5, VFloat minus_infinity); (7, VFloat 4607182418800017408); (5, VFloat 4611686018427387904); (9, VFloat plus_infinity)])
    by (exists [5; 7; 5; 9]; split; reflexivity).
  assert (S1 : samples_of (mkCol (NI 8 false) [5; 7; 8; 9]) (floats_ex minus_infinity) [(5, VFloat minus_infinity); (7, VFloat 4607182418800017408); (8, VFloat 4611686018427387904); (9, VFloat plus_infinity)])
    by (exists [5; 7; 8; 9]; split; reflexivity).
  split; [exact S0|]. split; [vm_compute; reflexivity|]. split.
  - apply (proj2 (C72_law _ _ _ _ reprs_ex S0)). intros t (a & b & E & Hn).
    destruct a as [|p1 a]; [injection E as Et Eb; subst t b; apply Hn; cbn; tauto|].
    apply (f_equal (map snd)) in E. cbn [map snd app] in E. rewrite map_app in E. cbn [map snd] in E. apply (f_equal (fun l => existsb (fun v => match v with VFloat x => x =? minus_infinity | _ => false end) (tl l))) in E.
    cbn [tl app] in E. rewrite existsb_app in E. cbn in E. rewrite orb_true_r in E. discriminate E.
  - intros J. apply (proj1 (C72_law _ _ _ _ reprs_ex S1) J 5). exists [], (tl [(5, VFloat minus_infinity); (7, VFloat 4607182418800017408); (8, VFloat 4611686018427387904); (9, VFloat plus_infinity)]).
    split; [reflexivity|]. cbn. lia.
Qed.
(** Not more: a NaN and an infinity have the same text, and of the values of one time only the last one is told. *)
Theorem C72_distinct_refuted : exists ts c c',
  map (np_elem (c_type c)) (c_raw c) <> map (np_elem (c_type c')) (c_raw c') /\ values_json repr_ex ts c = values_json repr_ex ts c'.
Proof.
  exists times_ex, (floats_ex 0), (floats_ex 1). split; [discriminate|]. vm_compute. reflexivity.
Qed.
Theorem C72_null_refuted : exists ts c c', (exists times, map (np_elem (c_type ts)) (c_raw ts) = map VInt times /\ NoDup times) /\
  map (np_elem (c_type c)) (c_raw c) <> map (np_elem (c_type c')) (c_raw c') /\ values_json repr_ex ts c = values_json repr_ex ts c'.
Proof.
  exists (mkCol (NI 8 false) [5]), (mkCol (NF 8) [plus_infinity]), (mkCol (NF 8) [9221120237041090560]). split; [|split].
  - exists [5]. split; [reflexivity|]. repeat constructor. intros [].
  - discriminate.
  - vm_compute. reflexivity.
Qed.
(** columns of numbers at different times *)
Example C72_ex_told : Forall told (map (np_elem (NF 8)) [4607182418800017408; 0]) /\ labels times_ex.
Proof.
  split; [repeat constructor; vm_compute; discriminate|]. exists 8%nat, false. split; [reflexivity|]. repeat constructor; cbn; lia.
Qed.
(** one log that is stored with its JSON copies, and one that is not *)
Definition json_log (x : Z) : dbulog :=
  mkObj None (lit "abc") false
    (set_data [mkDS 0 0 (lit "t") [mkFD (lit "v") F64; mkFD (lit "timestamp") U64] 1 [(lit "v", mkCol (NF 8) [x]); (lit "timestamp", mkCol (NI 8 false) [5])]] ulog0).
Example C72_ex_save : forall x, x = 4607182418800017408 \/ x = minus_infinity ->
  exists o' d', save no_fault false (json_log x) d5 = (Ok tt, o', d') /\
  (forall ds fd, In ds (u_data (o_log (json_log x))) -> In fd (ds_fields ds) -> exists t, json_of repr_ex ds fd t) /\
  ((exists ds fd t, In ds (u_data (o_log (json_log x))) /\ In fd (ds_fields ds) /\ json_of repr_ex ds fd t /\ ~ exists j, json_document t j) <-> x = minus_infinity).
Proof.
  intros x Hx.
  assert (L : labels (mkCol (NI 8 false) [5])) by (exists 8%nat, false; split; [reflexivity|]; constructor; [cbn; lia|constructor]).
  assert (A : forall ds fd, In ds (u_data (o_log (json_log x))) -> In fd (ds_fields ds) -> exists t, json_of repr_ex ds fd t /\
     (t = values_json repr_ex (mkCol (NI 8 false) [5]) (mkCol (NF 8) [x]) \/ t = values_json repr_ex (mkCol (NI 8 false) [5]) (mkCol (NI 8 false) [5]))).
  { intros ds fd [<-|[]] [<-|[<-|[]]]; eexists; (split; [eexists _, _; split; [reflexivity|]; split; [reflexivity|]; split; [exact L|reflexivity]|]); auto. }
  assert (T : forall ds fd t t', json_of repr_ex ds fd t -> json_of repr_ex ds fd t' -> t = t').
  { intros ds fd t t' (ts & c & E1 & E2 & _ & ->) (ts' & c' & E1' & E2' & _ & ->). congruence. }
  exists (set_pk (Some 1) (json_log x)), (snd (save no_fault false (json_log x) d5)). split; [destruct Hx as [->| ->]; vm_compute; reflexivity|]. split.
  - intros ds fd H1 H2. destruct (A ds fd H1 H2) as (t & H & _). eauto.
  - split.
    + intros (ds & fd & t & H1 & H2 & H3 & H4). destruct Hx as [->|Hx]; [|exact Hx]. exfalso. apply H4. destruct (A ds fd H1 H2) as (t' & H5 & H6).
      rewrite (T _ _ _ _ H3 H5). destruct H6 as [->| ->]; apply (json_test repr_ex _ _ reprs_ex L); vm_compute; reflexivity.
    + intros ->. eexists _, (mkFD (lit "v") F64), _. split; [now left|]. split; [now left|]. split; [eexists _, _; split; [reflexivity|]; split; [reflexivity|]; split; [exact L|reflexivity]|].
      rewrite (json_test repr_ex _ _ reprs_ex L). vm_compute. discriminate.
Qed.
