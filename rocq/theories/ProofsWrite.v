(** What write_ulog puts into the file. *)
From Coq Require Import Permutation Sorted.
From Verif Require Import Base Dict Utf8 PyStr PyFloat Struct PySort ModelTypes ModelRead ModelWrite
  Spec SpecSection SpecMsg SpecLog SpecWrite ProofsRead ProofsMsg ProofsInv ProofsTrace ProofsChange ProofsLog ProofsEq.
Ltac Zify.zify_post_hook ::= Z.div_mod_to_equations.

Lemma mapM_Forall2 {A B} (f : A -> res B) l : forall l', mapM f l = Ok l' -> Forall2 (fun x y => f x = Ok y) l l'.
Proof.
  induction l as [|x l IH]; intros l' H; cbn [mapM] in H; [injection H as <-; constructor|].
  apply bind_Ok_inv in H as (y & Hy & H). apply bind_Ok_inv in H as (ys & Hys & H). injection H as <-. constructor; auto.
Qed.
Lemma mapM_ok {A B} (f : A -> res B) (g : A -> B) l : (forall x, In x l -> f x = Ok (g x)) -> mapM f l = Ok (map g l).
Proof.
  induction l as [|x l IH]; intros H; cbn [mapM map]; [reflexivity|].
  rewrite H by now left. rewrite IH by (intros; apply H; now right). reflexivity.
Qed.
Lemma rmap_Ok {A B} (f : A -> B) r b : rmap f r = Ok b -> exists a, r = Ok a /\ b = f a.
Proof. destruct r; cbn; intros H; [injection H as <-; eauto|discriminate]. Qed.

Definition sized (m : Z * bytes) : Prop := byte_ok (fst m) /\ lenZ (snd m) < 65536.

Lemma put_msg_ok ty d : lenZ d < 65536 -> put_msg ty d = Ok (frame ty d).
Proof.
  intros H. unfold put_msg, pack_u, frame. change (256 ^ Z.of_nat 2) with 65536.
  pose proof (Nat2Z.is_nonneg (length d)) as Hn. unfold lenZ in *.
  replace ((0 <=? Z.of_nat (length d)) && (Z.of_nat (length d) <? 65536)) with true by lia.
  cbn [bind le_enc app]. replace (Z.of_nat (length d) / 256 mod 256) with (Z.of_nat (length d) / 256) by lia. reflexivity.
Qed.
Lemma put_msg_inv ty d b : put_msg ty d = Ok b -> lenZ d < 65536 /\ b = frame ty d.
Proof.
  intros H. assert (lenZ d < 65536).
  { unfold put_msg in H. apply bind_Ok_inv in H as (h & Hh & _). apply pack_u_Ok in Hh as [Hh _].
    change (256 ^ Z.of_nat 2) with 65536 in Hh. lia. }
  split; auto. rewrite put_msg_ok in H by assumption. now injection H.
Qed.

Lemma frames_app a b : frames (a ++ b) = frames a ++ frames b.
Proof. unfold frames. now rewrite map_app, concat_app. Qed.
Lemma frames_cons m l : frames (m :: l) = frame (fst m) (snd m) ++ frames l.
Proof. reflexivity. Qed.

(** lists of messages of one type *)
Definition framed (ty : Z) (bs : list bytes) : Prop :=
  exists ps, bs = map (frame ty) ps /\ Forall (fun p => lenZ p < 65536) ps.
Lemma framed_nil ty : framed ty [].
Proof. exists []. split; [reflexivity|constructor]. Qed.
Lemma framed_cons ty p bs : lenZ p < 65536 -> framed ty bs -> framed ty (frame ty p :: bs).
Proof. intros H (ps & -> & Hp). exists (p :: ps). split; [reflexivity|constructor; auto]. Qed.
Lemma framed_app ty a b : framed ty a -> framed ty b -> framed ty (a ++ b).
Proof.
  intros (p & -> & Hp) (q & -> & Hq). exists (p ++ q). split; [now rewrite map_app|apply Forall_app; auto].
Qed.
Lemma framed_concat ty ls : Forall (framed ty) ls -> framed ty (concat ls).
Proof. induction 1; cbn [concat]; [apply framed_nil|apply framed_app; auto]. Qed.
Lemma framed_mapM {A} ty (f : A -> res bytes) l bs :
  (forall x b, f x = Ok b -> exists p, b = frame ty p /\ lenZ p < 65536) -> mapM f l = Ok bs ->
  framed ty bs /\ length bs = length l.
Proof.
  intros Hf H. split; [|eapply mapM_Ok_length; eauto]. apply mapM_Forall2 in H.
  induction H as [|x y l bs H1 H2 IH]; [apply framed_nil|].
  apply Hf in H1 as (p & -> & Hp). apply framed_cons; auto.
Qed.
Lemma framed_frames ty bs : framed ty bs -> byte_ok ty -> exists ms, concat bs = frames ms /\ map fst ms = repeat ty (length bs) /\ Forall sized ms.
Proof.
  intros (ps & -> & Hp) Hty. exists (map (pair ty) ps). unfold frames. rewrite map_map, map_length. split; [reflexivity|]. split.
  - clear. induction ps; cbn; [reflexivity|]. f_equal. auto.
  - apply Forall_map. eapply Forall_impl; [|exact Hp]. intros p H. split; auto.
Qed.

Ltac unbind H := repeat match type of H with
  | bind _ _ = Ok _ => let x := fresh "x" in let E := fresh "E" in apply bind_Ok_inv in H as (x & E & H)
  end.

Lemma write_info_framed u bs : write_info u = Ok bs -> framed 73 bs /\ length bs = length (u_info u).
Proof. apply framed_mapM. intros x b H. unbind H. apply put_msg_inv in H as [H1 ->]. eauto. Qed.
Lemma write_set_framed key ty vs : forall c bs, write_set key ty c vs = Ok bs -> framed 77 bs.
Proof.
  induction vs as [|v vs IH]; intros c bs H; cbn [write_set] in H; [injection H as <-; apply framed_nil|].
  unbind H. injection H as <-. apply put_msg_inv in E0 as [H1 ->]. apply framed_cons; eauto.
Qed.
Lemma write_multi_framed u bs : write_multi u = Ok bs -> framed 77 bs.
Proof.
  unfold write_multi. intros H. apply rmap_Ok in H as (ls & H & ->). apply framed_concat.
  apply mapM_Forall2 in H. induction H as [|x y l ls H1 H2 IH]; constructor; auto.
  unbind H1. apply rmap_Ok in H1 as (ks & H1 & ->). apply framed_concat.
  apply mapM_Forall2 in H1. clear - H1. induction H1 as [|x' y' l' ls' H1' H2' IH']; constructor; auto. eapply write_set_framed; eauto.
Qed.
Lemma write_params_framed u bs : write_params u = Ok bs -> framed 80 bs /\ length bs = length (u_params u).
Proof. apply framed_mapM. intros x b H. unbind H. apply put_msg_inv in H as [H1 ->]. eauto. Qed.
Lemma write_defaults_framed u bs : write_defaults u = Ok bs -> framed 81 bs.
Proof.
  unfold write_defaults. intros H. apply rmap_Ok in H as (ls & H & ->). apply framed_concat.
  apply mapM_Forall2 in H. induction H as [|x y l ls H1 H2 IH]; constructor; auto.
  destruct (fst x <? 0); [discriminate|]. eapply framed_mapM; [|exact H1].
  intros kv b H. cbv beta in H. unbind H. apply put_msg_inv in H as [Hl ->]. eauto.
Qed.
Lemma write_formats_framed u bs : write_formats u = Ok bs -> framed 70 bs /\ length bs = length (u_formats u).
Proof.
  intros H. rewrite <- (map_length snd (u_formats u)). revert H. apply framed_mapM.
  intros x b H. unbind H. apply put_msg_inv in H as [H1 ->]. eauto.
Qed.
Lemma write_subs_framed u bs : write_subscriptions u = Ok bs -> framed 65 bs /\ length bs = length (by_id u).
Proof. apply framed_mapM. intros x b H. unbind H. apply put_msg_inv in H as [H1 ->]. eauto. Qed.

(** ** The data section *)
Definition item_is (s : source) (it : item) : Prop :=
  at_time s (fst it) /\ exists m, snd it = frame (fst m) (snd m) /\ sized m /\ carries s m.

Lemma element_inv name i ds v : element name i ds = Ok v -> elem_at ds name i v.
Proof.
  unfold element, lookup. destruct (sget name (ds_data ds)) as [col|] eqn:E; [|discriminate]. cbn [bind].
  destruct (nth_error (c_raw col) i) as [raw|] eqn:E2; [|discriminate]. intros H. injection H as <-. exists col, raw. auto.
Qed.
Lemma write_elem_length c x b : write_elem c x = Ok b -> length b = ctype_size c.
Proof.
  intros H. destruct c; cbn [write_elem] in H; try (eapply pack_val_length; eauto; fail).
  destruct x; try discriminate. destruct (_ && _); [|discriminate]. unbind H.
  eapply (pack_val_length CChar); eauto.
Qed.
Lemma pack_u_enc n z b : pack_u n z = Ok b -> 0 <= z < 256 ^ Z.of_nat n /\ b = le_enc n z.
Proof. intros H. apply pack_u_Ok in H as [H ->]. auto. Qed.
Lemma le_enc_1 z : u8 z -> le_enc 1 z = [z].
Proof. unfold u8. intros H. cbn [le_enc]. f_equal. lia. Qed.
Lemma utf8_inv s b : utf8_encode s = Ok b -> str_ok s /\ b = utf8 s.
Proof. intros H. split; [eapply utf8_encode_str_ok; eauto|]. unfold utf8. now rewrite H. Qed.
Ltac packs := repeat match goal with
  | H : pack_u 1 ?z = Ok ?b |- _ => apply pack_u_enc in H as [H ->]; change (u8 z) in H; rewrite ?(le_enc_1 z) in * by assumption
  | H : pack_u 2 ?z = Ok ?b |- _ => apply pack_u_enc in H as [H ->]; change (u16 z) in H
  | H : pack_u 8 ?z = Ok ?b |- _ => apply pack_u_enc in H as [H ->]; change (u64 z) in H
  | H : utf8_encode _ = Ok ?b |- _ => apply utf8_inv in H as [H ->]
  end.

Lemma write_elem_raw c raw b : write_elem c (np_elem (np_of c) raw) = Ok b -> 0 <= raw < 256 ^ Z.of_nat (ctype_size c) ->
  b = le_enc (ctype_size c) (written_raw c raw) /\ (c = CChar -> raw < 128).
Proof.
  intros H Hr.
  assert (T : of_signed (ctype_size c) (to_signed (ctype_size c) raw) = raw) by (apply of_to_signed; [apply ctype_size_pos|exact Hr]).
  assert (PI : forall b, pack_int c (if ctype_signed c then to_signed (ctype_size c) raw else raw) = Ok b -> b = le_enc (ctype_size c) raw).
  { intros b0. unfold pack_int. destruct (ctype_signed c).
    - rewrite T. destruct (_ && _); [|discriminate]. intros E. now injection E.
    - intros E. apply pack_u_enc in E. apply E. }
  destruct c; try (split; [apply PI; exact H|discriminate]).
  - split; [|discriminate]. cbn [np_of np_elem write_elem pack_val ctype_size written_raw] in *. change (256 ^ Z.of_nat 4) with 4294967296 in Hr.
    rewrite narrow_widen in H by lia. apply (f_equal (fun r => match r with Ok x => x | Err _ => b end)) in H. cbv beta iota in H. now symmetry.
  - split; [|discriminate]. cbn [np_of np_elem write_elem pack_val] in H. apply (f_equal (fun r => match r with Ok x => x | Err _ => b end)) in H.
    cbv beta iota in H. now symmetry.
  - split; [|discriminate]. cbn [np_of np_elem write_elem pack_val ctype_size written_raw truthy] in *. change (256 ^ Z.of_nat 1) with 256 in Hr.
    assert (E : forall z, (if negb (z =? 0) then 1 else 0) = if z =? 0 then 0 else 1) by (intros z; now destruct (z =? 0)).
    apply (f_equal (fun r => match r with Ok x => x | Err _ => b end)) in H. cbv beta iota in H. rewrite <- H. rewrite E.
    rewrite le_enc_1 by (unfold u8; destruct (raw =? 0); lia). f_equal.
    all: try reflexivity.
    unfold to_signed. change (256 ^ Z.of_nat 1) with 256. change (256 / 2) with 128. destruct (Z.ltb_spec raw 128); [reflexivity|].
    destruct (Z.eqb_spec (raw - 256) 0), (Z.eqb_spec raw 0); lia.
  - cbn [np_of np_elem write_elem ctype_size written_raw] in *. change (256 ^ Z.of_nat 1) with 256 in Hr.
    destruct ((0 <=? to_signed 1 raw) && (to_signed 1 raw <? 1114112)) eqn:E; [|discriminate].
    assert (raw < 128 /\ to_signed 1 raw = raw) as [Hlt Es].
    { unfold to_signed in *. change (256 ^ Z.of_nat 1) with 256 in *. change (256 / 2) with 128 in *. destruct (Z.ltb_spec raw 128); lia. }
    split; [|intros _; exact Hlt]. rewrite Es in H. cbn [utf8_encode] in H. unfold scalar_ok in H.
    replace ((0 <=? raw) && (raw <=? 1114111) && negb ((55296 <=? raw) && (raw <=? 57343))) with true in H by lia.
    unfold utf8_enc1 in H. replace (raw <? 128) with true in H by lia. cbn [bind app pack_val] in H.
    apply (f_equal (fun r => match r with Ok x => x | Err _ => b end)) in H. cbv beta iota in H. rewrite <- H, le_enc_1 by (unfold u8; lia). reflexivity.
Qed.
Lemma sample_item_is ds i it : sample_item ds i = Ok it -> item_is (Sample ds i) it.
Proof.
  unfold sample_item. intros H. unbind H. destruct x; try discriminate. injection H as <-.
  apply put_msg_inv in E2 as [H1 ->]. apply element_inv in E. split; [exact E|]. cbn [fst snd].
  exists (68, x0 ++ concat x1). split; [reflexivity|]. split; [split; [unfold byte_ok; cbn; lia|exact H1]|].
  exists x1. apply pack_u_enc in E0 as [E0 ->]. split; [exact E0|]. split; [reflexivity|].
  apply mapM_Forall2 in E1. clear -E1. induction E1 as [|fd b fds bs H1 H2 IH]; constructor; [|exact IH]. unbind H1.
  pose proof (write_elem_length _ _ _ H1) as Hl. apply element_inv in E as (col & raw & A & B & ->).
  split; [exact Hl|]. exists col, raw. split; [exact A|]. split; [exact B|]. intros Ec Hr. rewrite Ec in H1. now apply write_elem_raw.
Qed.
Lemma mapM_items {A} (f : A -> res item) (src : A -> source) l its :
  (forall x it, In x l -> f x = Ok it -> item_is (src x) it) -> mapM f l = Ok its -> Forall2 item_is (map src l) its.
Proof.
  intros Hf H. apply mapM_Forall2 in H. induction H; cbn [map]; constructor; [apply Hf; auto; now left|].
  apply IHForall2. intros; apply Hf; auto; now right.
Qed.
Lemma dataset_items_are ds its : dataset_items ds = Ok its ->
  Forall2 item_is (map (Sample ds) (seq 0 (samples_in ds))) its.
Proof.
  unfold dataset_items, samples_in. destruct (ds_fields ds) as [|fd r]; [discriminate|].
  unfold lookup. destruct (sget _ _) as [c|]; [|discriminate]. cbn [bind]. apply mapM_items. intros; now apply sample_item_is.
Qed.
Lemma data_items_are u its : data_items u = Ok its ->
  Forall2 item_is (flat_map (fun ds => map (Sample ds) (seq 0 (samples_in ds))) (by_id u)) its.
Proof.
  unfold data_items. intros H. apply rmap_Ok in H as (ls & H & ->). apply mapM_Forall2 in H.
  induction H as [|ds l dss ls H1 H2 IH]; [constructor|]. cbn [flat_map concat]. apply Forall2_app; auto.
  now apply dataset_items_are.
Qed.
Ltac one_item H := cbv beta in H; unbind H; injection H as <-;
  match goal with E : put_msg _ _ = Ok _ |- _ => apply put_msg_inv in E as [? ->] end;
  split; [reflexivity|]; cbn [fst snd]; eexists (_, _); cbn [fst snd]; split; [reflexivity|];
  split; [split; [vm_compute; split; [discriminate|reflexivity]|eassumption]|].
Lemma logged_items_are u its : logged_items u = Ok its -> Forall2 item_is (map Logged (u_logged u)) its.
Proof.
  apply mapM_items. intros m it _ H. one_item H. packs. cbn [carries]. auto.
Qed.
Lemma tagged_items_are u its : tagged_items u = Ok its ->
  Forall2 item_is (map Tagged (concat (map snd (u_tagged u)))) its.
Proof.
  unfold tagged_items. intros H. apply rmap_Ok in H as (ls & H & ->). apply mapM_Forall2 in H.
  induction H as [|ms l mss ls H1 H2 IH]; [constructor|]. cbn [concat]. rewrite map_app. apply Forall2_app; auto.
  revert H1. apply mapM_items. clear. intros m it _ H. one_item H. packs. cbn [carries]. auto 8.
Qed.
Lemma dropout_items_are u its : dropout_items u = Ok its -> Forall2 item_is (map Dropped (u_dropouts u)) its.
Proof.
  apply mapM_items. intros m it _ H. one_item H. packs. cbn [carries]. auto.
Qed.
Lemma utf8_encode_app_inv a b : str_ok (a ++ b) -> str_ok b.
Proof. intros H. apply Forall_app in H. apply H. Qed.
Lemma parameter_data_inv name v d : parameter_data name v = Ok d ->
  str_ok name /\ exists ty raw, d = kv_bytes ty name raw /\ param_written v ty raw.
Proof.
  unfold parameter_data. intros H. unbind H. unfold info_data in H. unbind H. injection E1 as <-. injection H as <-.
  packs. split; [apply utf8_encode_app_inv in E0; now apply utf8_encode_app_inv in E0|].
  exists x, x3. unfold kv_bytes. split; [reflexivity|].
  assert (I : forall z, pack_val I32 (VInt z) = Ok x3 -> -2147483648 <= z < 2147483648 /\ x3 = le_enc 4 (z mod 4294967296)).
  { intros z. cbn [pack_val]. unfold pack_int. cbn [ctype_signed ctype_size]. change (256 ^ Z.of_nat 4 / 2) with 2147483648.
    destruct (_ && _) eqn:Ez; [|discriminate]. intros H. split; [lia|].
    apply (f_equal (fun r => match r with Ok x => x | Err _ => x3 end)) in H. cbv beta iota in H. rewrite <- H. f_equal. unfold of_signed.
    change (256 ^ Z.of_nat 4) with 4294967296. destruct (Z.ltb_spec z 0); lia. }
  destruct v; try discriminate; apply (f_equal (fun r => match r with Ok x => x | Err _ => x end)) in E; cbv beta iota in E; subst x; cbn [param_written];
    (split; [reflexivity|]).
  - apply I. exact E3.
  - destruct (I (if b then 1 else 0)) as [_ ->]; [exact E3|]. now destruct b.
  - change (pack_val F32 (VFloat bits) = Ok x3) in E3. cbn [pack_val] in E3. destruct (narrow bits) as [r|]; [|discriminate]. exists r. split; [reflexivity|].
    apply (f_equal (fun r => match r with Ok x => x | Err _ => x3 end)) in E3. cbv beta iota in E3. now symmetry.
Qed.
Lemma changed_items_are u its : changed_items u = Ok its ->
  Forall2 item_is (map (fun c => Changed (fst (fst c)) (snd (fst c)) (snd c)) (u_changed u)) its.
Proof.
  apply mapM_items. intros m it _ H. one_item H. cbn [carries].
  match goal with E : parameter_data _ _ = Ok _ |- _ => apply parameter_data_inv in E as (Hk & ty & raw & -> & Hw) end.
  split; [exact Hk|]. exists ty, raw. auto.
Qed.

(** sorting with a key *)
Lemma key_leb_total {A} (key : A -> Z) a b : (key a <=? key b) = true \/ (key b <=? key a) = true.
Proof. lia. Qed.
Lemma key_leb_trans {A} (key : A -> Z) a b c : (key a <=? key b) = true -> (key b <=? key c) = true -> (key a <=? key c) = true.
Proof. lia. Qed.
Lemma sorted_impl {A} (R S : A -> A -> Prop) l : (forall a b, R a b -> S a b) -> StronglySorted R l -> StronglySorted S l.
Proof. intros HI. induction 1; constructor; auto. eapply Forall_impl; [|eassumption]. auto. Qed.
Lemma ssort_sorted_from {A} (key : A -> Z) l : sorted_from key l (ssort (fun a b => key a <=? key b) l).
Proof.
  split; [apply ssort_perm|]. split.
  - eapply sorted_impl; [|apply (ssort_sorted _ (key_leb_total key) (key_leb_trans key))]. cbn. lia.
  - intros k. destruct (existsb (fun a => key a =? k) l) eqn:E.
    + apply existsb_exists in E as (a & Ha & Hk). apply Z.eqb_eq in Hk.
      pose proof (ssort_stable _ (key_leb_total key) (key_leb_trans key) a l) as H.
      unfold equivb in H. 
      assert (Q : forall m, filter (fun b => (key a <=? key b) && (key b <=? key a)) m = filter (fun b => key b =? k) m).
      { intros m. apply filter_ext. intros b. lia. }
      rewrite !Q in H. exact H.
    + assert (N : forall a, In a l -> (key a =? k) = false).
      { intros a Ha. destruct (key a =? k) eqn:Ek; auto. rewrite <- E. symmetry. apply existsb_exists. eauto. }
      assert (Q : forall m, (forall a, In a m -> In a l) -> filter (fun a => key a =? k) m = []).
      { induction m as [|x m IH]; intros Hm; [reflexivity|]. cbn [filter]. rewrite N by (apply Hm; now left). apply IH. intros; apply Hm; now right. }
      rewrite !Q; auto. intros a Ha. eapply Permutation_in; [apply Permutation_sym, ssort_perm|exact Ha].
Qed.

Definition plan := (Z * source * (Z * bytes))%type.
Definition plan_time (p : plan) : Z := fst (fst p).
Definition plan_ok (p : plan) : Prop := at_time (snd (fst p)) (fst (fst p)) /\ carries (snd (fst p)) (snd p) /\ sized (snd p).
Lemma items_plan srcs its : Forall2 item_is srcs its ->
  exists l : list plan, map (fun p => snd (fst p)) l = srcs /\ Forall plan_ok l /\
    its = map (fun p => (plan_time p, frame (fst (snd p)) (snd (snd p)))) l.
Proof.
  induction 1 as [|s it srcs its (H1 & m & H2 & H3 & H4) _ (l & L1 & L2 & L3)]; [exists []; repeat split; constructor|].
  exists ((fst it, s, m) :: l). repeat split.
  - cbn. now rewrite L1.
  - constructor; auto. repeat split; auto; apply H3.
  - cbn. destruct it. cbn in *. now rewrite H2, L3.
Qed.

Theorem write_data_shape u bs : write_data u = Ok bs -> exists l l' : list plan,
  map (fun p => snd (fst p)) l = all_sources (by_id u) u /\ Forall plan_ok l /\
  sorted_from plan_time l l' /\ concat bs = frames (map snd l').
Proof.
  unfold write_data. intros H. unbind H. injection H as <-.
  apply data_items_are in E. apply logged_items_are in E0. apply tagged_items_are in E1. apply dropout_items_are in E2.
  apply changed_items_are in E3.
  pose proof (Forall2_app E (Forall2_app E0 (Forall2_app E1 (Forall2_app E2 E3)))) as F.
  destruct (items_plan _ _ F) as (l & L1 & L2 & L3). exists l, (ssort (fun a b => plan_time a <=? plan_time b) l).
  split; [exact L1|]. split; [exact L2|]. split; [apply ssort_sorted_from|].
  rewrite L3, (ssort_map (fun a b => plan_time a <=? plan_time b)) by reflexivity.
  unfold frames. rewrite !map_map. reflexivity.
Qed.

(** ** Header and flags *)
Lemma write_header_inv u h : write_header u = Ok h ->
  header_fits (u_version u) (u_start u) /\ h = file_header (u_version u) (u_start u).
Proof. unfold write_header. intros H. unbind H. injection H as <-. packs. split; [split; assumption|reflexivity]. Qed.
Lemma write_header_ok u : header_fits (u_version u) (u_start u) -> write_header u = Ok (file_header (u_version u) (u_start u)).
Proof.
  intros [H1 H2]. unfold write_header, pack_u. unfold byte_ok in H1.
  change (256 ^ Z.of_nat 1) with 256. change (256 ^ Z.of_nat 8) with 18446744073709551616.
  replace ((0 <=? u_version u) && (u_version u <? 256)) with true by lia.
  replace ((0 <=? u_start u) && (u_start u <? 18446744073709551616)) with true by lia. cbn [bind].
  rewrite le_enc_1 by exact H1. reflexivity.
Qed.
Lemma pack_bytes l : forall bs, mapM (pack_u 1) l = Ok bs -> bytes_ok l /\ concat bs = l.
Proof.
  induction l as [|x l IH]; intros bs H; cbn [mapM] in H; [injection H as <-; split; [constructor|reflexivity]|].
  unbind H. injection H as <-. apply IH in E0 as [H1 H2]. packs. split; [constructor; auto|]. cbn. now rewrite H2.
Qed.
Lemma pack_bytes_ok l : bytes_ok l -> rmap (@concat Z) (mapM (pack_u 1) l) = Ok l.
Proof.
  induction 1 as [|x l H _ IH]; [reflexivity|]. cbn [mapM]. unfold byte_ok in H.
  unfold pack_u at 1. change (256 ^ Z.of_nat 1) with 256. replace ((0 <=? x) && (x <? 256)) with true by lia. cbn [bind].
  destruct (mapM (pack_u 1) l); [|discriminate]. cbn [rmap bind concat] in *. injection IH as ->.
  rewrite le_enc_1 by exact H. reflexivity.
Qed.
Lemma pack_8_inv l b : pack_8 l = Ok b -> lenZ l = 8 /\ bytes_ok l /\ b = l.
Proof.
  unfold pack_8. destruct (Nat.eqb_spec (length l) 8) as [E|]; [|discriminate]. intros H. apply rmap_Ok in H as (bs & H & ->).
  apply pack_bytes in H as [H1 H2]. unfold lenZ. rewrite E. auto.
Qed.
Lemma pack_8_ok l : lenZ l = 8 -> bytes_ok l -> pack_8 l = Ok l.
Proof.
  intros H1 H2. unfold pack_8. unfold lenZ in H1. replace (Nat.eqb (length l) 8) with true by (symmetry; apply Nat.eqb_eq; lia).
  now apply pack_bytes_ok.
Qed.
Lemma write_flags_inv u b : write_flags u = Ok b ->
  lenZ (u_compat u) = 8 /\ lenZ (u_incompat u) = 8 /\ bytes_ok (u_compat u) /\ bytes_ok (without_append (u_incompat u)) /\
  b = frame 66 (snd (wire (MFlags (u_compat u) (without_append (u_incompat u)) 0 0 0))).
Proof.
  unfold write_flags. intros H. unbind H. apply pack_8_inv in E as (A1 & A2 & ->).
  destruct (u_incompat u) as [|i0 r]; [discriminate|]. unbind H. apply pack_8_inv in E as (B1 & B2 & ->).
  apply put_msg_inv in H as [_ ->]. injection E0 as <-. repeat split; auto.
Qed.
Lemma land_254 x : byte_ok x -> byte_ok (Z.land x 254) /\ Z.land (Z.land x 254) 1 = 0.
Proof.
  intros H. split.
  - unfold byte_ok in *. split; [apply Z.land_nonneg; lia|].
    assert (Z.land x 254 <= 254); [|lia]. rewrite Z.land_comm.
    assert (0 <= Z.land 254 x) by (apply Z.land_nonneg; lia).
    pose proof (Z.land_ldiff 254 (Z.lnot x)). assert (Z.land 254 x <= 254); [|lia].
    replace 254 with (Z.land 254 x + Z.ldiff 254 x) at 2.
    + assert (0 <= Z.ldiff 254 x) by (apply Z.ldiff_nonneg; lia). lia.
    + rewrite Z.add_nocarry_lxor.
      * apply Z.bits_inj'. intros n Hn. rewrite Z.lxor_spec, Z.land_spec, Z.ldiff_spec. destruct (Z.testbit 254 n), (Z.testbit x n); reflexivity.
      * apply Z.bits_inj'. intros n Hn. rewrite Z.land_spec, Z.land_spec, Z.ldiff_spec, Z.bits_0. destruct (Z.testbit 254 n), (Z.testbit x n); reflexivity.
  - rewrite <- Z.land_assoc. change (Z.land 254 1) with 0. apply Z.land_0_r.
Qed.
Lemma without_append_fits i : lenZ i = 8 -> bytes_ok i -> lenZ (without_append i) = 8 /\ bytes_ok (without_append i) /\
  Z.land (nth 0 (without_append i) 0) 1 = 0.
Proof.
  intros H1 H2. destruct i as [|x r]; [discriminate|]. inversion H2; subst. destruct (land_254 x) as [L1 L2]; auto.
  split; [exact H1|]. split; [constructor; auto|]. exact L2.
Qed.
Lemma flags_size c i : lenZ c = 8 -> lenZ i = 8 -> lenZ (snd (wire (MFlags c i 0 0 0))) = 40.
Proof. intros H1 H2. cbn [wire snd]. rewrite !lenZ_app, H1, H2. reflexivity. Qed.
Lemma write_flags_ok u : lenZ (u_compat u) = 8 -> lenZ (u_incompat u) = 8 -> bytes_ok (u_compat u) -> bytes_ok (u_incompat u) ->
  write_flags u = Ok (frame 66 (snd (wire (MFlags (u_compat u) (without_append (u_incompat u)) 0 0 0)))).
Proof.
  intros A1 A2 A3 A4. destruct (without_append_fits _ A2 A4) as (B1 & B2 & _).
  unfold write_flags. rewrite pack_8_ok by assumption. cbn [bind].
  pose proof (flags_size _ _ A1 B1) as Hs.
  destruct (u_incompat u) as [|i0 r] eqn:E; [discriminate|]. cbn [without_append] in *.
  rewrite pack_8_ok by assumption. cbn [bind]. change (rmap (@concat Z) (mapM (pack_u 8) [0; 0; 0])) with (@Ok bytes (le_enc 8 0 ++ le_enc 8 0 ++ le_enc 8 0)).
  cbn [bind]. rewrite put_msg_ok; [reflexivity|]. refine (eq_ind_r (fun z => z < 65536) _ Hs). reflexivity.
Qed.

(** ** The whole file *)
Theorem write_shape u f : write u = Ok f -> exists defs subs l l',
  f = file_header (u_version u) (u_start u) ++
      frames (wire (MFlags (u_compat u) (without_append (u_incompat u)) 0 0 0) :: defs) ++ frames subs ++ frames (map snd l') /\
  header_fits (u_version u) (u_start u) /\
  lenZ (u_compat u) = 8 /\ lenZ (u_incompat u) = 8 /\ bytes_ok (u_compat u) /\ bytes_ok (without_append (u_incompat u)) /\
  (exists nm nd, map fst defs = repeat 70 (length (u_formats u)) ++ repeat 73 (length (u_info u)) ++
     repeat 77 nm ++ repeat 80 (length (u_params u)) ++ repeat 81 nd) /\
  map fst subs = repeat 65 (length (u_data u)) /\
  Forall sized defs /\ Forall sized subs /\
  map (fun p => snd (fst p)) l = all_sources (by_id u) u /\ Forall plan_ok l /\ sorted_from plan_time l l'.
Proof.
  unfold write. intros H. unbind H. injection H as <-.
  apply write_header_inv in E as [Hh ->]. apply write_flags_inv in E0 as (F1 & F2 & F3 & F4 & ->).
  apply write_formats_framed in E1 as [E1 L1]. apply write_info_framed in E2 as [E2 L2].
  apply write_multi_framed in E3. apply write_params_framed in E4 as [E4 L4]. apply write_defaults_framed in E5.
  apply write_subs_framed in E6 as [E6 L6]. apply write_data_shape in E7 as (l & l' & D1 & D2 & D3 & D4).
  assert (B : forall z, (0 <=? z) && (z <? 256) = true -> byte_ok z) by (unfold byte_ok; lia).
  destruct (framed_frames _ _ E1 (B 70 eq_refl)) as (m1 & Q1 & R1 & S1).
  destruct (framed_frames _ _ E2 (B 73 eq_refl)) as (m2 & Q2 & R2 & S2).
  destruct (framed_frames _ _ E3 (B 77 eq_refl)) as (m3 & Q3 & R3 & S3).
  destruct (framed_frames _ _ E4 (B 80 eq_refl)) as (m4 & Q4 & R4 & S4).
  destruct (framed_frames _ _ E5 (B 81 eq_refl)) as (m5 & Q5 & R5 & S5).
  destruct (framed_frames _ _ E6 (B 65 eq_refl)) as (m6 & Q6 & R6 & S6).
  exists (m1 ++ m2 ++ m3 ++ m4 ++ m5), m6, l, l'.
  split.
  { rewrite !concat_app, Q1, Q2, Q3, Q4, Q5, Q6, D4, frames_cons, !frames_app, <- !app_assoc. reflexivity. }
  split; [exact Hh|]. do 4 (split; [assumption|]).
  split. { exists (length x3), (length x5). rewrite !map_app, R1, R2, R3, R4, R5, L1, L2, L4. reflexivity. }
  split. { rewrite R6, L6. f_equal. apply Permutation_length, Permutation_sym, ssort_perm. }
  split. { repeat (apply Forall_app; split; auto). }
  auto.
Qed.
