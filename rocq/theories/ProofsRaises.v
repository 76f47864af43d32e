(** Which exceptions write_ulog() can raise. *)
From Coq Require Import Permutation.
From Verif Require Import Base Dict Utf8 PyStr PyFloat Struct PySort ModelTypes ModelRead ModelWrite Spec SpecMsg SpecLog SpecWrite SpecLoaded SpecWritable
  ProofsLoaded ProofsWritable ProofsRewritable PropsLoaded.

Definition raises (P : exn -> Prop) {A} (r : res A) : Prop := forall e, r = Err e -> P e.
Section closure.
  Variable P : exn -> Prop.
  Lemma raises_ok {A} (x : A) : raises P (Ok x). Proof. discriminate. Qed.
  Lemma raises_bind {A B} (a : res A) (k : A -> res B) : raises P a -> (forall x, a = Ok x -> raises P (k x)) -> raises P (bind a k).
  Proof. intros H K e E. destruct a as [x|y]; cbn [bind] in E; [exact (K x eq_refl e E)|apply H; injection E as ->; reflexivity]. Qed.
  Lemma raises_rmap {A B} (f : A -> B) a : raises P a -> raises P (rmap f a).
  Proof. intros H e E. destruct a; [discriminate|]. apply H. injection E as ->. reflexivity. Qed.
  Lemma raises_mapM {A B} (f : A -> res B) l : (forall x, In x l -> raises P (f x)) -> raises P (mapM f l).
  Proof.
    induction l as [|x l IH]; intros H; cbn [mapM]; [apply raises_ok|]. apply raises_bind; [apply H; now left|]. intros y _.
    apply raises_bind; [apply IH; intros z Hz; apply H; now right|]. intros ys _. apply raises_ok.
  Qed.
  Lemma raises_err {A} e : P e -> raises P (@Err A e). Proof. intros H e' [= <-]. exact H. Qed.
End closure.
(** what can be raised unless the texts can be encoded, unless the lists are long enough *)
Section parts.
  Variable P : exn -> Prop.
  Hypotheses (PS : P StructError) (PK : P KeyError) (PT : P TypeError) (PV : P ValueError) (PO : P OverflowError).
  Lemma raises_pack n z : raises P (pack_u n z).
  Proof. unfold pack_u. destruct (_ && _); [apply raises_ok|now apply raises_err]. Qed.
  Lemma raises_put ty d : raises P (put_msg ty d).
  Proof. unfold put_msg. apply raises_bind; [apply raises_pack|]. intros. apply raises_ok. Qed.
  Lemma raises_lookup {V} k (d : dict str V) : raises P (lookup k d).
  Proof. unfold lookup. destruct (sget k d); [apply raises_ok|now apply raises_err]. Qed.
  Lemma utf8_only s : raises (fun e => e = UnicodeEncodeError) (utf8_encode s).
  Proof.
    induction s as [|c s IH]; cbn; [apply raises_ok|].
    destruct (scalar_ok c); [|now apply raises_err]. apply raises_bind; [exact IH|]. intros; apply raises_ok.
  Qed.
  Lemma raises_utf8 s : P UnicodeEncodeError \/ encodable s -> raises P (utf8_encode s).
  Proof.
    intros [H|H] e E; [apply utf8_only in E; now subst|]. apply fine_utf8 in H as (x & H). congruence.
  Qed.
  Lemma raises_packval c v : raises P (pack_val c v).
  Proof.
    unfold pack_val, pack_int, pack_f32. destruct c, v; cbn [ctype_signed ctype_size]; try apply raises_ok; try (now apply raises_err); try apply raises_pack;
      repeat match goal with
      | |- raises _ (match ?x with _ => _ end) => destruct x
      | |- raises _ (Ok _) => apply raises_ok
      | |- raises _ (pack_u _ _) => apply raises_pack
      | |- raises _ (Err _) => now apply raises_err
      end.
  Qed.
  Lemma raises_value ty v : P UnicodeEncodeError \/ encodable_value v -> raises P (write_value ty v).
  Proof.
    intros U. unfold write_value. destruct (starts_with (lit "char[") ty).
    - destruct v; try (now apply raises_err). now apply raises_utf8.
    - destruct (starts_with (lit "uint8_t[") ty); [destruct v; try (now apply raises_err); apply raises_ok|].
      destruct (ctype_of ty) as [c|] eqn:E; [|now apply raises_err]. apply ctype_of_Some in E. subst ty. apply raises_packval.
  Qed.
  Definition texts (l : list str) (v : value) : Prop := P UnicodeEncodeError \/ (Forall encodable l /\ encodable_value v).
  Lemma raises_info ty key v c t : texts [ty; key] v -> raises P (let* d := info_data (ty ++ [32] ++ key) v ty c in put_msg t d).
  Proof.
    intros U. assert (U1 : P UnicodeEncodeError \/ encodable (ty ++ [32] ++ key)).
    { destruct U as [U|(U & _)]; [now left|]. right. apply encodable_named. apply Forall_cons_iff in U as [U1 U]. apply Forall_cons_iff in U as [U2 _]. now split. }
    assert (U2 : P UnicodeEncodeError \/ encodable_value v) by (destruct U as [U|(_ & U)]; auto).
    apply raises_bind; [|intros; apply raises_put]. unfold info_data. apply raises_bind; [now apply raises_utf8|]. intros kb _.
    apply raises_bind; [destruct c; [apply raises_pack|apply raises_ok]|]. intros cb _. apply raises_bind; [apply raises_pack|]. intros lb _.
    apply raises_bind; [now apply raises_value|]. intros. apply raises_ok.
  Qed.
  Lemma raises_set ty key vs : forall c, (forall v, In v vs -> texts [ty; key] v) -> raises P (write_set (ty ++ [32] ++ key) ty c vs).
  Proof.
    induction vs as [|v vs IH]; intros c H; cbn [write_set]; [apply raises_ok|]. pose proof (H v (or_introl eq_refl)) as H1.
    assert (Q : raises P (let* d := info_data (ty ++ [32] ++ key) v ty (Some c) in put_msg T_MULTI d)) by now apply raises_info.
    intros e E. destruct (info_data (ty ++ [32] ++ key) v ty (Some c)) as [d|x]; cbn [bind] in *; [|apply Q; injection E as ->; reflexivity].
    revert e E. apply raises_bind; [exact Q|]. intros m _. apply raises_bind; [apply IH; intros w Hw; apply H; now right|]. intros; apply raises_ok.
  Qed.
  Lemma raises_param key v t : texts [key] v -> raises P (let* d := parameter_data key v in put_msg t d).
  Proof.
    intros U. unfold parameter_data.
    assert (K : forall ty, ty = lit "int32_t" \/ ty = lit "float" -> texts [ty; key] v).
    { intros ty Hty. destruct U as [U|(U & U')]; [now left|]. right. split; [|exact U']. constructor; [|exact U]. destruct Hty as [->| ->]; apply ascii_lit; reflexivity. }
    destruct v; cbn [bind]; try (apply raises_err; assumption); (apply raises_info; apply K; auto).
  Qed.
  Lemma raises_pdef b key v t : texts [key] v -> raises P (let* x := pack_u 1 b in let* d := parameter_data key v in put_msg t (x ++ d)).
  Proof.
    intros U. apply raises_bind; [apply raises_pack|]. intros x _. pose proof (raises_param key v t U) as Q. intros e E.
    destruct (parameter_data key v) as [d|y]; cbn [bind] in *; [exact (raises_put _ _ e E)|]. apply Q. injection E as ->. reflexivity.
  Qed.
  Lemma raises_format m : P UnicodeEncodeError \/ (encodable (mf_name m) /\ Forall (fun f => encodable (fst (fst f)) /\ encodable (snd f)) (mf_fields m)) ->
    raises P (let* n := utf8_encode (mf_name m ++ [58]) in let* fs := mapM write_field (mf_fields m) in put_msg T_FORMAT (n ++ concat fs)).
  Proof.
    intros U. apply raises_bind; [|intros n _; apply raises_bind; [|intros; apply raises_put]].
    - apply raises_utf8. destruct U as [U|(U & _)]; [now left|right]. apply encodable_app_iff. split; [exact U|]. apply ascii_lit. reflexivity.
    - apply raises_mapM. intros f Hf. rewrite write_field_text. apply raises_utf8. destruct U as [U|(_ & U)]; [now left|right]. rewrite Forall_forall in U. destruct (U f Hf) as (A & B).
      destruct f as [[ty n'] nm]. cbn [fst snd] in A, B. unfold field_text. apply encodable_app_iff; split; [exact A|]. apply encodable_app_iff; split.
      + destruct (0 <? n'); [|constructor]. apply Forall_cons; [lia|]. apply encodable_app; [apply encodable_str_of_Z|]. apply Forall_cons; [lia|constructor].
      + apply Forall_cons; [lia|]. apply encodable_app; [exact B|]. apply Forall_cons; [lia|constructor].
  Qed.
  (** the samples of a dataset *)
  Definition even_ds (ds : dataset) : Prop := ds_fields ds <> [] /\
    forall name c, name = lit "timestamp" \/ In name (map fd_name (ds_fields ds)) -> sget name (ds_data ds) = Some c -> (samples_in ds <= length (c_raw c))%nat.
  Definition ascii_ds (ds : dataset) : Prop := forall fd i z, In fd (ds_fields ds) -> fd_type fd = CChar -> elem_at ds (fd_name fd) i (VInt z) -> z < 128.
  Lemma raises_element ds name i : P IndexError \/ even_ds ds -> (i < samples_in ds)%nat -> name = lit "timestamp" \/ In name (map fd_name (ds_fields ds)) -> raises P (element name i ds).
  Proof.
    intros V Hi Hn. unfold element. apply raises_bind; [apply raises_lookup|]. intros c E. unfold lookup in E. destruct (sget name (ds_data ds)) as [c'|] eqn:G; [|discriminate]. injection E as ->.
    destruct (nth_error (c_raw c) i) eqn:En; [apply raises_ok|]. apply raises_err. destruct V as [V|(_ & V)]; [exact V|]. apply nth_error_None in En. specialize (V name c Hn G). lia.
  Qed.
  Lemma raises_elem c v : P UnicodeEncodeError \/ (forall z, c = CChar -> v = VInt z -> z < 128) -> raises P (write_elem c v).
  Proof.
    intros U. unfold write_elem. destruct c; try (apply raises_packval). destruct v as [z| | | |]; try (now apply raises_err).
    destruct (Z.leb_spec 0 z); cbn [andb]; [|now apply raises_err]. destruct (Z.ltb_spec z 1114112); [|now apply raises_err].
    apply raises_bind; [|intros b _; apply raises_packval].
    apply raises_utf8. destruct U as [U|U]; [now left|right]. specialize (U z eq_refl eq_refl). constructor; [lia|constructor].
  Qed.
  Lemma raises_dataset ds : P IndexError \/ even_ds ds -> P UnicodeEncodeError \/ ascii_ds ds ->
    (forall i v, elem_at ds (lit "timestamp") i v -> exists t, v = VInt t) -> raises P (dataset_items ds).
  Proof.
    intros V U T. unfold dataset_items. destruct (ds_fields ds) as [|fd r] eqn:Ef.
    { apply raises_err. destruct V as [V|(V & _)]; [exact V|congruence]. }
    apply raises_bind; [apply raises_lookup|]. intros col E. apply raises_mapM. intros i Hi. apply in_seq in Hi.
    assert (Hs : (i < samples_in ds)%nat). { unfold samples_in. rewrite Ef. unfold lookup in E. destruct (sget (fd_name fd) (ds_data ds)) as [c|]; [|discriminate]. injection E as ->. lia. }
    unfold sample_item. apply raises_bind; [apply raises_element; auto|]. intros t Et. apply raises_bind; [apply raises_pack|]. intros ib _. apply raises_bind.
    - apply raises_mapM. intros fd' Hf. apply raises_bind; [apply raises_element; auto; right; now apply in_map|]. intros x Ex. apply element_iff in Ex. rewrite Ef in Hf. apply raises_elem.
      destruct U as [U|U]; [now left|right]. intros z Hc ->. apply (U fd' i z); auto. now rewrite Ef.
    - intros fs _. apply raises_bind; [apply raises_put|]. intros m _. apply element_iff in Et. destruct (T i t Et) as (z & ->). apply raises_ok.
  Qed.
End parts.

Theorem raises_write (P : exn -> Prop) u : Forall P rewrite_exceptions -> covered u ->
  P IndexError \/ (u_incompat u <> [] /\ Forall even_ds (u_data u)) ->
  P UnicodeEncodeError \/ (encodable_log u /\ Forall (fun nm => encodable (mf_name (snd nm))) (u_formats u) /\ Forall ascii_ds (u_data u)) -> raises P (write u).
Proof.
  intros HP C3 V U. unfold covered in C3. unfold rewrite_exceptions in HP. rewrite !Forall_cons_iff in HP. destruct HP as (PS & PK & PT & PV & PO & _).
  assert (Tx : forall l v, (encodable_log u -> Forall encodable l /\ encodable_value v) -> texts P l v) by (intros l v H; destruct U as [U|(U & _)]; [now left|right; auto]).
  assert (Ut : forall s, (encodable_log u -> encodable s) -> P UnicodeEncodeError \/ encodable s) by (intros s H; destruct U as [U|(U & _)]; [now left|right; auto]).
  rewrite Forall_forall in C3. unfold write.
  apply raises_bind; [|intros ? _]. { unfold write_header. apply raises_bind; [now apply raises_pack|]. intros. apply raises_bind; [now apply raises_pack|]. intros; apply raises_ok. }
  assert (P8 : forall l, raises P (pack_8 l)) by (intros l; unfold pack_8; destruct (Nat.eqb _ _); [apply raises_rmap, raises_mapM; intros; now apply raises_pack|now apply raises_err]).
  apply raises_bind; [|intros ? _].
  { unfold write_flags. apply raises_bind; [apply P8|]. intros. destruct (u_incompat u); [apply raises_err; destruct V as [V|(V & _)]; [exact V|congruence]|].
    apply raises_bind; [apply P8|]. intros. apply raises_bind; [apply raises_rmap, raises_mapM; intros; now apply raises_pack|]. intros. now apply raises_put. }
  apply raises_bind; [|intros ? _].
  { unfold write_formats. apply raises_mapM. intros m Hm. apply in_map_iff in Hm as (nm & <- & Hm). apply raises_format; auto. destruct U as [U|(U & U2 & _)]; [now left|right].
    split; [rewrite Forall_forall in U2; now apply U2|]. pose proof (en_formats _ U) as F. rewrite Forall_forall in F. apply F, Hm. }
  apply raises_bind; [|intros ? _].
  { unfold write_info. apply raises_mapM. intros kv Hkv. apply raises_bind; [now apply raises_lookup|]. intros ty E. unfold lookup in E. destruct (sget (fst kv) (u_infot u)) as [ty'|] eqn:G; [|discriminate].
    injection E as ->. apply raises_info; try assumption. apply Tx. intros L. pose proof (en_info _ L) as F. pose proof (en_infot _ L) as F'. rewrite Forall_forall in F, F'.
    destruct (F kv Hkv) as (A & B). apply (dget_In str_eqb str_eqb_spec) in G. destruct (F' _ G) as (_ & B'). split; [|exact B]. constructor; [exact B'|constructor; [exact A|constructor]]. }
  apply raises_bind; [|intros ? _].
  { unfold write_multi. apply raises_rmap, raises_mapM. intros kl Hkl. apply raises_bind; [now apply raises_lookup|]. intros ty E. unfold lookup in E. destruct (sget (fst kl) (u_multit u)) as [ty'|] eqn:G; [|discriminate].
    injection E as ->. apply raises_rmap, raises_mapM. intros vs Hvs. apply raises_set; auto. intros v Hv. apply Tx. intros L. pose proof (en_multi _ L) as F. pose proof (en_multit _ L) as F'. rewrite Forall_forall in F, F'. destruct (F kl Hkl) as (A & B).
      apply (dget_In str_eqb str_eqb_spec) in G. destruct (F' _ G) as (_ & B'). rewrite Forall_forall in B. specialize (B vs Hvs). rewrite Forall_forall in B. split; [|now apply B].
      constructor; [exact B'|constructor; [exact A|constructor]]. }
  apply raises_bind; [|intros ? _].
  { unfold write_params. apply raises_mapM. intros kv Hkv. apply raises_param; auto. apply Tx. intros L. pose proof (en_params _ L) as F. rewrite Forall_forall in F. destruct (F kv Hkv). split; auto. }
  apply raises_bind; [|intros ? _].
  { unfold write_defaults. apply raises_rmap, raises_mapM. intros bd Hbd. destruct (fst bd <? 0); [now apply raises_err|]. apply raises_mapM. intros kv Hkv. apply raises_pdef; auto.
    apply Tx. intros L. pose proof (en_defaults _ L) as F. rewrite Forall_forall in F. specialize (F bd Hbd). rewrite Forall_forall in F. destruct (F kv Hkv). split; auto. }
  assert (By : forall ds, In ds (by_id u) -> In ds (u_data u)) by (intros ds H; unfold by_id in H; apply (Permutation_in _ (Permutation_sym (ssort_perm id_leb (u_data u)))); exact H).
  apply raises_bind; [|intros ? _].
  { unfold write_subscriptions. apply raises_mapM. intros ds Hds. apply By in Hds. apply raises_bind; [now apply raises_pack|]. intros. apply raises_bind; [now apply raises_pack|]. intros.
    apply raises_bind; [|intros; now apply raises_put]. apply raises_utf8; auto. apply Ut. intros L. pose proof (en_data _ L) as F. rewrite Forall_forall in F. apply F, Hds. }
  apply raises_bind; [|intros; apply raises_ok]. unfold write_data.
  apply raises_bind; [|intros ? _].
  { unfold data_items. apply raises_rmap, raises_mapM. intros ds Hds. apply By in Hds. apply raises_dataset; auto.
    - destruct V as [V|(_ & V)]; [now left|right; rewrite Forall_forall in V; auto].
    - destruct U as [U|(_ & _ & U)]; [now left|right; rewrite Forall_forall in U; auto].
    - exact (C3 ds Hds). }
  apply raises_bind; [|intros ? _].
  { unfold logged_items. apply raises_mapM. intros m Hm. apply raises_bind; [now apply raises_pack|]. intros. apply raises_bind; [now apply raises_pack|]. intros.
    apply raises_bind; [|intros; apply raises_bind; [now apply raises_put|intros; apply raises_ok]]. apply raises_utf8; auto. apply Ut. intros L. pose proof (en_logged _ L) as F. rewrite Forall_forall in F. apply F, Hm. }
  apply raises_bind; [|intros ? _].
  { unfold tagged_items. apply raises_rmap, raises_mapM. intros tl Htl. apply in_map_iff in Htl as (kt & <- & Hkt). apply raises_mapM. intros m Hm.
    apply raises_bind; [now apply raises_pack|]. intros. apply raises_bind; [now apply raises_pack|]. intros. apply raises_bind; [now apply raises_pack|]. intros.
    apply raises_bind; [|intros; apply raises_bind; [now apply raises_put|intros; apply raises_ok]]. apply raises_utf8; auto. apply Ut. intros L. pose proof (en_tagged _ L) as F. rewrite Forall_forall in F.
    specialize (F kt Hkt). rewrite Forall_forall in F. now apply F. }
  apply raises_bind; [|intros ? _].
  { unfold dropout_items. apply raises_mapM. intros. apply raises_bind; [now apply raises_pack|]. intros. apply raises_bind; [now apply raises_put|]. intros; apply raises_ok. }
  apply raises_bind; [|intros; apply raises_ok].
  unfold changed_items. apply raises_mapM. intros c Hc. assert (Tc : texts P [snd (fst c)] (snd c)).
  { apply Tx. intros L. pose proof (en_changed _ L) as F. rewrite Forall_forall in F. destruct (F c Hc). split; auto. }
  pose proof (raises_param P PS PK PT PO (snd (fst c)) (snd c) T_PARAM Tc) as Q. intros e E.
  destruct (parameter_data (snd (fst c)) (snd c)) as [d|y]; cbn [bind] in *; [|apply Q; injection E as ->; reflexivity].
  revert e E. apply raises_bind; [exact Q|]. intros; apply raises_ok.
Qed.
Lemma loaded_even d : clean_ds d -> sized_ds d -> even_ds d /\ ascii_ds d.
Proof.
  intros C [N T F (n & Hn & Hc) Ht]. pose proof (cd_cols _ C) as Cc. rewrite Forall_forall in Cc.
  assert (Hl : forall fd c', In fd (ds_fields d) -> sget (fd_name fd) (ds_data d) = Some c' ->
    length (c_raw c') = n /\ c_type c' = np_of (fd_type fd) /\ Forall (fun z => 0 <= z < 256 ^ Z.of_nat (ctype_size (fd_type fd))) (c_raw c')).
  { intros fd c' Hf E. assert (Hne : fd_name fd <> []) by (apply (Cc fd Hf); now exists c'). destruct (Hc fd Hf Hne) as (raws & E' & L & R). rewrite E' in E. injection E as <-. auto. }
  split.
  - split; [exact F|]. intros name c Hname G.
    assert (Hs : (samples_in d <= n)%nat).
    { unfold samples_in. destruct (ds_fields d) as [|fd0 fr] eqn:Ef; [lia|]. destruct (sget (fd_name fd0) (ds_data d)) as [c0|] eqn:E0; [|cbn; lia]. destruct (Hl fd0 c0 (or_introl eq_refl) E0). cbn. lia. }
    assert (Hfd : exists fd, In fd (ds_fields d) /\ fd_name fd = name).
    { destruct Hname as [->|Hname]; [exact (Ht c G)|]. apply in_map_iff in Hname as (fd & <- & Hf). eauto. }
    destruct Hfd as (fd & Hf & <-). destruct (Hl fd c Hf G). lia.
  - intros fd i z Hf Hty (c & raw & G & En & E). destruct (Hl fd c Hf G) as (_ & Ht' & R). rewrite Hty in *. rewrite Ht' in E.
    apply nth_error_In in En. rewrite Forall_forall in R. specialize (R raw En). change (256 ^ Z.of_nat (ctype_size CChar)) with 256 in R.
    unfold np_of, np_elem, to_signed in E. cbn in E. injection E as Ez. rewrite <- ?Ez. destruct (Z.ltb_spec raw 128); lia.
Qed.
