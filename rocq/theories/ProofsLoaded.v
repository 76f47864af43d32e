(** Texts and numbers of loaded logs: an invariant of the reader. *)
From Coq Require Import Permutation.
From Verif Require Import Base Dict Utf8 PyStr PyFloat Struct PySort ModelTypes ModelRead Spec SpecDb SpecStorable SpecLoaded
  ProofsRead ProofsSync ProofsInv ProofsTrace ProofsChange ProofsEq.
Ltac Zify.zify_post_hook ::= Z.div_mod_to_equations.

(** ** texts *)
Lemma decode_encodable_aux n : forall ign l s, (length l <= n)%nat -> utf8_decode ign l = Ok s -> encodable s.
Proof.
  induction n as [|n IH]; intros ign l s Hl H.
  - destruct l; [|cbn in Hl; lia]. injection H as <-. constructor.
  - destruct l as [|b0 r]; [injection H as <-; constructor|]. cbn [length] in Hl. cbn [utf8_decode] in H.
    assert (Hbad : (if ign then utf8_decode ign r else Err UnicodeDecodeError) = Ok s -> encodable s).
    { destruct ign; [|discriminate]. apply IH. lia. }
    destruct ((0 <=? b0) && (b0 <? 128)) eqn:E1.
    { apply bind_Ok_inv in H as (t & Ht & H). injection H as <-. apply Forall_cons; [lia|]. eapply IH; [|exact Ht]. lia. }
    destruct ((194 <=? b0) && (b0 <? 224)) eqn:E2.
    { destruct r as [|b1 r1]; [exact (Hbad H)|]. destruct (is_cont b1) eqn:C1; [|exact (Hbad H)].
      apply bind_Ok_inv in H as (t & Ht & H). injection H as <-. unfold is_cont in C1. cbn [length] in Hl. apply Forall_cons; [lia|]. eapply IH; [|exact Ht]. lia. }
    destruct ((224 <=? b0) && (b0 <? 240)) eqn:E3.
    { destruct r as [|b1 [|b2 r2]]; [exact (Hbad H)|exact (Hbad H)|]. cbv zeta in H.
      destruct (_ && _ && _ && scalar_ok _) eqn:C1; [|exact (Hbad H)]. apply andb_true_iff in C1 as [_ C1]. apply scalar_ok_iff in C1.
      apply bind_Ok_inv in H as (t & Ht & H). injection H as <-. cbn [length] in Hl. apply Forall_cons; [exact C1|]. eapply IH; [|exact Ht]. lia. }
    destruct ((240 <=? b0) && (b0 <? 245)) eqn:E4; [|exact (Hbad H)].
    destruct r as [|b1 [|b2 [|b3 r3]]]; [exact (Hbad H)|exact (Hbad H)|exact (Hbad H)|]. cbv zeta in H.
    destruct (_ && _ && _ && _ && scalar_ok _) eqn:C1; [|exact (Hbad H)]. apply andb_true_iff in C1 as [_ C1]. apply scalar_ok_iff in C1.
    apply bind_Ok_inv in H as (t & Ht & H). injection H as <-. cbn [length] in Hl. apply Forall_cons; [exact C1|]. eapply IH; [|exact Ht]. lia.
Qed.
Lemma decode_encodable ign d s : parse_string ign d = Ok s -> encodable s.
Proof. apply decode_encodable_aux with (n := length d). lia. Qed.
Lemma encodable_split c s : encodable s -> Forall encodable (split1 c s).
Proof.
  induction 1 as [|x s Hx H IH]; cbn [split1]; [repeat constructor|].
  destruct (x =? c); [constructor; [constructor|exact IH]|]. destruct (split1 c s) as [|h t]; [repeat constructor; apply Hx|].
  inversion IH; subst. constructor; [constructor|]; assumption.
Qed.
Lemma py_nth_Forall {A} (P : A -> Prop) l i x : Forall P l -> py_nth l i = Ok x -> P x.
Proof.
  intros H E. unfold py_nth in E. destruct (nth_error l i) as [y|] eqn:N; [|discriminate]. injection E as <-.
  rewrite Forall_forall in H. apply H. eapply nth_error_In; eauto.
Qed.
Lemma encodable_app a b : encodable a -> encodable b -> encodable (a ++ b).
Proof. intros A B. apply Forall_app. split; assumption. Qed.
Lemma encodable_pyslice a b s : encodable s -> encodable (py_slice a b s).
Proof. intros H. unfold py_slice. apply Forall_slice. exact H. Qed.
Lemma encodable_dec_digits fuel : forall n acc, encodable acc -> encodable (dec_digits fuel n acc).
Proof.
  induction fuel as [|k IH]; intros n acc H; cbn [dec_digits]; [exact H|].
  assert (H' : encodable ((48 + n mod 10) :: acc)) by (apply Forall_cons; [lia|exact H]).
  cbv zeta. destruct (n / 10 =? 0); [exact H'|]. apply IH. exact H'.
Qed.
Lemma encodable_str_of_Z n : encodable (str_of_Z n).
Proof.
  unfold str_of_Z, str_of_nonneg. destruct (n <? 0); [apply Forall_cons; [lia|]|]; apply encodable_dec_digits; constructor.
Qed.
Lemma encodable_idx i : encodable (idx_str i).
Proof. unfold idx_str. apply Forall_cons; [lia|]. apply encodable_app; [apply encodable_str_of_Z|]. apply Forall_cons; [lia|constructor]. Qed.
Lemma encodable_surrogate s : encodable s -> no_surrogate s.
Proof. apply Forall_impl. intros c (_ & H). exact H. Qed.

(** ** numbers *)
Lemma unpack_u_range n d v : bytes_ok d -> unpack_u n d = Ok v -> 0 <= v < 256 ^ Z.of_nat n.
Proof. intros Hd H. apply unpack_u_Ok in H as (L & <-). rewrite <- L. apply le_dec_range. exact Hd. Qed.
Definition clean_value (v : value) : Prop := match v with VInt z => - 2 ^ 63 <= z < 2 ^ 64 | VStr s => encodable s | _ => True end.
Lemma unpack_val_clean c d v : bytes_ok d -> unpack_val c d = Ok v -> clean_value v.
Proof.
  intros Hd H. unfold unpack_val in H. apply bind_Ok_inv in H as (z & Hz & H). apply unpack_u_range in Hz; [|exact Hd].
  apply (f_equal (fun r => match r with Ok x => x | Err _ => VInt 0 end)) in H. cbv beta iota in H. subst v.
  change (2 ^ 63) with 9223372036854775808. change (2 ^ 64) with 18446744073709551616.
  destruct c; cbn [clean_value ctype_signed ctype_size] in *; try exact I; unfold to_signed;
    try (change (256 ^ Z.of_nat 1) with 256 in * ); try (change (256 ^ Z.of_nat 2) with 65536 in * );
    try (change (256 ^ Z.of_nat 4) with 4294967296 in * ); try (change (256 ^ Z.of_nat 8) with 18446744073709551616 in * );
    repeat match goal with |- context[if ?b then _ else _] => destruct b eqn:? end; lia.
Qed.

(** ** messages *)
Lemma parse_info_clean ign d m : bytes_ok d -> parse_info ign d = Ok m -> encodable (im_type m) /\ encodable (im_key m) /\ clean_value (im_value m).
Proof.
  intros Hd H. unfold parse_info in H. apply bind_Ok_inv in H as (kl & _ & H). apply bind_Ok_inv in H as (tk & Ht & H). cbv zeta in H.
  apply bind_Ok_inv in H as (ty & Hty & H). apply bind_Ok_inv in H as (key & Hk & H).
  apply decode_encodable in Ht. apply (encodable_split 32) in Ht. pose proof (py_nth_Forall _ _ _ _ Ht Hty) as E1. pose proof (py_nth_Forall _ _ _ _ Ht Hk) as E2.
  destruct (starts_with _ ty).
  - apply bind_Ok_inv in H as (s & Hs & H). injection H as <-. cbn. apply decode_encodable in Hs. auto.
  - destruct (ctype_of ty) as [c|].
    + apply bind_Ok_inv in H as (v & Hv & H). injection H as <-. cbn [im_type im_key im_value]. apply unpack_val_clean in Hv; [auto|]. apply Forall_dropZ. exact Hd.
    + injection H as <-. cbn. auto.
Qed.
Lemma extract_type_clean s x : encodable s -> extract_type s = Ok x -> encodable (fst (fst x)) /\ encodable (snd x).
Proof.
  intros Hs H. unfold extract_type in H. cbv zeta in H. apply bind_Ok_inv in H as (ty & Hty & H). apply bind_Ok_inv in H as (nm & Hn & H).
  apply (encodable_split 32) in Hs. pose proof (py_nth_Forall _ _ _ _ Hs Hty) as E1. pose proof (py_nth_Forall _ _ _ _ Hs Hn) as E2.
  destruct (find_char 91 ty =? -1); [injection H as <-; auto|]. apply bind_Ok_inv in H as (n & _ & H). injection H as <-. cbn. split; [now apply encodable_pyslice|exact E2].
Qed.
Lemma parse_format_clean ign d m : parse_format ign d = Ok m ->
  encodable (mf_name m) /\ Forall (fun f => encodable (fst (fst f)) /\ encodable (snd f)) (mf_fields m).
Proof.
  intros H. unfold parse_format in H. apply bind_Ok_inv in H as (s & Hs & H). cbv zeta in H. apply bind_Ok_inv in H as (nm & Hn & H). apply bind_Ok_inv in H as (rest & Hr & H).
  apply bind_Ok_inv in H as (fs & Hf & H). injection H as <-. cbn [mf_name mf_fields].
  apply decode_encodable in Hs. apply (encodable_split 58) in Hs. pose proof (py_nth_Forall _ _ _ _ Hs Hn) as E1. pose proof (py_nth_Forall _ _ _ _ Hs Hr) as E2.
  split; [exact E1|]. apply (encodable_split 59) in E2. rewrite Forall_forall in *. intros x Hx. destruct (mapM_In _ _ _ Hf _ Hx) as (y & Hy & E).
  apply filter_In in Hy as (Hy & _). apply extract_type_clean with (1 := E2 _ Hy). exact E.
Qed.

(** ** subscriptions *)
Lemma foldM_inv {A B} (f : A -> B -> res A) (P : A -> Prop) l : (forall a b a', In b l -> P a -> f a b = Ok a' -> P a') ->
  forall a a', P a -> foldM f l a = Ok a' -> P a'.
Proof.
  induction l as [|b l IH]; intros Hf a a' Ha H; cbn [foldM] in H; [injection H as <-; exact Ha|].
  apply bind_Ok_inv in H as (a1 & H1 & H). eapply IH; [|eapply Hf; [left; reflexivity|exact Ha|exact H1]|exact H]. intros x y z Hy. apply Hf. now right.
Qed.
Definition clean_fds (st : fd_state) : Prop := Forall (fun f => encodable (fd_name f)) (fst st) /\ -1 <= snd st.
Definition clean_formats (fmts : dict str mformat) : Prop :=
  Forall (fun nm => encodable (fst nm) /\ Forall (fun f => encodable (fst (fst f)) /\ encodable (snd f)) (mf_fields (snd nm))) fmts.
Lemma parse_nested_clean depth fmts : clean_formats fmts -> forall prefix tn st st', encodable prefix -> clean_fds st ->
  parse_nested depth fmts prefix tn st = Ok st' -> clean_fds st'.
Proof.
  intros HF. induction depth as [|n IH]; intros prefix tn st st' Hp Hs H; [discriminate|]. cbn [parse_nested] in H.
  destruct (sget tn fmts) as [fmt|] eqn:E; [|discriminate]. apply (dget_In str_eqb str_eqb_spec) in E. unfold clean_formats in HF. rewrite Forall_forall in HF.
  destruct (HF _ E) as (_ & Hfs). cbn [snd] in Hfs. clear E. revert H. apply foldM_inv; [|exact Hs]. clear st st' Hs. intros st [[ty size] name] st' Hi Hs H.
  rewrite Forall_forall in Hfs. destruct (Hfs _ Hi) as (_ & Hn). cbn [snd] in Hn. destruct (ctype_of ty) as [c|].
  - apply (f_equal (fun r => match r with Ok x => x | Err _ => st end)) in H. cbv beta iota zeta in H. subst st'. split.
    + cbn [fst]. apply Forall_app. split; [apply Hs|]. rewrite Forall_map. cbn [fd_name]. destruct (0 <? size).
      * rewrite Forall_map. apply Forall_forall. intros i _. apply encodable_app; [exact Hp|]. apply encodable_app; [exact Hn|apply encodable_idx].
      * apply Forall_cons; [|constructor]. now apply encodable_app.
    + cbn [snd]. destruct (str_eqb _ _); [|apply Hs]. match goal with |- _ <= lenZ ?l - 1 => pose proof (lenZ_nonneg l) end. lia.
  - assert (Hd : encodable [46]) by (apply Forall_cons; [lia|constructor]). destruct (0 <? size).
    + revert H. apply foldM_inv; [|exact Hs]. intros a i a' _ Ha Hx. eapply IH; [|exact Ha|exact Hx]. apply encodable_app; [exact Hp|]. apply encodable_app; [exact Hn|]. apply encodable_app; [apply encodable_idx|exact Hd].
    + eapply IH; [|exact Hs|exact H]. apply encodable_app; [exact Hp|]. apply encodable_app; [exact Hn|exact Hd].
Qed.
Lemma strip_padding_incl l f : In f (strip_padding l) -> In f l.
Proof.
  unfold strip_padding. intros H. apply in_rev in H. apply in_rev. revert H. generalize (rev l). intros k. induction k as [|x k IH]; cbn [drop_padding]; [auto|].
  destruct (is_padding x); intros H; [right; auto|exact H].
Qed.
Lemma np_dtype_aux_names l : forall i seen dt, np_dtype_aux i seen l = Ok dt ->
  (forall f, In f l -> fd_name f <> [] -> In (fd_name f) (map fst dt)) /\ ~ In [] (map fst dt).
Proof.
  induction l as [|fd l IH]; intros i seen dt H; cbn [np_dtype_aux] in H; [injection H as <-; split; [intros f []|intros []]|]. cbv zeta in H.
  match type of H with (if existsb ?p seen then _ else _) = _ => destruct (existsb p seen); [discriminate|] end. apply bind_Ok_inv in H as (t & Ht & H). destruct (IH _ _ _ Ht) as (A & B). injection H as <-. cbn [map fst]. split.
  - intros f [<-|Hf] Hn; [left; destruct (fd_name fd); [destruct (Hn eq_refl)|reflexivity]|right; auto].
  - intros [E|E]; [|exact (B E)]. destruct (fd_name fd); discriminate.
Qed.
Record clean_sub (s : subscr) : Prop := {
  cs_name : encodable (sb_name s); cs_multi : 0 <= sb_multi s < 256; cs_id : 0 <= sb_id s < 65536; cs_ts : -1 <= sb_tsidx s;
  cs_fields : Forall (fun f => encodable (fd_name f)) (sb_fields s);
  cs_cols : Forall (fun f => fd_name f <> [] -> In (fd_name f) (map fst (sb_dtype s))) (sb_fields s);
  cs_empty : ~ In [] (map fst (sb_dtype s)) }.
Lemma parse_add_clean cf fmts d s : bytes_ok d -> clean_formats fmts -> parse_add cf fmts d = Ok s -> clean_sub s.
Proof.
  intros Hd HF H. unfold parse_add in H. apply bind_Ok_inv in H as (mu & H1 & H). apply bind_Ok_inv in H as (id & H2 & H). apply bind_Ok_inv in H as (nm & H3 & H).
  apply bind_Ok_inv in H as (st & H4 & H). cbv zeta in H. apply bind_Ok_inv in H as (dt & H5 & H). injection H as <-.
  apply unpack_u_range in H1; [|now apply Forall_slice]. apply unpack_u_range in H2; [|now apply Forall_slice]. apply decode_encodable in H3.
  apply parse_nested_clean in H4; [|exact HF|constructor|split; [constructor|cbn; lia]]. destruct H4 as (F & T). destruct (np_dtype_aux_names _ _ _ _ H5) as (A & B).
  split; cbn [sb_name sb_multi sb_id sb_tsidx sb_fields sb_dtype]; auto.
  - apply Forall_forall. intros f Hf. rewrite Forall_forall in F. apply F. now apply strip_padding_incl.
  - apply Forall_forall. exact A.
Qed.
Record clean_ds (d : dataset) : Prop := {
  cd_name : encodable (ds_name d); cd_multi : 0 <= ds_multi d < 256; cd_id : 0 <= ds_id d < 65536; cd_ts : -1 <= ds_tsidx d;
  cd_fields : Forall (fun f => encodable (fd_name f)) (ds_fields d);
  cd_cols : Forall (fun f => fd_name f <> [] <-> exists c, sget (fd_name f) (ds_data d) = Some c) (ds_fields d) }.
Lemma dataset_of_clean s d : clean_sub s -> dataset_of s = Ok d -> clean_ds d.
Proof.
  intros Hs H. pose proof (dataset_of_keys s d H) as K. unfold dataset_of in H. cbv zeta in H. destruct (_ || _); [discriminate|]. injection H as <-. destruct Hs.
  split; cbn [ds_name ds_multi ds_id ds_tsidx ds_fields]; auto. cbn [ds_data] in K |- *. rewrite Forall_forall in *. intros f Hf. split.
  - intros Hn. specialize (cs_cols0 f Hf Hn). rewrite <- K in cs_cols0. exact (dget_Some_key str_eqb str_eqb_spec _ _ cs_cols0).
  - intros (c & E) Hn. apply (dget_In str_eqb str_eqb_spec) in E. apply cs_empty0. rewrite <- K, <- Hn. apply in_map_iff. exists (fd_name f, c). split; [reflexivity|exact E].
Qed.

(** ** the invariant *)
Lemma Forall_dset_key {K V} (eqb : K -> K -> bool) (eqb_spec : forall a b, reflect (a = b) (eqb a b)) (P : K * V -> Prop) k v (d : dict K V) :
  P (k, v) -> Forall P d -> Forall P (dset eqb k v d).
Proof.
  intros Hv H. induction H as [|[k' v'] d Hp H IH]; cbn [dset]; [constructor; auto|].
  destruct (eqb_spec k k') as [<-|]; constructor; auto.
Qed.
Definition is_typed (types : dict str str) (key : str) : Prop := exists ty, sget key types = Some ty.
Lemma is_typed_set types k ty key : is_typed types key -> is_typed (sset k ty types) key.
Proof.
  intros (t & H). destruct (str_eqb_spec key k) as [->|N].
  - exists ty. apply (dget_dset_eq str_eqb str_eqb_spec).
  - exists t. rewrite (dget_dset_neq str_eqb str_eqb_spec) by exact N. exact H.
Qed.
Lemma is_typed_new types k ty : is_typed (sset k ty types) k.
Proof. exists ty. apply (dget_dset_eq str_eqb str_eqb_spec). Qed.
Record clean (u : ulog) : Prop := {
  cl_head : 0 <= u_version u < 256 /\ 0 <= u_start u <= u_last u /\ u_last u < 2 ^ 64 /\ 0 <= u_sync_cnt u /\ bytes_ok (u_compat u) /\ bytes_ok (u_incompat u);
  cl_offsets : lenZ (u_offsets u) <= 3 /\ Forall (fun x => 0 <= x < 2 ^ 64) (u_offsets u);
  cl_subs : Forall (fun ks => clean_sub (snd ks)) (u_subs u);
  cl_data : Forall clean_ds (u_data u);
  cl_drop : Forall (fun x => 0 <= dr_ts x <= u_last u /\ 0 <= dr_dur x < 65536) (u_dropouts u);
  cl_logged : Forall (fun m => 0 <= lg_level m < 256 /\ 0 <= lg_ts m < 2 ^ 64 /\ encodable (lg_msg m)) (u_logged u);
  cl_tagged : Forall (fun tl => 0 <= fst tl < 65536 /\ Forall (fun m => 0 <= tg_level m < 256 /\ 0 <= tg_ts m < 2 ^ 64 /\ encodable (tg_msg m)) (snd tl)) (u_tagged u);
  cl_formats : clean_formats (u_formats u);
  cl_info : Forall (fun kv => encodable (fst kv) /\ clean_value (snd kv) /\ is_typed (u_infot u) (fst kv)) (u_info u);
  cl_infot : Forall (fun kv => encodable (fst kv) /\ encodable (snd kv)) (u_infot u);
  cl_multi : Forall (fun kl => encodable (fst kl) /\ is_typed (u_multit u) (fst kl) /\ Forall (Forall clean_value) (snd kl)) (u_multi u);
  cl_multit : Forall (fun kv => encodable (fst kv) /\ encodable (snd kv)) (u_multit u);
  cl_params : Forall (fun kv => encodable (fst kv) /\ clean_value (snd kv)) (u_params u);
  cl_defaults : Forall (fun td => -1 <= fst td < 256 /\ Forall (fun kv => encodable (fst kv) /\ clean_value (snd kv)) (snd td)) (u_defaults u);
  cl_changed : Forall (fun c => 0 <= fst (fst c) <= u_last u /\ encodable (snd (fst c)) /\ clean_value (snd c)) (u_changed u) }.

Lemma clean_add_info m u : encodable (im_type m) -> encodable (im_key m) -> clean_value (im_value m) -> clean u -> clean (add_info m u).
Proof.
  intros T K V []. constructor; usimp; auto.
  - apply (Forall_dset_key _ str_eqb_spec).
    + split; [exact K|]. split; [exact V|]. apply is_typed_new.
    + eapply Forall_impl; [|exact cl_info0]. intros kv (A & B & C). split; [exact A|]. split; [exact B|]. now apply is_typed_set.
  - apply (Forall_dset_key _ str_eqb_spec); auto.
Qed.
Lemma append_last_clean l : forall v l', clean_value v -> Forall (Forall clean_value) l -> append_last l v = Ok l' -> Forall (Forall clean_value) l'.
Proof.
  induction l as [|g l IH]; intros v l' V H E; [discriminate|]. inversion H; subst. destruct l as [|g' l].
  - injection E as <-. constructor; [|constructor]. apply Forall_app. split; [assumption|repeat constructor; assumption].
  - change (append_last (g :: g' :: l) v) with (let* r' := append_last (g' :: l) v in Ok (g :: r')) in E. apply bind_Ok_inv in E as (r & Er & E). injection E as <-.
    constructor; [assumption|]. eapply IH; eauto.
Qed.
Lemma clean_add_multi c m u u' : encodable (im_type m) -> encodable (im_key m) -> clean_value (im_value m) -> clean u -> add_info_multi c m u = Ok u' -> clean u'.
Proof.
  intros T K V Hc H. unfold add_info_multi in H. destruct (sget (im_key m) (u_multi u)) as [l|] eqn:E.
  - apply (dget_In str_eqb str_eqb_spec) in E. pose proof (cl_multi _ Hc) as M. rewrite Forall_forall in M. destruct (M _ E) as (A & B & C). cbn [fst snd] in *.
    destruct (negb _).
    + apply bind_Ok_inv in H as (l' & Hl & H). injection H as <-. destruct Hc. constructor; usimp; auto. apply (Forall_dset_key _ str_eqb_spec); [|exact cl_multi0].
      split; [exact A|]. split; [exact B|]. eapply append_last_clean; eauto.
    + injection H as <-. destruct Hc. constructor; usimp; auto. apply (Forall_dset_key _ str_eqb_spec); [|exact cl_multi0].
      split; [exact A|]. split; [exact B|]. apply Forall_app. split; [exact C|]. repeat constructor; exact V.
  - injection H as <-. destruct Hc. constructor; usimp; auto.
    + apply (Forall_dset_key _ str_eqb_spec).
      * split; [exact K|]. split; [apply is_typed_new|]. repeat constructor; exact V.
      * eapply Forall_impl; [|exact cl_multi0]. intros kv (A & B & C). split; [exact A|]. split; [|exact C]. now apply is_typed_set.
    + apply (Forall_dset_key _ str_eqb_spec); auto.
Qed.
Lemma low_bit b : 0 <= b < 256 -> -1 <= Z.land b (Z.lnot b + 1) - 1 < 256 /\ 0 <= Z.lxor b (Z.land b (Z.lnot b + 1)) < 256.
Proof.
  intros H.
  assert (T : forallb (fun n => let b := Z.of_nat n in let d := Z.land b (Z.lnot b + 1) in
    (-1 <=? d - 1) && (d - 1 <? 256) && (0 <=? Z.lxor b d) && (Z.lxor b d <? 256)) (seq 0 256) = true) by (vm_compute; reflexivity).
  rewrite forallb_forall in T. specialize (T (Z.to_nat b) ltac:(apply in_seq; lia)). cbv zeta in T. rewrite Z2Nat.id in T by lia. lia.
Qed.
Lemma add_bits_clean fuel : forall bits key v (d : dict Z (dict str value)), 0 <= bits < 256 -> encodable key -> clean_value v ->
  Forall (fun td => -1 <= fst td < 256 /\ Forall (fun kv => encodable (fst kv) /\ clean_value (snd kv)) (snd td)) d ->
  Forall (fun td => -1 <= fst td < 256 /\ Forall (fun kv => encodable (fst kv) /\ clean_value (snd kv)) (snd td)) (add_default_bits fuel bits key v d).
Proof.
  induction fuel as [|n IH]; intros bits key v d Hb K V H; cbn [add_default_bits]; [exact H|]. destruct (bits =? 0); [exact H|]. cbv zeta.
  destruct (low_bit bits Hb) as (L1 & L2). apply IH; auto. unfold set_default. cbv zeta. set (t := Z.land _ _ - 1) in *. set (d' := if zmem t d then d else zset t [] d).
  assert (Hd : Forall (fun td => -1 <= fst td < 256 /\ Forall (fun kv => encodable (fst kv) /\ clean_value (snd kv)) (snd td)) d').
  { unfold d'. destruct (zmem t d); auto. apply (Forall_dset_key _ Zeqb_spec); auto. split; [exact L1|constructor]. }
  destruct (zget t d') as [m|] eqn:E; [|exact Hd]. apply (dget_In Z.eqb Zeqb_spec) in E. apply (Forall_dset_key _ Zeqb_spec); [|exact Hd].
  split; [exact L1|]. cbn [snd]. rewrite Forall_forall in Hd. apply (Forall_dset_key _ str_eqb_spec); [split; assumption|]. exact (proj2 (Hd _ E)).
Qed.
Lemma parse_flags_clean d c i o : bytes_ok d -> parse_flags d = Ok (c, i, o) ->
  bytes_ok c /\ bytes_ok i /\ lenZ o <= 3 /\ Forall (fun x => 0 <= x < 2 ^ 64) o.
Proof.
  intros Hd H. unfold parse_flags in H. apply bind_Ok_inv in H as (c' & Hc & H). apply bind_Ok_inv in H as (i' & Hi & H). apply bind_Ok_inv in H as (o' & Ho & H).
  injection H as <- <- <-. unfold unpack_bytes8 in *. destruct (Nat.eqb _ 8) in Hc; [|discriminate]. destruct (Nat.eqb _ 8) in Hi; [|discriminate]. injection Hc as <-. injection Hi as <-.
  split; [now apply Forall_slice|]. split; [now apply Forall_slice|]. unfold unpack_u64x3 in Ho.
  destruct (Nat.eqb_spec (length (slice 16 40 d)) 24) as [L|]; [|discriminate].
  assert (B : bytes_ok (slice 16 40 d)) by now apply Forall_slice. set (q := slice 16 40 d) in *.
  assert (R : forall a, 0 <= le_dec (slice a (a + 8) q) < 2 ^ 64).
  { intros a. assert (Bq : bytes_ok (slice a (a + 8) q)) by now apply Forall_slice. pose proof (le_dec_range _ Bq) as R.
    assert (Lq : (length (slice a (a + 8) q) <= 8)%nat).
    { unfold slice. rewrite takeZ_firstn, firstn_length. lia. }
    split; [lia|]. eapply Z.lt_le_trans; [apply R|]. change (2 ^ 64) with (256 ^ 8). apply Z.pow_le_mono_r; lia. }
  assert (Fo : Forall (fun x => 0 <= x < 2 ^ 64) o').
  { apply (f_equal (fun r => match r with Ok x => x | Err _ => [] end)) in Ho. cbv beta iota in Ho. subst o'.
    apply Forall_cons; [exact (R 0)|]. apply Forall_cons; [exact (R 8)|]. apply Forall_cons; [exact (R 16)|]. constructor. }
  split.
  - apply (f_equal (fun r => match r with Ok x => length x | Err _ => 3%nat end)) in Ho. cbn [length] in Ho.
    unfold strip_trailing_zeros, lenZ. rewrite rev_length.
    assert (D : forall l, (length (drop_zeros l) <= length l)%nat) by (intros l; induction l as [|[| |] l IHl]; cbn [drop_zeros length]; lia).
    specialize (D (rev o')). rewrite rev_length in D. lia.
  - apply Forall_forall. intros x Hx. apply strip_trailing_zeros_incl in Hx. rewrite Forall_forall in Fo. auto.
Qed.

Lemma def_effect_clean cf ty d u u' : bytes_ok d -> clean u -> def_effect cf ty d u = Some (Ok u') -> clean u'.
Proof.
  intros Hd Hc H. unfold def_effect in H. cbv zeta in H.
  destruct (ty =? T_INFO). { injection H as H. apply bind_Ok_inv in H as (m & Hm & H). injection H as <-. destruct (parse_info_clean _ _ _ Hd Hm) as (A & B & C). now apply clean_add_info. }
  destruct (ty =? T_MULTI).
  { injection H as H. apply bind_Ok_inv in H as ([c m] & Hm & H). unfold parse_info_multi in Hm. apply bind_Ok_inv in Hm as (c' & _ & Hm). apply bind_Ok_inv in Hm as (m' & Hm & E). injection E as <- <-.
    destruct (parse_info_clean _ _ _ (Forall_dropZ _ 1 _ Hd) Hm) as (A & B & C). cbn [fst snd] in H. eapply clean_add_multi; [exact A|exact B|exact C|exact Hc|exact H]. }
  destruct (ty =? T_FORMAT).
  { injection H as H. apply bind_Ok_inv in H as (m & Hm & H). injection H as <-. destruct (parse_format_clean _ _ _ Hm) as (A & B). destruct Hc. constructor; usimp; auto.
    apply (Forall_dset_key _ str_eqb_spec); auto. }
  destruct (ty =? T_PARAM).
  { injection H as H. apply bind_Ok_inv in H as (m & Hm & H). injection H as <-. destruct (parse_info_clean _ _ _ Hd Hm) as (A & B & C). destruct Hc. constructor; usimp; auto.
    apply (Forall_dset_key _ str_eqb_spec); auto. }
  destruct (ty =? T_PDEF).
  { injection H as H. apply bind_Ok_inv in H as ([b m] & Hm & H). injection H as <-. unfold parse_pdef in Hm. apply bind_Ok_inv in Hm as (b' & Hb & Hm). apply bind_Ok_inv in Hm as (m' & Hm & E). injection E as <- <-.
    destruct (parse_info_clean _ _ _ (Forall_dropZ _ 1 _ Hd) Hm) as (A & B & C). apply unpack_u_range in Hb; [|now apply Forall_slice]. destruct Hc. constructor; usimp; auto. now apply add_bits_clean. }
  destruct (ty =? T_FLAGS); [|discriminate].
  injection H as H. apply bind_Ok_inv in H as ([[c i] o] & Hp & H). destruct (negb _); [discriminate|]. destruct (existsb _ _); [discriminate|]. injection H as <-.
  destruct (parse_flags_clean _ _ _ _ Hd Hp) as (A & B & C & D). destruct Hc. constructor; usimp; auto. intuition.
Qed.
Lemma clean_corrupt b u : clean u -> clean (set_corrupt b u).
Proof. intros []. constructor; usimp; auto. Qed.
Lemma data_msg_clean d u u' e : bytes_ok d -> clean u -> data_msg d u = (u', e) -> clean u'.
Proof.
  intros Hd Hc H. unfold data_msg in H. destruct (unpack_u 2 _) as [id|e1] eqn:E0; [|injection H as <- <-; exact Hc].
  destruct (zget id (u_subs u)) as [s|] eqn:E1.
  - cbv zeta in H. destruct (_ || _); [injection H as <- <-; now apply clean_corrupt|].
    set (d' := if itemsize (sb_dtype s) <? lenZ d - 2 then takeZ (2 + itemsize (sb_dtype s)) d else d) in *.
    assert (Hd' : bytes_ok d') by (unfold d'; destruct (_ <? _); [now apply Forall_takeZ|exact Hd]).
    set (u1 := set_subs _ u) in *.
    assert (H1 : clean u1).
    { apply (dget_In Z.eqb Zeqb_spec) in E1. destruct Hc. unfold u1. constructor; usimp; auto. apply (Forall_dset_key _ Zeqb_spec); [|exact cl_subs0].
      rewrite Forall_forall in cl_subs0. destruct (cl_subs0 _ E1). cbn [snd] in *. split; cbn; auto. }
    destruct (unpack_u 8 _) as [ts|] eqn:Et; injection H as <- <-; [|exact H1].
    destruct (Z.ltb_spec (u_last u) ts); [|exact H1]. apply unpack_u_range in Et; [|now apply Forall_slice]. change (256 ^ Z.of_nat 8) with (2 ^ 64) in Et.
    assert (Eu : u_last u1 = u_last u) by reflexivity. rewrite <- Eu in *. clearbody u1. destruct H1. constructor; usimp; auto.
    + destruct cl_head0 as (A & B & C & D & E & F). repeat split; auto; lia.
    + eapply Forall_impl; [|exact cl_drop0]. cbv beta. intros x Hx. lia.
    + eapply Forall_impl; [|exact cl_changed0]. cbv beta. intros x (X & Y). split; [lia|exact Y].
  - destruct (existsb _ _); injection H as <- <-; [exact Hc|]. apply clean_corrupt. destruct Hc. constructor; usimp; auto.
Qed.
Lemma data_effect_clean cf ty d u u' e : bytes_ok d -> clean u -> data_effect cf ty d u = Some (u', e) -> clean u'.
Proof.
  intros Hd Hc H. unfold data_effect in H. cbv zeta in H.
  assert (Heff : forall r, Some (eff_of u r) = Some (u', e) -> (forall v, r = Ok v -> clean v) -> clean u').
  { intros r E Hr. injection E as E. unfold eff_of in E. destruct r as [v|]; injection E as <- <-; auto. }
  destruct (ty =? T_INFO). { apply (Heff _ H). intros v Hv. apply bind_Ok_inv in Hv as (m & Hm & Hv). injection Hv as <-. destruct (parse_info_clean _ _ _ Hd Hm) as (A & B & C). now apply clean_add_info. }
  destruct (ty =? T_MULTI).
  { apply (Heff _ H). intros v Hv. apply bind_Ok_inv in Hv as ([c m] & Hm & Hv). unfold parse_info_multi in Hm. apply bind_Ok_inv in Hm as (c' & _ & Hm). apply bind_Ok_inv in Hm as (m' & Hm & E). injection E as <- <-.
    destruct (parse_info_clean _ _ _ (Forall_dropZ _ 1 _ Hd) Hm) as (A & B & C). cbn [fst snd] in Hv. eapply clean_add_multi; [exact A|exact B|exact C|exact Hc|exact Hv]. }
  destruct (ty =? T_PARAM).
  { apply (Heff _ H). intros v Hv. apply bind_Ok_inv in Hv as (m & Hm & Hv). injection Hv as <-. destruct (parse_info_clean _ _ _ Hd Hm) as (A & B & C). destruct Hc. constructor; usimp; auto.
    apply Forall_app. split; [exact cl_changed0|]. constructor; [|constructor]. cbn [fst snd]. split; [lia|]. split; assumption. }
  destruct (ty =? T_PDEF).
  { apply (Heff _ H). intros v Hv. apply bind_Ok_inv in Hv as ([b m] & Hm & Hv). injection Hv as <-. unfold parse_pdef in Hm. apply bind_Ok_inv in Hm as (b' & Hb & Hm). apply bind_Ok_inv in Hm as (m' & Hm & E). injection E as <- <-.
    destruct (parse_info_clean _ _ _ (Forall_dropZ _ 1 _ Hd) Hm) as (A & B & C). apply unpack_u_range in Hb; [|now apply Forall_slice]. destruct Hc. constructor; usimp; auto. now apply add_bits_clean. }
  destruct (ty =? T_ADD).
  { apply (Heff _ H). intros v Hv. apply bind_Ok_inv in Hv as (s & Hs & Hv). apply parse_add_clean in Hs; [|exact Hd|apply cl_formats; exact Hc].
    destruct Hc. destruct (cf_filter cf (sb_name s)); injection Hv as <-; constructor; usimp; auto. apply (Forall_dset_key _ Zeqb_spec); auto. }
  destruct (ty =? T_LOG).
  { apply (Heff _ H). intros v Hv. apply bind_Ok_inv in Hv as (m & Hm & Hv). injection Hv as <-. unfold parse_logging in Hm.
    apply bind_Ok_inv in Hm as (l & Hl & Hm). apply bind_Ok_inv in Hm as (t & Ht & Hm). apply bind_Ok_inv in Hm as (s & Hs & Hm). injection Hm as <-.
    apply unpack_u_range in Hl; [|now apply Forall_slice]. apply unpack_u_range in Ht; [|now apply Forall_slice]. apply decode_encodable in Hs.
    destruct Hc. constructor; usimp; auto. apply Forall_app. split; [exact cl_logged0|]. constructor; [|constructor]. cbn [lg_level lg_ts lg_msg]. split; [exact Hl|]. split; [exact Ht|exact Hs]. }
  destruct (ty =? T_LOGT).
  { apply (Heff _ H). intros v Hv. apply bind_Ok_inv in Hv as (m & Hm & Hv). injection Hv as <-. unfold parse_tagged in Hm.
    apply bind_Ok_inv in Hm as (l & Hl & Hm). apply bind_Ok_inv in Hm as (g & Hg & Hm). apply bind_Ok_inv in Hm as (t & Ht & Hm). apply bind_Ok_inv in Hm as (s & Hs & Hm). injection Hm as <-.
    apply unpack_u_range in Hl; [|now apply Forall_slice]. apply unpack_u_range in Hg; [|now apply Forall_slice]. apply unpack_u_range in Ht; [|now apply Forall_slice]. apply decode_encodable in Hs.
    cbn [tg_tag]. assert (Q : 0 <= l < 256 /\ 0 <= t < 2 ^ 64 /\ encodable s) by (split; [exact Hl|]; split; [exact Ht|exact Hs]).
    destruct Hc. constructor; usimp; auto. destruct (zget g (u_tagged u)) as [old|] eqn:E.
    - apply (dget_In Z.eqb Zeqb_spec) in E. apply (Forall_dset_key _ Zeqb_spec); [|exact cl_tagged0]. cbn [fst snd]. split; [exact Hg|]. rewrite Forall_forall in cl_tagged0.
      apply Forall_app. split; [exact (proj2 (cl_tagged0 _ E))|]. constructor; [exact Q|constructor].
    - apply (Forall_dset_key _ Zeqb_spec); [|exact cl_tagged0]. cbn [fst snd]. split; [exact Hg|]. constructor; [exact Q|constructor]. }
  destruct (ty =? T_DATA). { injection H as H. eapply data_msg_clean; eauto. }
  destruct (ty =? T_DROP).
  { apply (Heff _ H). intros v Hv. apply bind_Ok_inv in Hv as (m & Hm & Hv). injection Hv as <-. unfold parse_dropout in Hm. apply bind_Ok_inv in Hm as (x & Hx & Hm). injection Hm as <-.
    apply unpack_u_range in Hx; [|exact Hd]. destruct Hc. constructor; usimp; auto. apply Forall_app. split; [exact cl_drop0|]. constructor; [|constructor]. cbn [dr_ts dr_dur]. split; [lia|exact Hx]. }
  destruct (ty =? T_SYNC); [|discriminate]. injection H as <- <-. destruct Hc. constructor; usimp; auto. intuition lia.
Qed.
Lemma finalize_clean u u' : clean u -> finalize u = Ok u' -> clean u'.
Proof.
  intros Hc H. apply finalize_inv in H as (ds & Hm & ->). destruct Hc. constructor; usimp; auto.
  apply Forall_forall. intros d Hd. apply (Permutation_in _ (Permutation_sym (ssort_perm _ _))) in Hd.
  apply in_app_or in Hd as [Hd|Hd]; [rewrite Forall_forall in cl_data0; auto|].
  destruct (mapM_In _ _ _ Hm _ Hd) as (s & Hs & E). apply filter_In in Hs as [Hs _]. apply in_rev in Hs. apply in_map_iff in Hs as (kv & <- & Hs).
  rewrite Forall_forall in cl_subs0. eapply dataset_of_clean; [exact (cl_subs0 _ Hs)|exact E].
Qed.
Lemma def_step_clean cf f pos u : bytes_ok f -> clean u -> match def_step cf f pos u with DNext _ u' | DStop _ u' => clean u' | DRaise _ => True end.
Proof.
  intros Hf Hc. unfold def_step. cbv zeta. destruct (rd f pos 3) as [|s0 [|s1 [|ty [|]]]]; try exact I; try exact Hc.
  assert (Hd : bytes_ok (rd f (pos + 3) (le_dec [s0; s1]))) by (apply Forall_takeZ, Forall_dropZ, Hf).
  destruct (def_effect cf ty _ u) as [[u'|e]|] eqn:Ee.
  - eapply def_effect_clean; eauto.
  - destruct e; try exact I. now apply clean_corrupt.
  - destruct (_ || _ || _); [destruct (seek_rel _ _ _); [exact Hc|exact I]|].
    destruct (packet_corrupt _ _); [|exact Hc]. destruct (seek_rel _ _ _); [now apply clean_corrupt|exact I].
Qed.
Lemma clean_sync b u : clean u -> clean (set_has_sync b u).
Proof. intros []. constructor; usimp; auto. Qed.
Lemma data_step_clean fuel cf until f pos cfp u : bytes_ok f -> clean u -> match data_step fuel cf until f pos cfp u with SNext _ _ u' | SStop u' => clean u' | _ => True end.
Proof.
  intros Hf Hc. unfold data_step. cbv zeta. destruct (rd f pos 3) as [|s0 [|s1 [|ty [|]]]]; try exact Hc.
  destruct (_ <? _); [exact Hc|]. destruct (_ <? _); [exact Hc|].
  assert (Hd : bytes_ok (rd f (pos + 3) (le_dec [s0; s1]))) by (apply Forall_takeZ, Forall_dropZ, Hf).
  destruct (data_effect cf ty _ u) as [[u' e]|] eqn:Ee.
  - apply data_effect_clean in Ee; [|exact Hd|exact Hc]. destruct e as [[]|]; try exact I; auto. now apply clean_corrupt.
  - destruct (packet_corrupt _ _).
    + destruct (u_has_sync _); [|now apply clean_corrupt].
      unfold find_sync. destruct (find_sync_loop _ _ _) as [[q|]|]; [| |exact I].
      * now apply clean_corrupt, clean_corrupt.
      * now apply clean_sync, clean_corrupt.
    + destruct (u_has_sync u); [|exact Hc]. unfold find_sync_last. cbv zeta.
      destruct (_ <? 8); [exact Hc|]. destruct (0 <=? _); [now apply clean_corrupt|exact Hc].
Qed.
Lemma readings_clean cf f u u' : bytes_ok f -> readings cf f u u' -> clean u -> clean u'.
Proof.
  intros Hf H Hc. induction H as [|u1 u2 H1 IH H2]; [exact Hc|]. destruct H2 as [pos p H|fuel until pos cfp p c H|H].
  - pose proof (def_step_clean cf f pos _ Hf IH) as Hs. destruct H as [H|H]; rewrite H in Hs; exact Hs.
  - pose proof (data_step_clean fuel cf until f pos cfp _ Hf IH) as Hs. destruct H as [H|H]; rewrite H in Hs; exact Hs.
  - eapply finalize_clean; eauto.
Qed.
Theorem loaded_clean cf f u : bytes_ok f -> produces cf f (Ok u) -> clean u.
Proof.
  intros Hf H. destruct (load_readings cf f u H) as (v & t & Eh & Hr). eapply readings_clean; [exact Hf|exact Hr|].
  unfold read_header in Eh. cbv zeta in Eh. destruct (negb _) in Eh; [discriminate|]. destruct (negb _) in Eh; [discriminate|].
  apply bind_Ok_inv in Eh as (v' & Hv & Eh). apply bind_Ok_inv in Eh as (t' & Ht & Eh). injection Eh as -> ->.
  apply unpack_u_range in Hv; [|apply Forall_slice, Forall_takeZ, Forall_dropZ, Hf]. apply unpack_u_range in Ht; [|apply Forall_dropZ, Forall_takeZ, Forall_dropZ, Hf].
  unfold after_header. constructor; usimp; cbn; try constructor; try (split; [lia|]); repeat constructor; try lia.
Qed.
