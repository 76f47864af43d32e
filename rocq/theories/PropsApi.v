(** Properties C26-C28: what a user gets from a loaded log. *)
From Coq Require Import Sorted.
From Verif Require Import Base Dict Utf8 PyStr PyFloat Struct PySort ModelTypes ModelRead ModelApi Spec SpecSection SpecMsg SpecLog SpecApi.
From Verif Require Import ProofsRead ProofsChange ProofsFile ProofsSync ProofsApi ProofsEq Samples ProofsProps PropsRead.
Ltac Zify.zify_post_hook ::= Z.div_mod_to_equations.

(** ** C26: list_value_changes *)
Lemma np_eqb_equal t x y : np_eqb t x y = true <-> np_equal t x y.
Proof.
  unfold np_eqb, np_equal. destruct t as [n sg|n]; cbn; [apply Z.eqb_eq|].
  do 5 (destruct n as [|n]; [apply f64_eqb_number|]). apply f64_eqb_number.
Qed.
Lemma f64_zero_number a : f64_is_zero a = true <-> number_of_float a = Some (Fin 0).
Proof.
  destruct (f64_bounds a) as (Hs & He & Hm). unfold f64_is_zero, number_of_float.
  destruct (Z.eqb_spec (f64_exp a) 2047) as [E|E].
  - rewrite E. cbn [Z.eqb andb]. split; [discriminate|]. destruct (f64_man a =? 0); discriminate.
  - destruct (Z.eqb_spec (f64_exp a) 0) as [E'|E'].
    + cbn [andb]. rewrite SomeFin, Z.eqb_eq. destruct (f64_sign a =? 0); lia.
    + cbn [andb]. split; [discriminate|]. rewrite SomeFin. intros H.
      assert (0 < (f64_man a + 2 ^ 52) * 2 ^ (f64_exp a - 1)).
      { apply Z.mul_pos_pos; [change (2 ^ 52) with 4503599627370496; lia|apply Z.pow_pos_nonneg; lia]. }
      destruct (f64_sign a =? 0); lia.
Qed.
Lemma np_nonzero_iff t x : np_nonzero t x = true <-> ~ np_is_zero t x.
Proof.
  unfold np_nonzero, np_is_zero. destruct t as [n sg|n]; cbn.
  - rewrite negb_true_iff. apply Z.eqb_neq.
  - assert (G : forall a, negb (f64_is_zero a) = true <-> number_of_float a <> Some (Fin 0)).
    { intros a. rewrite <- f64_zero_number. destruct (f64_is_zero a); cbn; split; congruence. }
    do 5 (destruct n as [|n]; [apply G|]). apply G.
Qed.
Lemma is_new_iff t l i : (i < length l)%nat -> is_new t l i = true <-> changes_at t l i.
Proof.
  intros Hi. unfold changes_at. destruct (nth_error l i) as [q|] eqn:Eq; [|apply nth_error_None in Eq; lia].
  destruct i as [|j]; cbn [is_new].
  - split; [eauto|reflexivity].
  - rewrite Eq. destruct (nth_error l j) as [p|] eqn:Ep; [|apply nth_error_None in Ep; lia].
    rewrite negb_true_iff. split.
    + intros H. exists q. split; auto. right. exists j, p. repeat split; auto. rewrite <- np_eqb_equal. congruence.
    + intros (q' & E & [E0|(j' & p' & Ej & Ep' & Hn)]); [discriminate|]. injection Ej as <-.
      rewrite Ep in Ep'. injection Ep' as <-. injection E as <-. rewrite <- np_eqb_equal in Hn.
      destruct (np_eqb t (snd p) (snd q)); congruence.
Qed.
Lemma sorted_filter_seq (P : nat -> bool) n : forall s, StronglySorted lt (filter P (seq s n)).
Proof.
  induction n as [|n IH]; intros s; cbn [seq filter]; [constructor|].
  destruct (P s); [|apply IH]. constructor; [apply IH|]. apply Forall_forall. intros x Hx.
  apply filter_In in Hx as [Hx _]. apply in_seq in Hx. lia.
Qed.
Lemma new_samples_list t l : change_list t l (new_samples t l).
Proof.
  exists (filter (is_new t l) (seq 0 (length l))). split; [apply sorted_filter_seq|]. split.
  - intros i. rewrite filter_In, in_seq. split.
    + intros [H1 H2]. apply is_new_iff; [lia|exact H2].
    + intros H. assert (i < length l)%nat by (destruct H as (q & E & _); apply nth_error_Some; congruence).
      split; [lia|]. apply is_new_iff; auto.
  - unfold new_samples.
    assert (G : forall idx, (forall i, In i idx -> (i < length l)%nat) ->
      Forall2 (fun i q => nth_error l i = Some q) idx
        (flat_map (fun i => match nth_error l i with Some p => [p] | None => [] end) idx)).
    { induction idx as [|i idx IH]; intros Hi; cbn [flat_map]; [constructor|].
      destruct (nth_error l i) as [p|] eqn:E; [|apply nth_error_None in E; specialize (Hi i (or_introl eq_refl)); lia].
      constructor; [exact E|]. apply IH. intros; apply Hi; right; auto. }
    apply G. intros i Hi. apply filter_In in Hi as [Hi _]. apply in_seq in Hi. lia.
Qed.

(** [l] is the list of the (timestamp, value) pairs with a non-zero timestamp, in order. *)
Inductive nonzero_samples (tt : nptype) : list Z -> list Z -> list (Z * Z) -> Prop :=
| nz_nil : nonzero_samples tt [] [] []
| nz_skip t x ts xs l : np_is_zero tt t -> nonzero_samples tt ts xs l -> nonzero_samples tt (t :: ts) (x :: xs) l
| nz_keep t x ts xs l : ~ np_is_zero tt t -> nonzero_samples tt ts xs l ->
    nonzero_samples tt (t :: ts) (x :: xs) ((t, x) :: l).
Lemma nonzero_filter tt ts : forall xs, length ts = length xs ->
  nonzero_samples tt ts xs (filter (fun p => np_nonzero tt (fst p)) (combine ts xs)).
Proof.
  induction ts as [|t ts IH]; intros [|x xs] H; try discriminate; [constructor|]. cbn [combine filter fst].
  injection H as H. pose proof (np_nonzero_iff tt t). destruct (np_nonzero tt t).
  - apply nz_keep; auto. apply H0. reflexivity.
  - apply nz_skip; auto. unfold np_is_zero in *. destruct (np_elem tt t) as [z|b|b|s|s];
      try (destruct (Z.eq_dec t 0); auto; exfalso; destruct H0 as [_ H0]; specialize (H0 n); discriminate).
    destruct (f64_is_zero b) eqn:E; [now apply f64_zero_number|].
    exfalso. destruct H0 as [_ H0]. assert (false = true); [|discriminate]. apply H0.
    rewrite <- f64_zero_number. congruence.
Qed.
Theorem C26_changes : forall ds field t x,
  sget (lit "timestamp") (ds_data ds) = Some t -> sget field (ds_data ds) = Some x ->
  length (c_raw t) = length (c_raw x) ->
  exists l out, list_value_changes ds field = Ok out /\
    nonzero_samples (c_type t) (c_raw t) (c_raw x) l /\ change_list (c_type x) l out.
Proof.
  intros ds field t x Ht Hx Hl. unfold list_value_changes. rewrite Ht, Hx. rewrite (proj2 (Nat.eqb_eq _ _) Hl). cbn [negb].
  pose proof (nonzero_filter (c_type t) (c_raw t) (c_raw x) Hl) as Hz.
  destruct (filter _ _) as [|p r] eqn:Ef.
  - exists [], []. split; [reflexivity|]. split; [exact Hz|]. apply (new_samples_list (c_type x) []).
  - exists (p :: r). eexists. split; [reflexivity|]. split; [exact Hz|]. rewrite changes_new. apply new_samples_list.
Qed.
(** The change list is determined by the series, ... *)
Theorem C26_unique : forall t l out out', change_list t l out -> change_list t l out' -> out = out'.
Proof.
  intros t l out out' (i1 & S1 & I1 & F1) (i2 & S2 & I2 & F2).
  assert (E : i1 = i2).
  { clear F1 F2. assert (H : forall i, In i i1 <-> In i i2) by (intros; rewrite I1, I2; tauto). clear I1 I2.
    revert i2 S2 H. induction S1 as [|a r S1 IH Ha]; intros i2 S2 H.
    - destruct i2 as [|b]; auto. exfalso. apply (H b). left; reflexivity.
    - destruct S2 as [|b r' S2 Hb]; [exfalso; apply (H a); left; reflexivity|].
      rewrite Forall_forall in Ha, Hb.
      assert (a = b).
      { destruct (proj1 (H a) (or_introl eq_refl)) as [|Ha']; auto.
        destruct (proj2 (H b) (or_introl eq_refl)) as [|Hb']; auto. specialize (Ha _ Hb'). specialize (Hb _ Ha'). lia. }
      subst b. f_equal. apply IH; auto. intros i. split; intros Hi.
      + destruct (proj1 (H i) (or_intror Hi)) as [->|]; auto. specialize (Ha _ Hi). lia.
      + destruct (proj2 (H i) (or_intror Hi)) as [->|]; auto. specialize (Hb _ Hi). lia. }
  subst i2. clear S1 S2 I1 I2. revert out' F2. induction F1; intros out' F2; inversion F2; subst; auto. f_equal; auto. congruence.
Qed.
(** ... and conversely looking a sample up in it gives its value: the last listed position up
    to it is that very sample or holds an equal value. *)
Theorem C26_lookup : forall t l i p, nth_error l i = Some p ->
  exists j q, (j <= i)%nat /\ nth_error l j = Some q /\ changes_at t l j /\
    (forall k, (j < k <= i)%nat -> ~ changes_at t l k) /\
    (j = i \/ np_equal t (snd q) (snd p)).
Proof.
  intros t l i p H. destruct (lookup_new t l i p H) as (j & q & H1 & H2 & H3 & H4 & H5).
  assert (Hl : (i < length l)%nat) by (apply nth_error_Some; congruence).
  exists j, q. split; [exact H1|]. split; [exact H2|]. split; [apply is_new_iff; [lia|exact H3]|]. split.
  - intros k Hk. rewrite <- is_new_iff by lia. rewrite H4 by lia. discriminate.
  - destruct H5 as [H5|H5]; [left; exact H5|right; apply np_eqb_equal; exact H5].
Qed.
Theorem C26_missing : forall ds field,
  sget (lit "timestamp") (ds_data ds) = None \/ sget field (ds_data ds) = None ->
  list_value_changes ds field = Err KeyError.
Proof.
  intros ds field H. unfold list_value_changes. destruct (sget (lit "timestamp") (ds_data ds)); [|reflexivity].
  destruct H as [H|H]; [discriminate|]. rewrite H. reflexivity.
Qed.
(** In a loaded log all columns of a dataset have the same length, so the two cases above are
    all there is. *)
Theorem C26_loaded : forall cf f u ds n m t x, bytes_ok f -> cf_hdr cf = false -> produces cf f (Ok u) ->
  In ds (u_data u) -> sget n (ds_data ds) = Some t -> sget m (ds_data ds) = Some x ->
  length (c_raw t) = length (c_raw x).
Proof.
  intros cf f u ds n m t x Hb Hh Hp Hin Ht Hx.
  destruct (C10_samples cf f u Hb Hh Hp) as (_ & _ & _ & _ & _ & _ & H).
  rewrite Forall_forall in H. destruct (H ds Hin) as (k & _ & Hk & _). rewrite Forall_forall in Hk.
  apply (dget_In str_eqb str_eqb_spec) in Ht, Hx. exact (eq_trans (Hk _ Ht) (eq_sym (Hk _ Hx))).
Qed.
(** 4 samples, the first with timestamp 0, value 1.0f, 1.0f, NaN, NaN *)
Definition c26_ds : dataset := mkDS 0 1 (lit "t") [mkFD (lit "timestamp") U64; mkFD (lit "x") F32] 0
  [(lit "timestamp", mkCol (NI 8 false) [0; 5; 6; 7; 8]);
   (lit "x", mkCol (NF 4) [0; 1065353216; 1065353216; 2143289344; 2143289344])].
Example C26_ex : list_value_changes c26_ds (lit "x") = Ok [(5, 1065353216); (7, 2143289344); (8, 2143289344)].
Proof. vm_compute. reflexivity. Qed.

(** ** C27: version info *)
Theorem C27_bytes : forall u key z, sget key (u_info u) = Some (VInt z) ->
  exists a b c d, get_version_info u key = Ok (Some (a, b, c, d)) /\
    0 <= a < 256 /\ 0 <= b < 256 /\ 0 <= c < 256 /\ 0 <= d < 256 /\
    z mod 2 ^ 32 = a * 2 ^ 24 + b * 2 ^ 16 + c * 2 ^ 8 + d.
Proof.
  intros u key z H. rewrite (version_bytes u key z H). do 4 eexists. split; [reflexivity|].
  change (2 ^ 32) with 4294967296. change (2 ^ 24) with 16777216. change (2 ^ 16) with 65536. change (2 ^ 8) with 256. lia.
Qed.
Theorem C27_absent : forall u key, sget key (u_info u) = None ->
  get_version_info u key = Ok None /\ get_version_info_str u key = Ok None.
Proof. intros u key H. unfold get_version_info_str, get_version_info. rewrite H. split; reflexivity. Qed.
(** a bool in the place of the number counts as 0 or 1 *)
Theorem C27_flag : forall u key b, sget key (u_info u) = Some (VBool b) ->
  get_version_info u key = Ok (Some (0, 0, 0, if b then 1 else 0)) /\ get_version_info_str u key = Ok None.
Proof. intros u key b H. unfold get_version_info_str, get_version_info. rewrite H. destruct b; split; reflexivity. Qed.
Example C27_flag_ex : sget (lit "ver_sw_release") (u_info (set_info [(lit "ver_sw_release", VBool true)] ulog0)) = Some (VBool true).
Proof. reflexivity. Qed.
(** the suffix for a type byte, as documented; [None]: development version *)
Inductive release_suffix : Z -> option str -> Prop :=
| rs_dev d : 0 <= d < 64 -> release_suffix d None
| rs_alpha d : 64 <= d < 128 -> release_suffix d (Some (lit " (alpha)"))
| rs_beta d : 128 <= d < 192 -> release_suffix d (Some (lit " (beta)"))
| rs_rc d : 192 <= d < 255 -> release_suffix d (Some (lit " (RC)"))
| rs_release : release_suffix 255 (Some []).
Theorem C27_string : forall u key a b c d, get_version_info u key = Ok (Some (a, b, c, d)) ->
  exists s, release_suffix d s /\
    get_version_info_str u key =
    Ok (option_map (fun suffix => lit "v" ++ str_of_Z a ++ lit "." ++ str_of_Z b ++ lit "." ++ str_of_Z c ++ suffix) s).
Proof.
  intros u key a b c d H.
  assert (Hd : 0 <= d < 256).
  { unfold get_version_info in H. destruct (sget key (u_info u)) as [v|]; [|discriminate].
    destruct (shift_of v) as [z|]; [|discriminate]. cbn [bind] in H. assert (E : d = Z.land z 255) by congruence. rewrite E. clear.
    change 255 with (Z.ones 8). rewrite Z.land_ones by lia. change (2 ^ 8) with 256. lia. }
  unfold get_version_info_str. rewrite H. cbn [bind].
  destruct (Z.leb_spec 64 d); [|exists None; split; [constructor; lia|reflexivity]].
  destruct (Z.ltb_spec d 128); [exists (Some (lit " (alpha)")); split; [constructor; lia|reflexivity]|].
  destruct (Z.ltb_spec d 192); [exists (Some (lit " (beta)")); split; [constructor; lia|reflexivity]|].
  destruct (Z.ltb_spec d 255); [exists (Some (lit " (RC)")); split; [constructor; lia|reflexivity]|].
  exists (Some []). split; [|reflexivity]. replace d with 255 by lia. constructor.
Qed.
(** a value that is no integer raises TypeError *)
Theorem C27_not_integer : forall u key v, sget key (u_info u) = Some v ->
  (forall z, v <> VInt z) -> (forall b, v <> VBool b) -> get_version_info u key = Err TypeError.
Proof.
  intros u key v H H1 H2. unfold get_version_info. rewrite H. destruct v as [z|b|b|s|s]; try reflexivity; exfalso; congruence.
Qed.
Example C27_ex : exists u, produces cf0 s_file (Ok u) /\
  get_version_info u (lit "ver_sw_release") = Ok (Some (1, 2, 3, 255)) /\
  get_version_info_str u (lit "ver_sw_release") = Ok (Some (lit "v1.2.3")).
Proof. eexists. split; [exists 30%nat; vm_compute; reflexivity|]. split; vm_compute; reflexivity. Qed.

(** ** C28: comparing logs *)
(** On loaded logs == holds exactly when the contents are the same ([same_log], SpecApi.v). *)
Theorem C28_decides : forall cf f u cf' f' u', bytes_ok f -> bytes_ok f' ->
  produces cf f (Ok u) -> produces cf' f' (Ok u') -> ulog_eqb u u' = true <-> same_log u u'.
Proof.
  intros cf f u cf' f' u' Hb Hb' Hp Hp'. apply ulog_eqb_same; eauto using loaded_wf, loaded_subs.
Qed.
Theorem C28_symmetric : forall cf f u cf' f' u', bytes_ok f -> bytes_ok f' ->
  produces cf f (Ok u) -> produces cf' f' (Ok u') -> ulog_eqb u u' = ulog_eqb u' u.
Proof.
  intros cf f u cf' f' u' Hb Hb' Hp Hp'. apply eq_true_iff_eq.
  rewrite (C28_decides _ _ _ _ _ _ Hb Hb' Hp Hp'), (C28_decides _ _ _ _ _ _ Hb' Hb Hp' Hp).
  split; apply same_log_sym.
Qed.
Theorem C28_transitive : forall cf f u cf' f' u' cf'' f'' u'', bytes_ok f -> bytes_ok f' -> bytes_ok f'' ->
  produces cf f (Ok u) -> produces cf' f' (Ok u') -> produces cf'' f'' (Ok u'') ->
  ulog_eqb u u' = true -> ulog_eqb u' u'' = true -> ulog_eqb u u'' = true.
Proof.
  intros cf f u cf' f' u' cf'' f'' u'' Hb Hb' Hb'' Hp Hp' Hp'' H1 H2.
  apply (C28_decides _ _ _ _ _ _ Hb Hb' Hp Hp') in H1. apply (C28_decides _ _ _ _ _ _ Hb' Hb'' Hp' Hp'') in H2.
  apply (C28_decides _ _ _ _ _ _ Hb Hb'' Hp Hp''). eapply same_log_trans; eauto.
Qed.
(** Two loads of the same bytes are equal unless some info value or parameter is NaN, ... *)
Theorem C28_same_bytes_partial : forall cf f u u', bytes_ok f -> produces cf f (Ok u) -> produces cf f (Ok u') ->
  no_nan u -> ulog_eqb u u' = true.
Proof.
  intros cf f u u' Hb Hp Hp' Hn. assert (u' = u) as -> by (pose proof (produces_fun _ _ _ _ Hp' Hp) as E; congruence).
  apply (C28_decides _ _ _ _ _ _ Hb Hb Hp Hp). now apply same_log_refl.
Qed.
(** ... and NaN values make them different: a file with a float parameter that is NaN. *)
Definition c28_file : bytes := hdr0 ++ frame_of (wire (MParam (lit "float") (lit "P") [0; 0; 192; 127])) ++ frame_of (m_log 7).
Theorem C28_same_bytes_refuted : bytes_ok c28_file /\ exists u, produces cf0 c28_file (Ok u) /\
  sget (lit "P") (u_params u) = Some (VFloat 9221120237041090560) /\ ulog_eqb u u = false.
Proof.
  split; [unfold c28_file, hdr0; cbn; repeat (constructor; [unfold byte_ok; lia|]); constructor|].
  eexists. split; [exists 9%nat; vm_compute; reflexivity|]. split; vm_compute; reflexivity.
Qed.
(** Logs that differ in a parameter, an info value or a sample compare different. *)
Theorem C28_parameter_differs : forall cf f u cf' f' u' k, bytes_ok f -> bytes_ok f' ->
  produces cf f (Ok u) -> produces cf' f' (Ok u') ->
  ~ same_opt same_value (sget k (u_params u)) (sget k (u_params u')) -> ulog_eqb u u' = false.
Proof.
  intros cf f u cf' f' u' k Hb Hb' Hp Hp' Hd. apply not_true_iff_false. intros H. apply Hd.
  apply (C28_decides _ _ _ _ _ _ Hb Hb' Hp Hp') in H. exact (sl_params _ _ H k).
Qed.
Theorem C28_sample_differs : forall cf f u cf' f' u' i ds ds' j c c' n x y, bytes_ok f -> bytes_ok f' ->
  produces cf f (Ok u) -> produces cf' f' (Ok u') ->
  nth_error (u_data u) i = Some ds -> nth_error (u_data u') i = Some ds' ->
  nth_error (ds_data ds) j = Some c -> nth_error (ds_data ds') j = Some c' ->
  nth_error (c_raw (snd c)) n = Some x -> nth_error (c_raw (snd c')) n = Some y ->
  ~ same_elem (c_type (snd c)) x y -> ulog_eqb u u' = false.
Proof.
  intros cf f u cf' f' u' i ds ds' j c c' n x y Hb Hb' Hp Hp' H1 H2 H3 H4 H5 H6 Hd.
  apply not_true_iff_false. intros H. apply Hd.
  assert (N : forall A (R : A -> A -> Prop) l m k a b, Forall2 R l m -> nth_error l k = Some a -> nth_error m k = Some b -> R a b).
  { intros A R l m k a b HF. revert k. induction HF; intros [|k] Ha Hb0; try discriminate; cbn in *; [congruence|eauto]. }
  apply (C28_decides _ _ _ _ _ _ Hb Hb' Hp Hp') in H.
  pose proof (N _ _ _ _ _ _ _ (sl_data _ _ H) H1 H2) as Hs.
  assert (Hc : same_column (snd c) (snd c')).
  { apply (N _ _ _ _ j _ _ (sd_columns _ _ Hs)); rewrite nth_error_map; [rewrite H3|rewrite H4]; reflexivity. }
  exact (N _ _ _ _ _ _ _ (sc_elems _ _ Hc) H5 H6).
Qed.
Example C28_ex : exists u, produces cf0 s_file (Ok u) /\ no_nan u /\ ulog_eqb u u = true.
Proof.
  eexists. split; [exists 30%nat; vm_compute; reflexivity|]. split; [|vm_compute; reflexivity].
  constructor; cbn; repeat constructor.
Qed.

Print Assumptions C26_changes.
Print Assumptions C27_string.
Print Assumptions C27_flag.
Print Assumptions C28_decides.
Print Assumptions C28_transitive.
