(** A log that was saved was storable. *)
From Coq Require Import Sorted.
From Verif Require Import Base Dict PyStr PyFloat PySort Struct ModelTypes ModelApi Sql Schema5 ModelDb SpecDb SpecStorable ProofsDb ProofsFrame ProofsSave ProofsStore ProofsReload ProofsFwd.

Lemma bind_int_inv z c : bind_int z = Ok c -> int64 z.
Proof. unfold bind_int, int64. destruct (_ && _) eqn:E; [|discriminate]. intros _. apply andb_true_iff in E as [E1 E2]. apply Z.leb_le in E1. apply Z.ltb_lt in E2. lia. Qed.
Lemma bind_text_inv s c : bind_text s = Ok c -> no_surrogate s.
Proof.
  unfold bind_text, no_surrogate. destruct (forallb _ s) eqn:E; [|discriminate]. intros _. rewrite forallb_forall in E. apply Forall_forall. intros x Hx (H1 & H2).
  specialize (E x Hx). apply Z.leb_le in H1. apply Z.leb_le in H2. rewrite H1, H2 in E. discriminate.
Qed.
Lemma bind_value_inv v c : bind_value v = Ok c -> storable_value v.
Proof. destruct v; cbn; eauto using bind_int_inv, bind_text_inv. Qed.
Definition bound (v : res cell) : Prop := exists c, v = Ok c.
Lemma prep_bound T names k vals r : prep T names k vals = Ok r -> Forall bound vals.
Proof.
  unfold prep. destruct (mapM (fun x => x) vals) as [v|] eqn:M; [|discriminate]. intros _. revert v M. induction vals as [|x vals IH]; intros v M; [constructor|].
  cbn [mapM] in M. destruct x as [c|]; [|discriminate]. cbn [bind] in M. destruct (mapM _ vals) as [v'|] eqn:M'; [|discriminate]. constructor; [eexists; reflexivity|]. eapply IH. reflexivity.
Qed.
Lemma rows_bound {A} T names (v : A -> list (res cell)) l rs : rows_for T names (map v l) rs -> forall x, In x l -> Forall bound (v x).
Proof.
  intros H x Hx. unfold rows_for in H. remember (map v l) as vs eqn:E. revert l E x Hx. induction H as [|w r vs rs (k & P) H IH]; intros l E x Hx; destruct l as [|y l]; cbn [map] in E; try discriminate; [destruct Hx|].
  injection E as -> ->. destruct Hx as [<-|Hx]; [eapply prep_bound; exact P|]. eapply IH; [reflexivity|exact Hx].
Qed.
Ltac bnd H := repeat match type of H with Forall bound (_ :: _) => let B := fresh "B" in inversion H as [|? ? B ?]; subst; clear H; match goal with R : Forall bound _ |- _ => rename R into H end; let c := fresh "cell" in destruct B as (c & B);
  first [apply bind_int_inv in B | apply bind_text_inv in B | apply bind_value_inv in B | clear B] end.
Lemma tree_In {A} P Q base l rs frs : @tree A P Q base l rs frs -> forall x, In x l -> exists b r fr, P b x r /\ Q b x fr.
Proof. intros H. induction H as [|base y l r fr rs frs Hp Hq H IH]; intros x Hx; [destruct Hx|]. destruct Hx as [<-|Hx]; eauto. Qed.
Lemma F2_In_l {A B} (R : A -> B -> Prop) l l' : Forall2 R l l' -> forall x, In x l -> exists y, In y l' /\ R x y.
Proof. intros H. induction H as [|a b l l' Hr H IH]; intros x Hx; [destruct Hx|]. destruct Hx as [<-|Hx]; [exists b; split; [now left|exact Hr]|]. destruct (IH x Hx) as (y & Hy & Ry). exists y. split; [now right|exact Ry]. Qed.
Lemma enumerate_all {A} (l : list A) x : In x l -> exists i, In (i, x) (enumerate l).
Proof.
  intros H. unfold enumerate. apply (In_nth_error) in H as (n & H). exists (Z.of_nat n). assert (L : (n < length l)%nat) by (apply nth_error_Some; congruence).
  apply (nth_error_In _ n).
  assert (G : forall b l n, nth_error l n = Some x -> nth_error (combine (map Z.of_nat (seq b (length l))) l) n = Some (Z.of_nat (b + n), x)).
  { clear. intros b l. revert b. induction l as [|y l IH]; intros b [|n] H; try discriminate; cbn in *; [injection H as ->; now rewrite Nat.add_0_r|]. rewrite (IH (S b) n H). do 2 f_equal. f_equal. lia. }
  exact (G 0%nat l n H).
Qed.
Lemma combine_app2 {A B} (a a' : list A) (b b' : list B) : length a = length b -> combine (a ++ a') (b ++ b') = combine a b ++ combine a' b'.
Proof. revert b. induction a as [|x a IH]; intros [|y b] H; try discriminate; [reflexivity|]. cbn. f_equal. apply IH. cbn in H. lia. Qed.
Lemma enumerate_last {A} (l : list A) : l <> [] -> exists x, In (lenZ l - 1, x) (enumerate l).
Proof.
  intros H. destruct (exists_last H) as (l' & x & ->). exists x. unfold enumerate, lenZ. rewrite app_length. cbn [length]. rewrite Nat.add_1_r, seq_S, map_app.
  cbn [map plus]. rewrite combine_app2 by now rewrite map_length, seq_length. apply in_or_app. right. left. f_equal. lia.
Qed.
Lemma index_len {A} (l : list A) : (forall i x, In (i, x) (enumerate l) -> int64 i) -> lenZ l <= 2 ^ 63.
Proof.
  intros H. destruct l as [|y l]; [cbn; lia|]. destruct (enumerate_last (y :: l)) as (x & Hx); [discriminate|]. apply H in Hx. unfold int64 in Hx. lia.
Qed.

Lemma saved_values pk d d' u N : saved pk d d' u N -> int64 (u_version u) /\ int64 (u_start u) /\ int64 (u_last u) /\ int64 (u_sync_cnt u) /\
    no_surrogate (u_compat u) /\ no_surrogate (u_incompat u) -> NoDup (map (fun ds => (ds_name ds, ds_multi ds)) (u_data u)) -> storable u.
Proof.
  intros S Hh Hn. split; auto.
  - pose proof (rows_bound _ _ _ _ _ (sv_offset _ _ _ _ _ S)) as B. split.
    + apply index_len. intros i x Hx. specialize (B _ Hx). unfold v_offset in B. bnd B. assumption.
    + apply Forall_forall. intros x Hx. destruct (enumerate_all _ _ Hx) as (i & Hi). specialize (B _ Hi). unfold v_offset in B. bnd B. assumption.
  - apply Forall_forall. intros ds Hd. destruct (tree_In _ _ _ _ _ _ (sv_dataset _ _ _ _ _ S) ds Hd) as (b & r & fr & P & Q).
    apply prep_bound in P. unfold v_dataset in P. bnd P. repeat (split; [assumption|]).
    unfold fields_saved in Q. apply Forall_forall. intros f Hf. destruct (F2_In_l _ _ _ Q _ Hf) as (r' & _ & col & k & Hc & Pf).
    split; [|eauto]. apply prep_bound in Pf. unfold v_field in Pf. cbn [fst snd] in Pf. bnd Pf. assumption.
  - pose proof (rows_bound _ _ _ _ _ (sv_dropout _ _ _ _ _ S)) as B. apply Forall_forall. intros x Hx. specialize (B _ Hx). unfold v_dropout in B. bnd B. auto.
  - pose proof (rows_bound _ _ _ _ _ (sv_logged _ _ _ _ _ S)) as B. apply Forall_forall. intros x Hx. specialize (B _ Hx). unfold v_logged in B. bnd B. auto.
  - pose proof (rows_bound _ _ _ _ _ (sv_tagged _ _ _ _ _ S)) as B. apply Forall_forall. intros tl Ht. apply Forall_forall. intros x Hx.
    assert (Hi : In (fst tl, x) (all_tagged u)) by (apply in_flat_map; exists tl; split; [auto|]; apply in_map_iff; eauto).
    specialize (B _ Hi). unfold v_tagged in B. cbn [fst snd] in B. bnd B. auto.
  - apply Forall_forall. intros nm Hx. destruct (tree_In _ _ _ _ _ _ (sv_format _ _ _ _ _ S) nm Hx) as (b & r & fr & P & Q).
    apply prep_bound in P. unfold v_format in P. bnd P. split; [assumption|]. pose proof (rows_bound _ _ _ _ _ Q) as Bf. apply Forall_forall. intros f Hf. specialize (Bf _ Hf). unfold v_ffield in Bf. bnd Bf. auto.
  - destruct (sv_info _ _ _ _ _ S) as (infos & F & R). pose proof (rows_bound _ _ _ _ _ R) as B. apply Forall_forall. intros kv Hx.
    destruct (F2_In_l _ _ _ F _ Hx) as (x & Hi & ty & Et & ->). specialize (B _ Hi). unfold v_info in B. cbn [fst snd] in B. bnd B. split; [auto|]. split; [auto|]. exists ty. auto.
  - pose proof (sv_multi _ _ _ _ _ S) as M. clear -M. induction M as [|base baseL kl l r lr er rs lrs ers (ty & Et & P) L M IH]; constructor; auto.
    apply prep_bound in P. unfold v_multi in P. cbn [fst snd] in P. bnd P. split; [assumption|]. split; [exists ty; auto|].
    assert (T : forall i x, In (i, x) (enumerate (snd kl)) -> int64 i /\ lenZ x <= 2 ^ 63 /\ Forall storable_value x).
    { intros i x Hx. destruct (tree_In _ _ _ _ _ _ L _ Hx) as (b & r' & fr & P' & Q). apply prep_bound in P'. unfold v_list in P'. cbn [fst snd] in P'. bnd P'. split; [assumption|].
      pose proof (rows_bound _ _ _ _ _ Q) as Bq. cbn [snd] in Bq. split.
      - apply index_len. intros j y Hy. specialize (Bq _ Hy). unfold v_elem in Bq. bnd Bq. assumption.
      - apply Forall_forall. intros y Hy. destruct (enumerate_all _ _ Hy) as (j & Hj). specialize (Bq _ Hj). unfold v_elem in Bq. bnd Bq. assumption. }
    split; [apply index_len; intros i x Hx; apply (T i x Hx)|]. apply Forall_forall. intros x Hx. destruct (enumerate_all _ _ Hx) as (j & Hj). apply (T j x Hj).
  - pose proof (rows_bound _ _ _ _ _ (sv_param _ _ _ _ _ S)) as B. apply Forall_forall. intros x Hx. specialize (B _ Hx). unfold v_param in B. bnd B. auto.
  - pose proof (rows_bound _ _ _ _ _ (sv_default _ _ _ _ _ S)) as B. apply Forall_forall. intros td Ht. apply Forall_forall. intros x Hx.
    assert (Hi : In (fst td, fst x, snd x) (all_defaults u)) by (apply in_flat_map; exists td; split; [auto|]; apply in_map_iff; eauto).
    specialize (B _ Hi). unfold v_default in B. cbn [fst snd] in B. bnd B. auto.
  - pose proof (rows_bound _ _ _ _ _ (sv_change _ _ _ _ _ S)) as B. apply Forall_forall. intros x Hx. specialize (B _ Hx). unfold v_change in B. bnd B. auto.
Qed.
Lemma saved_once pk d d' u N : saved pk d d' u N -> NoDup (map (fun ds => (ds_name ds, ds_multi ds)) (u_data u)).
Proof.
  intros S. pose proof (ad_good _ _ _ _ (sv_adds _ _ _ _ _ S)) as G. pose proof (gd_uniq _ G (lit "ulogdataset") t_ulogdataset eq_refl) as U.
  rewrite (g_rows _ _ _ (ad_grows _ _ _ _ (sv_adds _ _ _ _ _ S))) in U. pose proof (sv_dataset _ _ _ _ _ S) as T.
  assert (U' : ForallOrdPairs (fun r r' => clash t_ulogdataset r' r = false) (N (lit "ulogdataset"))).
  { revert U. generalize (d_rows d (lit "ulogdataset")) as l. induction l as [|r l IH]; intros U; [exact U|]. inversion U; subst. auto. }
  clear U S G. revert T U'. generalize (N (lit "ulogdataset")) as rows, (N (lit "ulogfield")) as frows, (d_seq d (lit "ulogdataset")) as b0, (u_data u) as l0.
  intros rows frows b0 l0 T. induction T as [|base ds l r fr rs frs P Q T IH]; intros U; cbn [map]; [constructor|]. inversion U as [|? ? U1 U2]; subst. constructor; [|auto].
  intros Hi. apply in_map_iff in Hi as (ds' & E & Hd). injection E as E1 E2. clear IH U U2 Q.
  assert (R : exists b r', In r' rs /\ dataset_saved pk b ds' r').
  { clear -T Hd. remember (base + 1) as b0 eqn:Eb. clear Eb. induction T as [|b0 y l r0 fr0 rs frs0 Hp Hq T IH]; [destruct Hd|]. destruct Hd as [<-|Hd]; [exists (b0 + 1), r0; split; [now left|exact Hp]|]. destruct (IH Hd) as (b & r' & Hr & Hs). exists b, r'. split; [now right|exact Hs]. }
  destruct R as (b & r' & Hr & P'). rewrite Forall_forall in U1. specialize (U1 r' Hr). unfold dataset_saved in P, P'.
  unfold clash in U1. cbn [t_uniq t_ulogdataset existsb forallb t_cols] in U1. change c_ulogdataset with (cols (lit "ulogdataset")) in U1.
  rewrite (cell_int _ _ _ _ _ (lit "ULogId") _ pk P eq_refl eq_refl ltac:(sel) ltac:(sel)) in U1.
  rewrite (cell_text _ _ _ _ _ (lit "DatasetName") _ (ds_name ds) P eq_refl eq_refl ltac:(sel) ltac:(sel)) in U1.
  rewrite (cell_int _ _ _ _ _ (lit "MultiId") _ (ds_multi ds) P eq_refl eq_refl ltac:(sel) ltac:(sel)) in U1.
  rewrite (cell_int _ _ _ _ _ (lit "ULogId") _ pk P' eq_refl eq_refl ltac:(sel) ltac:(sel)) in U1.
  rewrite (cell_text _ _ _ _ _ (lit "DatasetName") _ (ds_name ds') P' eq_refl eq_refl ltac:(sel) ltac:(sel)) in U1.
  rewrite (cell_int _ _ _ _ _ (lit "MultiId") _ (ds_multi ds') P' eq_refl eq_refl ltac:(sel) ltac:(sel)) in U1.
  cbn [cell_eqb] in U1. rewrite E1, E2, !Z.eqb_refl, str_eqb_refl in U1. discriminate.
Qed.
Lemma tx_storable d d' sha u r d1 N : tx d d' sha u r d1 N -> storable u /\ no_surrogate sha.
Proof.
  intros X. pose proof (prep_bound _ _ _ _ _ (tx_row _ _ _ _ _ _ _ X)) as B. unfold v_log in B. bnd B. split; [|assumption].
  eapply saved_values; [exact (tx_saved _ _ _ _ _ _ _ X)|tauto|]. eapply saved_once. exact (tx_saved _ _ _ _ _ _ _ X).
Qed.

(** ** What was saved with JSON copies had them *)
Lemma foldM_each {A S} (f : S -> A -> res S) l : forall s s', foldM f l s = Ok s' -> forall x, In x l -> exists s1 s2, f s1 x = Ok s2.
Proof.
  induction l as [|y l IH]; intros s s' E x Hx; [destruct Hx|]. cbn [foldM] in E. destruct (f s y) as [s1|] eqn:E1; [|discriminate]. cbn [bind] in E.
  destruct Hx as [<-|Hx]; eauto.
Qed.
Lemma save_field_json F ds id s f s' : save_field F true ds id s f = Ok s' -> json_field ds f.
Proof.
  unfold save_field, json_field. destruct (sget (fd_name f) (ds_data ds)) as [c|]; [|discriminate].
  destruct (sget (lit "timestamp") (ds_data ds)) as [ts|]; [|discriminate]. intros E. exists ts. split; [reflexivity|]. intros c' Ec a t x b Eb N M. injection Ec as <-.
  destruct (existsb (minus_inf c) (json_values ts c)) eqn:Ex; [discriminate|]. apply Bool.not_true_iff_false in Ex. apply Ex. apply existsb_exists. exists x.
  split; [|now apply minus_inf_iff]. apply json_values_In. now exists a, t, b.
Qed.
Lemma save_tx_json F o d o' d' : save_tx F true o d = (Ok tt, o', d') -> Forall json_dataset (u_data (o_log o)).
Proof.
  unfold save_tx. destruct (ins F (O, d) (lit "ULog") _ _) as [[pk s]|]; [|discriminate]. destruct (save_rest F true pk (o_log o) s) as [s'|] eqn:E; [|discriminate].
  intros _. unfold save_rest in E.
  match type of E with bind ?x _ = _ => destruct x as [s1|]; [|discriminate] end. cbn [bind] in E.
  match type of E with bind ?x _ = _ => destruct x as [s2|] eqn:E2; [|discriminate] end. clear E.
  apply Forall_forall. intros ds Hd. destruct (foldM_each _ _ _ _ E2 ds Hd) as (s3 & s4 & E3). unfold save_dataset in E3.
  match type of E3 with bind ?x _ = _ => destruct x as [[k s5]|]; [|discriminate] end. cbn [bind fst snd] in E3.
  apply Forall_forall. intros f Hf. destruct (foldM_each _ _ _ _ E3 f Hf) as (s6 & s7 & E6). exact (save_field_json _ _ _ _ _ _ E6).
Qed.
