(** _parse_nested_type computes the expansion of a format. *)
From Verif Require Import Base Dict Utf8 PyStr PyFloat Struct ModelTypes ModelRead Spec SpecSection SpecMsg ProofsMsg
  ProofsChange ProofsSection.
Ltac Zify.zify_post_hook ::= Z.div_mod_to_equations.

Scheme expands_mind := Minimality for expands Sort Prop
  with expands_all_mind := Minimality for expands_all Sort Prop.
Combined Scheme expands_mutind from expands_mind, expands_all_mind.

(** the timestamp index after the fields [l] of the top-level format *)
Definition pn_field (depth : nat) fmts prefix (st : fd_state) (fld : str * Z * str) : res fd_state :=
  let '(tn, array_size, field_name) := fld in
  match ctype_of tn with
  | Some c =>
    let names :=
      if 0 <? array_size
      then map (fun i => prefix ++ field_name ++ idx_str i) (zrange array_size)
      else [prefix ++ field_name] in
    let fds := fst st ++ map (fun n => mkFD n c) names in
    Ok (fds, if str_eqb (prefix ++ field_name) (lit "timestamp")
             then lenZ fds - 1 else snd st)
  | None =>
    if 0 <? array_size then
      foldM (fun st i => parse_nested depth fmts (prefix ++ field_name ++ idx_str i ++ [46]) tn st)
            (zrange array_size) st
    else parse_nested depth fmts (prefix ++ field_name ++ [46]) tn st
  end.
Lemma parse_nested_S d fmts prefix tn st : parse_nested (S d) fmts prefix tn st =
  match sget tn fmts with
  | None => Err KeyError
  | Some fmt => foldM (pn_field d fmts prefix) (mf_fields fmt) st
  end.
Proof. reflexivity. Qed.

Lemma ctype_of_Some_iff s c : ctype_of s = Some c <-> s = ctype_name c.
Proof. split; [apply ctype_of_Some|intros ->; apply ctype_of_name]. Qed.
Lemma ctype_of_None_iff s : ctype_of s = None <-> forall c, s <> ctype_name c.
Proof.
  split; [|apply ctype_of_None]. intros H c ->. rewrite ctype_of_name in H. discriminate.
Qed.

(** soundness *)
Lemma parse_nested_expands fmts d : forall prefix tn st st',
  parse_nested d fmts prefix tn st = Ok st' ->
  exists fmt out, sget tn fmts = Some fmt /\ expands fmts prefix (mf_fields fmt) out /\ fst st' = fst st ++ out.
Proof.
  induction d as [|d IH]; intros prefix tn st st' H; [discriminate|].
  rewrite parse_nested_S in H. destruct (sget tn fmts) as [fmt|] eqn:Ef; [|discriminate].
  exists fmt. generalize dependent st. generalize (mf_fields fmt) as fields.
  induction fields as [|[[ty n] name] r IHr]; intros st H.
  - injection H as <-. exists []. repeat split; auto; [constructor|now rewrite app_nil_r].
  - cbn [foldM] in H. apply bind_Ok_inv in H as (st1 & H1 & H2).
    destruct (IHr st1 H2) as (out & _ & Ho & Es). unfold pn_field in H1.
    destruct (ctype_of ty) as [c|] eqn:Ec.
    + apply ctype_of_Some_iff in Ec. subst ty. apply (f_equal (fun r => match r with Ok x => fst x | Err _ => [] end)) in H1.
      cbn [fst] in H1. rewrite Es, <- H1.
      destruct (Z.ltb_spec 0 n).
      * exists (map (fun i => mkFD (prefix ++ name ++ index_text i) c) (indices n) ++ out).
        split; auto. split; [now constructor|]. rewrite map_map, <- app_assoc. reflexivity.
      * exists (mkFD (prefix ++ name) c :: out). split; auto. split; [constructor; auto; lia|].
        now rewrite <- app_assoc.
    + pose proof (proj1 (ctype_of_None_iff ty) Ec) as Hc. destruct (Z.ltb_spec 0 n).
      * assert (K : exists fmt' subs, sget ty fmts = Some fmt' /\
          expands_all fmts (map (fun i => prefix ++ name ++ index_text i ++ [46]) (indices n)) (mf_fields fmt') subs /\
          fst st1 = fst st ++ subs).
        { assert (Hne : zrange n <> []).
          { unfold zrange. destruct (Z.to_nat n) eqn:E; [lia|]. discriminate. }
          change (indices n) with (zrange n). revert st H1. clear IHr H2 Es Ho.
          induction (zrange n) as [|i l IHl]; [congruence|]. intros st H1. cbn [foldM] in H1.
          apply bind_Ok_inv in H1 as (st2 & H1 & H3).
          destruct (IH _ _ _ _ H1) as (fmt' & o & E1 & E2 & E3).
          destruct l as [|j l].
          - injection H3 as <-. exists fmt', (o ++ []). repeat split; auto.
            + cbn [map]. constructor; [exact E2|constructor].
            + now rewrite app_nil_r.
          - destruct (IHl ltac:(discriminate) _ H3) as (fmt2 & os & F1 & F2 & F3).
            assert (fmt2 = fmt') by congruence. subst fmt2.
            exists fmt', (o ++ os). repeat split; auto.
            + cbn [map]. constructor; [exact E2|exact F2].
            + rewrite F3, E3. now rewrite app_assoc. }
        destruct K as (fmt' & subs & E1 & E2 & E3).
        exists (subs ++ out). split; auto. split; [eapply ex_nested_array; eauto|]. rewrite Es, E3. now rewrite app_assoc.
      * destruct (IH _ _ _ _ H1) as (fmt' & o & E1 & E2 & E3).
        exists (o ++ out). split; auto. split; [eapply ex_nested; eauto; lia|]. rewrite Es, E3. now rewrite app_assoc.
Qed.

(** completeness: with enough recursion depth the expansion is found *)
Lemma parse_nested_mono fmts d : forall d' prefix tn st st',
  parse_nested d fmts prefix tn st = Ok st' -> (d <= d')%nat -> parse_nested d' fmts prefix tn st = Ok st'.
Proof.
  induction d as [|d IH]; intros d' prefix tn st st' H Hd; [discriminate|].
  destruct d' as [|d']; [lia|]. rewrite parse_nested_S in *. destruct (sget tn fmts) as [fmt|]; [|discriminate].
  revert st H. induction (mf_fields fmt) as [|[[ty n] name] r IHr]; intros st H; [exact H|].
  cbn [foldM] in *. apply bind_Ok_inv in H as (st1 & H1 & H2).
  assert (E : pn_field d' fmts prefix st (ty, n, name) = Ok st1).
  { unfold pn_field in *. destruct (ctype_of ty); [exact H1|]. destruct (0 <? n).
    - clear IHr H2. revert st H1. induction (zrange n) as [|i l IHl]; intros st H1; [exact H1|].
      cbn [foldM] in *. apply bind_Ok_inv in H1 as (st2 & H1 & H3).
      rewrite (IH d' _ _ _ _ H1) by lia. cbn [bind]. now apply IHl.
    - apply (IH d' _ _ _ _ H1). lia. }
  rewrite E. cbn [bind]. now apply IHr.
Qed.

Lemma expands_parse fmts :
  (forall p fields out, expands fmts p fields out -> exists d, forall st, exists ts,
     foldM (pn_field d fmts p) fields st = Ok (fst st ++ out, ts)) /\
  (forall ps fields outs, expands_all fmts ps fields outs -> exists d, forall ty fmt st,
     sget ty fmts = Some fmt -> mf_fields fmt = fields -> exists ts,
     foldM (fun st p => parse_nested d fmts p ty st) ps st = Ok (fst st ++ outs, ts)).
Proof.
  assert (FM : forall d d' p fields st r, (d <= d')%nat -> foldM (pn_field d fmts p) fields st = Ok r ->
     foldM (pn_field d' fmts p) fields st = Ok r).
  { intros d d' p fields st r Hd H.
    pose proof (parse_nested_mono [([], mkFmt [] fields)] (S d) (S d') p [] st r) as M. clear M.
    revert st H. induction fields as [|[[ty n] name] rr IHr]; intros st H; [exact H|].
    cbn [foldM] in *. apply bind_Ok_inv in H as (st1 & H1 & H2).
    assert (E : pn_field d' fmts p st (ty, n, name) = Ok st1).
    { unfold pn_field in *. destruct (ctype_of ty); [exact H1|]. destruct (0 <? n).
      - clear IHr H2. revert st H1. induction (zrange n) as [|i l IHl]; intros st H1; [exact H1|].
        cbn [foldM] in *. apply bind_Ok_inv in H1 as (st2 & H1 & H3).
        rewrite (parse_nested_mono _ _ d' _ _ _ _ H1) by lia. cbn [bind]. now apply IHl.
      - apply (parse_nested_mono _ _ d' _ _ _ _ H1). lia. }
    rewrite E. cbn [bind]. now apply IHr. }
  assert (AM : forall d d' ps ty st r, (d <= d')%nat ->
     foldM (fun st p => parse_nested d fmts p ty st) ps st = Ok r ->
     foldM (fun st p => parse_nested d' fmts p ty st) ps st = Ok r).
  { intros d d' ps ty st r Hd. revert st. induction ps as [|p ps IH]; intros st H; [exact H|].
    cbn [foldM] in *. apply bind_Ok_inv in H as (st2 & H1 & H3).
    rewrite (parse_nested_mono _ _ d' _ _ _ _ H1) by lia. cbn [bind]. now apply IH. }
  apply expands_mutind.
  - intros p. exists 0%nat. intros st. exists (snd st). cbn [foldM]. rewrite app_nil_r. now destruct st.
  - intros p c n name r out Hn _ [d IH]. exists d. intros st. cbn [foldM pn_field].
    rewrite ctype_of_name. destruct (Z.ltb_spec 0 n); [lia|]. cbn [bind].
    match goal with |- context [foldM _ r ?s] => destruct (IH s) as [ts E]; exists ts; rewrite E end.
    cbn [fst map]. now rewrite <- app_assoc.
  - intros p c n name r out Hn _ [d IH]. exists d. intros st. cbn [foldM pn_field].
    rewrite ctype_of_name. destruct (Z.ltb_spec 0 n); [|lia]. cbn [bind].
    match goal with |- context [foldM _ r ?s] => destruct (IH s) as [ts E]; exists ts; rewrite E end.
    cbn [fst]. rewrite map_map, <- app_assoc. reflexivity.
  - intros p ty n name r fmt sub out Hc Hn Hf _ [d1 IH1] _ [d2 IH2]. exists (Nat.max (S d1) d2). intros st.
    destruct (IH1 st) as [ts1 E1]. destruct (IH2 (fst st ++ sub, ts1)) as [ts E2]. exists ts.
    cbn [foldM]. unfold pn_field at 1. rewrite ctype_of_None by auto.
    destruct (Z.ltb_spec 0 n); [lia|].
    rewrite (parse_nested_mono fmts (S d1) (Nat.max (S d1) d2) _ _ _ (fst st ++ sub, ts1)); [|now rewrite parse_nested_S, Hf|lia].
    cbn [bind]. rewrite (FM d2 _ _ _ _ _ (Nat.le_max_r _ _) E2). cbn [fst]. now rewrite <- app_assoc.
  - intros p ty n name r fmt subs out Hc Hn Hf _ [d1 IH1] _ [d2 IH2]. exists (Nat.max d1 d2). intros st.
    destruct (IH1 ty fmt st Hf eq_refl) as [ts1 E1]. destruct (IH2 (fst st ++ subs, ts1)) as [ts E2]. exists ts.
    cbn [foldM]. unfold pn_field at 1. rewrite ctype_of_None by auto.
    destruct (Z.ltb_spec 0 n); [|lia].
    assert (E1' := AM d1 (Nat.max d1 d2) _ _ _ _ ltac:(lia) E1).
    assert (E3 : foldM (fun st i => parse_nested (Nat.max d1 d2) fmts (p ++ name ++ idx_str i ++ [46]) ty st) (zrange n) st
       = Ok (fst st ++ subs, ts1)).
    { etransitivity; [|exact E1']. change (indices n) with (zrange n). generalize (zrange n) as l. clear. intros l. revert st.
      induction l as [|i l IH]; intros st; [reflexivity|]. cbn [map foldM]. 
      change (index_text i) with (idx_str i).
      destruct (parse_nested _ _ _ _ _); [|reflexivity]. cbn [bind]. apply IH. }
    etransitivity; [exact (f_equal (fun x => bind x (foldM (pn_field (Nat.max d1 d2) fmts p) r)) E3)|].
    cbn [bind]. rewrite (FM d2 _ _ _ _ _ (Nat.le_max_r _ _) E2). cbn [fst]. now rewrite <- app_assoc.
  - intros fields. exists 0%nat. intros ty fmt st _ _. exists (snd st). cbn [foldM]. rewrite app_nil_r. now destruct st.
  - intros p ps fields out outs _ [d1 IH1] _ [d2 IH2]. exists (Nat.max (S d1) d2). intros ty fmt st Hf Hm.
    destruct (IH1 st) as [ts1 E1]. destruct (IH2 ty fmt (fst st ++ out, ts1) Hf Hm) as [ts E2]. exists ts.
    cbn [foldM].
    rewrite (parse_nested_mono fmts (S d1) (Nat.max (S d1) d2) _ _ _ (fst st ++ out, ts1)); [|now rewrite parse_nested_S, Hf, Hm|lia].
    cbn [bind]. rewrite (AM d2 _ _ _ _ _ (Nat.le_max_r _ _) E2). cbn [fst]. now rewrite <- app_assoc.
Qed.

Lemma expands_fun fmts :
  (forall p fields out, expands fmts p fields out -> forall out', expands fmts p fields out' -> out' = out) /\
  (forall ps fields out, expands_all fmts ps fields out -> forall out', expands_all fmts ps fields out' -> out' = out).
Proof.
  apply expands_mutind.
  - intros p out' H. now inversion H.
  - intros p c n name r out Hn _ IH out' H. inversion H; subst; try lia.
    + match goal with E : ctype_name _ = ctype_name _ |- _ =>
        apply (f_equal ctype_of) in E; rewrite !ctype_of_name in E; injection E as -> end.
      f_equal. auto.
    + match goal with K : forall _, _ <> _ |- _ => now destruct (K c) end.
  - intros p c n name r out Hn _ IH out' H. inversion H; subst; try lia.
    + match goal with E : ctype_name _ = ctype_name _ |- _ =>
        apply (f_equal ctype_of) in E; rewrite !ctype_of_name in E; injection E as -> end.
      f_equal. auto.
    + match goal with K : forall _, _ <> _ |- _ => now destruct (K c) end.
  - intros p ty n name r fmt sub out Hc Hn Hf _ IH1 _ IH2 out' H. inversion H; subst; try lia.
    + now destruct (Hc c).
    + assert (fmt0 = fmt) by congruence. subst. f_equal; auto.
  - intros p ty n name r fmt sub out Hc Hn Hf _ IH1 _ IH2 out' H. inversion H; subst; try lia.
    + now destruct (Hc c).
    + assert (fmt0 = fmt) by congruence. subst. f_equal; auto.
  - intros fields out' H. now inversion H.
  - intros p ps fields out outs _ IH1 _ IH2 out' H. inversion H; subst. f_equal; auto.
Qed.

Lemma sum_sizes_app a b : sum_sizes (a ++ b) = sum_sizes a + sum_sizes b.
Proof. unfold sum_sizes. induction a as [|x a IH]; [reflexivity|]. cbn [app fold_right]. lia. Qed.

Lemma sum_sizes_cons x l : sum_sizes (x :: l) = fd_size x + sum_sizes l.
Proof. reflexivity. Qed.
Lemma sum_sizes_const c (f : Z -> str) l :
  sum_sizes (map (fun i => mkFD (f i) c) l) = lenZ l * Z.of_nat (ctype_size c).
Proof.
  induction l as [|x l IH]; [reflexivity|]. cbn [map sum_sizes fold_right]. unfold sum_sizes in IH. rewrite IH, lenZ_cons.
  unfold fd_size. cbn [fd_type]. lia.
Qed.
Lemma lenZ_indices n : lenZ (indices n) = Z.max 0 n.
Proof. unfold indices, lenZ. rewrite map_length, seq_length. lia. Qed.

Lemma size_is_fun fmts l z : size_is fmts l z -> forall z', size_is fmts l z' -> z' = z.
Proof.
  induction 1 as [|c n name r z H IH|ty n name r fmt k z Hc Hf H1 IH1 H2 IH2]; intros z' H'; inversion H'; subst; auto.
  - match goal with E : ctype_name _ = ctype_name _ |- _ =>
        apply (f_equal ctype_of) in E; rewrite !ctype_of_name in E; injection E as -> end.
    f_equal. auto.
  - exfalso. match goal with K : forall _, _ <> _ |- _ => now apply (K c) end.
  - exfalso. eapply Hc. reflexivity.
  - assert (fmt0 = fmt) by congruence. subst.
    match goal with A : size_is _ (mf_fields fmt) _, B : size_is _ r _ |- _ => idtac end.
    f_equal; [f_equal|]; auto.
Qed.

Lemma expands_size fmts :
  (forall p fields out, expands fmts p fields out -> size_is fmts fields (sum_sizes out)) /\
  (forall ps fields out, expands_all fmts ps fields out ->
     (ps = [] /\ out = []) \/ exists z, size_is fmts fields z /\ sum_sizes out = lenZ ps * z).
Proof.
  apply expands_mutind.
  - constructor.
  - intros p c n name r out Hn _ IH.
    replace (sum_sizes _) with (Z.max 1 n * Z.of_nat (ctype_size c) + sum_sizes out).
    + now constructor.
    + rewrite sum_sizes_cons, Z.max_l by lia. unfold fd_size. cbn [fd_type]. lia.
  - intros p c n name r out Hn _ IH. rewrite sum_sizes_app, sum_sizes_const, lenZ_indices.
    replace (Z.max 0 n) with (Z.max 1 n) by lia. now constructor.
  - intros p ty n name r fmt sub out Hc Hn Hf _ IH1 _ IH2. rewrite sum_sizes_app.
    replace (sum_sizes sub) with (Z.max 1 n * sum_sizes sub) by (rewrite Z.max_l by lia; lia).
    eapply sz_nested; eauto.
  - intros p ty n name r fmt sub out Hc Hn Hf _ [[IH1 _]|(z & Hz & E)] _ IH2.
    + exfalso. pose proof (lenZ_indices n) as K. apply map_eq_nil in IH1. rewrite IH1 in K. cbn in K. lia.
    + rewrite sum_sizes_app, E, lenZ_map, lenZ_indices. replace (Z.max 0 n) with (Z.max 1 n) by lia.
      eapply sz_nested; eauto.
  - intros fields. now left.
  - intros p ps fields out outs _ IH1 _ [[-> ->]|(z & Hz & E)]; right.
    + exists (sum_sizes out). split; auto. rewrite app_nil_r. change (lenZ [p]) with 1. lia.
    + exists z. split; auto. rewrite sum_sizes_app, E, lenZ_cons.
      rewrite (size_is_fun _ _ _ Hz _ IH1). lia.
Qed.

(** trailing padding *)
Lemma is_padding_iff fd : is_padding fd = true <-> padding fd.
Proof. apply starts_with_iff. Qed.
Lemma strip_padding_spec l : without_padding l (strip_padding l).
Proof.
  unfold strip_padding, without_padding.
  assert (H : exists pad, rev l = pad ++ drop_padding (rev l) /\ Forall padding pad /\
            match drop_padding (rev l) with [] => True | fd :: _ => ~ padding fd end).
  { induction (rev l) as [|fd r (pad & E & Hp & Hd)]; [exists []; repeat split; auto|].
    cbn [drop_padding]. destruct (is_padding fd) eqn:Ep.
    - exists (fd :: pad). repeat split; [cbn [app]; congruence| |exact Hd].
      constructor; auto. now apply is_padding_iff.
    - exists []. repeat split; auto. rewrite <- is_padding_iff. congruence. }
  destruct H as (pad & E & Hp & Hd). exists (rev pad). split; [|split].
  - rewrite <- rev_app_distr, <- E. now rewrite rev_involutive.
  - now apply Forall_rev.
  - intros a fd Ha. apply (f_equal (@rev _)) in Ha. rewrite rev_involutive, rev_app_distr in Ha. cbn [rev app] in Ha.
    rewrite Ha in Hd. exact Hd.
Qed.
Lemma without_padding_fun l a b : without_padding l a -> without_padding l b -> a = b.
Proof.
  intros (p & E1 & P1 & N1) (q & E2 & P2 & N2).
  assert (K : forall (a p b q : list fielddata), a ++ p = b ++ q -> Forall padding p ->
     (forall x fd, b = x ++ [fd] -> ~ padding fd) -> exists c, a = b ++ c).
  { clear. intros a p b. revert a p. induction b as [|x b IH]; intros a p q E Hp Hn; [exists a; reflexivity|].
    destruct a as [|y a].
    - exfalso. cbn [app] in E. subst p.
      destruct (exists_last (l := x :: b) ltac:(discriminate)) as (z & fd & Ez). change (x :: b ++ q) with ((x :: b) ++ q) in Hp. rewrite Ez in *.
      apply (Hn z fd eq_refl). apply Forall_app in Hp as [Hp _]. apply Forall_app in Hp as [_ Hp].
      now inversion Hp.
    - injection E as -> E. destruct (IH a p q E Hp) as [c ->]; [|exists c; reflexivity].
      intros z fd ->. apply (Hn (x :: z) fd). reflexivity. }
  destruct (K a p b q ltac:(congruence) P1 N2) as [c Ec].
  destruct (K b q a p ltac:(congruence) P2 N1) as [d Ed].
  subst b. rewrite <- app_assoc in Ec. apply (f_equal (@length _)) in Ec. rewrite !app_length in Ec.
  destruct d; [now rewrite app_nil_r|cbn in Ec; lia].
Qed.
