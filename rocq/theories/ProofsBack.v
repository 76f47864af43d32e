(** Reading back a written log. *)
From Coq Require Import Permutation Sorted.
From Verif Require Import Base Dict Utf8 PyStr PyFloat Struct PySort ModelTypes ModelRead ModelWrite
  Spec SpecSection SpecMsg SpecLog SpecWrite ProofsRead ProofsMsg ProofsFile ProofsInv ProofsTrace ProofsChange
  ProofsSection ProofsExpand ProofsData ProofsWhole ProofsFields ProofsLoad ProofsCut ProofsDefaults ProofsLog ProofsEq
  ProofsWrite ProofsRound.
Ltac Zify.zify_post_hook ::= Z.div_mod_to_equations.

(** ** The remaining attributes of a loaded object *)
Definition flags3 (u : ulog) := (u_compat u, u_incompat u, u_offsets u).
Definition quiet3 (u : ulog) := (u_filtered u, u_missing u, u_has_sync u).
Lemma def_flags cf e u u' : def_ev cf e u u' ->
  flags3 u' = fold_left (fun _ f => f) (of_type 66 parse_flags e) (flags3 u).
Proof.
  apply (def_field flags3 cf 66 parse_flags (fun _ f => f)); auto.
  - cbn; auto 8.
  - intros ty p u0 v H Hty. apply def_effect_shape in H as [(-> & H)|[(-> & H)|[(-> & H)|[(-> & H)|[(-> & H)|(-> & H)]]]]]; try congruence;
      symmetry in H; unbind H; try (injection H as <-; reflexivity).
    apply add_info_multi_inv in H as (a & b & ->). reflexivity.
  - intros p u0 v H. apply def_effect_shape in H as [(E & H)|[(E & H)|[(E & H)|[(E & H)|[(E & H)|(E & H)]]]]]; try discriminate.
    symmetry in H. unbind H. destruct x as [[c i] o]. apply flags_inv in H. subst v. eexists. split; [exact E0|reflexivity].
  - intros p u0 H. apply def_effect_shape in H as [(E & H)|[(E & H)|[(E & H)|[(E & H)|[(E & H)|(E & H)]]]]]; try discriminate.
    destruct (parse_flags p) as [[[c i] o]|]; auto. cbn [bind] in H.
    destruct (negb _); [discriminate|]. destruct (existsb _ _); discriminate.
Qed.
Lemma def_quiet cf ty p u u' : def_ev cf (EMsg ty p) u u' -> quiet3 u' = quiet3 u.
Proof.
  intros H. apply def_ev_msg in H. destruct H as [H|v H|H]; auto.
  apply def_effect_shape in H as [(-> & H)|[(-> & H)|[(-> & H)|[(-> & H)|[(-> & H)|(-> & H)]]]]];
      symmetry in H; unbind H; try (injection H as <-; reflexivity).
  - apply add_info_multi_inv in H as (a & b & ->). reflexivity.
  - destruct x as [[c i] o]. apply flags_inv in H. subst v. reflexivity.
Qed.
Lemma ev_quiet cf ty p u u' : (forall n, cf_filter cf n = true) -> ev_step cf (EMsg ty p) u u' ->
  u_filtered u' = u_filtered u /\ u_has_sync u' = u_has_sync u /\
  (u_corrupt u' = false -> u_corrupt u = false /\ u_missing u' = u_missing u).
Proof.
  intros Hfil H. apply ev_step_msg in H.
  assert (K : forall v e, data_effect cf ty p u = Some (v, e) -> u_filtered v = u_filtered u /\ u_has_sync v = u_has_sync u /\
    (u_corrupt v = false -> u_corrupt u = false /\ u_missing v = u_missing u)).
  { clear H. intros v e H. unfold eff_of in *.
    apply data_effect_shape in H as [(-> & H)|[(-> & H)|[(-> & H)|[(-> & H)|[(-> & H)|[(-> & H)|[(-> & H)|[(-> & H)|[(-> & H)|(-> & H)]]]]]]]]];
    unfold eff_of in H.
    all: try (match type of H with (_, _) = match ?r with Ok _ => _ | Err _ => _ end => destruct r as [w|] eqn:E; injection H as -> ->; [|now auto] end;
      unbind E; try (injection E as <-; now auto)).
    - apply add_info_multi_inv in E as (a & b & ->). auto.
    - injection E as <-. rewrite Hfil. auto.
    - unfold data_msg in H. cbv zeta in H.
      destruct (unpack_u 2 _); [|injection H as -> ->; now auto]. destruct (zget _ (u_subs u)) as [s|].
      + destruct (_ || _); [injection H as -> ->; cbn; now auto|].
        match type of H with context [set_subs ?x u] => set (sb := x) in H end.
        destruct (unpack_u 8 _) as [ts|]; [destruct (u_last u <? _)|]; injection H as -> ->; cbn; now auto.
      + destruct (existsb _ _); injection H as -> ->; [now auto|]. cbn. split; [auto|]. split; [auto|discriminate].
    - injection H as -> _. auto. }
  destruct H as [H|v e H _|v H].
  - auto.
  - eauto.
  - destruct (K _ _ H) as (A & B & _). cbn. split; [exact A|]. split; [exact B|discriminate].
Qed.

(** ** timestamp_idx *)
Definition TS : str := lit "timestamp".
Lemma expands_prefix fmts :
  (forall p fields out, expands fmts p fields out -> Forall (fun fd => exists r, fd_name fd = p ++ r) out) /\
  (forall ps fields out, expands_all fmts ps fields out -> Forall (fun fd => exists p r, In p ps /\ fd_name fd = p ++ r) out).
Proof.
  apply expands_mutind; intros; try now constructor.
  - constructor; [eexists; reflexivity|assumption].
  - apply Forall_app. split; [|assumption]. apply Forall_map, Forall_forall. intros i _. eexists. reflexivity.
  - apply Forall_app. split; [|assumption]. eapply Forall_impl; [|eassumption]. intros fd [x ->]. eexists. now rewrite <- app_assoc.
  - apply Forall_app. split; [|assumption]. eapply Forall_impl; [|eassumption]. intros fd (q & x & Hq & ->).
    apply in_map_iff in Hq as (i & <- & _). eexists. now rewrite <- app_assoc.
  - apply Forall_app. split; (eapply Forall_impl; [|eassumption]).
    + intros fd [x ->]. exists p, x. split; [now left|reflexivity].
    + intros fd (q & x & Hq & ->). exists q, x. split; [now right|reflexivity].
Qed.
Lemma dot_ts p r : In 46 p -> p ++ r <> TS.
Proof.
  intros H E. assert (K : In 46 TS) by (rewrite <- E; apply in_or_app; now left).
  cbn in K. repeat destruct K as [K|K]; try discriminate. exact K.
Qed.
Lemma bracket_ts a r : a ++ 91 :: r <> TS.
Proof.
  intros E. assert (K : In 91 TS) by (rewrite <- E; apply in_or_app; right; now left).
  cbn in K. repeat destruct K as [K|K]; try discriminate. exact K.
Qed.
Lemma foldM_inv {A S} (f : S -> A -> res S) (P : S -> Prop) l : (forall s x s', In x l -> P s -> f s x = Ok s' -> P s') ->
  forall s s', P s -> foldM f l s = Ok s' -> P s'.
Proof.
  induction l as [|x l IH]; intros H s s' Hs E; cbn [foldM] in E.
  - injection E as <-. exact Hs.
  - apply bind_Ok_inv in E as (s1 & E1 & E2). eapply IH; [|eapply H; [now left|exact Hs|exact E1]|exact E2]. intros. eapply H; [right|..]; eauto.
Qed.
Lemma nested_tsidx fmts d : forall p tn st st', In 46 p -> parse_nested d fmts p tn st = Ok st' -> snd st' = snd st.
Proof.
  induction d as [|d IH]; intros p tn st st' Hp H; [discriminate|].
  rewrite parse_nested_S in H. destruct (sget tn fmts) as [fmt|]; [|discriminate].
  refine (foldM_inv _ (fun s => snd s = snd st) _ _ st st' eq_refl H).
  intros s [[ty n] name] s' _ Hs E. rewrite <- Hs. clear H Hs st st'. unfold pn_field in E. destruct (ctype_of ty) as [c|].
  - apply (f_equal (fun r => match r with Ok x => snd x | Err _ => 0 end)) in E. cbn [snd] in E.
    rewrite <- E. rewrite str_eqb_neq by now apply dot_ts. reflexivity.
  - destruct (0 <? n).
    + refine (foldM_inv _ (fun s0 => snd s0 = snd s) _ _ s s' eq_refl E).
      intros s1 i s2 _ H1 H2. rewrite <- H1. eapply IH; [|exact H2]. apply in_or_app. now left.
    + eapply IH; [|exact E]. apply in_or_app. now left.
Qed.
Definition one_ts (l : list fielddata) : Prop := forall i j a b,
  nth_error l i = Some a -> nth_error l j = Some b -> fd_name a = TS -> fd_name b = TS -> i = j.
Definition ts_at (st : fd_state) : Prop := forall i fd, nth_error (fst st) i = Some fd -> fd_name fd = TS -> snd st = Z.of_nat i.
Lemma nth_error_app_l {A} (a b : list A) i x : nth_error a i = Some x -> nth_error (a ++ b) i = Some x.
Proof. intros H. rewrite nth_error_app1; [exact H|]. apply nth_error_Some. congruence. Qed.
Lemma one_ts_app a b : one_ts (a ++ b) -> one_ts a.
Proof. intros H i j x y Hx Hy. apply H; now apply nth_error_app_l. Qed.
Lemma ts_at_app l x z : ts_at (l, z) -> Forall (fun fd => fd_name fd <> TS) x -> ts_at (l ++ x, z).
Proof.
  intros H Hx i fd Hi Hn. cbn [fst snd] in *. destruct (Nat.lt_ge_cases i (length l)) as [Hl|Hl].
  - rewrite nth_error_app1 in Hi by exact Hl. now apply (H i fd).
  - rewrite nth_error_app2 in Hi by exact Hl. apply nth_error_In in Hi. rewrite Forall_forall in Hx. now apply Hx in Hi.
Qed.
Lemma Forall2_prefix_dot p out : In 46 p -> Forall (fun fd => exists r, fd_name fd = p ++ r) out -> Forall (fun fd => fd_name fd <> TS) out.
Proof. intros Hp. apply Forall_impl. intros fd [r ->]. now apply dot_ts. Qed.
Lemma top_tsidx fmts d fields : (forall ty n, In (ty, n, TS) fields -> n <= 0) -> forall st st',
  foldM (pn_field d fmts []) fields st = Ok st' -> one_ts (fst st') -> ts_at st -> ts_at st'.
Proof.
  intros Hpl st st' H Hone Hts.
  assert (M : forall fields st st', foldM (pn_field d fmts []) fields st = Ok st' -> exists out, fst st' = fst st ++ out).
  { clear. intros fields st st' H. refine (foldM_inv _ (fun s => exists out, fst s = fst st ++ out) _ _ st st' _ H); [|exists []; now rewrite app_nil_r].
    intros s [[ty n] name] s' _ [o Ho] E. assert (K : exists o', fst s' = fst s ++ o'); [|destruct K as [o' ->]; exists (o ++ o'); now rewrite Ho, app_assoc].
    unfold pn_field in E. destruct (ctype_of ty) as [c|].
    - apply (f_equal (fun r => match r with Ok x => fst x | Err _ => [] end)) in E. cbn [fst] in E. rewrite <- E. eauto.
    - destruct (0 <? n).
      + refine (foldM_inv _ (fun s0 => exists o', fst s0 = fst s ++ o') _ _ s s' _ E); [|exists []; now rewrite app_nil_r].
        intros s1 i s2 _ [o1 Ho1] H2. apply parse_nested_expands in H2 as (f & o2 & _ & _ & ->). rewrite Ho1. exists (o1 ++ o2). now rewrite app_assoc.
      + apply parse_nested_expands in E as (f & o2 & _ & _ & ->). eauto. }
  revert st H Hts. induction fields as [|[[ty n] name] r IH]; intros st H Hts.
  - injection H as <-. exact Hts.
  - cbn [foldM] in H. apply bind_Ok_inv in H as (s1 & E & H).
    apply (IH ltac:(intros; eapply Hpl; right; eassumption) s1 H). destruct (M _ _ _ H) as [o Ho]. rewrite Ho in Hone. apply one_ts_app in Hone.
    clear IH H o Ho M st'. unfold pn_field in E. cbn [app] in E. destruct (ctype_of ty) as [c|].
    + apply (f_equal (fun r => match r with Ok x => x | Err _ => s1 end)) in E. cbv beta iota in E. subst s1. cbn [fst] in Hone.
      change (lit "timestamp") with TS. destruct (str_eqb_spec name TS) as [En|En].
      * specialize (Hpl ty n). rewrite En in Hpl. specialize (Hpl (or_introl eq_refl)). replace (0 <? n) with false in * by lia. cbn [map] in *.
        intros i fd Hi Hn. cbn [fst snd] in *.
        assert (i = length (fst st)).
        { apply (Hone i (length (fst st)) fd (mkFD name c) Hi); [apply nth_error_mid|exact Hn|exact En]. }
        subst i. rewrite lenZ_app. change (lenZ [mkFD name c]) with 1. unfold lenZ.
        lia.
      * destruct st as [l z]. apply ts_at_app; [exact Hts|]. apply Forall_map. destruct (0 <? n); [|repeat constructor; exact En].
        apply Forall_map, Forall_forall. intros i _. apply bracket_ts.
    + destruct st as [l z]. destruct (0 <? n).
      * assert (K : exists o, s1 = (l ++ o, z) /\ Forall (fun fd => fd_name fd <> TS) o); [|destruct K as (o & -> & K); now apply ts_at_app].
        refine (foldM_inv _ (fun s => exists o, s = (l ++ o, z) /\ Forall (fun fd => fd_name fd <> TS) o) _ _ (l, z) s1 _ E).
        2:{ exists []. rewrite app_nil_r. split; [reflexivity|constructor]. }
        intros s i s' _ (o & -> & Ho) H. assert (Hd : In 46 (name ++ idx_str i ++ [46])) by (rewrite app_assoc; apply in_or_app; right; now left).
        pose proof (nested_tsidx _ _ _ _ _ _ Hd H) as Hz. apply parse_nested_expands in H as (f & o2 & _ & X & Ef).
        exists (o ++ o2). cbn [fst snd] in *. split; [destruct s' as [l' z']; cbn in *; rewrite Ef, Hz, app_assoc; reflexivity|].
        apply Forall_app. split; [exact Ho|]. eapply Forall2_prefix_dot; [exact Hd|]. exact (proj1 (expands_prefix fmts) _ _ _ X).
      * assert (Hd : In 46 (name ++ [46])) by (apply in_or_app; right; now left).
        pose proof (nested_tsidx _ _ _ _ _ _ Hd E) as Hz. apply parse_nested_expands in E as (f & o2 & _ & X & Ef).
        destruct s1 as [l1 z1]. cbn [fst snd] in *. subst. apply ts_at_app; [exact Hts|].
        eapply Forall2_prefix_dot; [exact Hd|]. exact (proj1 (expands_prefix fmts) _ _ _ X).
Qed.
Lemma add_tsidx cf fmts name fields multi id ts k fmt : topic fmts name fields -> str_ok name -> u8 multi -> u16 id ->
  sget name fmts = Some fmt -> (forall ty n, In (ty, n, TS) (mf_fields fmt) -> n <= 0) ->
  nth_error fields k = Some (mkFD TS U64) ->
  parse_add cf fmts ([multi] ++ le_enc 2 id ++ utf8 name) = Ok (sub_of multi id name fields ts) -> ts = Z.of_nat k.
Proof.
  intros [(fmt' & out & Hf & Hx & Hp) [Hn He] _] Hok Hm Hi Hfm Hpl Hk H.
  assert (fmt' = fmt) by congruence. subst fmt'. unfold parse_add in H.
  rewrite (slice_0 1), takeZ_app_exact in H by reflexivity. rewrite unpack1 in H. cbn [bind] in H.
  replace (slice 1 3 ([multi] ++ le_enc 2 id ++ utf8 name)) with (le_enc 2 id) in H
    by (symmetry; apply slice_app_mid; [reflexivity|rewrite lenZ_le; reflexivity]).
  rewrite le2_enc in H by exact Hi. cbn [bind] in H.
  replace (dropZ 3 ([multi] ++ le_enc 2 id ++ utf8 name)) with (utf8 name) in H
    by (rewrite app_assoc; symmetry; apply dropZ_app_exact; rewrite lenZ_app, lenZ_le; reflexivity).
  rewrite parse_utf8 in H by exact Hok. cbn [bind] in H.
  apply bind_Ok_inv in H as (st & E & H). cbv zeta in H. apply bind_Ok_inv in H as (dt & _ & H).
  assert (Hts : snd st = ts) by exact (f_equal (fun r => match r with Ok s => sb_tsidx s | Err _ => 0 end) H).
  destruct (cf_depth cf) as [|d]; [discriminate|].
  assert (Ho : fst st = out).
  { apply parse_nested_expands in E as (f & o & F1 & F2 & F3). assert (f = fmt) by congruence. subst f.
    cbn [fst app] in F3. rewrite F3. eapply (proj1 (expands_fun fmts)); eassumption. }
  rewrite parse_nested_S, Hfm in E.
  destruct Hp as (pad & Hout & Hpad & _). rewrite Hout in Ho.
  assert (Hone : one_ts (fst st)).
  { rewrite Ho. assert (B : forall i a, nth_error (fields ++ pad) i = Some a -> fd_name a = TS -> nth_error (map fd_name fields) i = Some TS).
    { intros i a Hia Ha. destruct (Nat.lt_ge_cases i (length fields)) as [Hl|Hl].
      - rewrite nth_error_app1 in Hia by exact Hl. rewrite (map_nth_error _ _ _ Hia). now rewrite Ha.
      - rewrite nth_error_app2 in Hia by exact Hl. apply nth_error_In in Hia. rewrite Forall_forall in Hpad. destruct (Hpad a Hia) as [r Hr].
        rewrite Ha in Hr. discriminate. }
    intros i j a b Hia Hjb Ha Hb. apply (proj1 (NoDup_nth_error (map fd_name fields)) Hn).
    - apply nth_error_Some. rewrite (B _ _ Hia Ha). discriminate.
    - now rewrite (B _ _ Hia Ha), (B _ _ Hjb Hb). }
  assert (T : ts_at st).
  { eapply top_tsidx; [exact Hpl|exact E|exact Hone|]. intros i fd Hi'. destruct i; discriminate. }
  rewrite <- Hts. apply (T k (mkFD TS U64)); [|reflexivity]. rewrite Ho. now apply nth_error_app_l.
Qed.
