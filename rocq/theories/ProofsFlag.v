(** The corruption flag after a load, and the message ids without subscription. *)
From Verif Require Import Base Dict Utf8 PyStr PyFloat Struct PySort ModelTypes ModelRead Spec SpecSection SpecMsg SpecLog SpecWalk SpecTools SpecText SpecFlag
  ProofsRead ProofsInv ProofsTrace ProofsChange ProofsSection ProofsWindow ProofsText ProofsDefect ProofsLog ProofsFilter ProofsWalk.

(** ** Which messages raise IndexError *)
Definition ni {A} (r : res A) : Prop := r <> Err IndexError.
Lemma ni_bind {A B} (r : res A) (k : A -> res B) : ni r -> (forall a, ni (k a)) -> ni (bind r k).
Proof. destruct r as [a|e]; intros H K; cbn [bind]; [apply K|]. intros [= ->]. now apply H. Qed.
Lemma ni_unpack n d : ni (unpack_u n d).
Proof. unfold unpack_u. destruct (Nat.eqb _ _); discriminate. Qed.
Lemma ni_string ign d : ni (parse_string ign d).
Proof.
  pose proof (utf8_decode_err_aux (length d) ign d (le_n _)) as H. unfold parse_string, ni. destruct (utf8_decode ign d); [discriminate|].
  cbn [errs] in H. intros [= ->]. destruct H as [H|[]]; discriminate.
Qed.
Lemma ni_val c d : ni (unpack_val c d).
Proof. unfold unpack_val. apply ni_bind; [apply ni_unpack|discriminate]. Qed.
Lemma ni_foldM {A S} (f : S -> A -> res S) l : (forall s x, ni (f s x)) -> forall s, ni (foldM f l s).
Proof. intros H. induction l; cbn [foldM]; intros s; [discriminate|]. apply ni_bind; auto. Qed.
Lemma ni_nested depth fmts : forall prefix tn st, ni (parse_nested depth fmts prefix tn st).
Proof.
  induction depth as [|d IH]; intros; cbn [parse_nested]; [discriminate|].
  destruct (sget tn fmts) as [fmt|]; [|discriminate].
  apply ni_foldM. intros s [[t a] n]. destruct (ctype_of t); [discriminate|].
  destruct (0 <? a); [|apply IH]. apply ni_foldM. intros; apply IH.
Qed.
Lemma ni_np_dtype l : ni (np_dtype l).
Proof.
  unfold np_dtype. generalize 0, (@nil str). induction l as [|fd l IH]; intros i seen; cbn [np_dtype_aux]; [discriminate|].
  cbv zeta. match goal with |- ni (if ?b then _ else _) => destruct b end; [discriminate|]. apply ni_bind; [apply IH|discriminate].
Qed.
Lemma ni_add cf fmts p : ni (parse_add cf fmts p).
Proof.
  unfold parse_add. apply ni_bind; [apply ni_unpack|intros a]. apply ni_bind; [apply ni_unpack|intros b]. apply ni_bind; [apply ni_string|intros c].
  apply ni_bind; [apply ni_nested|intros st]. cbv zeta. apply ni_bind; [apply ni_np_dtype|discriminate].
Qed.
Lemma ni_logging ign p : ni (parse_logging ign p).
Proof. unfold parse_logging. repeat (apply ni_bind; [first [apply ni_unpack|apply ni_string]|intros ?]). discriminate. Qed.
Lemma ni_tagged ign p : ni (parse_tagged ign p).
Proof. unfold parse_tagged. repeat (apply ni_bind; [first [apply ni_unpack|apply ni_string]|intros ?]). discriminate. Qed.
Lemma ni_dropout p t : ni (parse_dropout p t).
Proof. unfold parse_dropout. apply ni_bind; [apply ni_unpack|discriminate]. Qed.
Lemma ni_flags p : ni (parse_flags p).
Proof.
  unfold parse_flags, unpack_bytes8, unpack_u64x3. repeat (apply ni_bind; [destruct (Nat.eqb _ _); discriminate|intros ?]). discriminate.
Qed.
Lemma info_index ign p : parse_info ign p = Err IndexError <-> nameless ign p.
Proof.
  destruct p as [|k rest].
  { split; [discriminate|intros (k & r & t & E & _); discriminate]. }
  unfold parse_info. rewrite unpack_first. cbn [bind]. rewrite slice_1. unfold parse_string at 1.
  destruct (utf8_decode ign (firstn (Z.to_nat k) rest)) as [t|e] eqn:Et; cbn [bind].
  2:{ split.
      - intros [= ->]. exfalso. exact (ni_string ign _ Et).
      - intros (k' & r' & t & E & Et' & _). injection E as <- <-. rewrite Et in Et'. discriminate. }
  cbv zeta. destruct (split_two 32 t) as [(Hno & E1)|(ty & key & t2 & E & _ & _ & _ & E0 & E1)].
  - split; [intros _; exists k, rest, t; auto|intros _]. rewrite E1. unfold py_nth. destruct (nth_error (split1 32 t) 0); reflexivity.
  - rewrite E0. cbn [bind]. rewrite E1. cbn [bind]. split.
    + intros H. exfalso. revert H. change (ni (if starts_with (lit "char[") ty then let* s := parse_string ign (dropZ (1 + k) (k :: rest)) in Ok (mkInfo ty key (VStr s))
        else match ctype_of ty with Some c => let* v := unpack_val c (dropZ (1 + k) (k :: rest)) in Ok (mkInfo ty key v) | None => Ok (mkInfo ty key (VBytes (dropZ (1 + k) (k :: rest)))) end)).
      destruct (starts_with _ _); [apply ni_bind; [apply ni_string|discriminate]|]. destruct (ctype_of ty); [apply ni_bind; [apply ni_val|discriminate]|discriminate].
    + intros (k' & r' & t' & E' & Et' & Hn). injection E' as <- <-. rewrite Et in Et'. injection Et' as <-. exfalso. apply Hn. rewrite E. apply in_or_app. right. now left.
Qed.
Lemma multi_index ign p : parse_info_multi ign p = Err IndexError <-> exists b q, p = b :: q /\ nameless ign q.
Proof.
  unfold parse_info_multi. destruct p as [|b q]; [split; [discriminate|intros (b & q & E & _); discriminate]|].
  rewrite unpack_first. cbn [bind]. replace (dropZ 1 (b :: q)) with q by (rewrite dropZ_skipn; reflexivity). split.
  - intros H. exists b, q. split; [reflexivity|]. apply info_index. destruct (parse_info ign q); [discriminate|cbn [bind] in H; congruence].
  - intros (b' & q' & [= <- <-] & H). apply info_index in H. rewrite H. reflexivity.
Qed.
Lemma pdef_index ign p : parse_pdef ign p = Err IndexError <-> exists b q, p = b :: q /\ nameless ign q.
Proof. exact (multi_index ign p). Qed.

(** formats *)
Lemma ni_py_int s : ni (py_int s).
Proof.
  assert (D : forall s a d, ni (int_digits a d s)).
  { induction s0 as [|c r IH]; intros a d; cbn [int_digits]; [destruct d; discriminate|]. destruct (is_digit c); [apply IH|]. destruct ((c =? 95) && d); [apply IH|discriminate]. }
  unfold py_int. repeat match goal with
    | |- ni (match ?x with _ => _ end) => destruct x
    | |- ni (bind _ _) => apply ni_bind; [|discriminate]
    | |- _ => apply D
    end.
Qed.
Lemma field_index g : extract_type g = Err IndexError <-> ~ In 32 g.
Proof.
  unfold extract_type. cbv zeta. destruct (split_two 32 g) as [(Hno & E1)|(ty & name & t & E & _ & _ & _ & E0 & E1)].
  - split; [auto|intros _]. rewrite E1. unfold py_nth. destruct (nth_error (split1 32 g) 0); reflexivity.
  - rewrite E0. cbn [bind]. rewrite E1. cbn [bind]. split.
    + destruct (_ =? -1); [discriminate|]. intros H. exfalso. revert H. match goal with |- ?r = _ -> _ => change (ni r) end. apply ni_bind; [apply ni_py_int|discriminate].
    + intros H. exfalso. apply H. rewrite E. apply in_or_app. right. now left.
Qed.
Lemma fields_index parts : mapM extract_type (filter (fun t => negb (Nat.eqb (length t) 0)) parts) = Err IndexError <->
  exists a f b, parts = a ++ f :: b /\ f <> [] /\ ~ In 32 f /\ Forall (fun g => g = [] \/ exists x, field_def g x) a.
Proof.
  induction parts as [|g parts IH]; cbn [filter mapM].
  - split; [discriminate|]. intros (a & f & b & E & _). destruct a; discriminate.
  - destruct g as [|c g]; cbn [length Nat.eqb negb].
    + rewrite IH. split.
      * intros (a & f & b & -> & F1 & F2 & F3). exists ([] :: a), f, b. repeat split; auto.
      * intros (a & f & b & E & F1 & F2 & F3). destruct a as [|y a]; injection E as E1 E2; [congruence|]. subst. exists a, f, b. inversion F3. repeat split; auto.
    + cbn [mapM]. destruct (extract_type (c :: g)) as [x|e] eqn:Ex; cbn [bind].
      * pose proof Ex as Ex'. apply extract_type_iff in Ex. split.
        -- intros H. destruct (mapM extract_type _) as [l|e]; [discriminate|]. cbn [bind] in H. apply IH in H. destruct H as (a & f & b & -> & F1 & F2 & F3).
           exists ((c :: g) :: a), f, b. repeat split; auto. constructor; [right; exists x; exact Ex|exact F3].
        -- intros (a & f & b & E & F1 & F2 & F3). destruct a as [|y a]; injection E as E1 E2.
           ++ subst f. apply field_index in F2. congruence.
           ++ subst y parts. inversion F3. assert (Q : mapM extract_type (filter (fun t => negb (Nat.eqb (length t) 0)) (a ++ f :: b)) = Err IndexError) by (apply IH; exists a, f, b; auto).
              rewrite Q. reflexivity.
      * split.
        -- intros [= ->]. apply field_index in Ex. exists [], (c :: g), parts. repeat split; [discriminate|exact Ex|constructor].
        -- intros (a & f & b & E & F1 & F2 & F3). destruct a as [|y a]; injection E as E1 E2.
           ++ subst f. apply field_index in F2. congruence.
           ++ subst y. inversion F3 as [|y l [Q|(x & Q)]]; [discriminate|]. apply extract_type_iff in Q. congruence.
Qed.
Lemma format_index ign p : parse_format ign p = Err IndexError <-> partless ign p.
Proof.
  unfold parse_format, parse_string, partless. destruct (utf8_decode ign p) as [s|e] eqn:Es; cbn [bind].
  2:{ split; [intros [= ->]; exfalso; exact (ni_string ign p Es)|intros (s & Q & _); discriminate]. }
  cbv zeta. destruct (split_two 58 s) as [(H & E1)|(name & body & t & E & Hn & Hb & Hi & E0 & E1)].
  - split; [intros _; exists s; auto|intros _]. rewrite E1. unfold py_nth. destruct (nth_error (split1 58 s) 0); reflexivity.
  - rewrite E0. cbn [bind]. rewrite E1. cbn [bind]. destruct (separated_split 59 body) as (Eb & Fb).
    assert (X : (let* fields := mapM extract_type (filter (fun t0 : list Z => negb (Nat.eqb (length t0) 0)) (split1 59 body)) in Ok (mkFmt name fields)) = Err IndexError <->
      mapM extract_type (filter (fun t0 : list Z => negb (Nat.eqb (length t0) 0)) (split1 59 body)) = Err IndexError).
    { destruct (mapM extract_type _); cbn [bind]; split; congruence. }
    rewrite X, fields_index. split.
    + intros (a & f & b & Ep & F). exists s. split; [reflexivity|]. right. exists name, (split1 59 body), t, a, f, b. rewrite <- Eb. split; [exact E|]. split; [exact Hi|]. split; [exact Hn|]. split; [|auto].
      apply Forall_forall. intros q Hq. rewrite Forall_forall in Fb. split; [|apply Fb; exact Hq]. intros H58. apply Hb. rewrite Eb.
      clear -Hq H58. induction (split1 59 body) as [|r l IH]; [destruct Hq|]. cbn [separated]. apply in_or_app. destruct Hq as [->|Hq]; [left; exact H58|right].
      apply in_concat. exists ([59] ++ q). split; [apply in_map_iff; exists q; split; [reflexivity|exact Hq]|right; exact H58].
    + intros (s' & [= <-] & [Q|(name' & parts & t' & a & f & b & E' & Hi' & Hn' & Fp & Ep & F)]).
      * exfalso. apply Q. rewrite E. apply in_or_app. right. now left.
      * assert (Hb' : ~ In 58 (separated [59] parts)).
        { intros H. apply separated_In in H. destruct H as [[H|[]]|(q & Hq & H)]; [discriminate|]. rewrite Forall_forall in Fp. apply (proj1 (Fp q Hq)). exact H. }
        destruct (split_two_eq 58 name' (separated [59] parts) t' Hn' Hb' Hi') as (_ & E1'). rewrite <- E', E1 in E1'. injection E1' as ->.
        rewrite split_separated; [exists a, f, b; auto|rewrite Ep; destruct a; discriminate|]. eapply Forall_impl; [|exact Fp]. intros q (_ & H). exact H.
Qed.

(** ** One message of the data section *)
(** with the tables of the state *)
Definition bad_sample (u : ulog) (ty : Z) (p : bytes) : Prop :=
  ty = 68 /\ exists id, msg_id p = Some id /\ match zget id (u_subs u) with Some s => fits s p = false | None => ~ In id (u_filtered u) end.
Definition lost (u : ulog) (ty : Z) (p : bytes) (id : Z) : Prop :=
  ty = 68 /\ msg_id p = Some id /\ zget id (u_subs u) = None /\ ~ In id (u_filtered u).
Definition left_out (cf : cfg) (u : ulog) (ty : Z) (p : bytes) (id : Z) : Prop :=
  ty = 65 /\ exists s, parse_add cf (u_formats u) p = Ok s /\ sb_id s = id /\ cf_filter cf (sb_name s) = false.

Lemma unreadable_info ign p : unreadable ign 73 p <-> nameless ign p.
Proof. unfold unreadable. intuition discriminate. Qed.
Lemma unreadable_param ign p : unreadable ign 80 p <-> nameless ign p.
Proof. unfold unreadable. intuition discriminate. Qed.
Lemma unreadable_multi ign p : unreadable ign 77 p <-> exists b q, p = b :: q /\ nameless ign q.
Proof. unfold unreadable. intuition discriminate. Qed.
Lemma unreadable_pdef ign p : unreadable ign 81 p <-> exists b q, p = b :: q /\ nameless ign q.
Proof. unfold unreadable. intuition discriminate. Qed.

Lemma existsb_In x l : existsb (Z.eqb x) l = true <-> In x l.
Proof. rewrite existsb_exists. split; [intros (y & Hy & E); apply Z.eqb_eq in E; congruence|intros H; exists x; split; [exact H|apply Z.eqb_refl]]. Qed.

Definition flag_facts (cf : cfg) (ty : Z) (p : bytes) (u v : ulog) : Prop :=
  multi_ne v /\ (u_corrupt v = true <-> u_corrupt u = true \/ bad_sample u ty p) /\
  (forall id, In id (u_missing v) <-> In id (u_missing u) \/ lost u ty p id) /\
  (forall id, In id (u_filtered v) <-> In id (u_filtered u) \/ left_out cf u ty p id).

Lemma facts_same cf ty p u v : ty <> 68 -> ty <> 65 -> multi_ne v -> u_corrupt v = u_corrupt u -> u_missing v = u_missing u -> u_filtered v = u_filtered u -> flag_facts cf ty p u v.
Proof.
  intros N1 N2 M E1 E2 E3. unfold flag_facts, bad_sample, lost, left_out. rewrite E1, E2, E3. split; [exact M|]. repeat split; auto; intros [H|(H & _)]; auto; contradiction.
Qed.

Lemma effect_flag cf ty p u v eo : data_effect cf ty p u = Some (v, eo) -> multi_ne u -> (forall id s, zget id (u_subs u) = Some s -> 0 <= sb_tsoff s) ->
  (eo = Some IndexError <-> unreadable (cf_ign cf) ty p) /\ flag_facts cf ty p u v.
Proof.
  intros H M T. apply data_effect_shape in H.
  destruct H as [[-> H]|[[-> H]|[[-> H]|[[-> H]|[[-> H]|[[-> H]|[[-> H]|[[-> H]|[[-> H]|[-> H]]]]]]]]]].
  - rewrite unreadable_info, <- info_index. destruct (parse_info _ _) as [m|x]; cbn [bind eff_of] in H; injection H as -> ->;
      (split; [split; congruence|apply facts_same; try lia; auto]).
  - rewrite unreadable_multi, <- multi_index. destruct (parse_info_multi _ _) as [m|x]; cbn [bind eff_of] in H.
    + destruct (add_multi_ok (fst m) (snd m) u M) as (u' & E & E1 & _ & M'). pose proof E as E'. rewrite E in H. cbn [eff_of] in H. injection H as -> ->.
      split; [split; discriminate|]. apply add_info_multi_inv in E' as (xa & xb & ->). apply facts_same; try lia; auto.
    + injection H as -> ->. split; [split; congruence|apply facts_same; try lia; auto].
  - rewrite unreadable_param, <- info_index. destruct (parse_info _ _) as [m|x]; cbn [bind eff_of] in H; injection H as -> ->;
      (split; [split; congruence|apply facts_same; try lia; auto]).
  - rewrite unreadable_pdef, <- pdef_index. destruct (parse_pdef _ _) as [m|x]; cbn [bind eff_of] in H; injection H as -> ->;
      (split; [split; congruence|apply facts_same; try lia; auto]).
  - assert (U : ~ unreadable (cf_ign cf) 65 p) by (unfold unreadable; intuition discriminate).
    pose proof (ni_add cf (u_formats u) p) as N. destruct (parse_add cf (u_formats u) p) as [s|x] eqn:Ep; cbn [bind eff_of] in H; injection H as -> ->.
    + split; [split; [discriminate|contradiction]|]. unfold flag_facts, bad_sample, lost, left_out. rewrite Ep. destruct (cf_filter cf (sb_name s)) eqn:Ef; cbn [u_corrupt u_missing u_filtered set_subs set_filtered].
      * split; [exact M|]. repeat split; auto; try (intros [Q|(Q & _)]; [exact Q|discriminate]). intros [Q|(_ & s' & Q & _ & Q2)]; [exact Q|]. congruence.
      * split; [exact M|]. split; [|split]; try (intros; split; [auto|intros [Q|(Q & _)]; [exact Q|discriminate]]).
        intros id. rewrite set_add_In. split; [intros [->|Q]; [right; split; [reflexivity|exists s; auto]|left; exact Q]|intros [Q|(_ & s' & Q & Q1 & _)]; [right; exact Q|left; congruence]].
    + split; [split; [intros [= ->]; exfalso; now apply N|contradiction]|]. unfold flag_facts, bad_sample, lost, left_out. rewrite Ep. split; [exact M|].
      split; [|split]; intros; (split; [auto|]); try (intros [Q|(Q & _)]; [exact Q|discriminate]). intros [Q|(_ & s' & Q & _)]; [exact Q|discriminate].
  - assert (U : ~ unreadable (cf_ign cf) 76 p) by (unfold unreadable; intuition discriminate). pose proof (ni_logging (cf_ign cf) p) as N. unfold ni in N.
    destruct (parse_logging _ _) as [m|x]; cbn [bind eff_of] in H; injection H as -> ->; (split; [split; [congruence|contradiction]|apply facts_same; try lia; auto]).
  - assert (U : ~ unreadable (cf_ign cf) 67 p) by (unfold unreadable; intuition discriminate). pose proof (ni_tagged (cf_ign cf) p) as N. unfold ni in N.
    destruct (parse_tagged _ _) as [m|x]; cbn [bind eff_of] in H; injection H as -> ->; (split; [split; [congruence|contradiction]|apply facts_same; try lia; auto]).
  - assert (U : ~ unreadable (cf_ign cf) 68 p) by (unfold unreadable; intuition discriminate).
    assert (L : forall id, ~ left_out cf u 68 p id) by (intros id (Q & _); discriminate).
    pose proof (data_msg_spec p u) as D. destruct (msg_id p) as [i|] eqn:Ei.
    2:{ rewrite D in H. injection H as -> ->. split; [split; [discriminate|contradiction]|]. unfold flag_facts, bad_sample, lost. rewrite Ei. split; [exact M|].
        split; [|split]; intros; (split; [auto|]); [intros [Q|(_ & id & Q & _)]|intros [Q|(_ & Q & _)]|intros [Q|Q]]; try exact Q; try discriminate. destruct (L _ Q). }
    destruct (zget i (u_subs u)) as [s|] eqn:Es.
    + specialize (D (T i s Es)). destruct (fits s p) eqn:Ef.
      * assert (B : ~ bad_sample u 68 p) by (intros (_ & id & Q & R); rewrite Ei in Q; injection Q as <-; rewrite Es in R; congruence).
        assert (O : forall id, ~ lost u 68 p id) by (intros id (_ & Q & R & _); rewrite Ei in Q; injection Q as <-; congruence).
        cbv zeta in D. assert (W : eo <> Some IndexError /\ multi_ne v /\ u_corrupt v = u_corrupt u /\ u_missing v = u_missing u /\ u_filtered v = u_filtered u).
        { destruct (stamp s p); rewrite D in H; injection H as -> ->; [destruct (u_last u <? _)|]; repeat split; try discriminate; exact M. }
        destruct W as (W0 & W1 & W2 & W3 & W4). split; [split; contradiction|]. unfold flag_facts. rewrite W2, W3, W4. split; [exact W1|].
        split; [|split]; intros; (split; [auto|intros [Q|Q]; [exact Q|]]); [contradiction|destruct (O _ Q)|destruct (L _ Q)].
      * rewrite D in H. injection H as -> ->. split; [split; [discriminate|contradiction]|]. split; [exact M|]. cbn [u_corrupt u_missing u_filtered set_corrupt]. split; [|split].
        -- split; [intros _; right; split; [reflexivity|exists i; rewrite Es; auto]|reflexivity].
        -- intros id. split; [auto|intros [Q|(_ & Q & R & _)]; [exact Q|]]. rewrite Ei in Q. injection Q as <-. congruence.
        -- intros id. split; [auto|intros [Q|Q]; [exact Q|destruct (L _ Q)]].
    + rewrite D in H. destruct (existsb (Z.eqb i) (u_filtered u)) eqn:Ex; injection H as -> ->; (split; [split; [discriminate|contradiction]|]); (split; [exact M|]).
      * apply existsb_In in Ex. split; [|split]; intros; (split; [auto|intros [Q|Q]; [exact Q|exfalso]]).
        -- destruct Q as (_ & id & Q & R). rewrite Ei in Q. injection Q as <-. rewrite Es in R. exact (R Ex).
        -- destruct Q as (_ & Q & _ & R). rewrite Ei in Q. injection Q as <-. exact (R Ex).
        -- destruct (L _ Q).
      * assert (Nx : ~ In i (u_filtered u)) by (rewrite <- existsb_In; congruence). cbn [u_corrupt u_missing u_filtered set_corrupt set_missing]. split; [|split].
        -- split; [intros _; right; split; [reflexivity|exists i; rewrite Es; auto]|reflexivity].
        -- intros id. rewrite set_add_In. unfold lost. rewrite Ei. split; [intros [->|Q]; auto 6|intros [Q|(_ & Q & _)]; [auto|left; congruence]].
        -- intros id. split; [auto|intros [Q|Q]; [exact Q|destruct (L _ Q)]].
  - assert (U : ~ unreadable (cf_ign cf) 79 p) by (unfold unreadable; intuition discriminate). pose proof (ni_dropout p (u_last u)) as N. unfold ni in N.
    destruct (parse_dropout _ _) as [m|x]; cbn [bind eff_of] in H; injection H as -> ->; (split; [split; [congruence|contradiction]|apply facts_same; try lia; auto]).
  - assert (U : ~ unreadable (cf_ign cf) 83 p) by (unfold unreadable; intuition discriminate). injection H as -> ->. split; [split; [discriminate|contradiction]|apply facts_same; try lia; auto].
Qed.

(** ** A section *)
Lemma sec_step cf u0 pre e u1 u2 : sec_inv cf u0 pre u1 -> ev_step cf e u1 u2 -> sec_inv cf u0 (pre ++ [e]) u2.
Proof.
  intros Hi H. destruct e as [ty p| |].
  + apply ev_step_msg in H. destruct H as [H|v e H He|v H].
    * assert (~ In ty data_types).
      { intros Hin. destruct (data_effect_known cf ty p u1 Hin) as [x Hx]. congruence. }
      apply sec_inv_skip_msg; auto; intros ->; apply H0; now apply in_dt.
    * eapply sec_inv_effect; eauto.
    * apply sec_inv_corrupt. eapply sec_inv_effect; eauto.
  + destruct H as [H|H]; [|discriminate]. injection H as <-. apply sec_inv_skip; auto. now apply sec_inv_corrupt.
  + destruct H as [H|H]; [|discriminate]. injection H as <-. apply sec_inv_skip; auto.
    destruct Hi. now constructor.
Qed.
Lemma snoc_somewhere {A} (P : list A -> A -> Prop) l x :
  (exists a e b, l ++ [x] = a ++ e :: b /\ P a e) <-> (exists a e b, l = a ++ e :: b /\ P a e) \/ P l x.
Proof.
  split.
  - intros (a & e & b & E & H). destruct b as [|y b] using rev_ind.
    + apply app_inj_tail in E. destruct E as (-> & ->). right. exact H.
    + clear IHb. rewrite app_comm_cons, app_assoc in E. apply app_inj_tail in E. destruct E as (-> & _). left. exists a, e, b. auto.
  - intros [(a & e & b & -> & H)|H]; [exists a, e, (b ++ [x])|exists l, x, []]; split; auto. rewrite <- app_assoc. reflexivity.
Qed.
Lemma shunned_app cf fmts a b id : shunned cf fmts (a ++ b) id <-> shunned cf fmts a id \/ shunned cf fmts b id.
Proof.
  unfold shunned. split.
  - intros (p & s & H & R). apply in_app_or in H. destruct H; [left|right]; exists p, s; auto.
  - intros [(p & s & H & R)|(p & s & H & R)]; exists p, s; (split; [apply in_or_app; auto|exact R]).
Qed.

Record flag_inv (cf : cfg) (fmts : dict str mformat) (before : list event) (u0 : ulog) (pre : list event) (u : ulog) : Prop := mkFlagInv {
  fi_multi : multi_ne u;
  fi_filtered : forall id, In id (u_filtered u) <-> shunned cf fmts (before ++ pre) id;
  fi_corrupt : u_corrupt u = true <-> u_corrupt u0 = true \/ exists a e b, pre = a ++ e :: b /\ suspicious cf fmts before a e;
  fi_missing : forall id, In id (u_missing u) <-> In id (u_missing u0) \/ exists a e b, pre = a ++ e :: b /\ orphan cf fmts id before a e }.

Lemma flag_step cf before u0 pre e u1 u2 : sec_inv cf u0 pre u1 -> flag_inv cf (u_formats u0) before u0 pre u1 -> ev_step cf e u1 u2 ->
  flag_inv cf (u_formats u0) before u0 (pre ++ [e]) u2.
Proof.
  intros S [M F C Mi] H. set (fmts := u_formats u0) in *.
  cut (multi_ne u2 /\ (forall id, In id (u_filtered u2) <-> In id (u_filtered u1) \/ shunned cf fmts [e] id) /\
       (u_corrupt u2 = true <-> u_corrupt u1 = true \/ suspicious cf fmts before pre e) /\
       (forall id, In id (u_missing u2) <-> In id (u_missing u1) \/ orphan cf fmts id before pre e)).
  { intros (A1 & A2 & A3 & A4). constructor; [exact A1| | |].
    - intros id. rewrite A2, F, app_assoc, (shunned_app cf fmts (before ++ pre) [e]). reflexivity.
    - rewrite A3, C, (snoc_somewhere (suspicious cf fmts before)). tauto.
    - intros id. rewrite A4, Mi, (snoc_somewhere (orphan cf fmts id before)). tauto. }
  assert (X : forall id, zget id (u_subs u1) = None <-> subscription cf fmts pre id = None).
  { intros id. rewrite (si_subs _ _ _ _ S). fold fmts. destruct (subscription cf fmts pre id); cbn [option_map]; split; congruence. }
  assert (LO : forall ty p id, lost u1 ty p id <-> orphan cf fmts id before pre (EMsg ty p)).
  { intros ty p id. unfold lost, orphan. rewrite X, F. split; [intros (-> & R); exists p; auto|intros (q & [= -> ->] & R); auto]. }
  assert (BS : forall ty p, bad_sample u1 ty p <->
     (exists q id s rows, EMsg ty p = EMsg 68 q /\ msg_id q = Some id /\ subscription cf fmts pre id = Some (s, rows) /\ fits s q = false) \/
     (exists id, orphan cf fmts id before pre (EMsg ty p))).
  { intros ty p. unfold bad_sample. split.
    - intros (-> & id & Ei & R). destruct (subscription cf fmts pre id) as [[s rows]|] eqn:Es.
      + left. exists p, id, s, rows. split; [reflexivity|]. split; [exact Ei|]. split; [exact Es|]. rewrite (si_subs _ _ _ _ S) in R. fold fmts in R. rewrite Es in R. exact R.
      + right. exists id. apply LO. split; [reflexivity|]. split; [exact Ei|]. apply X in Es. split; [exact Es|]. rewrite Es in R. exact R.
    - intros [(q & id & s & rows & [= -> ->] & Ei & Es & Ef)|(id & O)].
      + split; [reflexivity|]. exists id. split; [exact Ei|]. rewrite (si_subs _ _ _ _ S). fold fmts. rewrite Es. exact Ef.
      + apply LO in O. destruct O as (-> & Ei & Ez & Nf). split; [reflexivity|]. exists id. rewrite Ez. auto. }
  assert (SU : forall ty p, suspicious cf fmts before pre (EMsg ty p) <-> unreadable (cf_ign cf) ty p \/ bad_sample u1 ty p).
  { intros ty p. rewrite BS. unfold suspicious. split.
    - intros [Q|[(ty' & p' & [= <- <-] & R)|[R|R]]]; [discriminate|auto..].
    - intros [R|[R|R]]; [right; left; exists ty, p; auto|auto..]. }
  assert (SH : forall ty p id, shunned cf fmts [EMsg ty p] id <-> left_out cf u1 ty p id).
  { intros ty p id. unfold shunned, left_out. rewrite (si_fmts _ _ _ _ S). fold fmts. split.
    - intros (q & s & [[= -> ->]|[]] & R). split; [reflexivity|]. exists s. exact R.
    - intros (-> & s & R). exists p, s. split; [left; reflexivity|exact R]. }
  assert (T : forall id s, zget id (u_subs u1) = Some s -> 0 <= sb_tsoff s).
  { intros id s Q. rewrite (si_subs _ _ _ _ S) in Q. destruct (subscription cf (u_formats u0) pre id) as [[s' rows]|] eqn:Es; [|discriminate]. cbn [option_map] in Q.
    apply Some_inj in Q. subst s. apply subscription_ok in Es. exact (proj1 (proj1 Es)). }
  destruct e as [ty p| |].
  - apply ev_step_msg in H. destruct H as [H|v e H He|v H].
    + assert (N : ~ In ty data_types).
      { intros Hin. destruct (data_effect_known cf ty p u1 Hin) as [x Hx]. congruence. }
      assert (N68 : ty <> 68) by (intros ->; apply N; now apply in_dt). assert (N65 : ty <> 65) by (intros ->; apply N; now apply in_dt).
      split; [exact M|]. split; [|split].
      * intros id. rewrite SH. unfold left_out. tauto.
      * rewrite SU. split; [auto|intros [Q|[Q|(Q & _)]]; [exact Q| |contradiction]]. exfalso. apply N. unfold unreadable in Q. apply in_dt.
        destruct Q as [([-> | ->] & _)|([-> | ->] & _)]; reflexivity.
      * intros id. rewrite <- LO. unfold lost. tauto.
    + destruct (effect_flag cf ty p u1 v e H M T) as (E & A1 & A2 & A3 & A4). split; [exact A1|]. split; [|split].
      * intros id. rewrite A4, SH. reflexivity.
      * rewrite A2, SU. tauto.
      * intros id. rewrite A3, LO. reflexivity.
    + destruct (effect_flag cf ty p u1 v _ H M T) as (E & A1 & A2 & A3 & A4). split; [exact A1|]. split; [|split].
      * intros id. cbn [u_filtered set_corrupt]. rewrite A4, SH. reflexivity.
      * cbn [u_corrupt set_corrupt]. rewrite SU. tauto.
      * intros id. cbn [u_missing set_corrupt]. rewrite A3, LO. reflexivity.
  - destruct H as [H|H]; [|discriminate]. injection H as <-. split; [exact M|]. cbn [u_filtered u_corrupt u_missing set_corrupt]. split; [|split].
    + intros id. split; [auto|intros [Q|(p & s & [Q|[]] & _)]; [exact Q|discriminate]].
    + split; [intros _; right; left; reflexivity|reflexivity].
    + intros id. split; [auto|intros [Q|(p & Q & _)]; [exact Q|discriminate]].
  - destruct H as [H|H]; [|discriminate]. injection H as <-. split; [exact M|]. cbn [u_filtered u_corrupt u_missing set_has_sync]. split; [|split].
    + intros id. split; [auto|intros [Q|(p & s & [Q|[]] & _)]; [exact Q|discriminate]].
    + split; [auto|intros [Q|[Q|[(ty & p & Q & _)|[(p & id & s & rows & Q & _)|(id & p & Q & _)]]]]; [exact Q|discriminate..]].
    + intros id. split; [auto|intros [Q|(p & Q & _)]; [exact Q|discriminate]].
Qed.
Lemma flag_section cf before u0 evs u : u_subs u0 = [] -> multi_ne u0 -> (forall id, In id (u_filtered u0) <-> shunned cf (u_formats u0) before id) ->
  finishes cf evs u0 u -> flag_inv cf (u_formats u0) before u0 evs u.
Proof.
  intros Hs M F Hf. apply (finishes_inv cf u0 (fun pre v => sec_inv cf u0 pre v /\ flag_inv cf (u_formats u0) before u0 pre v)) in Hf; [exact (proj2 Hf)| |].
  - split; [constructor; auto; rewrite ?Hs; cbn; rewrite ?app_nil_r; auto; constructor|]. constructor; [exact M| | |].
    + intros id. rewrite app_nil_r. apply F.
    + split; [auto|intros [Q|(a & e & b & Q & _)]; [exact Q|destruct a; discriminate]].
    + intros id. split; [auto|intros [Q|(a & e & b & Q & _)]; [exact Q|destruct a; discriminate]].
  - intros pre e u1 u2 (S & I) H. split; [exact (sec_step cf u0 pre e u1 u2 S H)|exact (flag_step cf before u0 pre e u1 u2 S I H)].
Qed.

(** ** All sections *)
Lemma in_section_cons (P : list event -> list event -> event -> Prop) evs secs :
  in_section P (evs :: secs) <-> (exists pre e post, evs = pre ++ e :: post /\ P [] pre e) \/ in_section (fun b => P (evs ++ b)) secs.
Proof.
  unfold in_section. split.
  - intros (s1 & x & s2 & pre & e & post & E & E2 & H). destruct s1 as [|y s1]; injection E as <- E.
    + left. exists pre, e, post. auto.
    + right. exists s1, x, s2, pre, e, post. auto.
  - intros [(pre & e & post & E & H)|(s1 & x & s2 & pre & e & post & E & E2 & H)].
    + exists [], evs, secs, pre, e, post. auto.
    + exists (evs :: s1), x, s2, pre, e, post. rewrite E. auto.
Qed.
Lemma finalize_fields u v : finalize u = Ok v -> u_subs v = [] /\ u_multi v = u_multi u /\ u_filtered v = u_filtered u /\ u_missing v = u_missing u /\ u_corrupt v = u_corrupt u /\ u_formats v = u_formats u.
Proof. unfold finalize. intros H. apply bind_Ok_inv in H as (ds & _ & H). injection H as <-. repeat split. Qed.
Lemma flag_chain cf secs u0 u : section_chain cf secs u0 u -> forall before, u_subs u0 = [] -> multi_ne u0 ->
  (forall id, In id (u_filtered u0) <-> shunned cf (u_formats u0) before id) ->
  u_formats u = u_formats u0 /\
  (u_corrupt u = true <-> u_corrupt u0 = true \/ in_section (fun b => suspicious cf (u_formats u0) (before ++ b)) secs) /\
  (forall id, In id (u_missing u) <-> In id (u_missing u0) \/ in_section (fun b => orphan cf (u_formats u0) id (before ++ b)) secs).
Proof.
  induction 1 as [u|evs secs u u1 u2 u3 Hf Hz Hc IH]; intros before Hs M F.
  - split; [reflexivity|]. split; [|intros id]; (split; [auto|intros [Q|(s1 & x & s2 & pre & e & post & Q & _)]; [exact Q|destruct s1; discriminate]]).
  - pose proof (proj1 (finishes_defs _ _ _ _ Hf)) as Ef. destruct (flag_section cf before u evs u1 Hs M F Hf) as [A1 A2 A3 A4].
    destruct (finalize_fields u1 u2 Hz) as (Z1 & Z2 & Z3 & Z4 & Z5 & Z6).
    destruct (IH (before ++ evs) Z1) as (B0 & B1 & B2).
    + unfold multi_ne. rewrite Z2. exact A1.
    + intros id. rewrite Z3, Z6, Ef. apply A2.
    + rewrite Z6, Ef in *. split; [exact B0|]. split.
      * rewrite B1, Z5, A3, in_section_cons, app_nil_r.
        assert (Q : in_section (fun b => suspicious cf (u_formats u) ((before ++ evs) ++ b)) secs <-> in_section (fun b => suspicious cf (u_formats u) (before ++ evs ++ b)) secs)
          by (unfold in_section; split; intros (s1 & x & s2 & pre & e & post & E & E2 & H); exists s1, x, s2, pre, e, post; (split; [exact E|split; [exact E2|]]); [rewrite app_assoc|rewrite <- app_assoc]; exact H).
        rewrite Q. tauto.
      * intros id. rewrite B2, Z4, A4, in_section_cons, app_nil_r.
        assert (Q : in_section (fun b => orphan cf (u_formats u) id ((before ++ evs) ++ b)) secs <-> in_section (fun b => orphan cf (u_formats u) id (before ++ evs ++ b)) secs)
          by (unfold in_section; split; intros (s1 & x & s2 & pre & e & post & E & E2 & H); exists s1, x, s2, pre, e, post; (split; [exact E|split; [exact E2|]]); [rewrite app_assoc|rewrite <- app_assoc]; exact H).
        rewrite Q. tauto.
Qed.

(** ** The definitions *)
Lemma def_flag cf defs : forall u u1, run_def_events cf defs u = Ok u1 -> multi_ne u ->
  multi_ne u1 /\ u_subs u1 = u_subs u /\ u_filtered u1 = u_filtered u /\ u_missing u1 = u_missing u /\
  (u_corrupt u1 = true <-> u_corrupt u = true \/ exists e, In e defs /\ def_suspicious (cf_ign cf) e).
Proof.
  induction defs as [|e defs IH]; intros u u1 H M; cbn [run_def_events] in H.
  - injection H as <-. repeat split; auto. intros [Q|(e & [] & _)]. exact Q.
  - destruct (def_event cf e u) as [v|x] eqn:E; [|discriminate]. cbn [bind] in H.
    assert (S : multi_ne v /\ u_subs v = u_subs u /\ u_filtered v = u_filtered u /\ u_missing v = u_missing u /\ (u_corrupt v = true <-> u_corrupt u = true \/ def_suspicious (cf_ign cf) e)).
    { assert (DS : forall ty p, def_suspicious (cf_ign cf) (EMsg ty p) <-> unreadable (cf_ign cf) ty p \/ ty = 70 /\ partless (cf_ign cf) p).
      { intros ty p. unfold def_suspicious. split; [intros [Q|(ty' & p' & [= <- <-] & R)]; [discriminate|exact R]|intros R; right; exists ty, p; auto]. }
      destruct e as [ty p| |].
      - cbn [def_event run_def] in E. rewrite DS.
        assert (Y : forall r, def_effect cf ty p u = Some r ->
          (r = Err IndexError <-> unreadable (cf_ign cf) ty p \/ ty = 70 /\ partless (cf_ign cf) p) /\
          forall w, r = Ok w -> multi_ne w /\ u_subs w = u_subs u /\ u_filtered w = u_filtered u /\ u_missing w = u_missing u /\ u_corrupt w = u_corrupt u).
        { unfold def_effect, T_INFO, T_MULTI, T_FORMAT, T_PARAM, T_PDEF, T_FLAGS. cbv zeta.
          destruct (Z.eqb_spec ty 73) as [->|N1]; [|destruct (Z.eqb_spec ty 77) as [->|N2]; [|destruct (Z.eqb_spec ty 70) as [->|N3]; [|destruct (Z.eqb_spec ty 80) as [->|N4]; [|destruct (Z.eqb_spec ty 81) as [->|N5]; [|destruct (Z.eqb_spec ty 66) as [->|N6]]]]]]; intros r Hr; try discriminate; apply Some_inj in Hr; subst r.
          - rewrite unreadable_info, <- info_index. destruct (parse_info _ _) as [m|x]; cbn [bind]; (split; [split; [intros [=]; subst; auto|intros [Q|(Q & _)]; congruence]|intros w [= <-]; repeat split; exact M]).
          - rewrite unreadable_multi, <- multi_index. destruct (parse_info_multi _ _) as [m|x]; cbn [bind].
            + destruct (add_multi_ok (fst m) (snd m) u M) as (u' & Ea & Ec & Es & M'). pose proof Ea as Ea'. rewrite Ea. split; [split; [discriminate|intros [Q|(Q & _)]; discriminate]|].
              intros w [= <-]. apply add_info_multi_inv in Ea' as (xa & xb & ->). repeat split; auto.
            + split; [split; [intros [=]; subst; auto|intros [Q|(Q & _)]; congruence]|discriminate].
          - assert (U : ~ unreadable (cf_ign cf) 70 p) by (unfold unreadable; intuition discriminate).
            rewrite <- format_index. destruct (parse_format _ _) as [m|x]; cbn [bind]; (split; [split; [intros [=]; subst; auto|intros [Q|(_ & Q)]; [contradiction|congruence]]|intros w [= <-]; repeat split; exact M]).
          - rewrite unreadable_param, <- info_index. destruct (parse_info _ _) as [m|x]; cbn [bind]; (split; [split; [intros [=]; subst; auto|intros [Q|(Q & _)]; congruence]|intros w [= <-]; repeat split; exact M]).
          - rewrite unreadable_pdef, <- pdef_index. destruct (parse_pdef _ _) as [m|x]; cbn [bind]; (split; [split; [intros [=]; subst; auto|intros [Q|(Q & _)]; congruence]|intros w [= <-]; repeat split; exact M]).
          - assert (U : ~ unreadable (cf_ign cf) 66 p) by (unfold unreadable; intuition discriminate). pose proof (ni_flags p) as N.
            destruct (parse_flags p) as [[[c i] o]|x]; cbn [bind].
            + destruct (negb _); [|destruct (existsb _ _)]; (split; [split; [discriminate|intros [Q|(Q & _)]; [contradiction|discriminate]]|intros w [= <-]; repeat split; exact M]).
            + split; [split; [intros [= ->]; exfalso; now apply N|intros [Q|(Q & _)]; [contradiction|discriminate]]|discriminate]. }
        destruct (def_effect cf ty p u) as [[w|x]|] eqn:Ed.
        + destruct (Y _ eq_refl) as (Y1 & Y2). injection E as <-. destruct (Y2 w eq_refl) as (W1 & W2 & W3 & W4 & W5). repeat split; auto; rewrite W5; [auto|].
          intros [Q|Q]; [exact Q|]. apply Y1 in Q. discriminate.
        + destruct (Y _ eq_refl) as (Y1 & _). destruct x; try discriminate. injection E as <-. repeat split; auto. intros _. right. now apply Y1.
        + injection E as <-. repeat split; auto. intros [Q|Q]; [exact Q|exfalso]. revert Ed. unfold def_effect, T_INFO, T_MULTI, T_FORMAT, T_PARAM, T_PDEF. cbv zeta.
          destruct Q as [[([-> | ->] & _)|([-> | ->] & _)]|(-> & _)]; cbn [Z.eqb Pos.eqb]; discriminate.
      - injection E as <-. repeat split; auto. intros _. right. left. reflexivity.
      - injection E as <-. repeat split; auto. intros [Q|[Q|(ty & p & Q & _)]]; [exact Q|discriminate..]. }
    destruct S as (S1 & S2 & S3 & S4 & S5). destruct (IH v u1 H S1) as (B1 & B2 & B3 & B4 & B5). rewrite B2, B3, B4, B5, S5. split; [exact B1|]. split; [exact S2|]. split; [exact S3|]. split; [exact S4|].
    split; [intros [[Q|Q]|(e' & He & Q)]; [auto|right; exists e; split; [now left|exact Q]|right; exists e'; split; [now right|exact Q]]|].
    intros [Q|(e' & [<-|He] & Q)]; [auto|auto|right; exists e'; auto].
Qed.

(** ** Each id is warned about once *)
Lemma set_add_NoDup x l : NoDup l -> NoDup (set_add x l).
Proof.
  unfold set_add. destruct (existsb (Z.eqb x) l) eqn:E; [auto|]. intros H. rewrite <- (rev_involutive (l ++ [x])), rev_app_distr. apply NoDup_rev. constructor; [rewrite <- in_rev|apply NoDup_rev; exact H].
  intros Q. assert (existsb (Z.eqb x) l = true) by (apply existsb_exists; exists x; split; [exact Q|apply Z.eqb_refl]). congruence.
Qed.
Lemma effect_missing cf ty p u v eo : data_effect cf ty p u = Some (v, eo) -> NoDup (u_missing u) -> NoDup (u_missing v).
Proof.
  intros H N. unfold data_effect in H. cbv zeta in H.
  repeat match type of H with (if ?b then _ else _) = _ => destruct b end; try discriminate; apply Some_inj in H;
    try (unfold eff_of in H; match type of H with (match ?r with _ => _ end) = _ => destruct r as [w|x] eqn:E end; injection H as <- <-; [|exact N]).
  all: try (apply bind_Ok_inv in E as (m & _ & E)).
  all: try (injection E as <-; exact N).
  all: try (apply add_info_multi_inv in E as (xa & xb & ->); exact N).
  all: try (injection E as <-; unfold add_param_default; repeat match goal with |- context [if ?b then _ else _] => destruct b end; exact N).
  all: try (injection H as <- <-; exact N).
  - unfold data_msg in H. destruct (unpack_u 2 _) as [z|]; [|injection H as <- <-; exact N]. destruct (zget z (u_subs u)) as [s|].
    + cbv zeta in H. destruct (_ || _); [injection H as <- <-; exact N|]. destruct (unpack_u 8 _); injection H as <- <-; [destruct (_ <? _)|]; exact N.
    + destruct (existsb _ _); injection H as <- <-; [exact N|]. apply set_add_NoDup. exact N.
Qed.
Lemma missing_once cf secs u0 u : section_chain cf secs u0 u -> NoDup (u_missing u0) -> NoDup (u_missing u).
Proof.
  induction 1 as [u|evs secs u u1 u2 u3 Hf Hz Hc IH]; intros N; [exact N|]. apply IH. destruct (finalize_fields u1 u2 Hz) as (_ & _ & _ & -> & _).
  apply (finishes_inv cf u (fun _ v => NoDup (u_missing v))) in Hf; [exact Hf|exact N|].
  intros pre e a b Na H. destruct e as [ty p| |].
  - apply ev_step_msg in H. destruct H as [H|v e H He|v H]; [exact Na|exact (effect_missing _ _ _ _ _ _ H Na)..].
  - destruct H as [H|H]; [|discriminate]. injection H as <-. exact Na.
  - destruct H as [H|H]; [|discriminate]. injection H as <-. exact Na.
Qed.
