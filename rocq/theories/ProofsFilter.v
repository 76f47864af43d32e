(** Loading with a list of topics: a simulation between the two loads. *)
From Verif Require Import Base Dict Utf8 PyStr PyFloat Struct PySort ModelTypes ModelRead Spec SpecSection SpecFilter
  ProofsRead ProofsSync ProofsInv ProofsTrace ProofsChange ProofsLoad ProofsSection ProofsFile ProofsFields ProofsData ProofsWhole ProofsCut SpecWalk ProofsWalk.
From Coq Require Import Permutation Sorted.
Ltac Zify.zify_post_hook ::= Z.div_mod_to_equations.

(** ** Sorting and selecting *)
Lemma filter_filter_comm {A} (p q : A -> bool) l : filter p (filter q l) = filter q (filter p l).
Proof.
  induction l as [|x l IH]; [reflexivity|]. cbn [filter]. destruct (q x) eqn:Q, (p x) eqn:P; cbn [filter]; rewrite ?P, ?Q, ?IH; reflexivity.
Qed.
Lemma filter_sorted {A} (leb : A -> A -> bool) p l : sorted leb l -> sorted leb (filter p l).
Proof.
  induction 1 as [|x l H IH F]; [constructor|]. cbn [filter]. destruct (p x); [|exact IH]. constructor; [exact IH|].
  apply Forall_forall. intros y Hy. apply filter_In in Hy. rewrite Forall_forall in F. apply F, Hy.
Qed.
Lemma filter_ssort {A} (leb : A -> A -> bool) p l : (forall a b, leb a b = true \/ leb b a = true) ->
  (forall a b c, leb a b = true -> leb b c = true -> leb a c = true) -> filter p (ssort leb l) = ssort leb (filter p l).
Proof.
  intros T R. apply (sorted_unique leb T).
  - apply filter_sorted, ssort_sorted; assumption.
  - apply ssort_sorted; assumption.
  - intros a. rewrite filter_filter_comm, !ssort_stable by assumption. apply filter_filter_comm.
Qed.

(** ** Dictionaries and selecting *)
Lemma filter_zset_keep {V} (p : V -> bool) k v (d : dict Z V) : p v = true -> NoDup (dkeys d) -> (forall w, zget k d = Some w -> p w = true) ->
  filter (fun kv => p (snd kv)) (zset k v d) = zset k v (filter (fun kv => p (snd kv)) d).
Proof.
  intros Pv. induction d as [|(j, w) d IH]; intros N H; [cbn; rewrite Pv; reflexivity|].
  cbn [dset dget] in *. destruct (Z.eqb_spec k j) as [E|E].
  - subst j. specialize (H w eq_refl). cbn [filter snd]. rewrite Pv, H. cbn [dset]. rewrite Z.eqb_refl. reflexivity.
  - inversion N; subst. cbn [filter snd]. rewrite IH by assumption. destruct (p w); [|reflexivity]. cbn [dset]. destruct (Z.eqb_spec k j); [contradiction|reflexivity].
Qed.
Lemma filter_zset_drop {V} (p : V -> bool) k v (d : dict Z V) : p v = false -> (forall w, zget k d = Some w -> p w = false) ->
  filter (fun kv => p (snd kv)) (zset k v d) = filter (fun kv => p (snd kv)) d.
Proof.
  intros Pv. induction d as [|(j, w) d IH]; intros H; [cbn; rewrite Pv; reflexivity|].
  cbn [dset dget] in *. destruct (Z.eqb_spec k j) as [E|E].
  - subst j. specialize (H w eq_refl). cbn [filter snd]. rewrite Pv, H. reflexivity.
  - cbn [filter snd]. rewrite IH by assumption. reflexivity.
Qed.
Lemma zget_filter {V} (p : V -> bool) k (d : dict Z V) : NoDup (dkeys d) ->
  zget k (filter (fun kv => p (snd kv)) d) = match zget k d with Some w => if p w then Some w else None | None => None end.
Proof.
  induction d as [|(j, w) d IH]; intros N; [reflexivity|]. inversion N as [|? ? Hj N']; subst. cbn [filter snd dget]. destruct (Z.eqb_spec k j) as [E|E].
  - subst j. destruct (p w); [cbn [dget]; rewrite Z.eqb_refl; reflexivity|]. rewrite IH by assumption.
    destruct (zget k d) as [x|] eqn:G; [|reflexivity]. exfalso. apply Hj. apply dget_In in G; [|intros; apply Zeqb_spec]. apply (in_map fst) in G. exact G.
  - destruct (p w); [cbn [dget]; destruct (Z.eqb_spec k j); [contradiction|]|]; apply IH; assumption.
Qed.
Lemma zset_In {V} k v k0 v0 (d : dict Z V) : In (k0, v0) (zset k v d) -> (k0 = k /\ v0 = v) \/ In (k0, v0) d.
Proof.
  induction d as [|(j, w) d IH]; cbn [dset]; intros H.
  - destruct H as [H|[]]. left. split; congruence.
  - destruct (Z.eqb_spec k j) as [E|E].
    + destruct H as [H|H]; [left; split; congruence|right; right; exact H].
    + destruct H as [H|H]; [right; left; exact H|]. destruct (IH H); [left; assumption|right; right; assumption].
Qed.
Lemma set_add_In x y l : In y (set_add x l) <-> y = x \/ In y l.
Proof.
  unfold set_add. destruct (existsb (Z.eqb x) l) eqn:E.
  - split; [auto|]. intros [->|H]; [|exact H]. apply existsb_exists in E. destruct E as (z & Hz & E). apply Z.eqb_eq in E. subst. exact Hz.
  - rewrite in_app_iff. cbn. intuition.
Qed.

(** ** The simulation *)
Definition strip (u : ulog) : ulog :=
  set_missing [] (set_filtered [] (set_subs [] (set_data [] (set_dropouts [] (set_changed [] (set_last 0 (set_corrupt false u))))))).
Definition rest (u : ulog) := (u_corrupt u, u_last u, u_changed u, u_dropouts u, u_data u, u_subs u, u_filtered u, u_missing u).

Section Sim.
  Context (keep : str -> bool) (cf : cfg) (fmts : dict str mformat) (owner : Z -> str -> Prop).
  Hypothesis all : forall n, cf_filter cf n = true.
  Hypothesis one : forall id a b, owner id a -> owner id b -> a = b.
  Let cf' := with_filter keep cf.

  Record sim (u v : ulog) : Prop := mkSim {
    sm_strip : strip v = strip u;
    sm_last : u_last v <= u_last u;
    sm_corrupt : u_corrupt v = true -> u_corrupt u = true;
    sm_missing : incl (u_missing v) (u_missing u);
    sm_changed : Forall2 (fun a b => snd a = snd b /\ snd (fst a) = snd (fst b) /\ fst (fst b) <= fst (fst a)) (u_changed u) (u_changed v);
    sm_drop : Forall2 (fun a b => dr_dur a = dr_dur b /\ dr_ts b <= dr_ts a) (u_dropouts u) (u_dropouts v);
    sm_data : u_data v = filter (fun d => keep (ds_name d)) (u_data u);
    sm_subs : u_subs v = filter (fun kv => keep (sb_name (snd kv))) (u_subs u);
    sm_keys : NoDup (dkeys (u_subs u));
    sm_own : forall id s, In (id, s) (u_subs u) -> owner id (sb_name s) /\ sub_ok s;
    sm_filt : forall id s, In (id, s) (u_subs u) -> keep (sb_name s) = false -> In id (u_filtered v);
    sm_fmts : u_formats u = fmts;
    sm_none : u_filtered u = [] }.

  Lemma sim_formats u v : sim u v -> u_formats v = u_formats u.
  Proof. intros S. exact (f_equal u_formats (sm_strip _ _ S)). Qed.

  Lemma rest_eqs u w : rest w = rest u -> u_corrupt w = u_corrupt u /\ u_last w = u_last u /\ u_changed w = u_changed u /\ u_dropouts w = u_dropouts u /\
    u_data w = u_data u /\ u_subs w = u_subs u /\ u_filtered w = u_filtered u /\ u_missing w = u_missing u.
  Proof. unfold rest. intros E. repeat split; congruence. Qed.
  Lemma sim_common g : (forall w, strip (g w) = g (strip w)) -> (forall w, rest (g w) = rest w) -> (forall w, u_formats (g w) = u_formats w) ->
    forall u v, sim u v -> sim (g u) (g v).
  Proof.
    intros Hs Hr Hf u v S. destruct (rest_eqs _ _ (Hr u)) as (A1 & A2 & A3 & A4 & A5 & A6 & A7 & A8).
    destruct (rest_eqs _ _ (Hr v)) as (B1 & B2 & B3 & B4 & B5 & B6 & B7 & B8).
    destruct S. constructor; rewrite ?A1, ?A2, ?A3, ?A4, ?A5, ?A6, ?A7, ?A8, ?B1, ?B2, ?B3, ?B4, ?B5, ?B6, ?B7, ?B8; try assumption.
    - rewrite !Hs. congruence.
    - rewrite Hf. assumption.
  Qed.
  Lemma sim_corrupt u v : sim u v -> sim (set_corrupt true u) (set_corrupt true v).
  Proof. intros []. constructor; try assumption. intros _. reflexivity. Qed.
  Lemma sim_corrupt_left u v : sim u v -> sim (set_corrupt true u) v.
  Proof. intros []. constructor; try assumption. intros _. reflexivity. Qed.

  (** ids of the topics that are not kept are known *)
  Lemma sim_get u v id : sim u v -> zget id (u_subs v) = match zget id (u_subs u) with Some s => if keep (sb_name s) then Some s else None | None => None end.
  Proof. intros S. rewrite (sm_subs _ _ S). apply (zget_filter (fun s => keep (sb_name s))), (sm_keys _ _ S). Qed.
  Lemma get_In id s (d : dict Z subscr) : zget id d = Some s -> In (id, s) d.
  Proof. apply dget_In. intros; apply Zeqb_spec. Qed.
  Lemma zset_NoDup {V} k (v : V) d : NoDup (dkeys d) -> NoDup (dkeys (zset k v d)).
  Proof. apply NoDup_dset. intros; apply Zeqb_spec. Qed.

  (** the two subscription tables after a change of one entry *)
  Lemma sim_set u v id s (fv : list Z) : sim u v -> owner id (sb_name s) -> sub_ok s ->
    incl (u_filtered v) fv -> (keep (sb_name s) = false -> In id fv) ->
    sim (set_subs (zset id s (u_subs u)) u) (set_filtered fv (if keep (sb_name s) then set_subs (zset id s (u_subs v)) v else v)).
  Proof.
    intros S Ho Hok Hf Hk.
    assert (Q : forall w, zget id (u_subs u) = Some w -> sb_name w = sb_name s).
    { intros w G. apply get_In in G. apply (sm_own _ _ S) in G. destruct G as (G & _). exact (one _ _ _ G Ho). }
    assert (E : u_subs (set_filtered fv (if keep (sb_name s) then set_subs (zset id s (u_subs v)) v else v)) =
      filter (fun kv => keep (sb_name (snd kv))) (zset id s (u_subs u))).
    { destruct (keep (sb_name s)) eqn:K; cbn [u_subs set_filtered set_subs]; rewrite (sm_subs _ _ S).
      - symmetry. apply (filter_zset_keep (fun s => keep (sb_name s))); [exact K|exact (sm_keys _ _ S)|]. intros w G. rewrite (Q w G). exact K.
      - symmetry. apply (filter_zset_drop (fun s => keep (sb_name s))); [exact K|]. intros w G. rewrite (Q w G). exact K. }
    destruct S as [s1 s2 s3 s4 s5 s6 s7 s8 s9 s10 s11 s12 s13]. constructor; try (destruct (keep (sb_name s)); assumption).
    - apply zset_NoDup. exact s9.
    - intros j w Hin. apply zset_In in Hin. destruct Hin as [(-> & ->)|Hin]; [auto|apply s10; exact Hin].
    - intros j w Hin Kw. replace (u_filtered _) with fv by (destruct (keep (sb_name s)); reflexivity).
      apply zset_In in Hin. destruct Hin as [(-> & ->)|Hin]; [apply Hk; exact Kw|]. apply Hf. eapply s11; eauto.
  Qed.

  (** a data message that is stored has a timestamp *)
  Definition timed_msg (p : bytes) (u : ulog) : Prop :=
    forall id s, msg_id p = Some id -> zget id (u_subs u) = Some s -> fits s p = true -> exists t, stamp s p = Some t.
  Lemma data_msg_sim p u v : sim u v -> timed_msg p u ->
    exists v', data_msg p v = (v', snd (data_msg p u)) /\ sim (fst (data_msg p u)) v'.
  Proof.
    intros S Htm. pose proof (data_msg_spec p u) as U. pose proof (data_msg_spec p v) as V. unfold timed_msg in Htm.
    destruct (msg_id p) as [id|]; [|rewrite U, V; exists v; split; [reflexivity|exact S]].
    rewrite (sim_get u v id S) in V. destruct (zget id (u_subs u)) as [s|] eqn:G.
    - destruct (sm_own _ _ S id s (get_In _ _ _ G)) as (Ho & Hok). pose proof (Htm id s eq_refl G) as Hst. specialize (U (proj1 Hok)).
      assert (W : forall t, sim (set_subs (zset id (set_buf (sb_buf s ++ record s p) s) (u_subs u)) u) t -> True) by trivial. clear W.
      assert (N : forall fv, incl (u_filtered v) fv -> (keep (sb_name s) = false -> In id fv) ->
        sim (set_subs (zset id (set_buf (sb_buf s ++ record s p) s) (u_subs u)) u)
            (set_filtered fv (if keep (sb_name s) then set_subs (zset id (set_buf (sb_buf s ++ record s p) s) (u_subs v)) v else v))).
      { intros fv H1 H2. apply (sim_set u v id (set_buf (sb_buf s ++ record s p) s) fv S); auto. }
      specialize (N (u_filtered v) (incl_refl _)). assert (K : keep (sb_name s) = false -> In id (u_filtered v)) by (intros K; apply (sm_filt _ _ S id s (get_In _ _ _ G) K)).
      specialize (N K). destruct (keep (sb_name s)) eqn:Ks.
      + specialize (V (proj1 Hok)). destruct (fits s p) eqn:F.
        * cbv zeta in U, V. destruct (Hst eq_refl) as (t & T). rewrite T in U, V. rewrite U, V. cbn [fst snd]. eexists. split; [reflexivity|].
          replace (set_filtered (u_filtered v) _) with (set_subs (zset id (set_buf (sb_buf s ++ record s p) s) (u_subs v)) v) in N by reflexivity.
          pose proof (sm_last _ _ S) as L.
          assert (B : sim (set_last (Z.max (u_last u) t) (set_subs (zset id (set_buf (sb_buf s ++ record s p) s) (u_subs u)) u))
                          (set_last (Z.max (u_last v) t) (set_subs (zset id (set_buf (sb_buf s ++ record s p) s) (u_subs v)) v))).
          { destruct N. constructor; try assumption. cbn [u_last set_last]. lia. }
          replace (if u_last u <? t then _ else _) with (set_last (Z.max (u_last u) t) (set_subs (zset id (set_buf (sb_buf s ++ record s p) s) (u_subs u)) u)).
          2:{ destruct (Z.ltb_spec (u_last u) t); [rewrite Z.max_r by lia; reflexivity|rewrite Z.max_l by lia; reflexivity]. }
          replace (if u_last v <? t then _ else _) with (set_last (Z.max (u_last v) t) (set_subs (zset id (set_buf (sb_buf s ++ record s p) s) (u_subs v)) v)).
          2:{ destruct (Z.ltb_spec (u_last v) t); [rewrite Z.max_r by lia; reflexivity|rewrite Z.max_l by lia; reflexivity]. }
          exact B.
        * rewrite U, V. exists (set_corrupt true v). split; [reflexivity|]. apply sim_corrupt. exact S.
      + assert (X : existsb (Z.eqb id) (u_filtered v) = true) by (apply existsb_exists; exists id; split; [apply K; reflexivity|apply Z.eqb_refl]).
        rewrite X in V. rewrite V. exists v. destruct (fits s p) eqn:F.
        * cbv zeta in U. destruct (Hst eq_refl) as (t & T). rewrite T in U. rewrite U. cbn [fst snd]. split; [reflexivity|].
          replace (set_filtered (u_filtered v) v) with v in N by (destruct v; reflexivity).
          destruct (Z.ltb_spec (u_last u) t); [|exact N]. pose proof (sm_last _ _ S). destruct N. constructor; try assumption. cbn [u_last set_last]. lia.
        * rewrite U. cbn [fst snd]. split; [reflexivity|]. apply sim_corrupt_left. exact S.
    - rewrite (sm_none _ _ S) in U. cbn [existsb] in U. rewrite U, V. cbn [fst snd].
      assert (M : sim (set_corrupt true (set_missing (set_add id (u_missing u)) u)) v).
      { destruct S. constructor; try assumption; [intros _; reflexivity|]. intros x Hx. apply set_add_In. right. apply sm_missing0. exact Hx. }
      assert (M2 : sim (set_corrupt true (set_missing (set_add id (u_missing u)) u)) (set_corrupt true (set_missing (set_add id (u_missing v)) v))).
      { destruct S. constructor; try assumption; [intros _; reflexivity|]. intros x Hx. apply set_add_In in Hx. apply set_add_In. destruct Hx as [->|Hx]; [left; reflexivity|right; apply sm_missing0; exact Hx]. }
      destruct (existsb (Z.eqb id) (u_filtered v)); eexists; (split; [reflexivity|]); assumption.
  Qed.

  (** the names of the subscriptions of a message are owned *)
  Definition owned (e : event) : Prop := forall a, In a (of_type 65 (parse_add cf fmts) e) -> owner (sb_id a) (sb_name a).
  Definition timed (e : event) (u : ulog) : Prop := match e with EMsg ty p => ty = 68 -> timed_msg p u | _ => True end.

  Lemma data_effect_sim ty p u v : sim u v -> owned (EMsg ty p) -> timed (EMsg ty p) u ->
    match data_effect cf ty p u with
    | None => data_effect cf' ty p v = None
    | Some (u', e) => exists v', data_effect cf' ty p v = Some (v', e) /\ sim u' v'
    end.
  Proof.
    intros S Ho Htm. unfold data_effect. cbv zeta. change (cf_ign cf') with (cf_ign cf).
    destruct (ty =? T_INFO).
    { unfold eff_of. destruct (parse_info (cf_ign cf) p) as [m|e]; cbn [bind]; eexists; (split; [reflexivity|]); [|exact S].
      apply (sim_common (add_info m)); [reflexivity..|exact S]. }
    destruct (ty =? T_MULTI).
    { unfold eff_of. destruct (parse_info_multi (cf_ign cf) p) as [(c, m)|e]; cbn [bind fst snd]; [|eexists; split; [reflexivity|exact S]].
      unfold add_info_multi. rewrite (f_equal u_multi (sm_strip _ _ S) : u_multi v = u_multi u), (f_equal u_multit (sm_strip _ _ S) : u_multit v = u_multit u).
      destruct (sget (im_key m) (u_multi u)) as [l|].
      - destruct (negb (c =? 0)).
        + destruct (append_last l (im_value m)) as [l'|e]; cbn [bind]; eexists; (split; [reflexivity|]); [|exact S].
          apply (sim_common (fun w => set_multi (sset (im_key m) l' (u_multi u)) w)); [reflexivity..|exact S].
        + eexists. split; [reflexivity|]. apply (sim_common (fun w => set_multi (sset (im_key m) (l ++ [[im_value m]]) (u_multi u)) w)); [reflexivity..|exact S].
      - eexists. split; [reflexivity|].
        apply (sim_common (fun w => set_multit (sset (im_key m) (im_type m) (u_multit u)) (set_multi (sset (im_key m) [[im_value m]] (u_multi u)) w))); [reflexivity..|exact S]. }
    destruct (ty =? T_PARAM).
    { unfold eff_of. destruct (parse_info (cf_ign cf) p) as [m|e]; cbn [bind]; eexists; (split; [reflexivity|]); [|exact S].
      destruct S. constructor; try assumption. cbn [u_changed set_changed]. apply Forall2_app; [assumption|]. constructor; [|constructor]. cbn. auto. }
    destruct (ty =? T_PDEF).
    { unfold eff_of. destruct (parse_pdef (cf_ign cf) p) as [(b, m)|e]; cbn [bind fst snd]; eexists; (split; [reflexivity|]); [|exact S].
      apply (sim_common (add_param_default b m)); [reflexivity..|exact S]. }
    destruct (Z.eqb_spec ty T_ADD) as [Ea|Na].
    { unfold eff_of. rewrite (sim_formats u v S). change (parse_add cf' (u_formats u) p) with (parse_add cf (u_formats u) p).
      destruct (parse_add cf (u_formats u) p) as [s|e] eqn:P; cbn [bind]; [|eexists; split; [reflexivity|exact S]].
      rewrite all. eexists. split; [reflexivity|]. destruct (parse_add_ok _ _ _ _ P) as (Hok & _).
      assert (H1 : owner (sb_id s) (sb_name s)). apply (Ho s).
      { subst ty. unfold of_type. change (T_ADD =? 65) with true. cbv iota. rewrite <- (sm_fmts _ _ S), P. left. reflexivity. }
      change (cf_filter cf') with keep.
      pose proof (sim_set u v (sb_id s) s (if keep (sb_name s) then u_filtered v else set_add (sb_id s) (u_filtered v)) S H1 Hok) as N.
      destruct (keep (sb_name s)).
      - replace (set_filtered (u_filtered v) (set_subs (zset (sb_id s) s (u_subs v)) v)) with (set_subs (zset (sb_id s) s (u_subs v)) v) in N by reflexivity.
        apply N; [apply incl_refl|discriminate].
      - apply N; [intros x Hx; apply set_add_In; right; exact Hx|intros _; apply set_add_In; left; reflexivity]. }
    destruct (ty =? T_LOG).
    { unfold eff_of. destruct (parse_logging (cf_ign cf) p) as [m|e]; cbn [bind]; eexists; (split; [reflexivity|]); [|exact S].
      apply (sim_common (fun w => set_logged (u_logged w ++ [m]) w)); [reflexivity..|exact S]. }
    destruct (ty =? T_LOGT).
    { unfold eff_of. destruct (parse_tagged (cf_ign cf) p) as [m|e]; cbn [bind]; eexists; (split; [reflexivity|]); [|exact S].
      apply (sim_common (fun w => set_tagged (match zget (tg_tag m) (u_tagged w) with Some l => zset (tg_tag m) (l ++ [m]) (u_tagged w) | None => zset (tg_tag m) [m] (u_tagged w) end) w)); [reflexivity..|exact S]. }
    destruct (Z.eqb_spec ty T_DATA) as [Ed|Nd].
    { destruct (data_msg_sim p u v S (Htm Ed)) as (v' & E & S'). destruct (data_msg p u) as (u', e). cbn [fst snd] in *. exists v'. rewrite E. split; [reflexivity|exact S']. }
    destruct (ty =? T_DROP).
    { unfold eff_of, parse_dropout. destruct (unpack_u 2 p) as [d|e]; cbn [bind]; eexists; (split; [reflexivity|]); [|exact S].
      destruct S. constructor; try assumption. cbn [u_dropouts set_dropouts]. apply Forall2_app; [assumption|]. constructor; [|constructor]. cbn. auto. }
    destruct (ty =? T_SYNC); [|reflexivity].
    eexists. split; [reflexivity|]. apply (sim_common (fun w => set_sync_cnt (u_sync_cnt w + 1) w)); [reflexivity..|exact S].
  Qed.

  Lemma sim_sync u v : sim u v -> u_has_sync v = u_has_sync u.
  Proof. intros S. exact (f_equal u_has_sync (sm_strip _ _ S)). Qed.
  Lemma sim_nosync u v : sim u v -> sim (set_has_sync false u) (set_has_sync false v).
  Proof. intros S. apply (sim_common (set_has_sync false)); [reflexivity..|exact S]. Qed.

  (** end of a section *)
  Lemma mapM_filter {A B} (f : A -> res B) (p : A -> bool) (q : B -> bool) l m : (forall a b, f a = Ok b -> q b = p a) ->
    mapM f l = Ok m -> mapM f (filter p l) = Ok (filter q m).
  Proof.
    intros H. revert m. induction l as [|a l IH]; intros m E; cbn [mapM] in E.
    - injection E as <-. reflexivity.
    - apply bind_Ok_inv in E as (b & Eb & E). apply bind_Ok_inv in E as (t & Et & E). injection E as <-. cbn [filter].
      rewrite (H a b Eb). destruct (p a); [cbn [mapM]; rewrite Eb, (IH t Et); reflexivity|apply IH; exact Et].
  Qed.
  Lemma filter_rev {A} (p : A -> bool) l : filter p (rev l) = rev (filter p l).
  Proof. induction l as [|x l IH]; [reflexivity|]. cbn [rev filter]. rewrite filter_app, IH. cbn [filter]. destruct (p x); [reflexivity|apply app_nil_r]. Qed.
  Lemma filter_map {A B} (f : A -> B) p l : filter p (map f l) = map f (filter (fun x => p (f x)) l).
  Proof. induction l as [|x l IH]; [reflexivity|]. cbn [map filter]. rewrite IH. destruct (p (f x)); reflexivity. Qed.
  Lemma finalize_sim u v u' : sim u v -> finalize u = Ok u' -> exists v', finalize v = Ok v' /\ sim u' v'.
  Proof.
    intros S E. unfold finalize in *. apply bind_Ok_inv in E as (ds & Ed & E). injection E as <-.
    apply (mapM_filter dataset_of (fun s => keep (sb_name s)) (fun d => keep (ds_name d))) in Ed.
    2:{ intros s d H. unfold dataset_of in H. destruct (_ || _); [discriminate|]. injection H as <-. reflexivity. }
    rewrite filter_filter_comm, filter_rev, filter_map in Ed. rewrite (sm_subs _ _ S), Ed. cbn [bind]. eexists. split; [reflexivity|].
    destruct S. constructor; try assumption.
    - cbn [u_data set_data set_subs]. rewrite filter_ssort, filter_app, sm_data0; [reflexivity|apply ds_leb_total|apply ds_leb_trans].
    - reflexivity.
    - constructor.
    - intros id s [].
    - intros id s [].
  Qed.
End Sim.

(** ** The loops *)
Definition owners (owner : Z -> str -> Prop) (cf : cfg) (fmts : dict str mformat) (evs : list event) : Prop :=
  Forall (owned cf fmts owner) evs.
(** the stored data messages of a run have timestamps *)
Definition timed_run (cf : cfg) (evs : list event) (u : ulog) : Prop :=
  forall a e b w, evs = a ++ e :: b -> run_events cf a u = RDone w -> timed e w.
Lemma timed_run_one cf e u : timed_run cf [e] u -> timed e u.
Proof. intros H. exact (H [] e [] u eq_refl eq_refl). Qed.
Lemma timed_run_app cf a b u u' : run_events cf a u = RDone u' -> timed_run cf (a ++ b) u -> timed_run cf a u /\ timed_run cf b u'.
Proof.
  intros E H. split.
  - intros x e y w Ea Er. apply (H x e (y ++ b) w); [rewrite Ea, <- app_assoc; reflexivity|exact Er].
  - intros x e y w Eb Er. apply (H (a ++ x) e y w); [rewrite Eb, <- app_assoc; reflexivity|]. rewrite run_events_app, E. exact Er.
Qed.
(** a run of events is followed by the filtered one *)
Lemma run_events_sim keep cf fmts (owner : Z -> str -> Prop) : (forall n, cf_filter cf n = true) -> (forall id a b, owner id a -> owner id b -> a = b) -> forall evs u v,
  owners owner cf fmts evs -> timed_run cf evs u -> sim keep fmts owner u v ->
  match run_events cf evs u with
  | RDone u' => exists v', run_events (with_filter keep cf) evs v = RDone v' /\ sim keep fmts owner u' v'
  | RStop u' => exists v', run_events (with_filter keep cf) evs v = RStop v' /\ sim keep fmts owner u' v'
  | RRaise e => run_events (with_filter keep cf) evs v = RRaise e
  end.
Proof.
  intros Hall H1. induction evs as [|e evs IH]; intros u v Ho Ht S; cbn [run_events]; [exists v; auto|].
  inversion Ho as [|? ? Ho1 Ho2]; subst.
  assert (T1 : timed e u) by (apply (Ht [] e evs u); reflexivity).
  assert (T2 : forall u', data_event cf e u = RDone u' -> timed_run cf evs u').
  { intros u' E. apply (timed_run_app cf [e] evs u u'); [cbn [run_events]; now rewrite E|exact Ht]. }
  destruct e as [ty p| |]; cbn [data_event run_data] in *.
  - pose proof (data_effect_sim keep cf fmts owner Hall H1 ty p u v S Ho1 T1) as D.
    destruct (data_effect cf ty p u) as [[u' [x|]]|].
    + destruct D as (v' & E & S'). rewrite E. destruct x; try reflexivity; [exists v'; auto|]. apply IH; [exact Ho2|apply T2; reflexivity|apply sim_corrupt; exact S'].
    + destruct D as (v' & E & S'). rewrite E. apply IH; auto.
    + rewrite D. apply IH; auto.
  - apply IH; [exact Ho2|apply T2; reflexivity|apply sim_corrupt; exact S].
  - apply IH; [exact Ho2|apply T2; reflexivity|apply sim_nosync; exact S].
Qed.
(** across sections a message id may stand for another topic: the tables are empty between sections *)
Lemma sim_reown keep fmts owner owner' u v : u_subs u = [] -> sim keep fmts owner u v -> sim keep fmts owner' u v.
Proof.
  intros E []. constructor; try assumption. rewrite E. intros id s [].
Qed.
Lemma clean_owners cf fmts evs : one_topic_per_id (adds cf fmts evs) ->
  exists owner : Z -> str -> Prop, (forall id a b, owner id a -> owner id b -> a = b) /\ owners owner cf fmts evs.
Proof.
  intros H1. exists (fun id n => exists s, In s (adds cf fmts evs) /\ sb_id s = id /\ sb_name s = n). split.
  - intros id a b (s & Hs & <- & <-) (s' & Hs' & E & <-). apply H1; auto.
  - apply Forall_forall. intros e He a Ha. assert (Hin : In a (adds cf fmts evs)) by (apply in_flat_map; exists e; auto). exists a; auto.
Qed.
Lemma clean_timed cf evs u : u_subs u = [] -> samples_timed cf (u_formats u) evs -> timed_run cf evs u.
Proof.
  intros Hs H a e b w Ev Er. destruct e as [ty p| |]; cbn [timed]; auto. intros -> id s Hi Hg Hf.
  pose proof (finishes_sec cf a u w Hs (fin_done _ _ _ _ Er)) as I. pose proof (si_subs _ _ _ _ I id) as E. rewrite Hg in E.
  destruct (subscription cf (u_formats u) a id) as [(s0, rows)|] eqn:Es; [|discriminate]. cbn in E. apply Some_inj in E. subst s.
  destruct (H a p b id s0 rows Ev Hi Es Hf) as (t & Ht). exists t. exact Ht.
Qed.
Definition no_owner : Z -> str -> Prop := fun _ _ => False.
(** a section: what counts is the part that is processed *)
Lemma section_sim keep cf fmts all evs u v r : (forall n, cf_filter cf n = true) -> Forall known_event all -> u_subs u = [] -> u_formats u = fmts ->
  end_data (run_events cf all u) = Ok r -> taken cf fmts all evs -> clean_section cf fmts evs -> sim keep fmts no_owner u v ->
  exists r', end_data (run_events (with_filter keep cf) all v) = Ok r' /\ sim keep fmts no_owner r r'.
Proof.
  intros Hall Hk Hs Hf Hr Ht Hc S. destruct (clean_owners cf fmts evs (proj1 Hc)) as (owner & H1 & H2).
  assert (Htm : timed_run cf evs u) by (apply clean_timed; [exact Hs|rewrite Hf; exact (proj2 Hc)]).
  pose proof (run_events_sim keep cf fmts owner Hall H1 evs u v H2 Htm (sim_reown _ _ _ owner _ _ Hs S)) as R.
  assert (Fin : forall u1 v1, finalize u1 = Ok r -> sim keep fmts owner u1 v1 -> exists r', finalize v1 = Ok r' /\ sim keep fmts no_owner r r').
  { intros u1 v1 Ez S1. destruct (finalize_sim keep fmts owner u1 v1 r S1 Ez) as (v2 & E2 & S2). exists v2. split; [exact E2|].
    refine (sim_reown _ _ _ no_owner _ _ _ S2). apply (finalize_keeps u1 r Ez). }
  pose proof (taken_run cf u all Hs Hk [] u eq_refl (goes_on_nil _ _)) as T. cbn [app] in T. rewrite Hf in T.
  destruct (run_events cf all u) as [u1|u1|x] eqn:E; cbn [end_data] in Hr; [| |discriminate].
  - pose proof (taken_fun cf fmts all all evs (or_introl (conj eq_refl T)) Ht) as ->. rewrite E in R. destruct R as (v1 & Ev & S1).
    rewrite Ev. apply (Fin u1 v1 Hr S1).
  - destruct T as (a & ty & p & b & u4 & Eall & A & B & C & D).
    assert (Tk : taken cf fmts all (a ++ [EMsg ty p])) by (right; exists a, ty, p, b; auto).
    pose proof (taken_fun cf fmts all _ evs Tk Ht) as ->. rewrite run_events_app, C in R. cbn [run_events] in R. rewrite D in R. destruct R as (v1 & Ev & S1).
    assert (Ea : run_events (with_filter keep cf) all v = RStop v1).
    { rewrite Eall. change (EMsg ty p :: b) with ([EMsg ty p] ++ b). rewrite app_assoc, run_events_app, Ev. reflexivity. }
    rewrite Ea. apply (Fin u1 v1 Hr S1).
Qed.
Lemma sections_sim keep cf f fmts offs d u r0 : (forall n, cf_filter cf n = true) -> bytes_ok f -> sections_give cf f offs d u r0 -> forall r, r0 = Ok r -> 0 <= d -> Forall (fun o => 0 <= o) offs ->
  u_subs u = [] -> u_formats u = fmts -> forall secs v, sections_walk cf fmts f offs d (u_has_sync u) secs -> Forall (clean_section cf fmts) secs -> sim keep fmts no_owner u v ->
  exists r', sections_give (with_filter keep cf) f offs d v (Ok r') /\ sim keep fmts no_owner r r'.
Proof.
  intros Hall Hb W. induction W as [d u evs W|o offs d u evs e W E|o offs d u evs u1 e W E Hs|o offs d u evs u1 r0 W E Hs W2 IH]; intros r Hr Hd Ho Hsub Hf secs v Hw Hc S; try discriminate;
    pose proof (sim_sync keep fmts no_owner u v S) as Hy.
  - inversion Hw as [? ? all evs' W' T'|]; subst. pose proof (walk_fun _ _ _ _ _ _ Hb W Hd _ W'). subst all.
    destruct (section_sim keep cf (u_formats u) evs evs' u v r Hall (walk_known _ _ _ _ _ _ Hb W) Hsub eq_refl Hr T' (Forall_inv Hc) S) as (r' & E' & S').
    exists r'. split; [|exact S']. rewrite <- E'. apply sg_last. rewrite Hy. exact W.
  - subst r0. inversion Hw as [|? ? ? ? all evs' secs2 W' T' Hw2]; subst. pose proof (walk_fun _ _ _ _ _ _ Hb W Hd _ W'). subst all.
    destruct (section_sim keep cf (u_formats u) evs evs' u v u1 Hall (walk_known _ _ _ _ _ _ Hb W) Hsub eq_refl E T' (Forall_inv Hc) S) as (v1 & E' & S').
    destruct (section_taken cf evs u u1 Hsub (walk_known _ _ _ _ _ _ Hb W) E) as (evs2 & rest & u2 & A & B & C & D).
    destruct (finishes_sync _ _ _ _ C) as (F1 & F2 & F3 & F4). destruct (finalize_keeps _ _ D) as (G0 & G1 & G2 & G3 & G4).
    pose proof (taken_fun _ _ _ _ _ A T'). subst evs2.
    inversion Ho as [|? ? Ho1 Ho2]; subst.
    destruct (IH r eq_refl Ho1 Ho2 G0 ltac:(congruence) secs2 v1) as (r' & Wr & Sr); [rewrite G1, F1; exact Hw2|exact (Forall_inv_tail Hc)|exact S'|].
    exists r'. split; [|exact Sr]. eapply sg_more; [rewrite Hy; exact W|exact E'|exact Hs|exact Wr].
Qed.

(** definitions do not depend on the list *)
Lemma def_loop_filter keep cf f n : forall pos u, def_loop n (with_filter keep cf) f pos u = def_loop n cf f pos u.
Proof.
  induction n as [|n IH]; intros pos u; [reflexivity|]. cbn [def_loop].
  change (def_step (with_filter keep cf) f pos u) with (def_step cf f pos u). destruct (def_step cf f pos u); auto.
Qed.
Lemma sim_start keep u : u_subs u = [] -> u_data u = [] -> u_filtered u = [] -> sim keep (u_formats u) no_owner u u.
Proof.
  intros E1 E2 E3. constructor; rewrite ?E1, ?E2; try reflexivity; try assumption; try (intros id s []); try lia; auto.
  - apply incl_refl.
  - induction (u_changed u); constructor; auto. repeat split; lia.
  - induction (u_dropouts u); constructor; auto. split; [reflexivity|lia].
  - constructor.
Qed.
Lemma sim_only keep fmts owner u v : sim keep fmts owner u v -> only_topics keep u v.
Proof.
  intros [E]. constructor; try assumption; repeat split.
  - exact (f_equal u_info E).
  - exact (f_equal u_infot E).
  - exact (f_equal u_multi E).
  - exact (f_equal u_multit E).
  - exact (f_equal u_params E).
  - exact (f_equal u_defaults E).
  - exact (f_equal u_formats E).
  - exact (f_equal u_logged E).
  - exact (f_equal u_tagged E).
  - exact (f_equal u_version E).
  - exact (f_equal u_start E).
  - exact (f_equal u_compat E).
  - exact (f_equal u_incompat E).
  - exact (f_equal u_offsets E).
  - exact (f_equal u_has_sync E).
  - exact (f_equal u_sync_cnt E).
Qed.
Definition bare (u : ulog) : Prop := u_subs u = [] /\ u_data u = [] /\ u_filtered u = [].
Lemma def_effect_bare cf ty p u u' : def_effect cf ty p u = Some (Ok u') -> bare u -> bare u'.
Proof.
  intros E B. apply def_effect_shape in E. destruct E as [(_ & E)|[(_ & E)|[(_ & E)|[(_ & E)|[(_ & E)|(_ & E)]]]]].
  - symmetry in E. apply bind_Ok_inv in E as (m & _ & E). injection E as <-. exact B.
  - symmetry in E. apply bind_Ok_inv in E as (m & _ & E). unfold add_info_multi in E. destruct (sget _ _); [destruct (negb _)|].
    + apply bind_Ok_inv in E as (l2 & _ & E). injection E as <-. exact B.
    + injection E as <-. exact B.
    + injection E as <-. exact B.
  - symmetry in E. apply bind_Ok_inv in E as (m & _ & E). injection E as <-. exact B.
  - symmetry in E. apply bind_Ok_inv in E as (m & _ & E). injection E as <-. exact B.
  - symmetry in E. apply bind_Ok_inv in E as (m & _ & E). injection E as <-. exact B.
  - symmetry in E. apply bind_Ok_inv in E as (((c, i), o) & _ & E). cbv zeta in E. destruct (negb _); [discriminate|]. destruct (existsb _ _); [discriminate|]. injection E as <-. exact B.
Qed.
Lemma def_event_bare cf e u u' : def_event cf e u = Ok u' -> bare u -> bare u'.
Proof.
  destruct e as [ty p| |]; cbn [def_event]; intros E B.
  - apply (def_ev_msg cf ty p u u') in E. destruct E; [exact B|eapply def_effect_bare; eauto|exact B].
  - injection E as <-. exact B.
  - injection E as <-. exact B.
Qed.
Lemma run_def_events_bare cf evs : forall u u', run_def_events cf evs u = Ok u' -> bare u -> bare u'.
Proof.
  induction evs as [|e evs IH]; intros u u' E B; cbn [run_def_events] in E.
  - injection E as <-. exact B.
  - destruct (def_event cf e u) as [u1|] eqn:E1; [|discriminate]. apply (IH u1 u' E). eapply def_event_bare; eauto.
Qed.

(** the way through the definitions does not depend on the list either *)
Lemma hop_filter keep cf f q a q1 : hop cf f q a q1 -> hop (with_filter keep cf) f q a q1.
Proof. intros [ty size p H Ht|ty size p H Ht He Hd|ty size p x H Ht He Hd Hg]; [eapply hop_message|eapply hop_skip|eapply hop_garbage]; eauto. Qed.
Lemma hops_filter keep cf f q a q1 : hops cf f q a q1 -> hops (with_filter keep cf) f q a q1.
Proof. intros H. induction H; [constructor|]. econstructor; eauto. now apply hop_filter. Qed.
Lemma run_def_events_filter keep cf evs : forall u, run_def_events (with_filter keep cf) evs u = run_def_events cf evs u.
Proof.
  induction evs as [|e evs IH]; intros u; [reflexivity|]. cbn [run_def_events].
  replace (def_event (with_filter keep cf) e u) with (def_event cf e u) by (destruct e; reflexivity). destruct (def_event cf e u); [apply IH|reflexivity].
Qed.
Theorem walked_filter keep cf f u defs secs : (forall n, cf_filter cf n = true) -> bytes_ok f -> cf_hdr cf = false -> produces cf f (Ok u) -> walked cf f u defs secs ->
  Forall (clean_section cf (u_formats u)) secs -> exists v, produces (with_filter keep cf) f (Ok v) /\ only_topics keep u v.
Proof.
  intros Hall Hb Hh Hp Hw Hc. pose proof (produces_outcome cf f (Ok u) Hb Hp) as O.
  destruct (outcome_Ok _ _ _ O Hh) as (v & t & rest & defs0 & q & d & u1 & Ef & Hf & Hd & He & Hr & Hg).
  assert (Hq : 0 <= q) by (eapply hops_nonneg; eauto; lia). assert (Hd0 : 0 <= d) by (eapply end_nonneg; eauto).
  pose proof (starts_nonneg _ (hops_offs _ _ _ _ _ Hb Hd _ _ Hr (offs_nonneg_init _ _))) as Ho.
  assert (B : bare u1) by (eapply run_def_events_bare; [exact Hr|repeat split]). destruct B as (B1 & B2 & B3).
  destruct (sections_walked cf f (u_formats u1) (section_starts u1) d u1 (Ok u) Hb Hg u eq_refl Hd0 Ho B1 eq_refl) as (secs0 & W1 & W2 & W3 & W4 & W5 & W6).
  destruct Hw as (q' & d' & A1 & A2 & A3). destruct (hops_fun _ _ _ _ _ _ Hd He _ _ _ A1 A2) as (-> & ->). rewrite (definitions_end_fun _ _ _ _ _ He A2) in A3.
  assert (Es : section_starts u = section_starts u1) by (unfold section_starts, has_appended; now rewrite W5, W6). rewrite Es, W4 in A3. rewrite W4 in Hc.
  pose proof (hops_sync _ _ _ _ _ Hd _ _ Hr) as Hy. change (u_has_sync (after_header v t)) with true in Hy. rewrite <- Hy in A3.
  destruct (sections_sim keep cf f (u_formats u1) (section_starts u1) d u1 (Ok u) Hall Hb Hg u eq_refl Hd0 Ho B1 eq_refl secs u1 A3 Hc (sim_start keep u1 B1 B2 B3)) as (w & G & S).
  exists w. split; [|exact (sim_only _ _ _ _ _ S)]. apply outcome_produces; [exact Hb|].
  eapply out_data; [exact Ef|exact Hf|apply hops_filter; exact Hd|exact He|rewrite run_def_events_filter; exact Hr|exact Hh|exact G].
Qed.
Theorem load_filter_header keep cf f r : cf_hdr cf = true -> produces cf f r -> produces (with_filter keep cf) f r.
Proof.
  intros Hh (n & Hn). exists n. unfold load, load_at in *. destruct (read_header f 0) as [(v, t)|e]; [|exact Hn]. cbv zeta in *.
  rewrite def_loop_filter. change (cf_hdr (with_filter keep cf)) with (cf_hdr cf). rewrite Hh in *. exact Hn.
Qed.

(** ** Files made of messages *)
Lemma run_data_sim keep cf fmts (owner : Z -> str -> Prop) : (forall n, cf_filter cf n = true) -> (forall id a b, owner id a -> owner id b -> a = b) -> forall ms u v,
  owners owner cf fmts (msgs ms) -> timed_run cf (msgs ms) u -> sim keep fmts owner u v ->
  match run_data cf ms u with
  | RDone u' => exists v', run_data (with_filter keep cf) ms v = RDone v' /\ sim keep fmts owner u' v'
  | RStop u' => exists v', run_data (with_filter keep cf) ms v = RStop v' /\ sim keep fmts owner u' v'
  | RRaise e => run_data (with_filter keep cf) ms v = RRaise e
  end.
Proof.
  intros Hall H1. induction ms as [|(ty, p) ms IH]; intros u v Ho Ht S; cbn [run_data]; [exists v; auto|].
  inversion Ho as [|? ? Ho1 Ho2]; subst.
  assert (T1 : timed (EMsg ty p) u) by (apply (Ht [] (EMsg ty p) (msgs ms) u); reflexivity).
  assert (T2 : forall u', run_events cf [EMsg ty p] u = RDone u' -> timed_run cf (msgs ms) u') by (intros u' E; apply (timed_run_app cf [EMsg ty p] (msgs ms) u u' E Ht)).
  pose proof (data_effect_sim keep cf fmts owner Hall H1 ty p u v S Ho1 T1) as D. cbn [run_events data_event run_data] in T2.
  destruct (data_effect cf ty p u) as [[u' [x|]]|].
  - destruct D as (v' & E & S'). rewrite E. destruct x; try reflexivity; [exists v'; auto|]. apply IH; [exact Ho2|apply T2; reflexivity|apply sim_corrupt; exact S'].
  - destruct D as (v' & E & S'). rewrite E. apply IH; auto.
  - rewrite D. apply IH; auto.
Qed.
Lemma run_def_filter keep cf ms : forall u, run_def (with_filter keep cf) ms u = run_def cf ms u.
Proof.
  induction ms as [|(ty, p) ms IH]; intros u; [reflexivity|]. cbn [run_def]. change (def_effect (with_filter keep cf) ty p u) with (def_effect cf ty p u).
  destruct (def_effect cf ty p u) as [[u'|[]]|]; auto.
Qed.
Lemma run_def_bare cf ms u u' : run_def cf ms u = Ok u' -> bare u -> bare u'.
Proof. rewrite <- run_def_msgs. apply run_def_events_bare. Qed.
Theorem framed_filter keep cf f v t defs data u : (forall n, cf_filter cf n = true) -> well_framed f v t defs data -> not_appended defs -> cf_hdr cf = false ->
  produces cf f (Ok u) -> clean_section cf (u_formats u) (msgs data) ->
  exists w, produces (with_filter keep cf) f (Ok w) /\ only_topics keep u w.
Proof.
  intros Hall Hw Ha Hh Hp Hc. apply (delivery cf f v t defs data Hw Ha Hh) in Hp.
  destruct (run_def cf defs (after_header v t)) as [u1|e] eqn:E1; [|discriminate].
  assert (B : bare u1) by (eapply run_def_bare; [exact E1|repeat split]). destruct B as (B1 & B2 & B3).
  assert (Efm : u_formats u = u_formats u1).
  { symmetry in Hp. destruct (end_data_processed cf data u1 u B1 Hp) as (evs & u2 & _ & F & Fz). apply finishes_defs in F. apply finalize_same in Fz as (d & ->). destruct F as (F & _). exact F. }
  rewrite Efm in Hc. destruct (clean_owners cf (u_formats u1) (msgs data) (proj1 Hc)) as (owner & H1 & H2).
  pose proof (run_data_sim keep cf (u_formats u1) owner Hall H1 data u1 u1 H2 (clean_timed cf _ u1 B1 (proj2 Hc)) (sim_reown _ _ _ owner _ _ B1 (sim_start keep u1 B1 B2 B3))) as R.
  assert (Hq : forall u2 v2, finalize u2 = Ok u -> sim keep (u_formats u1) owner u2 v2 -> exists w, finalize v2 = Ok w /\ only_topics keep u w).
  { intros u2 v2 Fz S. destruct (finalize_sim keep (u_formats u1) owner u2 v2 u S Fz) as (w & Ew & Sw). exists w. split; [exact Ew|]. exact (sim_only _ _ _ _ _ Sw). }
  destruct (run_data cf data u1) as [u2|u2|e]; cbn [end_data] in Hp; [| |discriminate].
  - destruct R as (v2 & Ev & S). destruct (Hq u2 v2 (eq_sym Hp) S) as (w & Ew & O). exists w. split; [|exact O].
    apply (delivery (with_filter keep cf) f v t defs data Hw Ha Hh). rewrite run_def_filter, E1, Ev. cbn [end_data]. symmetry. exact Ew.
  - destruct R as (v2 & Ev & S). destruct (Hq u2 v2 (eq_sym Hp) S) as (w & Ew & O). exists w. split; [|exact O].
    apply (delivery (with_filter keep cf) f v t defs data Hw Ha Hh). rewrite run_def_filter, E1, Ev. cbn [end_data]. symmetry. exact Ew.
Qed.
