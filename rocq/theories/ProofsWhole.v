(** Whole logs: every load is a run of definition events and sections; what each field of
    the result is as a function of those events. *)
From Coq Require Import Permutation Sorted.
From Verif Require Import Base Dict Utf8 PyStr PyFloat Struct PySort ModelTypes ModelRead Spec SpecSection
  ProofsRead ProofsFile ProofsSync ProofsInv ProofsTrace ProofsChange ProofsLoad ProofsSection ProofsData.
Ltac Zify.zify_post_hook ::= Z.div_mod_to_equations.

(** ** Every file that loads has a trace *)
Lemma end_data_finishes cf evs u r : end_data (run_events cf evs u) = Ok r ->
  exists e1 e2 u1, evs = e1 ++ e2 /\ finishes cf e1 u u1 /\ finalize u1 = Ok r.
Proof.
  intros H. destruct (run_events cf evs u) as [u1|u1|] eqn:E; cbn [end_data] in H; try discriminate.
  - destruct (run_events_finishes cf evs u u1) as (a & b & -> & Hf); [auto|]. exists a, b, u1. auto.
  - destruct (run_events_finishes cf evs u u1) as (a & b & -> & Hf); [auto|]. exists a, b, u1. auto.
Qed.

Lemma event_sections_chain cf f secs : Forall (scattered f 0) secs -> forall u r,
  run_event_sections cf secs u = Ok r ->
  exists secs', Forall (scattered f 0) secs' /\ length secs' = length secs /\ section_chain cf secs' u r.
Proof.
  induction 1 as [|s secs Hs Hss IH]; intros u r H.
  - injection H as <-. exists []. repeat split; constructor.
  - cbn [run_event_sections] in H. destruct (end_data (run_events cf s u)) as [u'|] eqn:E; [|discriminate].
    apply end_data_finishes in E as (a & b & u1 & -> & Hf & Hfin).
    apply IH in H as (secs' & H1 & H2 & H3). exists (a :: secs'). repeat split.
    + constructor; auto. eapply scattered_app; eauto.
    + cbn. congruence.
    + econstructor; eauto.
Qed.

Theorem load_trace cf f u : bytes_ok f -> cf_hdr cf = false -> produces cf f (Ok u) ->
  exists defs secs, Forall (found_in f) defs /\ Forall (scattered f 0) secs /\ (0 < length secs)%nat /\
    read_as cf (u_version u) (u_start u) defs secs u.
Proof.
  intros Hok Hh Hp. destruct (version_start cf f u Hok Hp) as (rest & Ef & Hfit).
  destruct Hp as [n Hn]. unfold load, load_at in Hn. 
  rewrite Ef in Hn at 1. rewrite read_header_ok in Hn by exact Hfit.
  cbv iota beta zeta in Hn. change (0 + 16) with 16 in Hn.
  fold (after_header (u_version u) (u_start u)) in Hn.
  destruct (def_loop n cf f 16 _) as [[[p u2]|]|] eqn:Ed; try discriminate.
  rewrite Hh in Hn.
  pose proof (def_loop_pos cf f n Hok 16 _ p u2 ltac:(lia) Ed) as Hpos.
  pose proof (def_loop_offs cf f n Hok 16 _ p u2 Ed (offs_nonneg_init _ _)) as Hoff.
  destruct (def_loop_events cf f n Hok 16 _ p u2 ltac:(lia) Ed) as (defs & Hdefs & Hfound).
  apply read_sections_events in Hn as (secs & H1 & H2 & _ & H3); auto.
  - destruct (event_sections_chain cf f secs H1 u2 u H3) as (secs' & G1 & G2 & G3).
    exists defs, secs'. repeat split; auto; [lia|]. exists u2. auto.
  - destruct (has_appended u2); [exact Hoff|constructor].
Qed.

(** ** Well-framed files *)
Lemma run_data_events cf ms : forall u, run_events cf (msgs ms) u = run_data cf ms u.
Proof.
  induction ms as [|[ty p] ms IH]; intros u; [reflexivity|].
  cbn [msgs map run_events data_event run_data fst snd].
  destruct (data_effect cf ty p u) as [[u' [[]|]]|]; cbn; auto; apply IH.
Qed.
Lemma run_def_msgs cf ms : forall u, run_def_events cf (msgs ms) u = run_def cf ms u.
Proof.
  induction ms as [|[ty p] ms IH]; intros u; [reflexivity|].
  cbn [msgs map run_def_events def_event run_def fst snd].
  destruct (def_effect cf ty p u) as [[u'|[]]|]; cbn; auto; apply IH.
Qed.

Lemma end_data_processed cf ms u r : u_subs u = [] -> end_data (run_data cf ms u) = Ok r ->
  exists evs u1, processed cf (u_formats u) ms evs /\ finishes cf evs u u1 /\ finalize u1 = Ok r.
Proof.
  intros Hs. rewrite <- run_data_events. intros H. destruct (run_events cf (msgs ms) u) as [u1|u1|] eqn:E; cbn [end_data] in H; try discriminate.
  - exists (msgs ms), u1. split; [now left|]. split; [now apply fin_done|exact H].
  - assert (G : exists pre m post u2, ms = pre ++ m :: post /\ run_events cf (msgs pre) u = RDone u2 /\
        data_event cf (EMsg (fst m) (snd m)) u2 = RStop u1).
    { clear H Hs. revert u E. induction ms as [|m ms IH]; intros u E; [discriminate|].
      cbn [msgs map run_events] in E. destruct (data_event cf (EMsg (fst m) (snd m)) u) as [u'|u'|] eqn:Ee; try discriminate.
      - destruct (IH u' E) as (pre & m' & post & u2 & -> & H1 & H2).
        exists (m :: pre), m', post, u2. repeat split; auto. cbn [msgs map run_events]. rewrite Ee. exact H1.
      - exists [], m, ms, u. repeat split; auto. congruence. }
    destruct G as (pre & m & post & u2 & -> & H1 & H2).
    exists (msgs (pre ++ [m])), u1. split; [|split; [|exact H]].
    + right. exists pre, m, post. repeat split.
      assert (Hd : data_effect cf (fst m) (snd m) u2 = Some (u1, Some StructError)).
      { cbn [data_event run_data] in H2. destruct (data_effect cf (fst m) (snd m) u2) as [[w [[]|]]|]; try discriminate. injection H2 as ->. reflexivity. }
      unfold stops. destruct (Z.eq_dec (fst m) 68) as [E68|E68]; [right|left].
      2:{ split; auto. exists u2, u1. exact Hd. }
      split; auto.
      pose proof (finishes_sec cf (msgs pre) u u2 Hs (fin_done _ _ _ _ H1)) as [Hf2 Hsub _ _ _ _].
      rewrite E68 in Hd. change (Some (data_msg (snd m) u2) = Some (u1, Some StructError)) in Hd.
      assert (Hd' : data_msg (snd m) u2 = (u1, Some StructError)) by congruence. clear Hd.
      pose proof (data_msg_spec (snd m) u2) as Hsp.
      destruct (msg_id (snd m)) as [id|]; [right|now left].
      rewrite Hsub in Hsp. destruct (subscription cf (u_formats u) (msgs pre) id) as [[s rs]|] eqn:Esub;
        cbn [option_map fst snd] in Hsp.
      2:{ rewrite Hsp in Hd'. destruct (existsb _ _); discriminate. }
      exists id, s, rs. split; auto. split; auto.
      change (fits (set_buf (concat rs) s) (snd m)) with (fits s (snd m)) in Hsp.
      change (stamp (set_buf (concat rs) s) (snd m)) with (stamp s (snd m)) in Hsp.
      assert (Ho : 0 <= sb_tsoff (set_buf (concat rs) s)).
      { change (0 <= sb_tsoff s). eapply subscription_ok; eauto. }
      specialize (Hsp Ho). destruct (fits s (snd m)); [|rewrite Hsp in Hd'; discriminate].
      cbv zeta in Hsp. destruct (stamp s (snd m)); [|auto]. rewrite Hsp in Hd'. discriminate.
    + unfold msgs. rewrite map_app. cbn [map]. eapply fin_stop; eauto.
Qed.

(** ** Definition events *)
Definition def_ev (cf : cfg) (e : event) (u u' : ulog) : Prop := def_event cf e u = Ok u'.
Inductive def_msg_effect (cf : cfg) (ty : Z) (p : bytes) (u : ulog) : ulog -> Prop :=
| dm_none : ~ In ty def_types -> def_msg_effect cf ty p u u
| dm_ok u' : def_effect cf ty p u = Some (Ok u') -> def_msg_effect cf ty p u u'
| dm_index : def_effect cf ty p u = Some (Err IndexError) -> def_msg_effect cf ty p u (set_corrupt true u).

Lemma def_ev_msg cf ty p u u' : def_ev cf (EMsg ty p) u u' -> def_msg_effect cf ty p u u'.
Proof.
  unfold def_ev. cbn [def_event run_def].
  destruct (def_effect cf ty p u) as [[v|x]|] eqn:E.
  - intros H. injection H as <-. now apply dm_ok.
  - destruct x; try discriminate. intros H. injection H as <-. now apply dm_index.
  - intros H. injection H as <-. apply dm_none. intros Hin.
    destruct (def_effect_known cf ty p u Hin) as [x Hx]. congruence.
Qed.

Lemma def_effect_shape cf ty p u r : def_effect cf ty p u = Some r ->
  (ty = 73 /\ r = (let* m := parse_info (cf_ign cf) p in Ok (add_info m u))) \/
  (ty = 77 /\ r = (let* cm := parse_info_multi (cf_ign cf) p in add_info_multi (fst cm) (snd cm) u)) \/
  (ty = 70 /\ r = (let* m := parse_format (cf_ign cf) p in Ok (set_formats (sset (mf_name m) m (u_formats u)) u))) \/
  (ty = 80 /\ r = (let* m := parse_info (cf_ign cf) p in Ok (set_params (sset (im_key m) (im_value m) (u_params u)) u))) \/
  (ty = 81 /\ r = (let* bm := parse_pdef (cf_ign cf) p in Ok (add_param_default (fst bm) (snd bm) u))) \/
  (ty = 66 /\ r = (let* fl := parse_flags p in
          let '(c, i, o) := fl in
          let u' := set_offsets o (set_incompat i (set_compat c u)) in
          if negb (Z.land (nth 0 i 0) (Z.lnot 1) =? 0) then Err ValueError
          else if existsb (fun x => negb (x =? 0)) (tl i) then Err NotImplementedError
          else Ok u')).
Proof.
  unfold def_effect, T_INFO, T_MULTI, T_PARAM, T_PDEF, T_FORMAT, T_FLAGS. cbv zeta. intros H.
  repeat match type of H with
  | (if ?a =? ?b then Some _ else _) = _ =>
      destruct (Z.eqb_spec a b) as [->|?]; [apply Some_inj in H; symmetry in H; tauto|]
  end. discriminate.
Qed.

Ltac dshape H :=
  apply def_effect_shape in H;
  let E := fresh "Ety" in
  destruct H as [[E H]|[[E H]|[[E H]|[[E H]|[[E H]|[E H]]]]]];
  [ destruct (parse_info _ _) as [m|x] eqn:Ep
  | destruct (parse_info_multi _ _) as [m|x] eqn:Ep
  | destruct (parse_format _ _) as [m|x] eqn:Ep
  | destruct (parse_info _ _) as [m|x] eqn:Ep
  | destruct (parse_pdef _ _) as [m|x] eqn:Ep
  | destruct (parse_flags _) as [[[fc fi] fo]|x] eqn:Ep ]; cbn [bind] in H; try discriminate E; try match type of E with ?x = _ => is_var x; subst x end.

Lemma def_field {X Y} (F : ulog -> X) cf t (parse : bytes -> res Y) (ins : X -> Y -> X) :
  In t def_types ->
  (forall v, F (set_corrupt true v) = F v) -> (forall v, F (set_has_sync false v) = F v) ->
  (forall ty p u v, def_effect cf ty p u = Some (Ok v) -> ty <> t -> F v = F u) ->
  (forall p u v, def_effect cf t p u = Some (Ok v) -> exists m, parse p = Ok m /\ F v = ins (F u) m) ->
  (forall p u, def_effect cf t p u = Some (Err IndexError) ->
     match parse p with Ok m => ins (F u) m = F u | Err _ => True end) ->
  forall e u u', def_ev cf e u u' -> F u' = fold_left ins (of_type t parse e) (F u).
Proof.
  intros Ht Hc Hn Hne Heq Herr e u u' H. destruct e as [ty p| |].
  - apply def_ev_msg in H. destruct (Z.eq_dec ty t) as [->|Hty].
    + rewrite of_type_eq. destruct H as [H|v H|H].
      * contradiction.
      * apply Heq in H as (m & -> & E). exact E.
      * rewrite Hc. apply Herr in H. destruct (parse p); cbn; congruence.
    + rewrite of_type_neq by assumption. cbn. destruct H as [H|v H|H]; auto. eauto.
  - unfold def_ev in H. injection H as <-. cbn. apply Hc.
  - unfold def_ev in H. injection H as <-. cbn. apply Hn.
Qed.

Lemma flags_inv fc fi fo u v :
  (let u' := set_offsets fo (set_incompat fi (set_compat fc u)) in
          if negb (Z.land (nth 0 fi 0) (Z.lnot 1) =? 0) then Err ValueError
          else if existsb (fun x => negb (x =? 0)) (tl fi) then Err NotImplementedError
          else Ok u') = Ok v -> v = set_offsets fo (set_incompat fi (set_compat fc u)).
Proof. cbv zeta. destruct (negb _); [discriminate|]. destruct (existsb _ _); [discriminate|]. congruence. Qed.

Ltac dtac H :=
  dshape H; try congruence; try discriminate;
  try (symmetry in H; apply add_info_multi_inv in H as (? & ? & ->); reflexivity);
  try (symmetry in H; apply flags_inv in H as ->; reflexivity);
  try (injection H as ->; reflexivity).
Ltac dflags H := cbv zeta in H; destruct (negb _) in H; [discriminate|]; destruct (existsb _ _) in H; discriminate.

Lemma def_info cf e u u' : def_ev cf e u u' ->
  u_info u' = fold_left ins_info (of_type 73 (parse_info (cf_ign cf)) e) (u_info u).
Proof.
  apply (def_field u_info cf 73 (parse_info (cf_ign cf)) ins_info); auto.
  - left; reflexivity.
  - intros ty p u0 v H Hty. dtac H.
  - intros p u0 v H. dshape H; try discriminate. injection H as ->. exists m. auto.
  - intros p u0 H. dshape H; try discriminate. auto.
Qed.
Lemma def_infot cf e u u' : def_ev cf e u u' ->
  u_infot u' = fold_left ins_infot (of_type 73 (parse_info (cf_ign cf)) e) (u_infot u).
Proof.
  apply (def_field u_infot cf 73 (parse_info (cf_ign cf)) ins_infot); auto.
  - left; reflexivity.
  - intros ty p u0 v H Hty. dtac H.
  - intros p u0 v H. dshape H; try discriminate. injection H as ->. exists m. auto.
  - intros p u0 H. dshape H; try discriminate. auto.
Qed.
Lemma def_multi cf e u u' : def_ev cf e u u' ->
  u_multi u' = fold_left ins_multi (of_type 77 (parse_info_multi (cf_ign cf)) e) (u_multi u).
Proof.
  apply (def_field u_multi cf 77 (parse_info_multi (cf_ign cf)) ins_multi); auto.
  - cbn; auto.
  - intros ty p u0 v H Hty. dtac H.
  - intros p u0 v H. dshape H; try discriminate. exists m. split; auto. destruct m. symmetry in H.
    now apply add_info_multi_multi in H.
  - intros p u0 H. dshape H; try discriminate; auto. destruct m. symmetry in H.
    now apply add_info_multi_err in H.
Qed.
Lemma def_pdef cf e u u' : def_ev cf e u u' ->
  u_defaults u' = fold_left ins_pdef (of_type 81 (parse_pdef (cf_ign cf)) e) (u_defaults u).
Proof.
  apply (def_field u_defaults cf 81 (parse_pdef (cf_ign cf)) ins_pdef); auto.
  - cbn; auto 8.
  - intros ty p u0 v H Hty. dtac H.
  - intros p u0 v H. dshape H; try discriminate. injection H as ->. exists m. auto.
  - intros p u0 H. dshape H; try discriminate. auto.
Qed.
Lemma def_params cf e u u' : def_ev cf e u u' ->
  u_params u' = fold_left ins_info (of_type 80 (parse_info (cf_ign cf)) e) (u_params u).
Proof.
  apply (def_field u_params cf 80 (parse_info (cf_ign cf)) ins_info); auto.
  - cbn; auto 8.
  - intros ty p u0 v H Hty. dtac H.
  - intros p u0 v H. dshape H; try discriminate. injection H as ->. exists m. auto.
  - intros p u0 H. dshape H; try discriminate. auto.
Qed.
Definition ins_fmt (d : dict str mformat) (m : mformat) := sset (mf_name m) m d.
Lemma def_formats cf e u u' : def_ev cf e u u' ->
  u_formats u' = fold_left ins_fmt (of_type 70 (parse_format (cf_ign cf)) e) (u_formats u).
Proof.
  apply (def_field u_formats cf 70 (parse_format (cf_ign cf)) ins_fmt); auto.
  - cbn; auto 8.
  - intros ty p u0 v H Hty. dtac H.
  - intros p u0 v H. dshape H; try discriminate. injection H as ->. exists m. auto.
  - intros p u0 H. dshape H; try discriminate. auto.
Qed.

(** what definition events leave alone *)
Definition def_rest (u : ulog) := (u_last u, u_start u, u_version u, u_logged u, u_tagged u, u_dropouts u,
  u_changed u, u_data u, u_subs u, u_sync_cnt u).
Lemma def_rest_same cf e u u' : def_ev cf e u u' -> def_rest u' = def_rest u.
Proof.
  intros H. destruct e as [ty p| |].
  - apply def_ev_msg in H. destruct H as [H|v H|H]; auto. dtac H.
  - injection H as <-. reflexivity.
  - injection H as <-. reflexivity.
Qed.

Lemma def_multit cf e u u' : def_ev cf e u u' -> multi_keys u ->
  u_multit u' = fold_left ins_multit (of_type 77 (parse_info_multi (cf_ign cf)) e) (u_multit u) /\ multi_keys u'.
Proof.
  intros H Hk. destruct e as [ty p| |].
  2,3: (injection H as <-; split; [reflexivity|exact Hk]).
  apply def_ev_msg in H. destruct H as [H|v H|H].
  - rewrite of_type_neq; [auto|]. intros ->. apply H. cbn; auto.
  - dshape H; try discriminate; try (rewrite of_type_neq by discriminate);
      try (injection H as ->; auto; fail).
    + rewrite of_type_eq, Ep. destruct m. cbn [fold_left]. apply add_info_multi_types; auto.
    + symmetry in H. apply flags_inv in H as ->. auto.
  - dshape H; try discriminate; try (rewrite of_type_neq by discriminate; auto; fail); rewrite of_type_eq, Ep; cbn [fold_left]; auto.
    destruct m as [c m]. cbn [fst snd] in H. split; [|exact Hk].
    unfold ins_multit. cbn [fst snd u_multit set_corrupt]. symmetry in H.
    rewrite (dmem_keys (u_multit u) (u_multi u) (im_key m) Hk).
    unfold add_info_multi in H. unfold dmem. destruct (sget _ (u_multi u)); [reflexivity|discriminate].
Qed.

(** ** Dictionaries built by folding *)
Lemma fold_set_get {M V} (kf : M -> str) (vf : M -> V) l : forall d k,
  sget k (fold_left (fun d m => sset (kf m) (vf m) d) l d) =
  match find (fun m => str_eqb k (kf m)) (rev l) with Some m => Some (vf m) | None => sget k d end.
Proof.
  induction l as [|m l IH] using rev_ind; intros d k; [reflexivity|].
  rewrite fold_left_app, rev_app_distr. cbn [fold_left rev app find].
  destruct (str_eqb_spec k (kf m)) as [->|Hn].
  - apply (dget_dset_eq _ str_eqb_spec).
  - rewrite (dget_dset_neq _ str_eqb_spec) by assumption. apply IH.
Qed.
Lemma fold_set_nodup {M V} (kf : M -> str) (vf : M -> V) l : forall d, NoDup (dkeys d) ->
  NoDup (dkeys (fold_left (fun d m => sset (kf m) (vf m) d) l d)).
Proof.
  induction l as [|m l IH]; intros d H; [exact H|]. cbn [fold_left]. apply IH.
  now apply (NoDup_dset _ str_eqb_spec).
Qed.

Lemma fold_snoc {A} (l : list A) : forall a, fold_left snoc l a = a ++ l.
Proof.
  induction l as [|x l IH]; intros a; cbn; [now rewrite app_nil_r|]. rewrite IH. unfold snoc. now rewrite <- app_assoc.
Qed.

Lemma fold_tag l : forall d t, zget t (fold_left ins_tag l d) =
  match zget t d, filter (fun m => tg_tag m =? t) l with
  | None, [] => None | None, x => Some x | Some y, x => Some (y ++ x) end.
Proof.
  induction l as [|m l IH]; intros d t; cbn [fold_left filter].
  - destruct (zget t d); [now rewrite app_nil_r|reflexivity].
  - rewrite IH. unfold ins_tag. destruct (Z.eqb_spec (tg_tag m) t) as [->|Hn].
    + destruct (zget t d) as [y|] eqn:E; rewrite zget_zset, Z.eqb_refl.
      * now rewrite <- app_assoc.
      * reflexivity.
    + destruct (zget (tg_tag m) d); rewrite zget_zset; destruct (Z.eqb_spec t (tg_tag m)); congruence.
Qed.

(** info-multiple grouping *)
Lemma append_last_rev g gs x : append_last (rev (g :: gs)) x = Ok (rev ((g ++ [x]) :: gs)).
Proof.
  cbn [rev]. induction (rev gs) as [|a l IH]; [reflexivity|].
  assert (Hc : forall r, r <> [] -> append_last (a :: r) x = let* r' := append_last r x in Ok (a :: r')).
  { intros [|b r] Hr; [congruence|reflexivity]. }
  cbn [app]. rewrite Hc by (destruct l; discriminate). now rewrite IH.
Qed.

Lemma sget_sset {V} k k' (v : V) d : sget k' (sset k v d) = if str_eqb k' k then Some v else sget k' d.
Proof.
  destruct (str_eqb_spec k' k) as [->|H].
  - apply (dget_dset_eq _ str_eqb_spec).
  - now apply (dget_dset_neq _ str_eqb_spec).
Qed.

Definition grouped (acc : list (list value)) : option (list (list value)) :=
  match acc with [] => None | _ => Some (rev acc) end.
Lemma fold_multi k l : forall d acc, sget k d = grouped acc ->
  sget k (fold_left ins_multi l d) = grouped (group acc (filter (fun cm => str_eqb k (im_key (snd cm))) l)).
Proof.
  induction l as [|[c m] l IH]; intros d acc Hd; cbn [fold_left filter]; [exact Hd|].
  cbn [snd]. destruct (str_eqb_spec k (im_key m)) as [->|Hn].
  - cbn [group]. unfold ins_multi at 2. cbn [fst snd]. rewrite Hd. destruct acc as [|g gs].
    + cbn [grouped]. apply IH. rewrite sget_sset, str_eqb_refl. reflexivity.
    + cbn [grouped]. destruct (negb (c =? 0)).
      * rewrite append_last_rev. apply IH. rewrite sget_sset, str_eqb_refl. reflexivity.
      * apply IH. rewrite sget_sset, str_eqb_refl. reflexivity.
  - apply IH. rewrite <- Hd. unfold ins_multi. cbn [fst snd].
    destruct (sget (im_key m) d) as [y|].
    + destruct (negb (c =? 0)).
      * destruct (append_last y (im_value m)); [|reflexivity]. rewrite sget_sset. now rewrite str_eqb_neq.
      * rewrite sget_sset. now rewrite str_eqb_neq.
    + rewrite sget_sset. now rewrite str_eqb_neq.
Qed.
Lemma group_nonempty l : forall acc, acc <> [] -> group acc l <> [].
Proof.
  induction l as [|[c m] l IH]; intros acc H; [exact H|]. cbn [group].
  destruct acc as [|g gs]; [congruence|]. destruct (negb _); apply IH; discriminate.
Qed.
Lemma group_start l : group [] l = [] -> l = [].
Proof. destruct l as [|[c m] l]; [auto|]. cbn [group]. intros H. exfalso. revert H. apply group_nonempty; discriminate. Qed.

Lemma multi_groups k l : sget k (fold_left ins_multi l []) =
  match groups_of k l with [] => None | gs => Some gs end.
Proof.
  etransitivity; [apply (fold_multi k l [] []); reflexivity|]. unfold groups_of, grouped.
  destruct (group [] _) as [|g gs]; [reflexivity|]. cbn [rev]. destruct (rev gs); reflexivity.
Qed.

(** ** All fields of a load *)
Lemma def_fold {X S} (F : ulog -> S) (dec : event -> list X) (ins : S -> X -> S) cf :
  (forall e u u', def_ev cf e u u' -> F u' = fold_left ins (dec e) (F u)) ->
  forall evs u u', run_def_events cf evs u = Ok u' -> F u' = fold_left ins (flat_map dec evs) (F u).
Proof.
  intros Hs. induction evs as [|e evs IH]; intros u u' H.
  - injection H as <-. reflexivity.
  - cbn [run_def_events] in H. apply bind_Ok_inv in H as (u1 & H1 & H2).
    cbn [flat_map]. rewrite fold_left_app, <- (Hs e u u1 H1). now apply IH.
Qed.
Lemma def_const {S} (F : ulog -> S) cf :
  (forall e u u', def_ev cf e u u' -> F u' = F u) ->
  forall evs u u', run_def_events cf evs u = Ok u' -> F u' = F u.
Proof.
  intros Hs. induction evs as [|e evs IH]; intros u u' H.
  - injection H as <-. reflexivity.
  - cbn [run_def_events] in H. apply bind_Ok_inv in H as (u1 & H1 & H2).
    rewrite <- (Hs e u u1 H1). now apply IH.
Qed.

(** chains *)
Lemma chain_fold {X S} (F : ulog -> S) (dec : event -> list X) (ins : S -> X -> S) cf :
  (forall e u u', ev_step cf e u u' -> F u' = fold_left ins (dec e) (F u)) ->
  (forall d u, F (set_data d (set_subs [] u)) = F u) ->
  forall secs u u', section_chain cf secs u u' -> F u' = fold_left ins (flat_map dec (concat secs)) (F u).
Proof.
  intros Hs Hf secs u u' H. induction H as [|evs secs u u1 u2 u3 H1 H2 H3 IH]; [reflexivity|].
  cbn [concat]. rewrite flat_map_app, fold_left_app, <- (field_fold F dec ins cf Hs evs u u1 H1).
  apply finalize_inv in H2 as (ds & _ & ->). rewrite Hf in IH. exact IH.
Qed.

Lemma finalize_same u u' : finalize u = Ok u' -> exists d, u' = set_data d (set_subs [] u).
Proof. intros H. apply finalize_inv in H as (ds & _ & ->). eauto. Qed.

Lemma chain_formats cf secs u u' : section_chain cf secs u u' -> u_formats u' = u_formats u /\ u_params u' = u_params u.
Proof.
  induction 1 as [|evs secs u u1 u2 u3 H1 H2 H3 IH]; [auto|].
  apply finishes_defs in H1. apply finalize_same in H2 as (d & ->). cbn in IH.
  destruct H1 as (A & B & _). destruct IH as [C D]. split; congruence.
Qed.

Lemma chain_sections cf secs u u' : section_chain cf secs u u' -> u_subs u = [] ->
  u_subs u' = [] /\
  u_last u' = last_over cf (u_formats u) (u_last u) secs /\
  u_dropouts u' = u_dropouts u ++ over_sections cf (u_formats u) (dropouts_at cf (u_formats u)) (u_last u) secs /\
  u_changed u' = u_changed u ++ over_sections cf (u_formats u) (changed_at cf (u_formats u)) (u_last u) secs /\
  exists news, Forall2 (new_data cf (u_formats u)) secs news /\ Permutation (u_data u') (u_data u ++ concat news).
Proof.
  induction 1 as [u|evs secs u u1 u2 u3 H1 H2 H3 IH]; intros Hs.
  - cbn. rewrite !app_nil_r. repeat split; auto. exists []. cbn. rewrite app_nil_r. split; [constructor|reflexivity].
  - pose proof (finishes_sec cf evs u u1 Hs H1) as Hi.
    pose proof (finishes_defs cf evs u u1 H1) as (D1 & _ & _ & _ & _ & _ & _ & D2).
    destruct (finalize_sec cf evs u u1 Hi) as (new & Hn & Hf). rewrite H2 in Hf. injection Hf as ->.
    destruct Hi as [I1 I2 I3 I4 I5 I6]. cbn in IH. rewrite I1, I4, I5, I6 in IH.
    destruct (IH eq_refl) as (J1 & J2 & J3 & J4 & news & J5 & J6).
    split; [exact J1|]. split; [exact J2|].
    split; [rewrite J3; cbn; now rewrite <- app_assoc|].
    split; [rewrite J4; cbn; now rewrite <- app_assoc|].
    exists (new :: news). split; [now constructor|]. cbn [concat]. rewrite J6, D2.
    rewrite <- ssort_perm. now rewrite <- app_assoc.
Qed.

Lemma chain_sorted cf secs u u' : section_chain cf secs u u' -> secs <> [] ->
  exists l, u_data u' = ssort ds_leb l.
Proof.
  induction 1 as [|evs secs u u1 u2 u3 H1 H2 H3 IH]; [congruence|]. intros _.
  destruct H3 as [u2|]; [|apply IH; discriminate].
  apply finalize_inv in H2 as (ds & _ & ->). cbn. eauto.
Qed.
