(** Well-formed logs load, and the object holds exactly what the messages say. *)
From Coq Require Import Permutation Sorted.
From Verif Require Import Base Dict Utf8 PyStr PyFloat Struct PySort ModelTypes ModelRead Spec SpecSection SpecMsg SpecLog
  ProofsRead ProofsFile ProofsChange ProofsInv ProofsTrace ProofsSection ProofsData ProofsWhole ProofsFields ProofsLoad
  ProofsMsg ProofsExpand ProofsCut ProofsDefaults.
Ltac Zify.zify_post_hook ::= Z.div_mod_to_equations.

(** ** Subscriptions *)
Definition dtype_of (fields : list fielddata) : list (str * nptype) :=
  map (fun fd => (fd_name fd, np_of (fd_type fd))) fields.
Definition sub_of (multi id : Z) (name : str) (fields : list fielddata) (tsidx : Z) : subscr :=
  mkSub multi id name fields tsidx (sum_sizes fields) (ts_offset fields) [] (dtype_of fields).

Lemma np_dtype_ok l : forall i seen, NoDup (map fd_name l) -> ~ In [] (map fd_name l) ->
  (forall x, In x seen -> ~ In x (map fd_name l)) -> np_dtype_aux i seen l = Ok (dtype_of l).
Proof.
  induction l as [|fd l IH]; intros i seen Hn He Hs; [reflexivity|]. cbn [np_dtype_aux map dtype_of] in *.
  destruct (fd_name fd) as [|c n] eqn:En; [exfalso; apply He; now left|]. rewrite <- En in *.
  inversion Hn as [|? ? Hn1 Hn2]; subst.
  destruct (existsb (str_eqb (fd_name fd)) seen) eqn:Ex.
  { apply existsb_exists in Ex as (x & Hx & Hx'). apply str_eqb_eq in Hx'. subst x. exfalso. apply (Hs _ Hx). now left. }
  cbv zeta. rewrite IH; auto.
  - intros H; apply He; now right.
  - intros x [<-|Hx]; auto. intros H. apply (Hs _ Hx). now right.
Qed.

Lemma topic_add fmts name fields : topic fmts name fields -> str_ok name ->
  exists depth, forall cf multi id, (depth <= cf_depth cf)%nat -> u8 multi -> u16 id ->
    exists ts, parse_add cf fmts ([multi] ++ le_enc 2 id ++ utf8 name) = Ok (sub_of multi id name fields ts).
Proof.
  intros [(fmt & out & Hf & Hx & Hp) [Hn He] _] Hok.
  destruct (proj1 (expands_parse fmts) _ _ _ Hx) as (d & Hd).
  exists (S d). intros cf multi id Hdep Hm Hi. unfold parse_add.
  rewrite (slice_0 1), takeZ_app_exact by reflexivity. rewrite unpack1. cbn [bind].
  replace (slice 1 3 ([multi] ++ le_enc 2 id ++ utf8 name)) with (le_enc 2 id)
    by (symmetry; apply slice_app_mid; [reflexivity|rewrite lenZ_le; reflexivity]).
  rewrite le2_enc by exact Hi. cbn [bind].
  replace (dropZ 3 ([multi] ++ le_enc 2 id ++ utf8 name)) with (utf8 name)
    by (rewrite app_assoc; symmetry; apply dropZ_app_exact; rewrite lenZ_app, lenZ_le; reflexivity).
  rewrite parse_utf8 by exact Hok. cbn [bind].
  destruct (Hd ([], -1)) as (ts & Hts). exists ts.
  assert (Hpn : parse_nested (cf_depth cf) fmts [] name ([], -1) = Ok (out, ts)).
  { apply parse_nested_mono with (d := S d); auto. rewrite parse_nested_S, Hf. exact Hts. }
  rewrite Hpn. cbn [bind fst snd].
  rewrite (without_padding_fun _ _ _ (strip_padding_spec out) Hp).
  unfold np_dtype. rewrite np_dtype_ok; auto.
Qed.

Lemma itemsize_dtype fields : itemsize (dtype_of fields) = sum_sizes fields.
Proof.
  induction fields as [|fd l IH]; [reflexivity|].
  change (itemsize (dtype_of (fd :: l))) with (Z.of_nat (np_size (np_of (fd_type fd))) + itemsize (dtype_of l)).
  rewrite np_size_of, IH. reflexivity.
Qed.
Lemma total_sum l : total l = sum_sizes l.
Proof. reflexivity. Qed.

(** topics are functional *)
Lemma topic_fun fmts name a b : topic fmts name a -> topic fmts name b -> a = b.
Proof.
  intros [(f1 & o1 & H1 & X1 & P1) _ _] [(f2 & o2 & H2 & X2 & P2) _ _].
  rewrite H1 in H2. injection H2 as <-. pose proof (proj1 (expands_fun fmts) _ _ _ X1 _ X2) as ->.
  eapply without_padding_fun; eauto.
Qed.

(** ** Where the timestamp is *)
Lemma ts_offset_at fields : NoDup (map fd_name fields) -> In (mkFD (lit "timestamp") U64) fields ->
  exists i, nth_error fields i = Some (mkFD (lit "timestamp") U64) /\ ts_offset fields = total (firstn i fields) /\
    ts_offset fields + 8 <= total fields.
Proof.
  induction fields as [|fd l IH]; intros Hn Hi; [destruct Hi|]. cbn [map] in Hn. inversion Hn as [|? ? N1 N2]; subst.
  cbn [ts_offset]. destruct (str_eqb_spec (fd_name fd) (lit "timestamp")) as [E|E].
  - exists 0%nat. destruct Hi as [->|Hi].
    + split; [reflexivity|]. split; [reflexivity|]. cbn [total fold_right]. pose proof (sum_sizes_nonneg l) as Hl. unfold total. change (fold_right (fun fd a => size_of fd + a) 0 l) with (sum_sizes l).
      change (size_of (mkFD (lit "timestamp") U64)) with 8. lia.
    + exfalso. apply N1. rewrite E. change (lit "timestamp") with (fd_name (mkFD (lit "timestamp") U64)). now apply in_map.
  - destruct Hi as [->|Hi]; [exfalso; apply E; reflexivity|].
    destruct (IH N2 Hi) as (i & H1 & H2 & H3). exists (S i). split; [exact H1|].
    cbn [firstn total fold_right]. fold (total (firstn i l)). fold (total l). change (fd_size fd) with (size_of fd). lia.
Qed.

(** ** Messages and entries *)
Definition entry_is (e : str * str * bytes) (m : infomsg) : Prop :=
  im_type m = type_of e /\ im_key m = key_of e /\ means e (im_value m).
Lemma kv_entry ign ty key raw : kv_ok ty key raw ->
  exists m, parse_info ign (kv_bytes ty key raw) = Ok m /\ entry_is (ty, key, raw) m.
Proof.
  intros H. assert (H' := H). destruct H' as (_ & _ & _ & _ & v & Hv). eexists. split; [exact (parse_info_wire _ _ _ _ _ H Hv)|].
  repeat split. exact Hv.
Qed.
Lemma Forall2_flat_map {A X Y} (R : X -> Y -> Prop) (f : A -> list X) (g : A -> list Y) l :
  (forall a, In a l -> Forall2 R (f a) (g a)) -> Forall2 R (flat_map f l) (flat_map g l).
Proof.
  induction l as [|a l IH]; intros H; cbn; [constructor|]. apply Forall2_app; [apply H; now left|].
  apply IH. intros; apply H; now right.
Qed.
Lemma flat_map_wire {X} (g : event -> list X) ms : flat_map g (msgs (map wire ms)) =
  flat_map (fun m => g (EMsg (fst (wire m)) (snd (wire m)))) ms.
Proof.
  induction ms as [|m ms IH]; [reflexivity|].
  change (msgs (map wire (m :: ms))) with (EMsg (fst (wire m)) (snd (wire m)) :: msgs (map wire ms)).
  cbn [flat_map]. now rewrite IH.
Qed.
Lemma flat_map_ext_in {A X} (f g : A -> list X) l : (forall a, In a l -> f a = g a) -> flat_map f l = flat_map g l.
Proof. induction l as [|a l IH]; intros H; cbn; auto. rewrite H by now left. f_equal. apply IH. intros; apply H; now right. Qed.

Ltac each_msg Hok := intros m Hin; pose proof (proj1 (Forall_forall _ _) Hok m Hin) as [Hm _];
  destruct m; cbn [wire fst snd info_of param_of multi_of default_of format_of log_of tag_of drop_of of_type Z.eqb Pos.eqb];
  cbn [msg_ok] in Hm; try (constructor; fail); try reflexivity.

Lemma infos_wire ign ms : Forall msg_ok ms ->
  Forall2 entry_is (flat_map info_of ms) (infos ign (msgs (map wire ms))).
Proof.
  intros Hok. unfold infos. rewrite flat_map_wire. apply Forall2_flat_map. each_msg Hok.
  destruct (kv_entry ign _ _ _ Hm) as (i & -> & He). constructor; [exact He|constructor].
Qed.
Lemma params_wire ign ms : Forall msg_ok ms ->
  Forall2 entry_is (flat_map param_of ms) (params ign (msgs (map wire ms))).
Proof.
  intros Hok. unfold params. rewrite flat_map_wire. apply Forall2_flat_map. each_msg Hok.
  destruct (kv_entry ign _ _ _ Hm) as (i & -> & He). constructor; [exact He|constructor].
Qed.
Definition centry_is (x : Z * (str * str * bytes)) (m : Z * infomsg) : Prop := fst m = fst x /\ entry_is (snd x) (snd m).
Lemma multis_wire ign ms : Forall msg_ok ms ->
  Forall2 centry_is (flat_map multi_of ms) (multis ign (msgs (map wire ms))).
Proof.
  intros Hok. unfold multis. rewrite flat_map_wire. apply Forall2_flat_map. each_msg Hok.
  destruct Hm as [Hc Hm]. assert (H' := Hm). destruct H' as (_ & _ & _ & _ & v & Hv).
  rewrite (parse_multi_wire ign _ _ _ _ _ Hc Hm Hv). constructor; [|constructor]. repeat split. exact Hv.
Qed.
Lemma pdefs_wire ign ms : Forall msg_ok ms ->
  Forall2 centry_is (flat_map default_of ms) (pdefs ign (msgs (map wire ms))).
Proof.
  intros Hok. unfold pdefs. rewrite flat_map_wire. apply Forall2_flat_map. each_msg Hok.
  destruct Hm as [Hc Hm]. assert (H' := Hm). destruct H' as (_ & _ & _ & _ & v & Hv).
  rewrite (parse_pdef_wire ign _ _ _ _ _ Hc Hm Hv). constructor; [|constructor]. repeat split. exact Hv.
Qed.
Lemma formats_wire ign ms : Forall msg_ok ms -> formats ign (msgs (map wire ms)) = flat_map format_of ms.
Proof.
  intros Hok. unfold formats. rewrite flat_map_wire. apply flat_map_ext_in. each_msg Hok.
  destruct Hm as [Hc Hm]. now rewrite parse_format_wire.
Qed.
Lemma logs_wire ign ms : Forall msg_ok ms -> logs ign (msgs (map wire ms)) = flat_map log_of ms.
Proof.
  intros Hok. unfold logs. rewrite flat_map_wire. apply flat_map_ext_in. each_msg Hok.
  destruct Hm as (Hc & Ht & Hm). now rewrite parse_logging_wire.
Qed.
Lemma tagged_wire ign ms : Forall msg_ok ms -> tagged ign (msgs (map wire ms)) = flat_map tag_of ms.
Proof.
  intros Hok. unfold tagged. rewrite flat_map_wire. apply flat_map_ext_in. each_msg Hok.
  destruct Hm as (Hc & Ht & Hm & Hs). now rewrite parse_tagged_wire.
Qed.

(** ** Definitions *)
Definition multi_ne (u : ulog) : Prop := forall k, sget k (u_multi u) <> Some [].
Lemma append_last_ok l x : l <> [] -> exists l', append_last l x = Ok l' /\ l' <> [].
Proof.
  induction l as [|g r IH]; intros H; [congruence|]. destruct r as [|g' r]; [eexists; split; [reflexivity|discriminate]|].
  destruct IH as (l' & E & _); [discriminate|]. exists (g :: l'). split; [|discriminate].
  cbn [append_last] in *. rewrite E. reflexivity.
Qed.
Lemma add_multi_ok c m u : multi_ne u -> exists u', add_info_multi c m u = Ok u' /\
  u_corrupt u' = u_corrupt u /\ u_subs u' = u_subs u /\ multi_ne u'.
Proof.
  intros Hu. unfold add_info_multi. destruct (sget (im_key m) (u_multi u)) as [l|] eqn:E.
  - assert (Hl : l <> []) by (intros ->; apply (Hu _ E)).
    destruct (negb (c =? 0)).
    + destruct (append_last_ok l (im_value m) Hl) as (l' & -> & Hl'). cbn [bind]. eexists. repeat split.
      intros k. cbn [u_multi set_multi]. rewrite sget_sset. destruct (str_eqb k (im_key m)); [congruence|apply Hu].
    + eexists. repeat split. intros k. cbn [u_multi set_multi]. rewrite sget_sset.
      destruct (str_eqb k (im_key m)); [destruct l; discriminate|apply Hu].
  - eexists. repeat split. intros k. cbn [u_multi set_multi set_multit]. rewrite sget_sset.
    destruct (str_eqb k (im_key m)); [discriminate|apply Hu].
Qed.

Lemma def_wire_ok cf m u : msg_ok m -> is_def m -> multi_ne u ->
  exists u', def_effect cf (fst (wire m)) (snd (wire m)) u = Some (Ok u') /\ u_corrupt u' = u_corrupt u /\ multi_ne u'.
Proof.
  intros [Hm _] Hd Hu. destruct m; try destruct Hd; cbn [wire fst snd]; cbn [msg_ok] in Hm; unfold def_effect; cbn [Z.eqb Pos.eqb T_INFO T_MULTI T_FORMAT T_PARAM T_PDEF T_FLAGS].
  - destruct (kv_entry (cf_ign cf) _ _ _ Hm) as (i & -> & _). eexists. repeat split. exact Hu.
  - destruct Hm as [Hc Hm]. assert (H' := Hm). destruct H' as (_ & _ & _ & _ & v & Hv).
    rewrite (parse_multi_wire (cf_ign cf) _ _ _ _ _ Hc Hm Hv). cbn [bind fst snd].
    destruct (add_multi_ok continued (mkInfo ty key v) u Hu) as (u' & -> & H1 & _ & H2). eauto.
  - destruct (kv_entry (cf_ign cf) _ _ _ Hm) as (i & -> & _). eexists. repeat split. exact Hu.
  - destruct Hm as [Hc Hm]. assert (H' := Hm). destruct H' as (_ & _ & _ & _ & v & Hv).
    rewrite (parse_pdef_wire (cf_ign cf) _ _ _ _ _ Hc Hm Hv). eexists. repeat split. exact Hu.
  - destruct Hm as [Hc Hm]. rewrite parse_format_wire by assumption. eexists. repeat split. exact Hu.
  - destruct Hm as (H1 & H2 & H3 & H4 & H5 & H6 & H7). rewrite parse_flags_wire by assumption. cbn [bind].
    match goal with H : known_incompat _ |- _ => apply known_incompat_iff in H; destruct H as [-> ->] end.
    eexists. repeat split. exact Hu.
Qed.
Lemma def_run_ok cf defs : Forall msg_ok defs -> Forall is_def defs -> forall u, multi_ne u ->
  exists u', run_def cf (map wire defs) u = Ok u' /\ u_corrupt u' = u_corrupt u /\ multi_ne u'.
Proof.
  intros H1. induction H1 as [|m defs Hm _ IH]; intros H2 u Hu; [exists u; auto|]. inversion H2; subst.
  destruct (def_wire_ok cf m u) as (u' & E & E1 & E2); auto.
  destruct (IH ltac:(assumption) u' E2) as (w & F & F1 & F2). exists w. cbn [map run_def].
  destruct (wire m) as [ty p]. cbn [fst snd] in E. rewrite E. split; [exact F|]. split; [congruence|exact F2].
Qed.

(** ** Data messages *)
Definition adds_ok (cf : cfg) (fmts : dict str mformat) (data : list msg) : Prop :=
  forall multi id name, In (MAdd multi id name) data -> exists fields ts,
    topic fmts name fields /\ parse_add cf fmts (snd (wire (MAdd multi id name))) = Ok (sub_of multi id name fields ts).

Lemma msg_id_wire id r : u16 id -> msg_id (le_enc 2 id ++ r) = Some id.
Proof. unfold u16. intros H. cbn [le_enc app msg_id]. f_equal. lia. Qed.
Lemma record_wire id r multi name fields ts : lenZ r = total fields ->
  record (sub_of multi id name fields ts) (le_enc 2 id ++ r) = r.
Proof.
  intros H. unfold record. cbn [sub_of sb_dtype]. rewrite itemsize_dtype. change (sum_sizes fields) with (total fields). rewrite <- H.
  replace (le_enc 2 id ++ r) with (le_enc 2 id ++ r ++ []) by now rewrite app_nil_r.
  apply slice_app_mid; rewrite lenZ_le; lia.
Qed.
Lemma fits_wire id r multi name fields ts : lenZ r = total fields ->
  fits (sub_of multi id name fields ts) (le_enc 2 id ++ r) = true.
Proof.
  intros H. unfold fits. cbn [sub_of sb_dtype sb_max]. rewrite itemsize_dtype, lenZ_app, lenZ_le, H. change (total fields) with (sum_sizes fields).
  change (Z.of_nat 2) with 2. apply andb_true_intro. split; apply Z.leb_le; lia.
Qed.
Lemma stamp_wire id r multi name fields ts : lenZ r = total fields ->
  NoDup (map fd_name fields) -> In (mkFD (lit "timestamp") U64) fields ->
  exists t, stamp (sub_of multi id name fields ts) (le_enc 2 id ++ r) = Some t /\ stamped fields r t.
Proof.
  intros H Hn Hi. destruct (ts_offset_at fields Hn Hi) as (i & E1 & E2 & E3).
  unfold stamp. rewrite record_wire by exact H. cbv zeta. cbn [sub_of sb_tsoff].
  destruct (Z.leb_spec (ts_offset fields + 8) (lenZ r)); [|lia].
  eexists. split; [reflexivity|]. exists i. split; auto. unfold field_bytes. rewrite E1, <- E2. reflexivity.
Qed.
Lemma stamped_fun fields r t t' : NoDup (map fd_name fields) -> stamped fields r t -> stamped fields r t' -> t = t'.
Proof.
  intros Hn (i & H1 & H2) (j & H3 & H4). assert (i = j).
  { assert (Hi : nth_error (map fd_name fields) i = Some (lit "timestamp")) by (rewrite nth_error_map, H1; reflexivity).
    assert (Hj : nth_error (map fd_name fields) j = Some (lit "timestamp")) by (rewrite nth_error_map, H3; reflexivity).
    apply (proj1 (NoDup_nth_error _) Hn); [|congruence]. apply nth_error_Some. congruence. }
  subst j. congruence.
Qed.

Definition sub_is (fmts : dict str mformat) (id : Z) (c : option (Z * str * list bytes)) (s : option (subscr * list bytes)) : Prop :=
  match c with
  | None => s = None
  | Some (multi, name, recs) => exists fields ts, topic fmts name fields /\ s = Some (sub_of multi id name fields ts, recs)
  end.

Lemma current_snoc id pre m : current id (pre ++ [m]) = cur_step id (current id pre) m.
Proof. unfold current. now rewrite fold_left_app. Qed.
Lemma msgs_snoc ms m : msgs (map wire (ms ++ [m])) = msgs (map wire ms) ++ [EMsg (fst (wire m)) (snd (wire m))].
Proof. unfold msgs. now rewrite !map_app. Qed.

Lemma sub_current cf fmts data : (forall n, cf_filter cf n = true) -> adds_ok cf fmts data -> consistent fmts data ->
  Forall msg_ok data ->
  forall pre post, data = pre ++ post -> forall id,
  sub_is fmts id (current id pre) (subscription cf fmts (msgs (map wire pre)) id).
Proof.
  intros Hfil Hadd [_ Hcon] Hok pre. induction pre as [|m pre IH] using rev_ind; intros post E id; [reflexivity|].
  rewrite <- app_assoc in E. cbn [app] in E. specialize (IH _ E).
  rewrite current_snoc, msgs_snoc, subscription_snoc.
  assert (Hm : msg_ok m) by (rewrite Forall_forall in Hok; apply Hok; rewrite E; apply in_elt).
  destruct Hm as [Hm _].
  assert (Hskip : forall ty p, ty <> 65 -> ty <> 68 ->
    sub_is fmts id (current id pre) (sub_step cf fmts id (subscription cf fmts (msgs (map wire pre)) id) (EMsg ty p))).
  { intros ty p H1 H2. rewrite sub_step_other by assumption. auto. }
  destruct m; cbn [wire fst snd cur_step]; cbn [msg_ok] in Hm; try (apply Hskip; discriminate).
  - destruct (Hadd multi id0 name) as (fields & ts & Ht & Hp); [rewrite E; apply in_elt|].
    cbn [wire snd] in Hp. cbn [sub_step Z.eqb Pos.eqb]. rewrite Hp. cbn [sub_of sb_id sb_name].
    rewrite Hfil, Bool.andb_true_r. destruct (id0 =? id) eqn:Ei; [|auto].
    apply Z.eqb_eq in Ei. subst id0. exists fields, ts. auto.
  - destruct Hm as [Hi Hr]. destruct (Hcon _ _ _ _ E) as (multi & name & recs & fields & Hc & Ht & Hl).
    cbn [sub_step Z.eqb Pos.eqb]. rewrite msg_id_wire by exact Hi.
    pose proof (IH id0) as Hs. rewrite Hc in Hs. destruct Hs as (fields' & ts & Ht' & Hs).
    rewrite (topic_fun _ _ _ _ Ht' Ht) in *.
    destruct (Z.eqb_spec id0 id) as [->|Hne].
    + rewrite Hc, Hs. cbn [option_map fst snd]. rewrite fits_wire, record_wire by exact Hl. cbn [andb].
      exists fields, ts. auto.
    + specialize (IH id). destruct (subscription cf fmts (msgs (map wire pre)) id) as [[s rows]|]; auto.
Qed.

Lemma data_run_ok cf u0 data : (forall n, cf_filter cf n = true) -> adds_ok cf (u_formats u0) data ->
  consistent (u_formats u0) data -> Forall msg_ok data -> Forall is_data data -> u_subs u0 = [] -> multi_ne u0 ->
  forall pre post, data = pre ++ post ->
  exists u, run_events cf (msgs (map wire pre)) u0 = RDone u /\ u_corrupt u = u_corrupt u0 /\ multi_ne u.
Proof.
  intros Hfil Hadd Hcon Hok Hdat Hs Hu0 pre. induction pre as [|m pre IH] using rev_ind; intros post E; [exists u0; auto|].
  rewrite <- app_assoc in E. cbn [app] in E. destruct (IH _ E) as (u & Hr & Hc & Hu). clear IH.
  rewrite msgs_snoc, run_events_app, Hr.
  assert (Hin : In m data) by (rewrite E; apply in_elt).
  assert (Hm : msg_ok m) by (rewrite Forall_forall in Hok; auto). destruct Hm as [Hm _].
  assert (Hd : is_data m) by (rewrite Forall_forall in Hdat; auto).
  assert (Hgo : (exists u', data_effect cf (fst (wire m)) (snd (wire m)) u = Some (u', None) /\ u_corrupt u' = u_corrupt u /\ multi_ne u') ->
    exists u1, run_events cf [EMsg (fst (wire m)) (snd (wire m))] u = RDone u1 /\ u_corrupt u1 = u_corrupt u0 /\ multi_ne u1).
  { intros (u' & H1 & H2 & H3). exists u'. cbn [run_events data_event run_data]. rewrite H1. repeat split; auto. congruence. }
  apply Hgo. clear Hgo.
  pose proof (finishes_sec cf _ u0 u Hs (fin_done _ _ _ _ Hr)) as Hsec.
  destruct m; try destruct Hd; cbn [wire fst snd]; cbn [msg_ok] in Hm;
    unfold data_effect; cbn [Z.eqb Pos.eqb T_INFO T_MULTI T_PARAM T_PDEF T_ADD T_LOG T_LOGT T_DATA T_DROP T_SYNC].
  - destruct (kv_entry (cf_ign cf) _ _ _ Hm) as (i & -> & _). eexists. split; [reflexivity|]. split; [reflexivity|exact Hu].
  - destruct Hm as [Hcc Hm]. assert (H' := Hm). destruct H' as (_ & _ & _ & _ & v & Hv).
    rewrite (parse_multi_wire (cf_ign cf) _ _ _ _ _ Hcc Hm Hv). cbn [bind fst snd].
    destruct (add_multi_ok continued (mkInfo ty key v) u Hu) as (u' & -> & H1 & _ & H2).
    exists u'. split; [reflexivity|]. auto.
  - destruct (kv_entry (cf_ign cf) _ _ _ Hm) as (i & -> & _). eexists. split; [reflexivity|]. split; [reflexivity|exact Hu].
  - destruct Hm as [Hcc Hm]. assert (H' := Hm). destruct H' as (_ & _ & _ & _ & v & Hv).
    rewrite (parse_pdef_wire (cf_ign cf) _ _ _ _ _ Hcc Hm Hv). eexists. split; [reflexivity|]. split; [reflexivity|exact Hu].
  - destruct (Hadd multi id name Hin) as (fields & ts & Ht & Hp).
    rewrite (si_fmts _ _ _ _ Hsec). cbn [wire snd] in Hp. rewrite Hp. cbn [bind]. rewrite Hfil.
    eexists. split; [reflexivity|]. split; [reflexivity|exact Hu].
  - destruct Hm as [Hi Hr']. destruct (proj2 Hcon _ _ _ _ E) as (multi & name & recs & fields & Hcu & Ht & Hl).
    pose proof (sub_current cf _ data Hfil Hadd Hcon Hok pre _ E id) as Hsub. rewrite Hcu in Hsub.
    destruct Hsub as (fields' & ts & Ht' & Hsub). rewrite (topic_fun _ _ _ _ Ht' Ht) in *.
    pose proof (data_msg_spec (le_enc 2 id ++ record) u) as Hsp. rewrite msg_id_wire in Hsp by exact Hi.
    rewrite (si_subs _ _ _ _ Hsec), Hsub in Hsp. cbn [option_map fst snd] in Hsp.
    set (s := set_buf (concat recs) (sub_of multi id name fields ts)) in *.
    change (fits s (le_enc 2 id ++ record)) with (fits (sub_of multi id name fields ts) (le_enc 2 id ++ record)) in Hsp.
    rewrite fits_wire in Hsp by exact Hl.
    change (stamp s (le_enc 2 id ++ record)) with (stamp (sub_of multi id name fields ts) (le_enc 2 id ++ record)) in Hsp.
    destruct Ht as [Hx [Hn He] Hst].
    destruct (stamp_wire id record multi name fields ts Hl Hn Hst) as (t & Hts & _). rewrite Hts in Hsp.
    assert (Ho : 0 <= sb_tsoff s) by apply ts_offset_nonneg. specialize (Hsp Ho). cbv zeta in Hsp. rewrite Hsp.
    eexists. split; [reflexivity|]. destruct (_ <? _); split; try reflexivity; exact Hu.
  - destruct Hm as (Hl & Ht & Hs'). rewrite parse_logging_wire by assumption.
    eexists. split; [reflexivity|]. split; [reflexivity|exact Hu].
  - destruct Hm as (Hl & Hg & Ht & Hs'). rewrite parse_tagged_wire by assumption.
    eexists. split; [reflexivity|]. split; [reflexivity|exact Hu].
  - rewrite parse_dropout_wire by assumption.
    eexists. split; [reflexivity|]. split; [reflexivity|exact Hu].
  - eexists. split; [reflexivity|]. split; [reflexivity|exact Hu].
Qed.

(** ** The frames of well-formed messages *)
Lemma bytes_ok_le n z : bytes_ok (le_enc n z).
Proof. apply le_enc_bytes_ok. Qed.
Lemma kv_bytes_ok ty key raw : kv_ok ty key raw -> bytes_ok (kv_bytes ty key raw).
Proof.
  intros (_ & _ & H & Hr & _). unfold kv_bytes. cbv zeta. constructor; [|apply Forall_app; split; [apply utf8_bytes_ok|exact Hr]].
  pose proof (lenZ_nonneg (utf8 (ty ++ [32] ++ key))). unfold byte_ok. lia.
Qed.
Lemma wire_bytes m : msg_ok m -> frame_fits (wire m).
Proof.
  intros [Hm Hl]. unfold frame_fits. split; [|split; [|exact Hl]].
  - destruct m; cbn; unfold byte_ok; lia.
  - destruct m; cbn [wire snd]; cbn [msg_ok] in Hm; unfold u8 in *;
      repeat match goal with H : _ /\ _ |- _ => destruct H end;
      repeat first [apply kv_bytes_ok; assumption | apply utf8_bytes_ok | apply bytes_ok_le
        | apply Forall_app; split | apply Forall_cons; [unfold byte_ok; lia|] | apply Forall_nil | assumption].
Qed.
Lemma wire_def m : msg_ok m -> is_def m -> plain_def (wire m).
Proof.
  intros H Hd. split; [now apply wire_bytes|]. destruct m; try destruct Hd; cbn; (split; [lia|left; tauto]).
Qed.
Lemma wire_data m : msg_ok m -> is_data m -> plain_data (wire m).
Proof.
  intros H Hd. split; [now apply wire_bytes|]. left. destruct m; try destruct Hd; cbn; tauto.
Qed.
Lemma header_bytes v t : header_fits v t -> bytes_ok (file_header v t).
Proof.
  intros [Hv _]. unfold file_header. apply Forall_app; split; [repeat constructor; lia|]. apply Forall_app; split; [constructor; [exact Hv|constructor]|apply bytes_ok_le].
Qed.
Lemma typed_framed f v t defs data : typed_log f v t defs data -> well_framed f v t (map wire defs) (map wire data).
Proof.
  intros [Hf Hh Hs [Hd1 Hd2] [Hd3 Hd4] Hst _].
  assert (P1 : Forall plain_def (map wire defs)).
  { apply Forall_map, Forall_forall. rewrite Forall_forall in Hd1, Hd2. intros m Hm. apply wire_def; auto. }
  assert (P2 : Forall plain_data (map wire data)).
  { apply Forall_map, Forall_forall. rewrite Forall_forall in Hd3, Hd4. intros m Hm. apply wire_data; auto. }
  constructor; auto.
  - exists []. rewrite app_nil_r. split; auto. split; [now left|auto].
  - rewrite Hf. apply Forall_app. split; [now apply header_bytes|].
    apply Forall_app; split; apply bytes_ok_frames; eapply Forall_impl; [|exact P1| |exact P2]; intros a Ha; apply Ha.
  - destruct data as [|m data]; [exact I|]. cbn. destruct m; try destruct Hst; cbn; tauto.
Qed.
Lemma typed_not_appended defs : Forall msg_ok defs -> Forall is_def defs -> not_appended (map wire defs).
Proof.
  intros H1 H2. apply Forall_map, Forall_forall. intros m Hm. rewrite Forall_forall in H1, H2.
  specialize (H1 m Hm). specialize (H2 m Hm). destruct H1 as [H1 _]. destruct m; cbn [wire fst snd]; try discriminate.
  intros _. cbn [msg_ok is_def] in *. destruct H1 as (L1 & L2 & _). destruct H2 as [_ H2]. etransitivity; [|exact H2]. f_equal.
  rewrite app_nth2; unfold lenZ in *; [|lia]. replace (8 - length compat)%nat with 0%nat by lia.
  rewrite app_nth1 by lia. reflexivity.
Qed.

(** enough depth for all subscriptions *)
Lemma adds_depth fmts data : Forall msg_ok data -> consistent fmts data ->
  exists depth, forall cf, (depth <= cf_depth cf)%nat -> adds_ok cf fmts data.
Proof.
  intros Hok [Hcon _].
  assert (H : forall l, incl l data -> exists depth, forall cf, (depth <= cf_depth cf)%nat -> adds_ok cf fmts l).
  { induction l as [|m l IH]; intros Hi.
    - exists 0%nat. intros cf _ multi id name [].
    - destruct IH as (d1 & Hd1); [intros x Hx; apply Hi; now right|].
      assert (Hm : In m data) by (apply Hi; now left).
      assert (Hmok : msg_ok m) by (rewrite Forall_forall in Hok; auto).
      assert (Hskip : (forall a b c, m <> MAdd a b c) -> exists depth, forall cf, (depth <= cf_depth cf)%nat -> adds_ok cf fmts (m :: l)).
      { intros Hne. exists d1. intros cf Hcf a b c [E|E]; [now apply Hne in E|]. apply (Hd1 cf Hcf _ _ _ E). }
      destruct m as [| | | | | |multi id name| | | | |]; try (apply Hskip; discriminate).
      destruct (Hcon _ _ _ Hm) as (fields & Ht). destruct Hmok as [(M1 & M2 & M3) _].
      destruct (topic_add fmts name fields Ht M3) as (d2 & Hd2).
      exists (Nat.max d1 d2). intros cf Hcf a b c [E|E].
      + injection E as <- <- <-. destruct (Hd2 cf multi id) as (ts & Hp); auto; [lia|]. exists fields, ts. auto.
      + assert (Hcf' : (d1 <= cf_depth cf)%nat) by lia. apply (Hd1 cf Hcf' _ _ _ E). }
  exact (H data (incl_refl _)).
Qed.

(** ** Reading off the contents *)
Lemma find_Forall2 {A B} (R : A -> B -> Prop) (p : A -> bool) (q : B -> bool) l l' :
  (forall x y, R x y -> p x = q y) -> Forall2 R l l' ->
  match find p l with
  | Some x => exists y, find q l' = Some y /\ R x y
  | None => find q l' = None
  end.
Proof.
  intros Hpq. induction 1 as [|x y l l' Hxy _ IH]; cbn [find]; [reflexivity|].
  rewrite <- (Hpq _ _ Hxy). destruct (p x); [eauto|exact IH].
Qed.
Lemma Forall2_rev {A B} (R : A -> B -> Prop) l l' : Forall2 R l l' -> Forall2 R (rev l) (rev l').
Proof. induction 1; cbn [rev]; [constructor|]. apply Forall2_app; auto. Qed.
Lemma Forall2_filter {A B} (R : A -> B -> Prop) (p : A -> bool) (q : B -> bool) l l' :
  (forall x y, R x y -> p x = q y) -> Forall2 R l l' -> Forall2 R (filter p l) (filter q l').
Proof.
  intros Hpq. induction 1 as [|x y l l' Hxy _ IH]; cbn [filter]; [constructor|].
  rewrite <- (Hpq _ _ Hxy). destruct (p x); [constructor; auto|exact IH].
Qed.

Lemma last_holds l ms : Forall2 entry_is l ms -> holds_last l (fold_left ins_info ms []).
Proof.
  intros H k. unfold last_entry.
  pose proof (find_Forall2 entry_is (fun e => str_eqb k (key_of e)) (fun m => str_eqb k (im_key m)) _ _
    ltac:(intros x y (_ & E & _); now rewrite E) (Forall2_rev _ _ _ H)) as Hf.
  unfold ins_info. rewrite (fold_set_get im_key im_value).
  destruct (find _ (rev l)) as [e|].
  - destruct Hf as (m & -> & _ & _ & Hm). eauto.
  - rewrite Hf. reflexivity.
Qed.
Lemma types_hold l ms : Forall2 entry_is l ms -> holds_types l (fold_left ins_infot ms []).
Proof.
  intros H k. unfold last_entry.
  pose proof (find_Forall2 entry_is (fun e => str_eqb k (key_of e)) (fun m => str_eqb k (im_key m)) _ _
    ltac:(intros x y (_ & E & _); now rewrite E) (Forall2_rev _ _ _ H)) as Hf.
  unfold ins_infot. rewrite (fold_set_get im_key im_type).
  destruct (find _ (rev l)) as [e|]; cbn [option_map].
  - destruct Hf as (m & -> & -> & _). reflexivity.
  - rewrite Hf. reflexivity.
Qed.

(** grouping *)
Lemma split_cont (l : list (Z * (str * str * bytes))) :
  exists cont rest, l = cont ++ rest /\ Forall (fun x => fst x <> 0) cont /\
    match rest with [] => True | x :: _ => fst x = 0 end.
Proof.
  induction l as [|x l (cont & rest & -> & H1 & H2)].
  - exists [], []. auto.
  - destruct (Z.eq_dec (fst x) 0) as [E|E].
    + exists [], (x :: cont ++ rest). auto.
    + exists (x :: cont), rest. auto.
Qed.
Lemma group_cont cont : forall g acc l, Forall (fun x : Z * infomsg => fst x <> 0) cont ->
  group (g :: acc) (cont ++ l) = group ((g ++ map (fun x => im_value (snd x)) cont) :: acc) l.
Proof.
  induction cont as [|[c m] cont IH]; intros g acc l H; cbn [app map group fst snd] in *; [now rewrite app_nil_r|].
  inversion H; subst. cbn [fst] in *. destruct (Z.eqb_spec c 0); [contradiction|]. cbn [negb].
  rewrite IH by assumption. rewrite <- app_assoc. reflexivity.
Qed.
Lemma group_spec n : forall xs ms acc, (length xs <= n)%nat -> Forall2 centry_is xs ms ->
  (acc = [] \/ match xs with [] => True | x :: _ => fst x = 0 end) ->
  exists gs vs, grouped_as xs gs /\ group acc ms = rev vs ++ acc /\
    Forall2 (Forall2 (fun x v => means (snd x) v)) gs vs.
Proof.
  induction n as [|n IH]; intros xs ms acc Hn H2 Hacc.
  { destruct xs; [|cbn in Hn; lia]. inversion H2; subst. exists [], []. repeat split; constructor. }
  destruct xs as [|[c e] xs]; [inversion H2; subst; exists [], []; repeat split; constructor|].
  inversion H2 as [|? [c' m] ? ms' He H2']; subst. destruct He as [Hc He]. cbn [fst snd] in Hc, He. subst c'.
  destruct (split_cont xs) as (cont & rest & -> & Hcont & Hrest).
  apply Forall2_app_inv_l in H2' as (mc & mr & Hmc & Hmr & ->).
  assert (Hg : group acc ((c, m) :: mc ++ mr) = group ([im_value m] :: acc) (mc ++ mr)).
  { cbn [group]. destruct acc as [|g gs]; [reflexivity|]. destruct Hacc as [Hacc|Hacc]; [discriminate|]. cbn in Hacc. subst c. reflexivity. }
  assert (Hmc' : Forall (fun x : Z * infomsg => fst x <> 0) mc).
  { clear -Hmc Hcont. induction Hmc as [|x y l l' [Hxy _] _ IH]; [constructor|]. inversion Hcont; subst. constructor; [congruence|auto]. }
  rewrite Hg, group_cont by exact Hmc'.
  destruct (IH rest mr (([im_value m] ++ map (fun x => im_value (snd x)) mc) :: acc)) as (gs & vs & G1 & G2 & G3).
  { cbn [length] in Hn. rewrite app_length in Hn. lia. }
  { exact Hmr. }
  { now right. }
  exists (((c, e) :: cont) :: gs), (([im_value m] ++ map (fun x => im_value (snd x)) mc) :: vs).
  split; [now apply ga_cons|]. split.
  - rewrite G2. cbn [rev]. rewrite <- app_assoc. reflexivity.
  - constructor; [|exact G3]. cbn [app]. constructor; [exact (proj2 (proj2 He))|].
    clear -Hmc. induction Hmc as [|x y l l' [_ (_ & _ & H)] _ IH]; cbn [map]; constructor; auto.
Qed.
Lemma multi_holds l ms : Forall2 centry_is l ms -> holds_multi l (fold_left ins_multi ms []).
Proof.
  intros H k lk.
  assert (Hk : Forall2 centry_is lk (filter (fun cm => str_eqb k (im_key (snd cm))) ms)).
  { apply Forall2_filter; auto. intros x y (_ & _ & E & _). now rewrite E. }
  destruct (group_spec (length lk) lk _ [] (le_n _) Hk (or_introl eq_refl)) as (gs & vs & G1 & G2 & G3).
  rewrite app_nil_r in G2. rewrite multi_groups. unfold groups_of. rewrite G2, rev_involutive.
  destruct lk as [|x lk'] eqn:El.
  - left. split; auto. inversion G1; subst. inversion G3; subst. reflexivity.
  - right. split; [discriminate|]. exists gs, vs. split; auto. split; auto.
    inversion G1; subst. inversion G3; subst. reflexivity.
Qed.
Lemma fold_multit_get ms : forall d k, sget k (fold_left ins_multit ms d) =
  match sget k d with
  | Some x => Some x
  | None => option_map (fun x : Z * infomsg => im_type (snd x)) (find (fun x => str_eqb k (im_key (snd x))) ms)
  end.
Proof.
  induction ms as [|m ms IH]; intros d k; cbn [fold_left find].
  - destruct (sget k d); reflexivity.
  - rewrite IH. unfold ins_multit, dmem. destruct (sget (im_key (snd m)) d) eqn:E.
    + destruct (str_eqb_spec k (im_key (snd m))) as [->|]; [rewrite E; reflexivity|reflexivity].
    + rewrite sget_sset. destruct (str_eqb_spec k (im_key (snd m))) as [->|]; [rewrite E; reflexivity|reflexivity].
Qed.

Lemma nth_error_ext {A} (l l' : list A) : (forall i, nth_error l i = nth_error l' i) -> l = l'.
Proof.
  revert l'. induction l as [|x l IH]; intros [|y l'] H; auto; try (specialize (H O); discriminate).
  f_equal; [specialize (H O); now injection H|]. apply IH. intros i. exact (H (S i)).
Qed.

(** timestamps *)
Section Typed.
  Context (cf : cfg) (fmts : dict str mformat) (data : list msg).
  Hypothesis Hfil : forall n, cf_filter cf n = true.
  Hypothesis Hadd : adds_ok cf fmts data.
  Hypothesis Hcon : consistent fmts data.
  Hypothesis Hok : Forall msg_ok data.

  Lemma latest_stamp t0 pre : forall post, data = pre ++ post ->
    latest fmts t0 pre (last_stamp cf fmts t0 (msgs (map wire pre))).
  Proof.
    induction pre as [|m pre IH] using rev_ind; intros post E; [constructor|].
    rewrite <- app_assoc in E. cbn [app] in E. specialize (IH _ E).
    rewrite msgs_snoc, last_stamp_snoc.
    destruct (Z.eq_dec (fst (wire m)) 68) as [E68|E68].
    - destruct m; try discriminate E68. cbn [wire fst snd stamps Z.eqb Pos.eqb].
      assert (Hm : msg_ok (MData id record)) by (rewrite Forall_forall in Hok; apply Hok; rewrite E; apply in_elt).
      destruct Hm as [[Hi Hr] _]. rewrite msg_id_wire by exact Hi.
      destruct (proj2 Hcon _ _ _ _ E) as (multi & name & recs & fields & Hcu & Ht & Hl).
      pose proof (sub_current cf _ data Hfil Hadd Hcon Hok pre _ E id) as Hsub. rewrite Hcu in Hsub.
      destruct Hsub as (fields' & ts & Ht' & Hsub). rewrite (topic_fun _ _ _ _ Ht' Ht) in *.
      rewrite Hsub, fits_wire by exact Hl. destruct (tp_names _ _ _ Ht) as [Hn He]. pose proof (tp_stamp _ _ _ Ht) as Hst.
      destruct (stamp_wire id record multi name fields ts Hl Hn Hst) as (t & -> & Hts). cbn [fold_left].
      exact (lt_data _ _ _ _ _ _ _ _ _ _ _ IH Hcu Ht Hts).
    - rewrite stamps_other by exact E68. cbn [fold_left]. constructor; auto. intros id r ->. apply E68. reflexivity.
  Qed.

  Lemma drop_wire t0 pre d : u16 d ->
    dropouts_at cf fmts t0 pre (EMsg 79 (le_enc 2 d)) = [mkDrop d (last_stamp cf fmts t0 pre)].
  Proof.
    unfold u16. intros Hd. cbn [le_enc dropouts_at Z.eqb Pos.eqb]. f_equal. f_equal.
    pose proof (Z.div_mod d 256). pose proof (Z.mod_small (d / 256) 256). lia.
  Qed.
  Lemma drop_collect t0 pre : forall post, data = pre ++ post ->
    map dr_dur (collect (dropouts_at cf fmts t0) [] (msgs (map wire pre))) = flat_map drop_of pre.
  Proof.
    induction pre as [|m pre IH] using rev_ind; intros post E; [reflexivity|].
    rewrite <- app_assoc in E. cbn [app] in E. specialize (IH _ E).
    rewrite msgs_snoc, collect_snoc0, map_app, IH, flat_map_app. f_equal.
    assert (Hm : msg_ok m) by (rewrite Forall_forall in Hok; apply Hok; rewrite E; apply in_elt). destruct Hm as [Hm _].
    destruct (Z.eq_dec (fst (wire m)) 79) as [E79|E79].
    - destruct m; try discriminate E79. cbn [msg_ok] in Hm. cbn [wire fst snd].
      rewrite drop_wire by exact Hm. reflexivity.
    - rewrite dropouts_other by exact E79. destruct m; try reflexivity. exfalso; apply E79; reflexivity.
  Qed.
  Lemma changed_collect t0 pre : forall post, data = pre ++ post ->
    Forall2 (fun e c => snd (fst c) = key_of e /\ means e (snd c))
      (flat_map param_of pre) (collect (changed_at cf fmts t0) [] (msgs (map wire pre))).
  Proof.
    induction pre as [|m pre IH] using rev_ind; intros post E; [constructor|].
    rewrite <- app_assoc in E. cbn [app] in E. specialize (IH _ E).
    rewrite msgs_snoc, collect_snoc0, flat_map_app. apply Forall2_app; [exact IH|].
    assert (Hm : msg_ok m) by (rewrite Forall_forall in Hok; apply Hok; rewrite E; apply in_elt). destruct Hm as [Hm _].
    destruct (Z.eq_dec (fst (wire m)) 80) as [E80|E80].
    - destruct m; try discriminate E80. cbn [msg_ok] in Hm. cbn [wire fst snd]. rewrite changed_eq.
      destruct (kv_entry (cf_ign cf) _ _ _ Hm) as (i & -> & _ & Hk & Hv). cbn [flat_map param_of app].
      constructor; [|constructor]. cbn [fst snd]. auto.
    - rewrite changed_other by exact E80. destruct m; try constructor. exfalso; apply E80; reflexivity.
  Qed.
  Lemma msgs_split pre m post : msgs (map wire (pre ++ m :: post)) =
    (msgs (map wire pre) ++ [EMsg (fst (wire m)) (snd (wire m))]) ++ msgs (map wire post).
  Proof. unfold msgs. rewrite !map_app, <- app_assoc. reflexivity. Qed.

  Lemma datasets_typed u : new_data cf fmts (msgs (map wire data)) u ->
    NoDup (map ds_id u) /\
    (forall ds, In ds u -> exists multi name recs fields,
       current (ds_id ds) data = Some (multi, name, recs) /\ recs <> [] /\ topic fmts name fields /\
       is_dataset fields multi (ds_id ds) name recs ds) /\
    (forall id multi name recs, current id data = Some (multi, name, recs) -> recs <> [] ->
       exists ds, In ds u /\ ds_id ds = id).
  Proof.
    intros (N1 & N2 & N3). split; [exact N1|]. split.
    - intros ds Hds. destruct (N2 ds Hds) as (s & rs & Hs & Hne & Hh).
      pose proof (sub_current cf _ data Hfil Hadd Hcon Hok data [] (eq_sym (app_nil_r _)) (ds_id ds)) as Hsub.
      rewrite Hs in Hsub. unfold sub_is in Hsub. destruct (current (ds_id ds) data) as [[[multi name] recs]|]; [|discriminate].
      destruct Hsub as (fields & ts & Ht & E). injection E as -> ->.
      exists multi, name, recs, fields. split; auto. split; [intros ->; apply Hne; reflexivity|]. split; auto.
      destruct Hh as (H1 & H2 & H3 & H4 & H5 & H6 & H7). cbn [sub_of sb_multi sb_id sb_name sb_fields sb_tsidx sb_dtype] in *.
      assert (Hnames : map fst (ds_data ds) = map fd_name fields).
      { assert (Hlen : length (ds_data ds) = length fields) by (rewrite H6; apply map_length).
        apply nth_error_ext. intros i. rewrite !nth_error_map.
        destruct (nth_error (ds_data ds) i) as [nc|] eqn:En.
        - destruct (H7 _ _ En) as (nt & Hnt & Hf & _). unfold dtype_of in Hnt. cbn [sub_of sb_dtype] in Hnt. unfold dtype_of in Hnt. rewrite nth_error_map in Hnt.
          destruct (nth_error fields i); [|discriminate]. injection Hnt as <-. cbn [option_map fst] in *. now rewrite Hf.
        - apply nth_error_None in En. rewrite Hlen in En. apply nth_error_None in En. rewrite En. reflexivity. }
      repeat split; auto.
      intros i fd Hfd.
      assert (Hlt : (i < length (ds_data ds))%nat).
      { rewrite H6. unfold dtype_of. rewrite map_length. apply nth_error_Some. congruence. }
      destruct (nth_error (ds_data ds) i) as [[n c]|] eqn:En; [|apply nth_error_None in En; lia].
      destruct (H7 _ _ En) as (nt & Hnt & Hf & Hty & Hraw). cbn [sub_of sb_dtype fst snd] in *.
      unfold dtype_of in Hnt. rewrite nth_error_map, Hfd in Hnt. injection Hnt as <-. cbn [fst snd] in *.
      subst n. apply (In_dget str_eqb str_eqb_spec).
      + unfold dkeys. change (NoDup (map fst (ds_data ds))). rewrite Hnames. apply Ht.
      + apply nth_error_In in En. replace (mkCol (np_of (fd_type fd)) (map (fun r => le_dec (field_bytes fields i r)) recs)) with c; [exact En|].
        destruct c as [ct cr]. cbn [c_type c_raw] in *. subst ct cr. f_equal. apply map_ext. intros row.
        unfold field_bytes. rewrite Hfd, np_size_of. unfold dtype_of. rewrite firstn_map. fold (dtype_of (firstn i fields)).
        rewrite itemsize_dtype. reflexivity.
    - intros id multi name recs Hc Hne.
      pose proof (sub_current cf _ data Hfil Hadd Hcon Hok data [] (eq_sym (app_nil_r _)) id) as Hsub.
      rewrite Hc in Hsub. destruct Hsub as (fields & ts & Ht & E).
      destruct (N3 id _ _ E) as (ds & Hin & Hid & _); [|eauto].
      apply subscription_ok in E as (_ & _ & _ & _ & Hrs). destruct recs as [|r recs]; [congruence|].
      inversion Hrs as [|? ? Hr _]; subst. cbn [sub_of sb_dtype] in Hr. rewrite itemsize_dtype in Hr.
      destruct Ht as [_ [Hn _] Hst]. destruct (ts_offset_at fields Hn Hst) as (i & _ & _ & H8).
      pose proof (ts_offset_nonneg fields). change (total fields) with (sum_sizes fields) in H8.
      intros Hnil. cbn [concat] in Hnil. apply app_eq_nil in Hnil as [-> _]. change (lenZ []) with 0 in Hr. lia.
  Qed.
End Typed.

Lemma Forall2_length {A B} (R : A -> B -> Prop) l l' : Forall2 R l l' -> length l = length l'.
Proof. induction 1; cbn; congruence. Qed.
Lemma nth_error_mid {A} (a : list A) x b : nth_error (a ++ x :: b) (length a) = Some x.
Proof. rewrite nth_error_app2 by lia. now rewrite Nat.sub_diag. Qed.
Lemma pdef_range l ms : Forall2 centry_is l ms -> Forall (fun x => 0 <= fst x < 256) l ->
  Forall (fun bm => 0 <= fst bm < 256) ms.
Proof.
  induction 1 as [|x y l ms [E _] _ IH]; intros H; [constructor|]. inversion H; subst. constructor; [congruence|auto].
Qed.
Lemma find_ext_in {A} (p q : A -> bool) l : (forall x, In x l -> p x = q x) -> find p l = find q l.
Proof.
  induction l as [|x l IH]; intros H; [reflexivity|]. cbn [find]. rewrite (H x) by now left.
  rewrite IH; [reflexivity|]. intros y Hy. apply H. now right.
Qed.
Lemma default_bits_ok ms : Forall msg_ok ms -> Forall (fun x => 0 <= fst x < 256) (flat_map default_of ms).
Proof.
  induction 1 as [|m ms [Hm _] _ IH]; [constructor|]. cbn [flat_map]. apply Forall_app. split; [|exact IH].
  destruct m; try constructor; [|constructor]. exact (proj1 Hm).
Qed.

Theorem contents_read cf fmts v t defs data u :
  fmts = formats_in defs ->
  Forall msg_ok defs -> Forall msg_ok data -> consistent fmts data ->
  (forall n, cf_filter cf n = true) -> adds_ok cf fmts data ->
  read_as cf v t (msgs (map wire defs)) [msgs (map wire data)] u ->
  contents fmts v t defs data u.
Proof.
  intros Efm Hd Hdt Hcon Hfil Hadd H.
  assert (Eev : msgs (map wire defs) ++ concat [msgs (map wire data)] = msgs (map wire (defs ++ data))).
  { cbn [concat]. rewrite app_nil_r. unfold msgs. now rewrite !map_app. }
  assert (Hall : Forall msg_ok (defs ++ data)) by (apply Forall_app; auto).
  assert (Eu : u_formats u = fmts).
  { rewrite (read_as_formats _ _ _ _ _ _ H), formats_wire by exact Hd. now rewrite Efm. }
  destruct (read_as_sections _ _ _ _ _ _ H) as (S1 & S2 & S3 & S4 & news & S5 & S6).
  rewrite Eu in *. cbn [over_sections] in S3, S4. rewrite app_nil_r in S3, S4.
  inversion S5 as [|? new ? ? Hnew Hr]; subst news. inversion Hr; subst. cbn [concat] in S6. rewrite app_nil_r in S6.
  constructor.
  - exact (read_as_version _ _ _ _ _ _ H).
  - rewrite (read_as_info _ _ _ _ _ _ H), Eev. apply last_holds, infos_wire, Hall.
  - rewrite (read_as_infot _ _ _ _ _ _ H), Eev. eapply types_hold, infos_wire, Hall.
  - rewrite (read_as_multi _ _ _ _ _ _ H), Eev. apply multi_holds, multis_wire, Hall.
  - intros k. rewrite (read_as_multit_fold _ _ _ _ _ _ H), Eev, fold_multit_get. cbn [dget].
    pose proof (find_Forall2 centry_is (fun x => str_eqb k (key_of (snd x))) (fun x => str_eqb k (im_key (snd x))) _ _
      ltac:(intros x y (_ & _ & E & _); now rewrite E) (multis_wire (cf_ign cf) _ Hall)) as Hf.
    destruct (find _ (flat_map multi_of (defs ++ data))) as [x|].
    + destruct Hf as (y & -> & _ & E & _). cbn [option_map]. now rewrite E.
    + rewrite Hf. reflexivity.
  - intros H4 ty k Hty. rewrite (read_as_defaults _ _ _ _ _ _ H), Eev.
    pose proof (pdefs_wire (cf_ign cf) _ Hall) as Hp.
    pose proof (default_bits_ok _ Hall) as H256.
    rewrite defaults_law by (eapply pdef_range; eauto).
    pose proof (find_Forall2 centry_is (fun x => str_eqb k (key_of (snd x)) && lands (fst x) ty)
      (fun x => str_eqb k (im_key (snd x)) && lands (fst x) ty) _ _
      ltac:(intros x y (E0 & _ & E & _); now rewrite E, E0) (Forall2_rev _ _ _ Hp)) as Hf.
    rewrite (find_ext_in _ (fun x => str_eqb k (key_of (snd x)) && Z.testbit (fst x) ty)) in Hf.
    + destruct (find _ (rev (flat_map default_of (defs ++ data)))) as [x|].
      * destruct Hf as (y & -> & _ & _ & _ & Hv). eauto.
      * rewrite Hf. reflexivity.
    + intros x Hx. apply in_rev in Hx. rewrite Forall_forall in H4, H256.
      rewrite lands_01; auto. specialize (H4 x Hx). specialize (H256 x Hx). lia.
  - rewrite (read_as_params _ _ _ _ _ _ H). apply last_holds, params_wire, Hd.
  - exact Eu.
  - rewrite (read_as_logged _ _ _ _ _ _ H). cbn [concat]. rewrite app_nil_r. apply logs_wire, Hdt.
  - intros g. rewrite (read_as_tagged _ _ _ _ _ _ H). cbn [concat]. rewrite app_nil_r, tagged_wire by exact Hdt.
    rewrite fold_tag. reflexivity.
  - rewrite S2. cbn [last_over fold_left]. eapply latest_stamp with (post := []); eauto. now rewrite app_nil_r.
  - rewrite S3. eapply drop_collect with (data := data) (post := []); eauto. now rewrite app_nil_r.
  - intros pre d post E. exists (last_stamp cf (formats_in defs) t (msgs (map wire pre))).
    split; [eapply latest_stamp; eauto|].
    rewrite S3. rewrite E at 1. rewrite msgs_split, collect_app, collect_snoc0, <- app_assoc.
    assert (Hm : msg_ok (MDrop d)) by (rewrite Forall_forall in Hdt; apply Hdt; rewrite E; apply in_elt). destruct Hm as [Hm _].
    cbn [wire fst snd]. rewrite drop_wire by exact Hm. cbn [app].
    rewrite <- (drop_collect cf (formats_in defs) data Hdt t pre _ E), map_length. apply nth_error_mid.
  - rewrite S4. eapply changed_collect with (data := data) (post := []); eauto. now rewrite app_nil_r.
  - intros pre ty k raw post E. 
    assert (Hm : msg_ok (MParam ty k raw)) by (rewrite Forall_forall in Hdt; apply Hdt; rewrite E; apply in_elt). destruct Hm as [Hm _].
    destruct (kv_entry (cf_ign cf) _ _ _ Hm) as (i & Hi & _ & Hk & Hv).
    exists (last_stamp cf (formats_in defs) t (msgs (map wire pre))), (im_value i).
    split; [eapply latest_stamp; eauto|].
    rewrite S4. rewrite E at 1. rewrite msgs_split, collect_app, collect_snoc0, <- app_assoc.
    cbn [wire fst snd]. rewrite changed_eq, Hi. cbn [app].
    rewrite (Forall2_length _ _ _ (changed_collect cf (formats_in defs) data Hdt t pre _ E)), Hk. apply nth_error_mid.
  - destruct (datasets_typed cf (formats_in defs) data Hfil Hadd Hcon Hdt new Hnew) as (D1 & D2 & D3).
    split; [|split].
    + eapply Permutation_NoDup; [|exact D1]. apply Permutation_map. now symmetry.
    + intros ds Hds. apply D2. eapply Permutation_in; eauto.
    + intros id multi name recs Hc Hne. destruct (D3 _ _ _ _ Hc Hne) as (ds & Hds & Hid). exists ds. split; auto.
      apply (Permutation_in ds (Permutation_sym S6) Hds).
Qed.

(** A well-formed log loads without corruption, reading exactly its messages. *)
Theorem typed_reads f v t defs data : typed_log f v t defs data ->
  exists depth, forall cf, (depth <= cf_depth cf)%nat -> cf_hdr cf = false -> (forall n, cf_filter cf n = true) ->
  exists u, (forall r, produces cf f r <-> r = Ok u) /\ u_corrupt u = false /\
    adds_ok cf (formats_in defs) data /\ read_as cf v t (msgs (map wire defs)) [msgs (map wire data)] u.
Proof.
  intros Ht. pose proof (typed_framed _ _ _ _ _ Ht) as Hw. destruct Ht as [Hf Hh Hsz [Hd1 Hd2] [Ht1 Ht2] Hst Hcon].
  destruct (adds_depth _ _ Ht1 Hcon) as (depth & Hdepth). exists depth. intros cf Hdep Hhdr Hfil.
  specialize (Hdepth cf Hdep).
  destruct (def_run_ok cf defs Hd1 Hd2 (after_header v t)) as (u1 & Hr & Hc & Hne); [intros k; cbn; discriminate|].
  assert (Hr' : run_def_events cf (msgs (map wire defs)) (after_header v t) = Ok u1) by (rewrite run_def_msgs; exact Hr).
  assert (Hs : u_subs u1 = []).
  { assert (R : def_rest u1 = def_rest (after_header v t)) by exact (def_const def_rest cf (fun e a b => def_rest_same cf e a b) _ _ _ Hr').
    unfold def_rest in R. cbn in R. congruence. }
  assert (Efm : u_formats u1 = formats_in defs).
  { etransitivity; [exact (def_fold u_formats _ ins_fmt cf (def_formats cf) _ _ _ Hr')|].
    change (flat_map (of_type 70 (parse_format (cf_ign cf))) (msgs (map wire defs))) with (formats (cf_ign cf) (msgs (map wire defs))).
    rewrite formats_wire by exact Hd1. reflexivity. }
  destruct (data_run_ok cf u1 data Hfil) with (pre := data) (post := @nil msg) as (u2 & Hu2 & Hc2 & _);
    try rewrite Efm; auto; [now rewrite app_nil_r|].
  pose proof Hu2 as Hrun. rewrite run_data_events in Hrun.
  destruct (end_data_ok cf _ u1 u2 Hs (or_introl Hrun)) as (new & Hend).
  set (u := set_data (ssort ds_leb (u_data u2 ++ new)) (set_subs [] u2)) in *.
  exists u. split; [|split; [|split; [exact Hdepth|]]].
  - intros r. rewrite (delivery cf f v t _ _ Hw (typed_not_appended _ Hd1 Hd2) Hhdr r), Hr, Hend. reflexivity.
  - cbn. now rewrite Hc2, Hc.
  - exists u1. split; [exact Hr'|].
    apply sc_cons with (u1 := u2) (u2 := u); [now constructor| |constructor].
    rewrite Hrun in Hend. exact Hend.
Qed.

(** ... and holds exactly its contents. *)
Theorem typed_loads f v t defs data : typed_log f v t defs data ->
  exists depth, forall cf, (depth <= cf_depth cf)%nat -> cf_hdr cf = false -> (forall n, cf_filter cf n = true) ->
  exists u, (forall r, produces cf f r <-> r = Ok u) /\ u_corrupt u = false /\ contents (formats_in defs) v t defs data u.
Proof.
  intros Ht. destruct (typed_reads _ _ _ _ _ Ht) as (depth & H). exists depth. intros cf H1 H2 H3.
  destruct (H cf H1 H2 H3) as (u & U1 & U2 & U3 & U4). exists u. split; [exact U1|]. split; [exact U2|].
  destruct Ht. apply (contents_read cf); tauto.
Qed.
