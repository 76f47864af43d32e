(** Parameter and message listings. *)
From Verif Require Import Base Dict PyStr PyFloat Struct PySort ModelTypes ModelRead ModelApi ModelTools SpecTools ProofsWindow.
From Coq Require Import Permutation Sorted.
Ltac Zify.zify_post_hook ::= Z.div_mod_to_equations.

(** ** parameters *)
Lemma later_eq u key : later_changes u key = map (fun c => (fst (fst c), snd c)) (changes_of u key).
Proof.
  unfold later_changes, changes_of. induction (u_changed u) as [|((t, k), v) r IH]; [reflexivity|]. cbn [flat_map filter fst snd].
  destruct (str_eqb k key); cbn [map app fst snd]; [f_equal|]; exact IH.
Qed.

Lemma csv_entry_eq vstr sep times initial u key v : params_csv vstr sep times initial u key v = csv_entry vstr sep times (negb initial) u key v.
Proof.
  unfold params_csv, csv_entry, line_of. rewrite later_eq. cbn [separated map concat]. destruct times; cbn [orb].
  - rewrite !map_map. cbn [fst snd]. rewrite <- !app_assoc. cbn [app]. reflexivity.
  - destruct initial; cbn [negb].
    + cbn [map concat]. rewrite !app_nil_r, <- !app_assoc. reflexivity.
    + rewrite !map_map. cbn [snd]. rewrite app_nil_r, <- !app_assoc. reflexivity.
Qed.

Lemma sep_nil l : separated [] l = concat l.
Proof. destruct l as [|x r]; [reflexivity|]. cbn [separated concat]. f_equal. f_equal. rewrite <- (map_id r) at 2. apply map_ext. reflexivity. Qed.

Lemma octave_entry_eq vstr initial u key v : params_octave vstr initial u key v = octave_entry vstr (negb initial) u key v.
Proof.
  unfold params_octave, octave_entry, line_of. rewrite later_eq. rewrite !sep_nil. destruct initial; cbn [negb].
  - cbn [length Nat.ltb Nat.leb concat]. rewrite !app_nil_r, <- !app_assoc. reflexivity.
  - destruct (changes_of u key) as [|c cs].
    + cbn [map length Nat.ltb Nat.leb concat]. rewrite !app_nil_r, <- !app_assoc. reflexivity.
    + set (l := c :: cs). assert (L : length l = S (length cs)) by reflexivity.
      assert (M : map (fun c : Z * str * value => (fst (fst c), snd c)) l <> []) by discriminate.
      remember (map (fun c : Z * str * value => (fst (fst c), snd c)) l) as m eqn:Em.
      assert (Lm : length m = length l) by (rewrite Em; apply map_length).
      assert (Sm : map snd m = map snd l) by (rewrite Em, map_map; reflexivity).
      cbv zeta. replace (Nat.ltb 1 (length (v :: map snd l))) with true by (symmetry; apply Nat.ltb_lt; cbn [length]; rewrite map_length; lia).
      destruct m as [|p m]; [congruence|]. rewrite Sm, Lm.
      replace (Z.of_nat (length (v :: map snd l))) with (1 + Z.of_nat (length l)) by (cbn [length]; rewrite map_length; lia).
      rewrite !sep_nil. cbn [concat]. rewrite !app_nil_r, <- !app_assoc. reflexivity.
Qed.

Lemma qgc_entry_eq vstr key v : params_qgc vstr key v = qgc_entry vstr key v.
Proof. unfold params_qgc, qgc_entry, line_of. cbn [separated map concat]. rewrite !app_nil_r, <- !app_assoc. cbn [app]. reflexivity. Qed.

(** sorted keys of a dictionary, with their values *)
Lemma sget_In {V} (k : str) (v : V) d : sget k d = Some v -> In (k, v) d.
Proof.
  induction d as [|(k', v') d IH]; cbn; [discriminate|]. destruct (str_eqb_spec k k') as [->|N].
  - intros E. injection E as ->. left. reflexivity.
  - intros E. right. apply IH. exact E.
Qed.
Lemma sget_NoDup {V} (k : str) (v : V) d : NoDup (dkeys d) -> In (k, v) d -> sget k d = Some v.
Proof.
  induction d as [|(k', v') d IH]; cbn; intros Hn H; [destruct H|]. inversion Hn as [|? ? Hni Hn']; subst. destruct H as [E|H].
  - injection E as -> ->. rewrite str_eqb_refl. reflexivity.
  - rewrite str_eqb_neq by (intros ->; apply Hni; exact (in_map fst _ _ H)). apply IH; assumption.
Qed.

Lemma sorted_pairs {V} (d : dict str V) : NoDup (dkeys d) ->
  exists kvs, Permutation kvs d /\ map fst kvs = ssort str_leb (dkeys d) /\
    StronglySorted (fun a b => str_ltb (fst a) (fst b) = true) kvs.
Proof.
  intros Hn. exists (ssort (fun a b => str_leb (fst a) (fst b)) d). split; [|split].
  - apply Permutation_sym, ssort_perm.
  - symmetry. apply (ssort_map (fun a b : str * V => str_leb (fst a) (fst b)) str_leb fst). reflexivity.
  - assert (S := ssort_sorted (fun a b : str * V => str_leb (fst a) (fst b))
      (fun a b => str_leb_total (fst a) (fst b)) (fun a b c => str_leb_trans (fst a) (fst b) (fst c)) d).
    assert (N : NoDup (map fst (ssort (fun a b : str * V => str_leb (fst a) (fst b)) d))).
    { eapply Permutation_NoDup; [|exact Hn]. apply Permutation_map. apply ssort_perm. }
    revert S N. generalize (ssort (fun a b : str * V => str_leb (fst a) (fst b)) d) as l. intros l S.
    induction S as [|x l S IH F]; intros N; [constructor|]. cbn [map] in N. inversion N as [|? ? Hni N']; subst.
    constructor; [apply IH; exact N'|]. apply Forall_forall. intros y Hy. rewrite Forall_forall in F. specialize (F y Hy). cbv beta in F.
    unfold str_leb in F. unfold str_ltb. destruct (str_cmp (fst x) (fst y)) eqn:E; try reflexivity; [|discriminate].
    apply str_cmp_eq in E. exfalso. apply Hni. rewrite E. exact (in_map fst _ _ Hy).
Qed.

Lemma mapM_pairs {V B} (f : str -> V -> B) (d kvs : dict str V) : NoDup (dkeys d) -> incl kvs d ->
  mapM (fun key => match sget key d with Some v => Ok (f key v) | None => Err KeyError end) (map fst kvs) =
  Ok (map (fun kv => f (fst kv) (snd kv)) kvs).
Proof.
  intros Hn Hi. rewrite mapM_map. apply mapM_all_Ok. intros (k, v) Hin. cbn [fst snd].
  rewrite (sget_NoDup k v d Hn (Hi _ Hin)). reflexivity.
Qed.

Definition entry_of (vstr : value -> str) (sep : str) (fmt : pformat) (times all : bool) (u : ulog) (key : str) (v : value) : str :=
  match fmt with
  | FCsv => csv_entry vstr sep times all u key v
  | FOctave => octave_entry vstr all u key v
  | FQgc => qgc_entry vstr key v
  end.

Lemma params_spec vstr sep fmt df times initial u params init' : params_of u df initial = Ok (params, init') -> NoDup (dkeys params) ->
  exists kvs, Permutation kvs params /\ StronglySorted (fun a b => str_ltb (fst a) (fst b) = true) kvs /\
    params_main vstr sep fmt df times initial u = Ok (concat (map (fun kv => entry_of vstr sep fmt times (negb init') u (fst kv) (snd kv)) kvs)).
Proof.
  intros Hp Hn. destruct (sorted_pairs params Hn) as (kvs & P & K & S). exists kvs. split; [exact P|]. split; [exact S|].
  unfold params_main. rewrite Hp. cbn [bind fst snd]. rewrite <- K.
  rewrite (mapM_pairs _ params kvs Hn).
  2:{ intros x Hx. eapply Permutation_in; [exact P|exact Hx]. }
  cbn [bind]. f_equal. f_equal. apply map_ext. intros (k, v). cbn [fst snd]. unfold entry_of.
  destruct fmt; [apply csv_entry_eq|apply octave_entry_eq|apply qgc_entry_eq].
Qed.

(** ** events *)
Lemma event_level_eq l : 0 <= l < 8 -> event_level_str l = severity_name l.
Proof.
  intros H. assert (E : l = 0 \/ l = 1 \/ l = 2 \/ l = 3 \/ l = 4 \/ l = 5 \/ l = 6 \/ l = 7) by lia.
  repeat (destruct E as [->|E]; [reflexivity|]). subst. reflexivity.
Qed.
Lemma log_level_eq l : log_level_str l = severity_name (l - 48).
Proof.
  unfold log_level_str, severity_name. destruct ((0 <=? l - 48) && (l - 48 <? 8)) eqn:E.
  - refine (eq_trans (event_level_eq (l - 48) _) _); [lia|]. unfold severity_name. rewrite E. reflexivity.
  - cbn [zget level_names dget]. repeat (match goal with |- context [?a =? ?b] => destruct (Z.eqb_spec a b); [lia|] end). reflexivity.
Qed.

Lemma item_inj name a b : item name a = item name b -> a = b.
Proof.
  rewrite !item_eq. intros E. apply app_inv_head in E. injection E as E. apply app_inv_tail in E.
  rewrite !str_of_Z_nonneg in E by lia. apply str_of_nonneg_inj in E; lia.
Qed.

Lemma event_args_spec d i n : forall k args fuel, Forall2 (fun k b => byte_field d (item (lit "arguments") k) i b) (seq k n) args ->
  sget (item (lit "arguments") (k + n)) (ds_data d) = None -> (n < fuel)%nat -> event_args fuel d k i = Ok args.
Proof.
  induction n as [|n IH]; intros k args fuel H Hend Hf; (destruct fuel as [|fuel]; [lia|]); cbn [event_args];
    change (lit "arguments[" ++ str_of_Z (Z.of_nat k) ++ lit "]") with (item (lit "arguments") k).
  - inversion H; subst. rewrite Nat.add_0_r in Hend. rewrite Hend. reflexivity.
  - cbn [seq] in H. inversion H as [|? b ? r Hb Hr]; subst. destruct Hb as (c & Hc & _ & Hnth & _). rewrite Hc. unfold py_nth. rewrite Hnth. cbn [bind].
    rewrite (IH (S k) r fuel Hr); [reflexivity| |lia]. rewrite <- Hend. f_equal. f_equal. lia.
Qed.

Lemma items_bound (d : dict str column) name n : (forall k, (k < n)%nat -> exists c, sget (item name k) d = Some c) -> (n <= length d)%nat.
Proof.
  intros H. assert (N : NoDup (map (item name) (seq 0 n))).
  { apply FinFun.Injective_map_NoDup; [intros a b E; apply (item_inj _ _ _ E)|apply seq_NoDup]. }
  assert (I : incl (map (item name) (seq 0 n)) (dkeys d)).
  { intros x Hx. apply in_map_iff in Hx. destruct Hx as (k & <- & Hk). apply in_seq in Hk. destruct (H k) as (c & Hc); [lia|].
    apply sget_In in Hc. exact (in_map fst _ _ Hc). }
  pose proof (NoDup_incl_length N I) as L. unfold dkeys in L. rewrite !map_length, seq_length in L. exact L.
Qed.

Lemma F2_seq_nth {A} (P : nat -> A -> Prop) n l k : Forall2 P (seq 0 n) l -> (k < n)%nat -> exists x, P k x.
Proof.
  intros H Hk. assert (In k (seq 0 n)) by (apply in_seq; lia). revert H0. induction H as [|a b s t Hab Hst IH]; intros Hin; [destruct Hin|].
  destruct Hin as [->|Hin]; [exists b; exact Hab|apply IH; exact Hin].
Qed.

Lemma levels_bits l : 0 <= l < 256 -> Z.land (Z.shiftr l 4) 15 = l / 16.
Proof. intros H. rewrite Z.shiftr_div_pow2 by lia. change 15 with (Z.ones 4). rewrite Z.land_ones by lia. change (2 ^ 4) with 16. lia. Qed.

Lemma event_int_cell d k i z : cell d k i = Some (VInt z) -> event_int d k i = Ok z.
Proof. intros H. destruct (elem_cell _ _ _ _ H) as (x & Ex & Ev). unfold event_int. rewrite Ex. cbn [bind]. rewrite Ev. reflexivity. Qed.

Definition parse_of (p : option event_parser) : Z -> bytes -> option (str * str) := match p with Some f => f | None => fun _ _ => None end.

Lemma event_row_spec p d i r ms : event_sample d i r -> event_row p d ms i = Ok (ms ++ event_entry (parse_of p) r).
Proof.
  intros (Ht & Hid & Hl & Hr & Ha & He). unfold event_row. rewrite (event_int_cell _ _ _ _ Hid). cbn [bind].
  rewrite (event_int_cell _ _ _ _ Hl). cbn [bind]. rewrite levels_bits by exact Hr. cbv zeta.
  unfold event_entry. destruct (Z.leb_spec 8 (ev_levels r / 16)), (Z.leb_spec 128 (ev_levels r)); try lia.
  - rewrite app_nil_r. reflexivity.
  - rewrite (event_args_spec d i (length (ev_args r)) O (ev_args r)); [|exact Ha|exact He|].
    2:{ enough (length (ev_args r) <= length (ds_data d))%nat by lia. apply (items_bound _ (lit "arguments")). intros k Hk.
        destruct (F2_seq_nth _ _ _ k Ha Hk) as (b & c & Hc & _). exists c. exact Hc. }
    cbn [bind]. rewrite (event_int_cell _ _ _ _ Ht). cbn [bind]. rewrite event_level_eq by lia.
    destruct p as [f|]; cbn [parse_of].
    + destruct (f (ev_id r) (ev_args r)) as [(g, m)|]; [|reflexivity]. destruct (str_eqb g (lit "default")); [reflexivity|]. rewrite app_nil_r. reflexivity.
    + reflexivity.
Qed.

Lemma event_rows_spec p d is rows : Forall2 (event_sample d) is rows -> forall ms,
  event_rows p d is ms = Ok (ms ++ flat_map (event_entry (parse_of p)) rows).
Proof.
  induction 1 as [|i r is rows Hi His IH]; intros ms; cbn [event_rows flat_map]; [rewrite app_nil_r; reflexivity|].
  rewrite (event_row_spec p d i r ms Hi). rewrite IH, <- app_assoc. reflexivity.
Qed.

Lemma events_spec p u d ids rows : get_dataset u (lit "event") 0 = Ok d -> int_field d (lit "id") ids ->
  Forall2 (event_sample d) (seq 0 (length ids)) rows ->
  get_logged_events (Ok p) u = Ok (flat_map (event_entry (parse_of p)) rows).
Proof.
  intros Hd (c & size & sg & Hc & Ht & Hm) H. unfold get_logged_events. rewrite Hd, Hc.
  pose proof (proj1 (np_elem_ints _ _ _ Hm)) as L. destruct (c_raw c) as [|x r] eqn:E.
  - destruct ids; [|discriminate]. inversion H; subst. reflexivity.
  - rewrite L. rewrite (event_rows_spec p d _ _ H []). reflexivity.
Qed.

(** the loop ends at a sample that lacks a value *)
Lemma event_rows_app p d a : forall rows b ms, Forall2 (event_sample d) a rows ->
  event_rows p d (a ++ b) ms = event_rows p d b (ms ++ flat_map (event_entry (parse_of p)) rows).
Proof.
  induction a as [|i a IH]; intros rows b ms H; inversion H as [|? r ? rows' Hi His]; subst; cbn [app event_rows flat_map]; [now rewrite app_nil_r|].
  rewrite (event_row_spec p d i r ms Hi). rewrite (IH rows' b _ His), <- app_assoc. reflexivity.
Qed.
Lemma elem_none d k i : cell d k i = None -> elem d k i = Err KeyError \/ elem d k i = Err IndexError.
Proof. unfold cell, elem, py_nth. destruct (sget k (ds_data d)) as [c|]; [|auto]. destruct (nth_error (c_raw c) i); [discriminate|auto]. Qed.
Lemma event_int_none d k i : cell d k i = None -> event_int d k i = Err KeyError \/ event_int d k i = Err IndexError.
Proof. intros H. unfold event_int. destruct (elem_none _ _ _ H) as [-> | ->]; auto. Qed.
Lemma event_args_err d fuel : forall k i e, event_args fuel d k i = Err e -> e = IndexError.
Proof.
  induction fuel as [|f IH]; cbn [event_args]; intros k i e H; [discriminate|]. destruct (sget _ (ds_data d)) as [c|]; [|discriminate].
  unfold py_nth in H. destruct (nth_error (c_raw c) i); cbn [bind] in H; [|now injection H].
  destruct (event_args f d (S k) i) eqn:E; cbn [bind] in H; [discriminate|]. injection H as <-. eapply IH; eauto.
Qed.
Definition lacks_value (d : dataset) (i : nat) : Prop :=
  cell d (lit "log_levels") i = None \/
  exists l, cell d (lit "log_levels") i = Some (VInt l) /\ 0 <= l < 128 /\ cell d (lit "timestamp") i = None.
Lemma event_row_lacks p d i id ms : cell d (lit "id") i = Some (VInt id) -> lacks_value d i ->
  event_row p d ms i = Err KeyError \/ event_row p d ms i = Err IndexError.
Proof.
  intros Hid H. unfold event_row. rewrite (event_int_cell _ _ _ _ Hid). cbn [bind]. destruct H as [H|(l & Hl & Hr & H)].
  - destruct (event_int_none _ _ _ H) as [-> | ->]; auto.
  - rewrite (event_int_cell _ _ _ _ Hl). cbn [bind]. rewrite levels_bits by lia. cbv zeta. destruct (Z.leb_spec 8 (l / 16)); [lia|].
    destruct (event_args _ d 0 i) as [a|e] eqn:A; cbn [bind].
    + destruct (event_int_none _ _ _ H) as [-> | ->]; auto.
    + right. f_equal. eapply event_args_err; eauto.
Qed.
Lemma events_cut p u d ids rows : get_dataset u (lit "event") 0 = Ok d -> int_field d (lit "id") ids -> (length rows < length ids)%nat ->
  Forall2 (event_sample d) (seq 0 (length rows)) rows -> lacks_value d (length rows) ->
  get_logged_events (Ok p) u = Ok (flat_map (event_entry (parse_of p)) rows).
Proof.
  intros Hd (c & size & sg & Hc & Ht & Hm) Hl H N. unfold get_logged_events. rewrite Hd, Hc.
  pose proof (proj1 (np_elem_ints _ _ _ Hm)) as L. destruct (c_raw c) as [|x r] eqn:E; [cbn in L; lia|]. rewrite <- E in L |- *. rewrite L.
  replace (length ids) with (length rows + S (length ids - S (length rows)))%nat by lia. rewrite seq_app, (event_rows_app p d _ rows _ [] H). cbn [seq event_rows app Nat.add].
  assert (Hid : exists id, cell d (lit "id") (length rows) = Some (VInt id)).
  { destruct (nth_error ids (length rows)) as [id|] eqn:En; [|apply nth_error_None in En; lia]. exists id. unfold cell. rewrite Hc. apply (map_nth_error VInt) in En. rewrite <- Hm, <- E in En.
    destruct (nth_error (c_raw c) (length rows)) as [y|] eqn:Ey; [|apply nth_error_None in Ey; lia]. rewrite (map_nth_error _ _ _ Ey) in En. exact En. }
  destruct Hid as (id & Hid). destruct (event_row_lacks p d _ id (flat_map (event_entry (parse_of p)) rows) Hid N) as [-> | ->]; reflexivity.
Qed.

(** ** merging *)
Lemma ends_tab_true s : tab_ended s -> ends_tab s = Ok true.
Proof. intros (a & ->). unfold ends_tab. rewrite rev_app_distr. reflexivity. Qed.
Lemma ends_tab_false s : s <> [] -> ~ tab_ended s -> ends_tab s = Ok false.
Proof.
  intros Hn Ht. unfold ends_tab. destruct (rev s) as [|c r] eqn:E.
  - apply (f_equal (@rev Z)) in E. rewrite rev_involutive in E. cbn in E; congruence.
  - destruct (Z.eqb_spec c 9) as [->|N]; [|reflexivity]. exfalso. apply Ht. exists (rev r).
    rewrite <- (rev_involutive s), E. reflexivity.
Qed.
Definition tab_endedb (s : str) : bool := match rev s with c :: _ => c =? 9 | [] => false end.
Lemma tab_endedb_iff s : tab_endedb s = true <-> tab_ended s.
Proof.
  unfold tab_endedb, tab_ended. split.
  - destruct (rev s) as [|c r] eqn:E; [discriminate|]. intros H. apply Z.eqb_eq in H. subst c. exists (rev r).
    rewrite <- (rev_involutive s), E. reflexivity.
  - intros (a & ->). rewrite rev_app_distr. reflexivity.
Qed.

Lemma fold_logged (ms : list (Z * str * str)) : Forall (fun m : Z * str * str => snd m <> []) ms -> forall es,
  foldM (fun es m => let* b := ends_tab (snd m) in Ok (if b then es else es ++ [m])) ms es =
  Ok (es ++ filter (fun m : Z * str * str => negb (tab_endedb (snd m))) ms).
Proof.
  induction 1 as [|m ms Hm Hms IH]; intros es; [cbn; rewrite app_nil_r; reflexivity|].
  cbn [foldM filter]. destruct (tab_endedb (snd m)) eqn:E.
  - rewrite ends_tab_true by (apply tab_endedb_iff; exact E). cbn [bind negb]. apply IH.
  - rewrite ends_tab_false; [|exact Hm|intros X; apply tab_endedb_iff in X; congruence]. cbn [bind negb]. rewrite IH, <- app_assoc. reflexivity.
Qed.

Lemma messages_px4 parser u evs : sget (lit "sys_name") (u_info u) = Some (VStr (lit "PX4")) ->
  get_logged_events parser u = Ok evs -> Forall (fun m => lg_msg m <> []) (u_logged u) ->
  exists out, messages_of parser u = Ok out /\
    Permutation out (evs ++ map log_entry (filter (fun m => negb (tab_endedb (lg_msg m))) (u_logged u))) /\
    StronglySorted (fun a b => time_of a <= time_of b) out /\
    forall t, filter (fun m => time_of m =? t) out =
              filter (fun m => time_of m =? t) (evs ++ map log_entry (filter (fun m => negb (tab_endedb (lg_msg m))) (u_logged u))).
Proof.
  intros Hs He Hm. unfold messages_of. rewrite Hs. change (value_eqb (VStr (lit "PX4")) (VStr (lit "PX4"))) with true. cbv iota.
  rewrite He. cbn [bind]. rewrite fold_logged.
  2:{ apply Forall_forall. intros x Hx. apply in_map_iff in Hx. destruct Hx as (m & <- & Hx). rewrite Forall_forall in Hm. apply Hm. exact Hx. }
  cbn [bind].
  assert (E : filter (fun m : Z * str * str => negb (tab_endedb (snd m))) (map (fun m => (lg_ts m, log_level_str (lg_level m), lg_msg m)) (u_logged u)) =
              map log_entry (filter (fun m => negb (tab_endedb (lg_msg m))) (u_logged u))).
  { induction (u_logged u) as [|m ms IH]; [reflexivity|]. cbn [map filter snd]. inversion Hm; subst. rewrite IH by assumption.
    destruct (negb (tab_endedb (lg_msg m))); [|reflexivity]. cbn [map]. f_equal. unfold log_entry. rewrite log_level_eq. reflexivity. }
  rewrite E. set (all := evs ++ _). eexists. split; [reflexivity|]. split; [apply Permutation_sym, ssort_perm|]. split.
  - assert (S := ssort_sorted (fun a b : Z * str * str => fst (fst a) <=? fst (fst b))
      ltac:(intros a b; cbv beta; lia) ltac:(intros a b c; cbv beta; lia) all).
    revert S. generalize (ssort (fun a b : Z * str * str => fst (fst a) <=? fst (fst b)) all) as l. intros l S.
    induction S as [|x l S IH F]; constructor; [exact IH|]. eapply Forall_impl; [|exact F]. intros y Hy. unfold time_of. cbv beta in Hy. lia.
  - intros t. set (le := fun a b : Z * str * str => fst (fst a) <=? fst (fst b)).
    assert (Q : forall m, equivb le (t, [], []) m = (time_of m =? t)).
    { intros m. unfold equivb, le, time_of. cbn [fst]. destruct (Z.eqb_spec (fst (fst m)) t); lia. }
    rewrite <- !(filter_ext _ _ Q). apply ssort_stable; unfold le; intros; cbv beta in *; lia.
Qed.

Lemma messages_other parser u : (forall v, sget (lit "sys_name") (u_info u) = Some v -> value_eqb v (VStr (lit "PX4")) = false) ->
  messages_of parser u = Ok (map log_entry (u_logged u)).
Proof.
  intros H. unfold messages_of.
  replace (match sget (lit "sys_name") (u_info u) with Some v => value_eqb v (VStr (lit "PX4")) | None => false end) with false.
  - f_equal. apply map_ext. intros m. unfold log_entry. rewrite log_level_eq. reflexivity.
  - destruct (sget (lit "sys_name") (u_info u)) as [v|] eqn:E; [symmetry; apply H; reflexivity|reflexivity].
Qed.

(** ** the clock *)
Lemma seconds_exact t : 0 <= t <= 2 ^ 53 -> seconds t = t / 1000000.
Proof.
  intros H. unfold seconds. rewrite rnd_exact by (change (2 ^ 53) with 9007199254740992 in *; lia). cbv zeta.
  destruct (Z.ltb_spec t 1000000); [lia|]. set (q := t / 1000000).
  assert (Hq : 1 <= q < 2 ^ 34) by (unfold q; change (2 ^ 53) with 9007199254740992 in H; change (2 ^ 34) with 17179869184; lia).
  assert (HL : Z.log2 q < 34) by (apply Z.log2_lt_pow2; lia). pose proof (Z.log2_nonneg q) as HL0.
  set (s := 52 - Z.log2 q). assert (Hs : 19 <= s) by lia. assert (HP : 2 ^ 19 <= 2 ^ s) by (apply Z.pow_le_mono_r; lia).
  change (2 ^ 19) with 524288 in HP. generalize dependent (2 ^ s). intros P HP. 
  assert (D : q * P <= round_div (t * P) 1000000 < (q + 1) * P).
  { assert (A : q * P <= t * P / 1000000) by (apply Z.div_le_lower_bound; unfold q; nia).
    assert (B : 2 * (t * P) + 1000000 < 2 * ((q + 1) * P) * 1000000).
    { assert (t + 1 <= (q + 1) * 1000000) by (unfold q; lia). nia. }
    pose proof (Z.div_mod (t * P) 1000000 ltac:(lia)) as M. pose proof (Z.mod_pos_bound (t * P) 1000000 ltac:(lia)) as MB.
    unfold round_div. cbv zeta. set (k := t * P / 1000000) in *. set (r := (t * P) mod 1000000) in *.
    clearbody k r q. clear -A B M MB.
    destruct (Z.ltb_spec (2 * r) 1000000); [nia|]. destruct (Z.ltb_spec 1000000 (2 * r)); [nia|]. destruct (Z.even k); nia. }
  symmetry. apply Z.div_unique with (r := round_div (t * P) 1000000 - q * P); [|lia]. left. nia.
Qed.

Lemma two_digits_dd n : 0 <= n < 60 -> two_digits n = dd n.
Proof.
  intros H. assert (A : forallb (fun k => str_eqb (two_digits (Z.of_nat k)) (dd (Z.of_nat k))) (seq 0 60) = true) by (vm_compute; reflexivity).
  rewrite forallb_forall in A. specialize (A (Z.to_nat n)). rewrite Z2Nat.id in A by lia. apply str_eqb_eq. apply A. apply in_seq. lia.
Qed.

Lemma clock_spec t level text : 0 <= t <= 2 ^ 53 -> exists h m s, 0 <= m < 60 /\ 0 <= s < 60 /\ h * 3600 + m * 60 + s = t / 1000000 /\
  message_line (t, level, text) = str_of_Z h ++ lit ":" ++ dd m ++ lit ":" ++ dd s ++ lit " " ++ level ++ lit ": " ++ text.
Proof.
  intros H. exists (t / 1000000 / 60 / 60), (t / 1000000 / 60 mod 60), (t / 1000000 mod 60).
  assert (0 <= t / 1000000) by lia. set (q := t / 1000000) in *.
  split; [lia|]. split; [lia|]. split; [lia|].
  unfold message_line, clock. rewrite seconds_exact by exact H. fold q. cbv zeta.
  rewrite (two_digits_dd (q / 60 mod 60)), (two_digits_dd (q mod 60)) by lia. reflexivity.
Qed.
