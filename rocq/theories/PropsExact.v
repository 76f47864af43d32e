(** Exact laws beside the partial properties C28, C43, C45 and C47. *)
From Coq Require Import Permutation Sorted.
From Verif Require Import Base Dict PyStr PyFloat Utf8 Struct PySort ModelTypes ModelRead ModelApi ModelTools Spec SpecSection SpecApi SpecTools
  ProofsFile ProofsRead ProofsCut ProofsLoad ProofsChange ProofsEq ProofsWindow ProofsKml Samples PropsApi PropsTools.

(** ** C28: a log is equal to another load of its bytes exactly if it has no NaN *)
Lemma same_value_not_nan v : same_value v v -> not_nan v.
Proof.
  intros H. apply same_value_inv in H as [(n & H & _)|(H & _)]; destruct v as [z|b|b|s|s]; cbn [not_nan]; auto; cbn [number_of] in H.
  - destruct (f64_is_nan b) eqn:E; [|reflexivity]. apply f64_is_nan_number in E. congruence.
  - destruct (f64_is_nan b) eqn:E; [|reflexivity]. exfalso. revert H. cbn. congruence.
Qed.
Lemma same_dict_self {K V} (eqb : K -> K -> bool) (spec : forall a b, reflect (a = b) (eqb a b)) (R : V -> V -> Prop) d :
  NoDup (dkeys d) -> same_dict eqb R d d -> Forall (fun kv => R (snd kv) (snd kv)) d.
Proof.
  intros Hn H. apply Forall_forall. intros [k v] Hin. pose proof (In_dget eqb spec k v d Hn Hin) as E.
  specialize (H k). rewrite E in H. exact H.
Qed.
Lemma Forall2_self {A} (R : A -> A -> Prop) l : Forall2 R l l -> Forall (fun x => R x x) l.
Proof. induction l; intros H; inversion H; subst; auto. Qed.
Theorem C28_exact : forall cf f u u', bytes_ok f -> produces cf f (Ok u) -> produces cf f (Ok u') ->
  (ulog_eqb u u' = true <-> no_nan u).
Proof.
  intros cf f u u' Hb Hp Hp'. split; [|exact (C28_same_bytes_partial cf f u u' Hb Hp Hp')].
  pose proof (produces_fun _ _ _ _ Hp Hp') as E. injection E as <-.
  intros H. apply (C28_decides cf f u cf f u Hb Hb Hp Hp) in H. destruct (loaded_wf _ _ _ Hp). destruct H.
  constructor.
  - eapply Forall_impl; [|exact (same_dict_self _ str_eqb_spec _ _ wf_info sl_info)]. intros kv. apply same_value_not_nan.
  - eapply Forall_impl; [|exact (same_dict_self _ str_eqb_spec _ _ wf_multi sl_multi)]. cbn beta. intros kv K.
    eapply Forall_impl; [|exact (Forall2_self _ _ K)]. cbn beta. intros l L. eapply Forall_impl; [|exact (Forall2_self _ _ L)]. cbn beta. apply same_value_not_nan.
  - eapply Forall_impl; [|exact (same_dict_self _ str_eqb_spec _ _ wf_params sl_params)]. intros kv. apply same_value_not_nan.
  - apply Forall_forall. intros kv Hin. rewrite Forall_forall in wf_defaults'.
    pose proof (same_dict_self _ Zeqb_spec _ _ wf_defaults sl_defaults) as K. rewrite Forall_forall in K. specialize (K kv Hin). cbn beta in K.
    eapply Forall_impl; [|exact (same_dict_self _ str_eqb_spec _ _ (wf_defaults' kv Hin) K)]. intros x. apply same_value_not_nan.
  - eapply Forall_impl; [|exact (Forall2_self _ _ sl_changed)]. cbn beta. intros c (_ & K). now apply same_value_not_nan.
Qed.

(** ** C45: an empty message in a PX4 log makes the listing fail *)
Theorem C45_empty : forall parser u evs, sget (lit "sys_name") (u_info u) = Some (VStr (lit "PX4")) ->
  get_logged_events parser u = Ok evs ->
  ((exists out, messages_main parser u = Ok out) <-> Forall (fun m => lg_msg m <> []) (u_logged u)) /\
  (forall e, messages_main parser u = Err e -> e = IndexError).
Proof.
  intros parser u evs Hs He.
  assert (K : forall l es, (exists out, foldM (fun es m => let* b := ends_tab (snd m) in Ok (if b then es else es ++ [m]))
       (map (fun m => (lg_ts m, log_level_str (lg_level m), lg_msg m)) l) es = Ok out /\ Forall (fun m => lg_msg m <> []) l) \/
     (foldM (fun es m => let* b := ends_tab (snd m) in Ok (if b then es else es ++ [m]))
       (map (fun m => (lg_ts m, log_level_str (lg_level m), lg_msg m)) l) es = Err IndexError /\ ~ Forall (fun m => lg_msg m <> []) l)).
  { induction l as [|m l IH]; intros es; cbn [map foldM]; [left; eauto|]. cbn [snd]. unfold ends_tab at 1 3. destruct (rev (lg_msg m)) as [|c r] eqn:Er.
    - right. split; [reflexivity|]. intros F. inversion F as [|? ? F1 _]. apply F1. rewrite <- (rev_involutive (lg_msg m)), Er. reflexivity.
    - cbn [bind]. destruct (IH (if c =? 9 then es else es ++ [(lg_ts m, log_level_str (lg_level m), lg_msg m)])) as [(out & E & F)|(E & F)].
      + left. exists out. split; [exact E|]. constructor; [|exact F]. intros Z. rewrite Z in Er. discriminate.
      + right. split; [exact E|]. intros G. inversion G. contradiction. }
  assert (T : (exists out, messages_main parser u = Ok out) /\ Forall (fun m => lg_msg m <> []) (u_logged u) \/
              messages_main parser u = Err IndexError /\ ~ Forall (fun m => lg_msg m <> []) (u_logged u)).
  { unfold messages_main, messages_of. rewrite Hs. change (value_eqb (VStr (lit "PX4")) (VStr (lit "PX4"))) with true. cbv iota zeta.
    rewrite He. cbn [bind]. destruct (K (u_logged u) evs) as [(out & -> & F)|(-> & F)]; cbn [bind]; [left|right]; split; eauto. }
  destruct T as [((out & E) & F)|(E & F)].
  - split; [split; eauto|]. intros e E'. congruence.
  - split; [split; [intros (out & E'); congruence|contradiction]|]. intros e E'. congruence.
Qed.

(** ** C47: when two datasets share a CSV file or a topic *)
Definition alike (a b : Z) : Prop := a = b \/ ((a = 47 \/ a = 95) /\ (b = 47 \/ b = 95)).
Lemma no_slash_alike s : forall t, no_slash s = no_slash t <-> Forall2 alike s t.
Proof.
  induction s as [|a s IH]; intros [|b t]; split; intros H; try discriminate; try (inversion H; fail); auto.
  - unfold no_slash in H. cbn [map] in H. injection H as H1 H2. constructor; [|now apply IH]. unfold alike.
    destruct (Z.eqb_spec a 47), (Z.eqb_spec b 47); lia.
  - inversion H as [|? ? ? ? H1 H2]; subst. unfold no_slash. cbn [map]. f_equal; [|now apply IH].
    unfold alike in H1. destruct (Z.eqb_spec a 47), (Z.eqb_spec b 47); lia.
Qed.
(** the instances are equal, and so are the names but for slashes and underscores *)
Theorem C47_csv_exact : forall prefix d e, 0 <= ds_multi d -> 0 <= ds_multi e ->
  (csv_name prefix d = csv_name prefix e <-> ds_multi d = ds_multi e /\ Forall2 alike (ds_name d) (ds_name e)).
Proof.
  intros prefix d e Hd He. rewrite <- no_slash_alike. split.
  - intros E. destruct (csv_name_inj _ _ _ Hd He E). auto.
  - intros (E1 & E2). unfold csv_name. now rewrite E1, E2.
Qed.
(** the topic of [d] carries the instance, which it does when the name has an instance other than 0 *)
Definition numbered (u : ulog) (d : dataset) : Prop := exists x, In x (u_data u) /\ ds_name x = ds_name d /\ ds_multi x <> 0.
Definition clash (u : ulog) (d e : dataset) : Prop :=
  numbered u d /\ ~ numbered u e /\ ds_name e = ds_name d ++ lit "_" ++ str_of_Z (ds_multi d).
Lemma numbered_iff u d : forallb (Z.eqb 0) (multi_ids u (ds_name d)) = false <-> numbered u d.
Proof.
  split.
  - intros H. assert (K : ~ Forall (fun z => z = 0) (multi_ids u (ds_name d))).
    { intros F. apply not_true_iff_false in H. apply H. apply forallb_forall. rewrite Forall_forall in F. intros x Hx. rewrite (F x Hx). reflexivity. }
    apply neg_Forall_Exists_neg in K; [|intros; destruct (Z.eq_dec x 0); tauto]. apply Exists_exists in K as (z & Hz & N).
    unfold multi_ids in Hz. apply in_map_iff in Hz as (x & <- & Hx). apply filter_In in Hx as (Hx & E). apply str_eqb_eq in E. exists x. auto.
  - intros (x & Hx & E & N). apply not_true_iff_false. intros F. rewrite forallb_forall in F. specialize (F (ds_multi x)).
    assert (In (ds_multi x) (multi_ids u (ds_name d))). { apply in_map. apply filter_In. split; [exact Hx|]. rewrite E. apply str_eqb_refl. }
    specialize (F H). lia.
Qed.
Theorem C47_ros2_exact : forall u d e, In d (u_data u) -> In e (u_data u) -> 0 <= ds_multi d -> 0 <= ds_multi e ->
  (ros2_topic u d = ros2_topic u e <->
   (ds_name d = ds_name e /\ ds_multi d = ds_multi e) \/ clash u d e \/ clash u e d).
Proof.
  intros u d e Hd He Md Me.
  assert (Z0 : forall x, In x (u_data u) -> ~ numbered u x -> ds_multi x = 0).
  { intros x Hx N. destruct (Z.eq_dec (ds_multi x) 0) as [E|E]; [exact E|]. exfalso. apply N. exists x. auto. }
  unfold clash, ros2_topic. pose proof (numbered_iff u d) as Nd. pose proof (numbered_iff u e) as Ne.
  destruct (forallb (Z.eqb 0) (multi_ids u (ds_name d))), (forallb (Z.eqb 0) (multi_ids u (ds_name e))).
  - assert (~ numbered u d) by (rewrite <- Nd; discriminate). assert (~ numbered u e) by (rewrite <- Ne; discriminate).
    split.
    + intros E. apply app_inv_head in E. left. split; [exact E|]. rewrite (Z0 d), (Z0 e); auto.
    + intros [(E & _)|[(K & _)|(K & _)]]; [now rewrite E|tauto|tauto].
  - assert (~ numbered u d) by (rewrite <- Nd; discriminate). assert (numbered u e) by (rewrite <- Ne; reflexivity).
    split.
    + intros E. apply app_inv_head in E. right. right. auto.
    + intros [(E & _)|[(K & _)|(_ & _ & E)]]; [|tauto|now rewrite E].
      exfalso. apply H. destruct H0 as (x & Hx & Ex & Nx). exists x. repeat split; auto. congruence.
  - assert (numbered u d) by (rewrite <- Nd; reflexivity). assert (~ numbered u e) by (rewrite <- Ne; discriminate).
    split.
    + intros E. apply app_inv_head in E. right. left. auto.
    + intros [(E & _)|[(_ & _ & E)|(K & _)]]; [|now rewrite E|tauto].
      exfalso. apply H0. destruct H as (x & Hx & Ex & Nx). exists x. repeat split; auto. congruence.
  - assert (numbered u d) by (rewrite <- Nd; reflexivity). assert (numbered u e) by (rewrite <- Ne; reflexivity).
    split.
    + intros E. apply app_inv_head in E. left. now apply suffix_inj.
    + intros [(E1 & E2)|[(_ & K & _)|(_ & K & _)]]; [|tauto|tauto]. now rewrite E1, E2.
Qed.

(** ** C43: a row of the wanted instance that is longer than the data fields, or the streams *)
Definition byte_column (c : column) (n : nat) : Prop := c_type c = NI 1 false /\ length (c_raw c) = n /\ Forall byte_ok (c_raw c).
(** the columns of a gps_dump dataset with [n] samples *)
Record gps_columns (d : dataset) (n : nat) : Prop := {
  gc_len : exists c, sget (lit "len") (ds_data d) = Some c /\ byte_column c n;
  gc_inst : forall c, sget (lit "instance") (ds_data d) = Some c -> byte_column c n;
  gc_data : forall k c, sget (item (lit "data") k) (ds_data d) = Some c -> byte_column c n }.
Definition has_instance (d : dataset) (i : nat) (x : Z) : Prop :=
  match sget (lit "instance") (ds_data d) with Some _ => byte_field d (lit "instance") i x | None => x = 0 end.
(** sample [i] is this row; the data matter only for the wanted instance *)
Record gps_wanted (d : dataset) (inst : Z) (i : nat) (r : gpsrow) : Prop := {
  gw_inst : has_instance d i (gps_inst r);
  gw_len : byte_field d (lit "len") i (gps_len r);
  gw_data : gps_inst r = inst ->
    Forall2 (fun k b => byte_field d (item (lit "data") k) i b) (seq 0 (Z.to_nat (gps_len r mod 128))) (gps_data r) }.
Definition too_long (d : dataset) (inst : Z) (i : nat) : Prop :=
  exists l k, has_instance d i inst /\ byte_field d (lit "len") i l /\ (k < Z.to_nat (l mod 128))%nat /\
    sget (item (lit "data") k) (ds_data d) = None.

Lemma byte_column_at d k c n i : sget k (ds_data d) = Some c -> byte_column c n -> (i < n)%nat -> exists b, byte_field d k i b.
Proof.
  intros Hs (Ht & Hl & Hb) Hi. destruct (nth_error (c_raw c) i) as [b|] eqn:E; [|apply nth_error_None in E; lia].
  exists b, c. repeat split; auto; rewrite Forall_forall in Hb; apply (Hb b); eapply nth_error_In; eauto.
Qed.
Lemma gps_bytes_law d n i : gps_columns d n -> (i < n)%nat -> forall m j,
  (exists l, Forall2 (fun k b => byte_field d (item (lit "data") k) i b) (seq j m) l) \/
  ((exists k, (j <= k < j + m)%nat /\ sget (item (lit "data") k) (ds_data d) = None) /\
   mapM (fun k => let* x := elem d (data_key k) i in Ok (le_enc (np_size (fst x)) (snd x))) (seq j m) = Err KeyError).
Proof.
  intros G Hi. induction m as [|m IH]; intros j; [left; exists []; constructor|].
  destruct (sget (item (lit "data") j) (ds_data d)) as [c|] eqn:E.
  - destruct (byte_column_at _ _ _ _ _ E (gc_data _ _ G _ _ E) Hi) as (b & Hb). destruct (IH (S j)) as [(l & Hl)|((k & Hk & Hn) & He)].
    + left. exists (b :: l). constructor; assumption.
    + right. split; [exists k; split; [lia|exact Hn]|]. cbn [seq mapM]. change (data_key j) with (item (lit "data") j). rewrite (byte_elem _ _ _ _ Hb). cbn [bind].
      unfold data_key in *. rewrite He. reflexivity.
  - right. split; [exists j; split; [lia|exact E]|]. cbn [seq mapM]. change (data_key j) with (item (lit "data") j). unfold elem. rewrite E. reflexivity.
Qed.
Lemma gps_row_law d inst n i t f : gps_columns d n -> (i < n)%nat ->
  (exists r, gps_wanted d inst i r /\ gps_row d inst (t, f) i = Ok (t ++ gps_stream inst true [r], f ++ gps_stream inst false [r])) \/
  (too_long d inst i /\ gps_row d inst (t, f) i = Err KeyError).
Proof.
  intros G Hi. destruct (gc_len _ _ G) as (cl & Hcl & Hbl). destruct (byte_column_at _ _ _ _ _ Hcl Hbl Hi) as (l & Hl).
  assert (I : exists x, has_instance d i x /\ gps_instance d i = Ok (VInt x)).
  { unfold has_instance, gps_instance. destruct (sget (lit "instance") (ds_data d)) as [c|] eqn:E; [|exists 0; auto].
    destruct (byte_column_at _ _ _ _ _ E (gc_inst _ _ G _ E) Hi) as (b & Hb). exists b. split; [exact Hb|]. rewrite (byte_elem _ _ _ _ Hb). reflexivity. }
  destruct I as (x & Hx & Ix).
  assert (Hr : 0 <= l < 256) by (destruct Hl as (? & ? & ? & ? & ?); assumption).
  assert (R : gps_row d inst (t, f) i = if negb (x =? inst) then Ok (t, f) else
     let* b := mapM (fun k => let* x := elem d (data_key k) i in Ok (le_enc (np_size (fst x)) (snd x))) (seq 0 (Z.to_nat (l mod 128))) in
     Ok (if 128 <=? l then (t ++ concat b, f) else (t, f ++ concat b))).
  { unfold gps_row. rewrite Ix. cbn [bind]. rewrite (byte_elem _ _ _ _ Hl). cbn [bind fst snd].
    change (value_eqb (VInt x) (VInt inst)) with (x =? inst). destruct (x =? inst); cbn [negb]; [|reflexivity].
    destruct (bit7 _ Hr) as (B1 & B2). rewrite B1, B2. cbn [nptype_eqb Nat.eqb Bool.eqb andb negb].
    destruct (128 <=? l) eqn:L; cbn [negb]; [reflexivity|]. rewrite Z.mod_small by lia. reflexivity. }
  rewrite R. destruct (Z.eqb_spec x inst) as [->|N]; cbn [negb].
  - destruct (gps_bytes_law d n i G Hi (Z.to_nat (l mod 128)) 0) as [(b & Hb)|((k & Hk & Hn) & He)].
    + left. exists (mkGps inst l b). split; [split; cbn [gps_inst gps_len gps_data]; auto|].
      destruct (gps_bytes d i _ O _ Hb) as (bs & E & C). rewrite E. cbn [bind]. rewrite C. unfold gps_stream. cbn [filter gps_inst gps_len gps_data]. rewrite Z.eqb_refl.
      destruct (128 <=? l); cbn [andb Bool.eqb map concat gps_data]; rewrite !app_nil_r; reflexivity.
    + right. split; [|rewrite He; reflexivity]. exists l, k. repeat split; auto. lia.
  - left. exists (mkGps x l []). split; [split; cbn [gps_inst gps_len gps_data]; auto; contradiction|].
    unfold gps_stream. cbn [filter gps_inst]. destruct (Z.eqb_spec x inst); [contradiction|]. cbn [andb map concat]. rewrite !app_nil_r. reflexivity.
Qed.
Lemma gps_rows_law d inst n : gps_columns d n -> forall is t f, Forall (fun i => (i < n)%nat) is ->
  (exists rows, Forall2 (gps_wanted d inst) is rows /\ foldM (gps_row d inst) is (t, f) = Ok (t ++ gps_stream inst true rows, f ++ gps_stream inst false rows)) \/
  ((exists i, In i is /\ too_long d inst i) /\ foldM (gps_row d inst) is (t, f) = Err KeyError).
Proof.
  intros G. induction is as [|i is IH]; intros t f Hi.
  - left. exists []. split; [constructor|]. cbn. rewrite !app_nil_r. reflexivity.
  - inversion Hi as [|? ? Hi1 Hi2]; subst. cbn [foldM]. destruct (gps_row_law d inst n i t f G Hi1) as [(r & Hr & E)|(Hl & E)]; rewrite E; cbn [bind].
    + destruct (IH (t ++ gps_stream inst true [r]) (f ++ gps_stream inst false [r]) Hi2) as [(rows & Hrows & E2)|((j & Hj & Hl) & E2)].
      * left. exists (r :: rows). split; [constructor; assumption|]. refine (eq_trans E2 _). change (r :: rows) with ([r] ++ rows). rewrite !gps_stream_app, <- !app_assoc. reflexivity.
      * right. split; [exists j; split; [now right|exact Hl]|exact E2].
    + right. split; [exists i; split; [now left|exact Hl]|reflexivity].
Qed.
Lemma not_too_long d inst i r : gps_wanted d inst i r -> ~ too_long d inst i.
Proof.
  intros [W1 W2 W3] (l & k & H1 & H2 & H3 & H4).
  assert (gps_inst r = inst).
  { revert W1 H1. unfold has_instance. destruct (sget (lit "instance") (ds_data d)); [|congruence].
    intros (c1 & A1 & _ & B1 & _) (c2 & A2 & _ & B2 & _). congruence. }
  assert (gps_len r = l) by (destruct W2 as (c1 & A1 & _ & B1 & _), H2 as (c2 & A2 & _ & B2 & _); congruence).
  specialize (W3 H). rewrite H0 in W3. clear - W3 H3 H4.
  assert (In k (seq 0 (Z.to_nat (l mod 128)))) by (apply in_seq; lia). revert W3 H. generalize (seq 0 (Z.to_nat (l mod 128))), (gps_data r).
  intros s b F. induction F as [|x y s b (c & Hc & _) F IH]; intros E; [destruct E|]. destruct E as [E|E]; [|auto]. subst x. congruence.
Qed.
Theorem C43_law : forall u d rest ts inst, u_data u = d :: rest -> In (lit "len") (names d) -> In (lit "data[0]") (names d) ->
  int_field d (lit "timestamp") ts -> gps_columns d (length ts) ->
  ((exists i, (i < length ts)%nat /\ too_long d inst i) /\ gps_dump u inst = Err KeyError) \/
  ((forall i, (i < length ts)%nat -> ~ too_long d inst i) /\ exists rows, Forall2 (gps_wanted d inst) (seq 0 (length ts)) rows /\
     gps_dump u inst = Ok (GpsFiles (gps_stream inst true rows) (gps_stream inst false rows))).
Proof.
  intros u d rest ts inst Hu H1 H2 (c & size & sg & Hc & Ht & Hm) G. unfold gps_dump. rewrite Hu.
  assert (A : forall k, In k (names d) -> existsb (str_eqb k) (map fd_name (ds_fields d)) = true).
  { intros k Hk. apply existsb_exists. exists k. split; [exact Hk|apply str_eqb_refl]. }
  rewrite (A _ H1), (A _ H2). cbn [andb negb]. destruct (gc_len _ _ G) as (cl & Hcl & _). rewrite Hcl. cbn [bind]. unfold len_ts. rewrite Hc. cbn [bind].
  rewrite (proj1 (np_elem_ints _ _ _ Hm)).
  assert (Hs : Forall (fun i => (i < length ts)%nat) (seq 0 (length ts))) by (apply Forall_forall; intros i Hi; apply in_seq in Hi; lia).
  destruct (gps_rows_law d inst _ G _ [] [] Hs) as [(rows & Hr & E)|((i & Hi & Hl) & E)].
  - right. split.
    + intros i Hi. assert (Hin : In i (seq 0 (length ts))) by (apply in_seq; lia). clear - Hr Hin.
      induction Hr as [|x r s rows W F IH]; [destruct Hin|]. destruct Hin as [<-|Hin]; [exact (not_too_long _ _ _ _ W)|auto].
    + exists rows. split; [exact Hr|]. refine (eq_trans (f_equal (fun r => bind r _) E) _). reflexivity.
  - left. split; [exists i; split; [apply in_seq in Hi; lia|exact Hl]|]. refine (eq_trans (f_equal (fun r => bind r _) E) _). reflexivity.
Qed.
Example C43_law_ex : gps_columns (ds_gps 0) 3 /\ too_long (mkDS 0 1 (lit "gps_dump") [] 0 [(lit "len", col U8 [2]); (lit "data[0]", col U8 [10])]) 0 0.
Proof.
  split.
  - constructor.
    + eexists. split; [reflexivity|]. repeat split. repeat constructor; cbn; lia.
    + intros c E. vm_compute in E. injection E as <-. repeat split. repeat constructor; cbn; lia.
    + intros k c E. apply dget_In in E; [|exact str_eqb_spec]. cbn in E.
      repeat (destruct E as [E|E]; [first [now (apply (f_equal fst) in E; unfold item in E; cbn [fst lit app] in E; discriminate E) | apply (f_equal snd) in E; cbn [snd] in E; subst c; repeat split; repeat constructor; cbn; lia]|]). destruct E.
  - exists 2, 1%nat. split; [reflexivity|]. split; [eexists; split; [vm_compute; reflexivity|]; repeat split; cbn; lia|]. split; [vm_compute; lia|reflexivity].
Qed.
