(** The samples of a log that is loaded and written. *)
From Coq Require Import Permutation Sorted.
From Verif Require Import Base Dict Utf8 PyStr PyFloat Struct PySort ModelTypes ModelRead ModelWrite
  Spec SpecSection SpecMsg SpecLog SpecWrite ProofsRead ProofsMsg ProofsInv ProofsTrace ProofsChange ProofsSection ProofsFields ProofsLog ProofsEq ProofsWrite
  ProofsRound ProofsSame ProofsCopy.
Ltac Zify.zify_post_hook ::= Z.div_mod_to_equations.

Lemma current_recs fmts data : consistent fmts data -> Forall msg_ok data -> forall pre post, data = pre ++ post ->
  forall id multi name recs, current id pre = Some (multi, name, recs) ->
  Forall (fun r => bytes_ok r /\ exists fields, topic fmts name fields /\ lenZ r = total fields) recs.
Proof.
  intros [_ Hc] Hok pre. induction pre as [|m pre IH] using rev_ind; intros post E id multi name recs H; [discriminate|].
  rewrite <- app_assoc in E. cbn [app] in E. specialize (IH _ E). unfold current in H. rewrite fold_left_app in H. cbn [fold_left] in H.
  fold (current id pre) in H. destruct m; cbn [cur_step] in H; eauto.
  - destruct (id0 =? id) eqn:Ei; [|eauto]. injection H as <- <- <-. constructor.
  - destruct (Z.eqb_spec id0 id) as [->|]; [|eauto]. destruct (current id pre) as [[[mu na] re]|] eqn:Ec; [|discriminate].
    injection H as <- <- <-. apply Forall_app. split; [eauto|]. constructor; [|constructor].
    destruct (Hc pre id record post E) as (mu' & na' & re' & fields & E' & Ht & Hl). rewrite Ec in E'. injection E' as <- <- <-.
    split; [|exists fields; auto]. rewrite Forall_forall in Hok. destruct (Hok (MData id record)) as [[_ Hb] _]; [rewrite E; apply in_elt|exact Hb].
Qed.
Lemma concat_fields fields : forall (g : fielddata -> bytes) bs, Forall2 (fun fd b => length b = ctype_size (fd_type fd)) fields bs ->
  forall k fd b, nth_error fields k = Some fd -> nth_error bs k = Some b -> field_bytes fields k (concat bs) = b.
Proof.
  intros _ bs H k fd b Hk Hb. unfold field_bytes. rewrite Hk. destruct (nth_error_split _ _ Hk) as (a & c & E & L).
  destruct (nth_error_split _ _ Hb) as (a' & c' & E' & L'). subst fields bs. subst k.
  assert (Ha : Forall2 (fun fd b => length b = ctype_size (fd_type fd)) a a' /\ length b = ctype_size (fd_type fd)).
  { clear Hk Hb. revert a' H L'. induction a as [|x a IH]; intros [|x' a'] H L'; try discriminate; inversion H; subst; [split; [constructor|assumption]|].
    destruct (IH a') as [I1 I2]; [assumption|now injection L'|]. split; [constructor; assumption|exact I2]. }
  destruct Ha as [Ha Hl]. rewrite firstn_app, Nat.sub_diag, firstn_O, app_nil_r, firstn_all, concat_app. cbn [concat].
  assert (T : lenZ (concat a') = total a).
  { clear -Ha. induction Ha as [|x y a a' H _ IH]; [reflexivity|]. cbn [concat]. rewrite lenZ_app, IH.
    change (total (x :: a)) with (size_of x + total a). unfold size_of, lenZ. lia. }
  apply slice_app_mid; [now rewrite T|]. rewrite T. unfold size_of, lenZ. lia.
Qed.
Lemma concat_total fields (bs : list bytes) : Forall2 (fun fd b => length b = ctype_size (fd_type fd)) fields bs -> lenZ (concat bs) = total fields.
Proof.
  induction 1 as [|x y a a' H _ IH]; [reflexivity|]. cbn [concat]. rewrite lenZ_app, IH.
  change (total (x :: a)) with (size_of x + total a). unfold size_of, lenZ. lia.
Qed.
Lemma total_firstn fields k fd : nth_error fields k = Some fd -> 0 <= total (firstn k fields) /\ total (firstn k fields) + size_of fd <= total fields.
Proof.
  intros H. destruct (nth_error_split _ _ H) as (a & c & -> & <-). rewrite firstn_app, Nat.sub_diag, firstn_O, app_nil_r, firstn_all.
  assert (P : forall l, 0 <= total l) by (induction l as [|x l IH]; [reflexivity|change (total (x :: l)) with (size_of x + total l); unfold size_of; lia]).
  assert (A : forall l m, total (l ++ m) = total l + total m) by (induction l as [|x l IH]; intros m; [reflexivity|]; cbn [app];
    change (total (x :: l ++ m)) with (size_of x + total (l ++ m)); change (total (x :: l)) with (size_of x + total l); rewrite IH; lia).
  rewrite A. change (total (fd :: c)) with (size_of fd + total c). specialize (P a) as Pa. specialize (P c). lia.
Qed.
Lemma field_range fields k fd r : bytes_ok r -> lenZ r = total fields -> nth_error fields k = Some fd ->
  0 <= le_dec (field_bytes fields k r) < 256 ^ Z.of_nat (ctype_size (fd_type fd)) /\ bytes_ok (field_bytes fields k r) /\
  length (field_bytes fields k r) = ctype_size (fd_type fd).
Proof.
  intros Hb Hl H. unfold field_bytes. rewrite H. destruct (total_firstn _ _ _ H) as [H1 H2].
  assert (B : bytes_ok (slice (total (firstn k fields)) (total (firstn k fields) + size_of fd) r)) by now apply Forall_slice.
  assert (L : length (slice (total (firstn k fields)) (total (firstn k fields) + size_of fd) r) = ctype_size (fd_type fd)).
  { assert (lenZ (slice (total (firstn k fields)) (total (firstn k fields) + size_of fd) r) = size_of fd); [|unfold lenZ, size_of in *; lia].
    rewrite lenZ_slice by (unfold size_of in *; lia). unfold size_of in *. lia. }
  split; [|split; assumption]. rewrite <- L. now apply le_dec_range.
Qed.

Lemma nth_all {A} (l : list A) d : map (fun i => nth i l d) (seq 0 (length l)) = l.
Proof.
  apply nth_error_ext. intros i. destruct (nth_error l i) as [x|] eqn:E.
  - assert (Hi : (i < length l)%nat) by (apply nth_error_Some; congruence).
    erewrite map_nth_error; [|rewrite (nth_error_nth' _ 0%nat) by (now rewrite seq_length); rewrite seq_nth by exact Hi; reflexivity].
    cbn [plus]. f_equal. now apply nth_error_nth.
  - apply nth_error_None. apply nth_error_None in E. now rewrite map_length, seq_length.
Qed.

Section Samples.
  Context (fmts : dict str mformat) (v t : Z) (defs data : list msg) (u : ulog).
  Hypothesis Hcon : consistent fmts data.
  Hypothesis Hok : Forall msg_ok data.
  Hypothesis Hct : contents fmts v t defs data u.
  Definition origin (s : source) : list (Z * bytes) :=
    match s with Sample ds i => [(ds_id ds, nth i (records (ds_id ds) data) [])] | _ => [] end.
  Lemma ds_records ds : In ds (u_data u) -> samples_in ds = length (records (ds_id ds) data).
  Proof.
    intros H. destruct (ct_datasets _ _ _ _ _ _ Hct) as (_ & H1 & _). destruct (H1 ds H) as (multi & name & recs & fields & Hc & _ & Ht & Hd).
    unfold records. rewrite Hc. destruct Hd as (_ & _ & _ & D4 & _ & D6). unfold samples_in. rewrite D4.
    pose proof (tp_stamp _ _ _ Ht) as Hs. destruct fields as [|fd r]; [destruct Hs|]. specialize (D6 0%nat fd eq_refl).
    assert (E : forall c, sget (fd_name fd) (ds_data ds) = Some c -> length (c_raw c) = length recs).
    { intros c Ec. pose proof (eq_trans (eq_sym Ec) D6) as Ec'. injection Ec' as ->. cbn [c_raw]. apply map_length. }
    destruct (sget (fd_name fd) (ds_data ds)) as [c|] eqn:Ec; [now apply E|]. now rewrite D6 in Ec.
  Qed.
  Lemma sample_rewritten ds i m : In ds (u_data u) -> (i < samples_in ds)%nat -> carries (Sample ds i) m ->
    exists r', m = wire (MData (ds_id ds) r') /\ exists multi name recs fields, current (ds_id ds) data = Some (multi, name, recs) /\
      topic fmts name fields /\ rewritten fields (nth i (records (ds_id ds) data) []) r'.
  Proof.
    intros Hin Hi (bs & _ & -> & Hbs). exists (concat bs). split; [reflexivity|].
    rewrite (ds_records ds Hin) in Hi.
    destruct (ct_datasets _ _ _ _ _ _ Hct) as (_ & H1 & _). destruct (H1 ds Hin) as (multi & name & recs & fields & Hc & _ & Ht & Hd).
    exists multi, name, recs, fields. split; [exact Hc|]. split; [exact Ht|]. unfold records in *. rewrite Hc in *.
    destruct Hd as (_ & _ & _ & D4 & _ & D6). rewrite D4 in Hbs.
    pose proof (current_recs fmts data Hcon Hok data [] (eq_sym (app_nil_r _)) _ _ _ _ Hc) as Hrecs. rewrite Forall_forall in Hrecs.
    destruct (Hrecs (nth i recs []) (nth_In _ _ Hi)) as (Hb & fields' & Ht' & Hl). rewrite (topic_fun _ _ _ _ Ht' Ht) in Hl.
    assert (Hlen : Forall2 (fun fd b => length b = ctype_size (fd_type fd)) fields bs) by (clear -Hbs; induction Hbs as [|fd b fds bs [H _] _ IH]; constructor; auto).
    split; [now rewrite Hl, (concat_total _ _ Hlen)|]. intros k fd Hk.
    assert (exists b, nth_error bs k = Some b /\ value_written ds i fd b) as (b & Hb1 & Hb2).
    { clear -Hbs Hk. revert k Hk. induction Hbs as [|x y fds bs H _ IH]; intros [|k] Hk; try discriminate; [injection Hk as <-; exists y; auto|apply IH, Hk]. }
    rewrite (concat_fields fields (fun _ => []) bs Hlen k fd b Hk Hb1).
    destruct Hb2 as (_ & col & raw & C1 & C2 & C3). pose proof (eq_trans (eq_sym C1) (D6 _ _ Hk)) as C4. injection C4 as ->. cbn [c_raw c_type] in *.
    destruct (field_range fields k fd _ Hb Hl Hk) as (R1 & _ & _).
    assert (raw = le_dec (field_bytes fields k (nth i recs []))) as ->.
    { pose proof (eq_trans (eq_sym C2) (map_nth_error (fun r : bytes => le_dec (field_bytes fields k r)) _ _ (nth_error_nth' recs [] Hi))) as C5. congruence. }
    now destruct (C3 eq_refl R1) as [-> _].
  Qed.
  Lemma origins dss : (forall ds, In ds dss -> In ds (u_data u)) ->
    flat_map origin (flat_map (fun ds => map (Sample ds) (seq 0 (samples_in ds))) dss) =
    flat_map (fun ds => map (pair (ds_id ds)) (records (ds_id ds) data)) dss.
  Proof.
    induction dss as [|ds dss IH]; intros H; [reflexivity|]. cbn [flat_map]. rewrite flat_map_app, IH by (intros; apply H; now right). f_equal.
    rewrite (ds_records ds (H ds (or_introl eq_refl))). rewrite flat_map_map. cbn [origin].
    generalize (records (ds_id ds) data) as recs. intros recs.
    transitivity (map (pair (ds_id ds)) (map (fun i => nth i recs []) (seq 0 (length recs)))); [|now rewrite nth_all].
    rewrite map_map.
    induction (seq 0 (length recs)) as [|j l I]; [reflexivity|]. cbn [flat_map map app]. now rewrite I.
  Qed.
  Lemma rewritten_list l : Forall (plan_ok) l -> Forall (fun p => match snd (fst p) with Sample ds i => In ds (u_data u) /\ (i < samples_in ds)%nat | _ => True end) l ->
    exists ls : list (Z * bytes * bytes), filter (fun m : Z * bytes => fst m =? 68) (map snd l) = map (fun x => wire (MData (fst (fst x)) (snd x))) ls /\
      map fst ls = flat_map (fun p : plan => origin (snd (fst p))) l /\
      Forall (fun x => exists multi name recs fields, current (fst (fst x)) data = Some (multi, name, recs) /\
        topic fmts name fields /\ rewritten fields (snd (fst x)) (snd x)) ls.
  Proof.
    induction l as [|p l IH]; intros H1 H2; [exists []; repeat split; constructor|]. inversion H1 as [|? ? P1 P2]; inversion H2 as [|? ? Q1 Q2]; subst.
    destruct (IH P2 Q2) as (ls & A & B & C). destruct P1 as (_ & Hc & _). destruct (snd (fst p)) as [ds i|m|m|d|tt k vv] eqn:Es.
    - destruct Q1 as [Q1 Q1']. destruct (sample_rewritten ds i _ Q1 Q1' Hc) as (r' & Em & Hr').
      exists ((ds_id ds, nth i (records (ds_id ds) data) [], r') :: ls). cbn [map filter flat_map fst snd]. rewrite Em, Es. cbn [wire fst origin app Z.eqb Pos.eqb].
      rewrite B. split; [|split; [reflexivity|constructor; auto]]. f_equal. exact A.
    - exists ls. cbn [map filter flat_map]. rewrite Es. destruct Hc as (_ & _ & _ & ->). auto.
    - exists ls. cbn [map filter flat_map]. rewrite Es. destruct Hc as (_ & _ & _ & _ & ->). auto.
    - exists ls. cbn [map filter flat_map]. rewrite Es. destruct Hc as (_ & ->). auto.
    - exists ls. cbn [map filter flat_map]. rewrite Es. destruct Hc as (_ & ty & raw & -> & _). auto.
  Qed.
  Theorem samples_written f : write u = Ok f -> exists front ms ls,
    f = file_header (u_version u) (u_start u) ++ frames front ++ frames ms /\ Forall (fun m => fst m <> 68) front /\
    Forall sized front /\ Forall sized ms /\
    filter (fun m : Z * bytes => fst m =? 68) ms = map (fun x => wire (MData (fst (fst x)) (snd x))) ls /\
    Permutation (map fst ls) (flat_map (fun ds => map (pair (ds_id ds)) (records (ds_id ds) data)) (u_data u)) /\
    Forall (fun x => exists multi name recs fields, current (fst (fst x)) data = Some (multi, name, recs) /\
        topic fmts name fields /\ rewritten fields (snd (fst x)) (snd x)) ls.
  Proof.
    intros H. destruct (write_shape u f H) as (ds & subs & l & l' & Ef & Hh & F1 & F2 & F3 & F4 & (nm & nd & K1) & K2 & S1 & S2 & L1 & L2 & (L3 & L4 & L5)).
    assert (Hp : Forall plan_ok l') by (eapply Permutation_Forall; eassumption).
    assert (Hs : Forall (fun p => match snd (fst p) with Sample ds i => In ds (u_data u) /\ (i < samples_in ds)%nat | _ => True end) l').
    { apply (Permutation_Forall L3). apply Forall_forall. intros p Hin.
      assert (Hin' : In (snd (fst p)) (all_sources (by_id u) u)) by (rewrite <- L1; now apply (in_map (fun p : plan => snd (fst p)))).
      destruct (snd (fst p)) as [d i|m|m|d|tt k vv]; try exact I. unfold all_sources in Hin'. rewrite !in_app_iff in Hin'.
      destruct Hin' as [X|[X|[X|[X|X]]]]; try (apply in_map_iff in X as (x & Ex & _); discriminate).
      apply in_flat_map in X as (d' & Hd' & X). apply in_map_iff in X as (j & E & Hj). injection E as -> ->. apply in_seq in Hj.
      split; [now apply by_id_In|lia]. }
    destruct (rewritten_list l' Hp Hs) as (ls & A & B & C).
    exists (wire (MFlags (u_compat u) (without_append (u_incompat u)) 0 0 0) :: ds ++ subs), (map snd l'), ls.
    assert (N : forall k n, k <> 68 -> Forall (fun x => x <> 68) (repeat k n)) by (intros k n Hk; apply Forall_forall; intros x Hx; apply repeat_spec in Hx; congruence).
    split. { rewrite Ef, !frames_cons, frames_app, <- !app_assoc. reflexivity. }
    split. { constructor; [cbn; lia|]. apply Forall_app. split; apply (Forall_map fst (fun x => x <> 68)); rewrite ?K1, ?K2; repeat (apply Forall_app; split); apply N; lia. }
    split. { constructor; [|now apply Forall_app]. split; [cbn; unfold byte_ok; lia|].
      assert (B1 : lenZ (without_append (u_incompat u)) = 8) by (destruct (u_incompat u); [discriminate F2|exact F2]).
      refine (eq_ind_r (fun z => z < 65536) _ (flags_size _ _ F1 B1)). reflexivity. }
    split. { apply Forall_map. eapply Forall_impl; [|exact Hp]. intros p (_ & _ & Hz). exact Hz. }
    split; [exact A|]. split; [|exact C].
    rewrite B. etransitivity; [apply Permutation_flat_map, Permutation_sym, L3|].
    replace (flat_map (fun p : plan => origin (snd (fst p))) l) with (flat_map origin (all_sources (by_id u) u)) by (rewrite <- L1; apply flat_map_map).
    unfold all_sources. rewrite !flat_map_app, origins by (intros; now apply by_id_In).
    assert (Z0 : forall X (f : X -> source) l, (forall x, origin (f x) = []) -> flat_map origin (map f l) = []).
    { intros X g l0 Hg. induction l0 as [|x l0 I0]; [reflexivity|]. cbn [map flat_map]. now rewrite Hg, I0. }
    rewrite !Z0 by reflexivity. rewrite !app_nil_r. apply Permutation_flat_map, Permutation_sym, ssort_perm.
  Qed.
End Samples.
(** Records whose values are all kept are written unchanged. *)
Lemma kept_raw c raw : 0 <= raw -> kept c raw -> written_raw c raw = raw.
Proof.
  intros H0. destruct c; cbn [kept written_raw]; try reflexivity.
  - now intros ->.
  - intros H. destruct (Z.eqb_spec raw 0); lia.
Qed.
Lemma fields_equal fields : forall r r', bytes_ok r -> lenZ r = total fields -> lenZ r' = total fields ->
  (forall k fd, nth_error fields k = Some fd -> field_bytes fields k r' = field_bytes fields k r) -> r' = r.
Proof.
  assert (P : forall l, 0 <= total l) by (induction l as [|x l IH]; [reflexivity|change (total (x :: l)) with (size_of x + total l); unfold size_of; lia]).
  induction fields as [|fd fields IH]; intros r r' Hb H1 H2 H.
  - change (total []) with 0 in *. destruct r, r'; unfold lenZ in *; cbn in *; try lia. reflexivity.
  - change (total (fd :: fields)) with (size_of fd + total fields) in *. specialize (P fields).
    assert (Hsz : 0 <= size_of fd) by (unfold size_of; lia).
    rewrite <- (takeZ_dropZ_app (size_of fd) r), <- (takeZ_dropZ_app (size_of fd) r'). f_equal.
    + specialize (H 0%nat fd eq_refl). unfold field_bytes in H. cbn [nth_error firstn] in H. change (total []) with 0 in H. rewrite Z.add_0_l, !slice_0 in H. exact H.
    + apply IH.
      * now apply Forall_dropZ.
      * rewrite lenZ_dropZ; lia.
      * rewrite lenZ_dropZ; lia.
      * intros k fd' Hk. specialize (H (S k) fd' Hk). unfold field_bytes in *. cbn [nth_error firstn] in H. rewrite Hk in *.
        change (total (fd :: firstn k fields)) with (size_of fd + total (firstn k fields)) in H.
        destruct (total_firstn fields k fd' Hk) as [T1 T2]. unfold slice in *. rewrite !dropZ_dropZ by lia.
        replace (size_of fd + total (firstn k fields) + size_of fd' - (size_of fd + total (firstn k fields))) with (size_of fd') in H by lia.
        replace (total (firstn k fields) + size_of fd' - total (firstn k fields)) with (size_of fd') by lia. exact H.
Qed.
Lemma rewritten_kept fields r r' : bytes_ok r -> lenZ r = total fields -> rewritten fields r r' ->
  (forall k fd, nth_error fields k = Some fd -> kept (fd_type fd) (le_dec (field_bytes fields k r))) -> r' = r.
Proof.
  intros Hb Hl [H1 H2] Hk. apply (fields_equal fields); auto; [congruence|]. intros k fd Hn. rewrite (H2 k fd Hn).
  destruct (field_range fields k fd r Hb Hl Hn) as (R1 & R2 & R3). rewrite kept_raw by (try apply R1; eauto). rewrite <- R3. now apply le_enc_dec.
Qed.
Lemma le_dec_enc_mod n : forall v, le_dec (le_enc n v) = v mod 256 ^ Z.of_nat n.
Proof.
  induction n as [|n IH]; intros v; [cbn; now rewrite Z.mod_1_r|]. cbn [le_enc le_dec]. rewrite IH.
  rewrite Nat2Z.inj_succ, Z.pow_succ_r by lia. rewrite Z.rem_mul_r by lia. reflexivity.
Qed.
Lemma rewritten_same fields r : bytes_ok r -> lenZ r = total fields -> rewritten fields r r ->
  forall k fd, nth_error fields k = Some fd -> kept (fd_type fd) (le_dec (field_bytes fields k r)).
Proof.
  intros Hb Hl [H1 H2] k fd Hn. specialize (H2 k fd Hn). destruct (field_range fields k fd r Hb Hl Hn) as (R1 & R2 & R3).
  apply (f_equal le_dec) in H2. rewrite le_dec_enc_mod in H2. destruct (fd_type fd); cbn [kept written_raw ctype_size] in *; try exact I.
  - destruct (f32_is_snan _) eqn:E; [|reflexivity]. exfalso. set (x := le_dec (field_bytes fields k r)) in *. change (256 ^ Z.of_nat 4) with 4294967296 in *.
    rewrite Z.mod_eq in H2 by lia. lia.
  - destruct (Z.eqb_spec (le_dec (field_bytes fields k r)) 0); [lia|]. change (1 mod 256 ^ Z.of_nat 1) with 1 in H2. lia.
Qed.
