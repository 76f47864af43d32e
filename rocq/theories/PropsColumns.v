(** Property C10, column by column: the names, types and values of the columns of a dataset. *)
From Verif Require Import Base Dict PyStr Utf8 Struct ModelTypes ModelRead ModelApi Spec SpecSection SpecMsg
  ProofsTrace ProofsChange ProofsInv ProofsCut ProofsSection ProofsData ProofsWhole ProofsFields ProofsLoad ProofsProps ProofsFile ProofsEq Samples PropsRead SpecWalk ProofsWalk ProofsRead ProofsMsg ProofsExpand ProofsLog SpecLog.

(** The column of the [i]-th field has its name; numpy calls it f<i> when the name is empty. *)
Definition column_name (i : nat) (f : fielddata) : str :=
  if str_eqb (fd_name f) [] then lit "f" ++ str_of_Z (Z.of_nat i) else fd_name f.
(** Bytes before the [i]-th field in a record *)
Definition field_offset (fs : list fielddata) (i : nat) : Z :=
  fold_right Z.add 0 (map (fun f => Z.of_nat (ctype_size (fd_type f))) (firstn i fs)).

Lemma np_dtype_nth l : forall k seen dt, np_dtype_aux (Z.of_nat k) seen l = Ok dt ->
  length dt = length l /\
  forall i fd, nth_error l i = Some fd -> nth_error dt i = Some (column_name (k + i) fd, np_of (fd_type fd)).
Proof.
  induction l as [|fd l IH]; intros k seen dt H; cbn [np_dtype_aux] in H.
  - injection H as <-. split; [reflexivity|]. intros [|i] fd E; discriminate.
  - cbv zeta in H. match type of H with (if existsb ?p seen then _ else _) = _ => destruct (existsb p seen); [discriminate|] end.
    apply bind_Ok_inv in H as (t & Ht & H). replace (Z.of_nat k + 1) with (Z.of_nat (S k)) in Ht by lia. destruct (IH _ _ _ Ht) as (A & B). injection H as <-.
    split; [cbn [length]; lia|]. intros [|i] x E; cbn [nth_error] in *.
    + injection E as <-. replace (k + 0)%nat with k by lia. unfold column_name. destruct (fd_name fd); reflexivity.
    + rewrite (B i x E). replace (S k + i)%nat with (k + S i)%nat by lia. reflexivity.
Qed.
Lemma np_size_of c : np_size (np_of c) = ctype_size c.
Proof. destruct c; reflexivity. Qed.
Lemma nth_error_ext {A} (a : list A) : forall b, (forall i, nth_error a i = nth_error b i) -> a = b.
Proof.
  induction a as [|x a IH]; intros [|y b] H; auto; try (specialize (H 0%nat); discriminate).
  pose proof (H 0%nat) as E. injection E as <-. f_equal. apply IH. intros i. exact (H (S i)).
Qed.
Lemma offset_itemsize fs : forall dt i, length dt = length fs ->
  (forall i fd, nth_error fs i = Some fd -> exists n, nth_error dt i = Some (n, np_of (fd_type fd))) ->
  itemsize (firstn i dt) = field_offset fs i.
Proof.
  induction fs as [|fd fs IH]; intros [|[n t] dt] i Hl H; try discriminate.
  - destruct i; reflexivity.
  - destruct (H 0%nat fd eq_refl) as (n' & E). cbn in E. injection E as -> ->.
    destruct i as [|i]; [reflexivity|]. cbn [firstn map]. unfold field_offset. cbn [firstn map fold_right itemsize].
    change (Z.of_nat (np_size (np_of (fd_type fd))) + itemsize (firstn i dt) = Z.of_nat (ctype_size (fd_type fd)) + field_offset fs i).
    rewrite np_size_of, (IH dt i); [reflexivity|now injection Hl|]. intros j x E. exact (H (S j) x E).
Qed.

(** Every dataset consists of the records of its data messages in one section of the file,
    one column per field: its name, its type, and its bytes in each record. *)
Theorem C10_columns : forall cf f u, bytes_ok f -> cf_hdr cf = false -> produces cf f (Ok u) ->
  exists defs secs, trace cf f u defs secs /\
  forall ds, In ds (u_data u) ->
  exists evs s rows, In evs secs /\ subscription cf (u_formats u) evs (ds_id ds) = Some (s, rows) /\ rows <> [] /\
    sb_fields s = ds_fields ds /\ Forall (fun r => lenZ r = field_offset (ds_fields ds) (length (ds_fields ds))) rows /\
    length (ds_data ds) = length (ds_fields ds) /\ NoDup (map fst (ds_data ds)) /\
    forall i fd, nth_error (ds_fields ds) i = Some fd ->
      nth_error (ds_data ds) i = Some (column_name i fd, mkCol (np_of (fd_type fd))
        (map (fun r => let o := field_offset (ds_fields ds) i in
                       le_dec (slice o (o + Z.of_nat (ctype_size (fd_type fd))) r)) rows)).
Proof.
  intros cf f u Hb Hh Hp. destruct (load_walked cf f u Hb Hh Hp) as (defs & secs & Ht). exists defs, secs. split; [exact Ht|].
  destruct Ht as (_ & _ & _ & _ & Hr). intros ds Hin.
  destruct (data_from _ _ _ _ _ _ _ Hr Hin) as (evs & s & rs & He & Hs & Hne & (_ & _ & _ & Hf & _ & Hl & Hc)).
  destruct (subscription_add _ _ _ _ _ _ Hs) as (p & _ & Hadd).
  destruct (subscription_ok _ _ _ _ _ _ Hs) as (_ & _ & _ & _ & Hrows).
  pose proof (parse_add_NoDup _ _ _ _ Hadd) as Hnd.
  assert (Hdt : length (sb_dtype s) = length (sb_fields s) /\
    forall i fd, nth_error (sb_fields s) i = Some fd -> nth_error (sb_dtype s) i = Some (column_name i fd, np_of (fd_type fd))).
  { unfold parse_add in Hadd. repeat (apply bind_Ok_inv in Hadd as (? & ? & Hadd)). injection Hadd as <-. cbn [sb_dtype sb_fields].
    match goal with H : np_dtype _ = Ok _ |- _ => exact (np_dtype_nth _ 0 [] _ H) end. }
  destruct Hdt as (Hlen & Hnth).
  assert (Hoff : forall i, itemsize (firstn i (sb_dtype s)) = field_offset (sb_fields s) i).
  { intros i. apply offset_itemsize; [exact Hlen|]. intros j x E. eexists. exact (Hnth j x E). }
  assert (Hcol : forall i fd, nth_error (sb_fields s) i = Some fd ->
      nth_error (ds_data ds) i = Some (column_name i fd, mkCol (np_of (fd_type fd))
        (map (fun r => let o := field_offset (sb_fields s) i in
                       le_dec (slice o (o + Z.of_nat (ctype_size (fd_type fd))) r)) rs))).
  { intros i fd E. destruct (nth_error (ds_data ds) i) as [[n [t raw]]|] eqn:En.
    - destruct (Hc i _ En) as (nt & E1 & E2 & E3 & E4). rewrite (Hnth i fd E) in E1. injection E1 as <-. cbn [fst snd c_type c_raw] in *.
      subst n t raw. rewrite np_size_of, Hoff. reflexivity.
    - apply nth_error_None in En. assert (nth_error (sb_fields s) i <> None) by congruence. apply nth_error_Some in H. lia. }
  exists evs, s, rs. rewrite Hf. split; [exact He|]. split; [exact Hs|]. split; [intros ->; now apply Hne|]. split; [reflexivity|].
  split; [eapply Forall_impl; [|exact Hrows]; intros r Er; rewrite Er; rewrite <- Hoff, firstn_all2 by lia; reflexivity|].
  split; [lia|]. split; [|exact Hcol].
  replace (map fst (ds_data ds)) with (map fst (sb_dtype s)); [exact Hnd|].
  clear - Hl Hc. unfold column_of in Hc. revert Hl Hc. generalize (sb_dtype s) as dt, (ds_data ds) as d. intros dt d Hl Hc. apply nth_error_ext. intros i. rewrite !nth_error_map. destruct (nth_error d i) as [nc|] eqn:E.
  - destruct (Hc i nc E) as (nt & E1 & E2 & _). rewrite E1. cbn. now rewrite E2.
  - apply nth_error_None in E. rewrite (proj2 (nth_error_None dt i)) by lia. reflexivity.
Qed.
Example C10_columns_ex : exists u ds, produces cf0 s_file (Ok u) /\ get_dataset u (lit "t") 1 = Ok ds /\
  map fst (ds_data ds) = map fd_name (ds_fields ds) /\ (3 < length (ds_data ds))%nat.
Proof. do 2 eexists. split; [exists 30%nat; vm_compute; reflexivity|]. split; [reflexivity|]. split; [reflexivity|cbn; lia]. Qed.

(** ** C16: when the columns of a resolving format have distinct names *)
Fixpoint column_names_from (k : nat) (fs : list fielddata) : list str :=
  match fs with [] => [] | fd :: r => column_name k fd :: column_names_from (S k) r end.
(** the names of the columns of all fields *)
Definition column_names := column_names_from 0.

Lemma np_dtype_step k seen fd l : np_dtype_aux (Z.of_nat k) seen (fd :: l) =
  if existsb (str_eqb (column_name k fd)) seen then Err ValueError
  else let* t := np_dtype_aux (Z.of_nat (S k)) (column_name k fd :: seen) l in Ok ((column_name k fd, np_of (fd_type fd)) :: t).
Proof.
  replace (Z.of_nat (S k)) with (Z.of_nat k + 1) by lia. cbn [np_dtype_aux]. unfold column_name. destruct (fd_name fd); reflexivity.
Qed.
Lemma np_dtype_law l : forall k seen, NoDup seen ->
  (NoDup (column_names_from k l) /\ (forall x, In x seen -> ~ In x (column_names_from k l)) /\ exists dt, np_dtype_aux (Z.of_nat k) seen l = Ok dt) \/
  (~ (NoDup (column_names_from k l) /\ (forall x, In x seen -> ~ In x (column_names_from k l))) /\ np_dtype_aux (Z.of_nat k) seen l = Err ValueError).
Proof.
  induction l as [|fd l IH]; intros k seen Hs; cbn [column_names_from].
  - left. split; [constructor|]. split; [intros x _ []|]. eexists. reflexivity.
  - rewrite np_dtype_step.
    generalize (column_name k fd) as n. intros n. destruct (existsb (str_eqb n) seen) eqn:Ex.
    + right. split; [|reflexivity]. intros (_ & H). apply existsb_exists in Ex as (x & Hx & E). apply str_eqb_eq in E. subst x.
      apply (H n Hx). now left.
    + assert (Hn : ~ In n seen).
      { intros H. assert (existsb (str_eqb n) seen = true) as E by (apply existsb_exists; exists n; split; [exact H|now apply str_eqb_eq]). congruence. }
      destruct (IH (S k) (n :: seen)) as [(A & B & dt & E)|(A & E)]; [now constructor| |]; rewrite E; cbn [bind].
      * left. split; [constructor; [apply B; now left|exact A]|]. split; [|eexists; reflexivity].
        intros x Hx [<-|H]; [contradiction|]. apply (B x); [now right|exact H].
      * right. split; [|reflexivity]. intros (N & D). inversion N as [|? ? N1 N2]; subst. apply A. split; [exact N2|].
        intros x [<-|Hx]; [exact N1|]. intros H. apply (D x Hx). now right.
Qed.

(** A subscription to a format that resolves is accepted if its columns have distinct names,
    and refused with ValueError (numpy) otherwise. *)
Theorem C16_law : forall fmts name fmt out fields,
  sget name fmts = Some fmt -> expands fmts [] (mf_fields fmt) out -> without_padding out fields -> str_ok name ->
  exists depth, forall cf multi id, (depth <= cf_depth cf)%nat -> u8 multi -> u16 id ->
  (NoDup (column_names fields) /\
     exists s, parse_add cf fmts ([multi] ++ le_enc 2 id ++ utf8 name) = Ok s /\
       sb_fields s = fields /\ sb_multi s = multi /\ sb_id s = id /\ sb_name s = name) \/
  (~ NoDup (column_names fields) /\
     parse_add cf fmts ([multi] ++ le_enc 2 id ++ utf8 name) = Err ValueError).
Proof.
  intros fmts name fmt out fields Hf Hx Hp Hok.
  destruct (proj1 (expands_parse fmts) _ _ _ Hx) as (d & Hd).
  exists (S d). intros cf multi id Hdep Hm Hi. unfold parse_add.
  rewrite (slice_0 1), takeZ_app_exact by reflexivity. rewrite unpack1. cbn [bind].
  replace (slice 1 3 ([multi] ++ le_enc 2 id ++ utf8 name)) with (le_enc 2 id)
    by (symmetry; apply slice_app_mid; [reflexivity|rewrite lenZ_le; reflexivity]).
  rewrite le2_enc by exact Hi. cbn [bind].
  replace (dropZ 3 ([multi] ++ le_enc 2 id ++ utf8 name)) with (utf8 name)
    by (rewrite app_assoc; symmetry; apply dropZ_app_exact; rewrite lenZ_app, lenZ_le; reflexivity).
  rewrite parse_utf8 by exact Hok. cbn [bind].
  destruct (Hd ([], -1)) as (ts & Hts).
  assert (Hpn : parse_nested (cf_depth cf) fmts [] name ([], -1) = Ok (out, ts)).
  { apply parse_nested_mono with (d := S d); auto. rewrite parse_nested_S, Hf. exact Hts. }
  rewrite Hpn. cbn [bind fst snd].
  rewrite (without_padding_fun _ _ _ (strip_padding_spec out) Hp).
  unfold np_dtype. change 0 with (Z.of_nat 0). destruct (np_dtype_law fields 0 [] ltac:(constructor)) as [(A & _ & dt & E)|(A & E)]; rewrite E; cbn [bind].
  - left. split; [exact A|]. eexists. split; [reflexivity|]. repeat split.
  - right. split; [|reflexivity]. intros H. apply A. split; [exact H|]. intros x [].
Qed.
(** Two fields of one name: every message that subscribes to the topic is refused. *)
Definition two_x : list (str * Z * str) := [(lit "uint64_t", 0, lit "timestamp"); (lit "uint8_t", 0, lit "x"); (lit "int8_t", 0, lit "x")].
Example C16_ex_law : exists (fmts : dict str mformat) fmt out, sget (lit "t") fmts = Some fmt /\ expands fmts [] (mf_fields fmt) out /\
  without_padding out out /\ ~ NoDup (column_names out) /\ parse_add cf0 fmts ([0; 1; 0] ++ lit "t") = Err ValueError.
Proof.
  exists [(lit "t", mkFmt (lit "t") two_x)], (mkFmt (lit "t") two_x), [mkFD (lit "timestamp") U64; mkFD (lit "x") U8; mkFD (lit "x") I8].
  split; [reflexivity|]. split.
  { unfold two_x. cbn [mf_fields].
    apply (ex_scalar _ [] U64 0 (lit "timestamp")); [lia|]. apply (ex_scalar _ [] U8 0 (lit "x")); [lia|].
    apply (ex_scalar _ [] I8 0 (lit "x")); [lia|]. constructor. }
  split; [|split; [|vm_compute; reflexivity]].
  - exact (strip_padding_spec [mkFD (lit "timestamp") U64; mkFD (lit "x") U8; mkFD (lit "x") I8]).
  - intros H. inversion H as [|? ? _ H1]; subst. inversion H1 as [|? ? H2 _]; subst. apply H2. left. reflexivity.
Qed.
