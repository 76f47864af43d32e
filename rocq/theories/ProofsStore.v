(** What a saved log loads back as. *)
From Coq Require Import Sorted.
From Verif Require Import Base Dict PyStr PyFloat PySort Struct ModelTypes ModelApi Sql Schema5 ModelDb SpecDb ProofsDb ProofsFrame ProofsSave.

Lemma str_cmp_refl s : str_cmp s s = Eq.
Proof. induction s; cbn; [auto|now rewrite Z.compare_refl]. Qed.

(** ** The cells of a new row *)
Lemma value_for_given names : forall vals v c x, mapM (fun x => x) vals = Ok v -> given names vals c = Some x -> x = Ok (value_for names v c).
Proof.
  induction names as [|m names IH]; intros [|y vals] v c x M H; try discriminate.
  cbn [mapM] in M. destruct y as [z|]; [|discriminate]. cbn [bind] in M. destruct (mapM _ vals) as [v'|] eqn:M'; [|discriminate].
  cbn [bind] in M. injection M as <-. cbn [given] in H. cbn [value_for]. destruct (str_eqb m c); [now injection H|]. eauto.
Qed.
Lemma new_row_cell' k cs names v r c cd : new_row k cs names v = Ok r -> find (fun y => str_eqb (k_name y) c) cs = Some cd ->
  k_key cd = false -> apply_aff (k_aff cd) (value_for names v (k_name cd)) = Ok (cell_at cs r c).
Proof.
  revert r. unfold new_row. induction cs as [|y cs IH]; intros r E F K; [discriminate|].
  cbn [mapM] in E. destruct (if k_key y then _ else _) as [z|] eqn:Y; [|discriminate]. cbn [bind] in E.
  destruct (mapM _ cs) as [r'|] eqn:E'; [|discriminate]. cbn [bind] in E.
  apply (f_equal (fun q => match q with Ok w => w | Err _ => [] end)) in E. cbv beta iota in E. subst r.
  cbn [cell_at]. cbn [find] in F. destruct (str_eqb (k_name y) c) eqn:N.
  - injection F as <-. rewrite K in Y. exact Y.
  - now apply IH.
Qed.
Lemma prep_cell T names k vals r c cd x : prep T names k vals = Ok r -> find (fun y => str_eqb (k_name y) c) (cols T) = Some cd ->
  k_key cd = false -> given names vals (k_name cd) = Some x -> exists y, x = Ok y /\ apply_aff (k_aff cd) y = Ok (cell_at (cols T) r c).
Proof.
  intros P F K H. unfold prep in P. destruct (mapM _ vals) as [v|] eqn:M; [|discriminate]. cbn [bind] in P.
  eexists. split; [eapply value_for_given; eauto|]. eapply new_row_cell'; eauto.
Qed.
Lemma cell_int T names k vals r c cd z : prep T names k vals = Ok r -> find (fun y => str_eqb (k_name y) c) (cols T) = Some cd ->
  k_key cd = false -> k_aff cd = AInt \/ k_aff cd = ANum -> given names vals (k_name cd) = Some (bind_int z) \/ given names vals (k_name cd) = Some (Ok (CInt z)) -> cell_at (cols T) r c = CInt z.
Proof.
  intros P F K A H. assert (exists x, given names vals (k_name cd) = Some x /\ (forall y, x = Ok y -> y = CInt z)) as (x & Hx & Hy).
  { destruct H as [H|H]; rewrite H; eexists; (split; [reflexivity|]); intros y E; [|now injection E].
    unfold bind_int in E. destruct (_ && _); [now injection E|discriminate]. }
  destruct (prep_cell _ _ _ _ _ _ _ _ P F K Hx) as (y & E & Q). rewrite (Hy y E) in Q.
  destruct A as [A|A]; rewrite A in Q; cbn in Q; now injection Q.
Qed.
Lemma cell_text T names k vals r c cd z : prep T names k vals = Ok r -> find (fun y => str_eqb (k_name y) c) (cols T) = Some cd ->
  k_key cd = false -> k_aff cd = AText -> given names vals (k_name cd) = Some (bind_text z) \/ given names vals (k_name cd) = Some (Ok (CText z)) ->
  cell_at (cols T) r c = CText z.
Proof.
  intros P F K A H. assert (exists x, given names vals (k_name cd) = Some x /\ (forall y, x = Ok y -> y = CText z)) as (x & Hx & Hy).
  { destruct H as [H|H]; rewrite H; eexists; (split; [reflexivity|]); intros y E; [|now injection E].
    unfold bind_text in E. destruct (forallb _ _); [now injection E|discriminate]. }
  destruct (prep_cell _ _ _ _ _ _ _ _ P F K Hx) as (y & E & Q). rewrite (Hy y E), A in Q. cbn in Q. now injection Q.
Qed.
Lemma cell_blob T names k vals r c cd z : prep T names k vals = Ok r -> find (fun y => str_eqb (k_name y) c) (cols T) = Some cd ->
  k_key cd = false -> k_aff cd = ABlob -> given names vals (k_name cd) = Some (Ok (CBlob z)) -> cell_at (cols T) r c = CBlob z.
Proof. intros P F K A H. destruct (prep_cell _ _ _ _ _ _ _ _ P F K H) as (y & E & Q). injection E as <-. rewrite A in Q. cbn in Q. now injection Q. Qed.
Lemma cell_value T names k vals r c cd z : prep T names k vals = Ok r -> find (fun y => str_eqb (k_name y) c) (cols T) = Some cd ->
  k_key cd = false -> k_aff cd = ABlob -> given names vals (k_name cd) = Some (bind_value z) -> fits_value z -> as_value (cell_at (cols T) r c) = Ok (stored_value z).
Proof.
  intros P F K A H V. destruct (prep_cell _ _ _ _ _ _ _ _ P F K H) as (y & E & Q). rewrite A in Q. cbn in Q. injection Q as Q. rewrite <- Q.
  destruct z; cbn in E, V |- *.
  - unfold bind_int in E. destruct (_ && _); [now injection E as <-|discriminate].
  - now injection E as <-.
  - rewrite V in E. now injection E as <-.
  - unfold bind_text in E. destruct (forallb _ _); [now injection E as <-|discriminate].
  - now injection E as <-.
Qed.
Lemma cell_text_value T names k vals r c cd z : prep T names k vals = Ok r -> find (fun y => str_eqb (k_name y) c) (cols T) = Some cd ->
  k_key cd = false -> k_aff cd = AText -> given names vals (k_name cd) = Some (bind_value z) -> fits_text z -> as_value (cell_at (cols T) r c) = Ok z.
Proof.
  intros P F K A H V. destruct (prep_cell _ _ _ _ _ _ _ _ P F K H) as (y & E & Q). rewrite A in Q.
  destruct z; cbn in E, V |- *; try contradiction.
  - unfold bind_text in E. destruct (forallb _ _); [injection E as <-|discriminate]. cbn in Q. now injection Q as <-.
  - injection E as <-. cbn in Q. now injection Q as <-.
Qed.
Lemma cell_key T names k vals r : In T parents -> prep T names k vals = Ok r -> cell_at (cols T) r (lit "Id") = CInt k.
Proof. intros P E. apply id_cell; auto. eapply prep_id; eauto. Qed.

Ltac sel := first [reflexivity | left; reflexivity | right; reflexivity].
Ltac icell P c := rewrite (cell_int _ _ _ _ _ c _ _ P eq_refl eq_refl ltac:(sel) ltac:(sel)).
Ltac tcell P c := rewrite (cell_text _ _ _ _ _ c _ _ P eq_refl eq_refl ltac:(sel) ltac:(sel)).
Ltac bcell P c := rewrite (cell_blob _ _ _ _ _ c _ _ P eq_refl eq_refl eq_refl eq_refl).
Ltac vcell P c V := rewrite (cell_value _ _ _ _ _ c _ _ P eq_refl eq_refl eq_refl eq_refl V).

Lemma rd_offset pk k x r : prep (lit "ulogappendedoffsets") n_offset k (v_offset pk x) = Ok r ->
  project (lit "ulogappendedoffsets") [lit "SeriesIndex"; lit "Offset"] r = [CInt (fst x); CInt (snd x)].
Proof. intros P. unfold project. cbn [map]. icell P (lit "SeriesIndex"). icell P (lit "Offset"). reflexivity. Qed.
Lemma rd_dropout pk k x r : prep (lit "ulogmessagedropout") n_dropout k (v_dropout pk x) = Ok r ->
  read_dropout (project (lit "ulogmessagedropout") [lit "Timestamp"; lit "Duration"] r) = Ok x.
Proof. intros P. unfold project. cbn [map]. icell P (lit "Timestamp"). icell P (lit "Duration"). now destruct x. Qed.
Lemma rd_logged pk k x r : prep (lit "ulogmessagelogging") n_logged k (v_logged pk x) = Ok r ->
  read_logged (project (lit "ulogmessagelogging") [lit "LogLevel"; lit "Timestamp"; lit "Message"] r) = Ok x.
Proof. intros P. unfold project. cbn [map]. icell P (lit "LogLevel"). icell P (lit "Timestamp"). tcell P (lit "Message"). now destruct x. Qed.
Lemma rd_tagged pk k x r : prep (lit "ulogmessageloggingtagged") n_tagged k (v_tagged pk x) = Ok r -> tg_tag (snd x) = fst x ->
  read_tagged (project (lit "ulogmessageloggingtagged") [lit "LogLevel"; lit "Tag"; lit "Timestamp"; lit "Message"] r) = Ok (snd x).
Proof.
  intros P T. unfold project. cbn [map]. icell P (lit "LogLevel"). icell P (lit "Tag"). icell P (lit "Timestamp"). tcell P (lit "Message").
  cbn. rewrite <- T. now destruct (snd x).
Qed.
Lemma rd_format pk k x r : prep (lit "ulogmessageformat") n_format k (v_format pk x) = Ok r ->
  project (lit "ulogmessageformat") [lit "Id"; lit "Name"] r = [CInt k; CText (fst x)].
Proof. intros P. unfold project. cbn [map]. rewrite (cell_key _ _ _ _ _ par_format P). tcell P (lit "Name"). reflexivity. Qed.
Lemma rd_ffield id k x r : prep (lit "ulogmessageformatfield") n_ffield k (v_ffield id x) = Ok r ->
  project (lit "ulogmessageformatfield") [lit "FieldType"; lit "ArraySize"; lit "Name"] r = [CText (fst (fst x)); CInt (snd (fst x)); CText (snd x)].
Proof. intros P. unfold project. cbn [map]. tcell P (lit "FieldType"). icell P (lit "ArraySize"). tcell P (lit "Name"). reflexivity. Qed.
Lemma rd_info pk k x r : prep (lit "ulogmessageinfo") n_info k (v_info pk x) = Ok r -> fits_value (snd x) ->
  read_info (project (lit "ulogmessageinfo") [lit "Key"; lit "Typename"; lit "Value"] r) = Ok (fst x, stored_value (snd x)).
Proof.
  intros P V. unfold project. cbn [map]. tcell P (lit "Key"). tcell P (lit "Typename"). cbn [read_info as_text bind].
  vcell P (lit "Value") V. destruct x as [[? ?] ?]. reflexivity.
Qed.
Lemma rd_multi pk k x r : prep (lit "ulogmessageinfomultiple") n_multi k (v_multi pk x) = Ok r ->
  project (lit "ulogmessageinfomultiple") [lit "Id"; lit "Key"; lit "Typename"] r = [CInt k; CText (fst x); CText (snd x)].
Proof. intros P. unfold project. cbn [map]. rewrite (cell_key _ _ _ _ _ par_multi P). tcell P (lit "Key"). tcell P (lit "Typename"). reflexivity. Qed.
Lemma rd_list id k x r : prep (lit "ulogmessageinfomultiplelist") n_list k (v_list id x) = Ok r ->
  project (lit "ulogmessageinfomultiplelist") [lit "SeriesIndex"; lit "Id"] r = [CInt x; CInt k].
Proof. intros P. unfold project. cbn [map]. rewrite (cell_key _ _ _ _ _ par_list P). icell P (lit "SeriesIndex"). reflexivity. Qed.
Lemma rd_elem id k x r : prep (lit "ulogmessageinfomultiplelistelement") n_elem k (v_elem id x) = Ok r -> fits_text (snd x) ->
  exists y, project (lit "ulogmessageinfomultiplelistelement") [lit "SeriesIndex"; lit "Value"] r = [CInt (fst x); y] /\ as_value y = Ok (snd x).
Proof.
  intros P V. unfold project. cbn [map]. icell P (lit "SeriesIndex"). eexists. split; [reflexivity|].
  now rewrite (cell_text_value _ _ _ _ _ (lit "Value") _ _ P eq_refl eq_refl eq_refl eq_refl V).
Qed.
Lemma rd_param pk k x r : prep (lit "uloginitialparameter") n_param k (v_param pk x) = Ok r -> fits_value (snd x) ->
  read_entry (project (lit "uloginitialparameter") [lit "Key"; lit "Value"] r) = Ok (fst x, stored_value (snd x)).
Proof. intros P V. unfold project. cbn [map]. tcell P (lit "Key"). cbn [read_entry as_text bind]. vcell P (lit "Value") V. reflexivity. Qed.
Lemma rd_default pk k x r : prep (lit "ulogdefaultparameter") n_default k (v_default pk x) = Ok r -> fits_value (snd x) ->
  read_default (project (lit "ulogdefaultparameter") [lit "DefaultType"; lit "Key"; lit "Value"] r) = Ok (fst x, stored_value (snd x)).
Proof.
  intros P V. unfold project. cbn [map]. icell P (lit "DefaultType"). tcell P (lit "Key"). cbn [read_default as_int as_text bind].
  vcell P (lit "Value") V. destruct x as [[? ?] ?]. reflexivity.
Qed.
Lemma rd_change pk k x r : prep (lit "ulogchangedparameter") n_change k (v_change pk x) = Ok r -> fits_value (snd x) ->
  read_default (project (lit "ulogchangedparameter") [lit "Timestamp"; lit "Key"; lit "Value"] r) = Ok (fst x, stored_value (snd x)).
Proof.
  intros P V. unfold project. cbn [map]. icell P (lit "Timestamp"). tcell P (lit "Key"). cbn [read_default as_int as_text bind].
  vcell P (lit "Value") V. destruct x as [[? ?] ?]. reflexivity.
Qed.
Lemma rd_dataset pk k x r : prep (lit "ulogdataset") n_dataset k (v_dataset pk x) = Ok r ->
  project (lit "ulogdataset") [lit "Id"; lit "TimestampIndex"; lit "MessageId"; lit "DatasetName"; lit "MultiId"] r =
  [CInt k; CInt (ds_tsidx x); CInt (ds_id x); CText (ds_name x); CInt (ds_multi x)].
Proof.
  intros P. unfold project. cbn [map]. rewrite (cell_key _ _ _ _ _ par_dataset P). icell P (lit "TimestampIndex"). icell P (lit "MessageId").
  tcell P (lit "DatasetName"). icell P (lit "MultiId"). reflexivity.
Qed.
Lemma rd_log k sha u r : prep (lit "ulog") n_log k (v_log sha u) = Ok r ->
  project (lit "ulog") [lit "FileVersion"; lit "StartTimestamp"; lit "LastTimestamp"; lit "CompatFlags";
        lit "IncompatFlags"; lit "SyncCount"; lit "HasSync"; lit "SHA256Sum"] r =
  [CInt (u_version u); CInt (u_start u); CInt (u_last u); CText (u_compat u); CText (u_incompat u); CInt (u_sync_cnt u);
   CInt (if u_has_sync u then 1 else 0); CText sha].
Proof.
  intros P. unfold project. cbn [map]. icell P (lit "FileVersion"). icell P (lit "StartTimestamp"). icell P (lit "LastTimestamp").
  tcell P (lit "CompatFlags"). tcell P (lit "IncompatFlags"). icell P (lit "SyncCount"). icell P (lit "HasSync"). tcell P (lit "SHA256Sum"). reflexivity.
Qed.

(** ** Bytes of a column *)
Lemma frombuffer_tobytes size raws : (0 < size)%nat -> Forall (fun x => 0 <= x < 256 ^ Z.of_nat size) raws ->
  forall fuel, (length raws <= fuel)%nat -> frombuffer fuel size (concat (map (le_enc size) raws)) = Ok raws.
Proof.
  intros P H. induction H as [|x raws Hx H IH]; intros fuel L; [destruct fuel; reflexivity|].
  cbn [map concat]. destruct fuel as [|fuel]; [cbn in L; lia|].
  assert (Le : length (le_enc size x) = size) by apply length_le_enc.
  destruct (le_enc size x ++ concat (map (le_enc size) raws)) as [|b r] eqn:E.
  { apply (f_equal (@length Z)) in E. rewrite app_length, Le in E. cbn in E. lia. }
  cbn [frombuffer]. rewrite <- E.
  assert (E1 : (length (le_enc size x ++ concat (map (le_enc size) raws)) <? size)%nat = false).
  { apply Nat.ltb_ge. rewrite app_length. lia. }
  rewrite E1. rewrite skipn_app, firstn_app, Le, Nat.sub_diag. cbn [skipn firstn].
  rewrite skipn_all2 by lia. cbn [app]. rewrite IH by (cbn in L; lia). cbn [bind].
  rewrite app_nil_r. rewrite firstn_all2 by lia. now rewrite le_dec_enc.
Qed.
Lemma length_concat_enc size raws : (0 < size)%nat -> (length raws <= length (concat (map (le_enc size) raws)))%nat.
Proof. intros P. induction raws; cbn; [lia|]. rewrite app_length, length_le_enc. lia. Qed.
Lemma rd_field id k fd col r : prep (lit "ulogfield") n_field k (v_field id (fd, col)) = Ok r ->
  c_type col = np_of (fd_type fd) -> Forall (fun x => 0 <= x < 256 ^ Z.of_nat (np_size (c_type col))) (c_raw col) ->
  read_field (project (lit "ulogfield") [lit "TopicName"; lit "DataType"; lit "ValueArray"] r) = Ok (fd, (fd_name fd, col)).
Proof.
  intros P T R. unfold project. cbn [map]. tcell P (lit "TopicName"). tcell P (lit "DataType"). bcell P (lit "ValueArray").
  cbn [read_field as_text as_blob bind snd fst]. rewrite ctype_of_name.
  unfold tobytes. rewrite T in *.
  assert (Sz : (0 < np_size (np_of (fd_type fd)))%nat) by (rewrite np_size_of; apply ctype_size_pos).
  rewrite frombuffer_tobytes by (auto using length_concat_enc). cbn [bind]. destruct fd, col; cbn in *. subst. reflexivity.
Qed.

(** ** Lists of rows *)
Lemma rows_read {A B} T names cs (v : A -> list (res cell)) (f : row -> res B) (g : A -> B) l rs : rows_for T names (map v l) rs ->
  (forall x k r, In x l -> prep T names k (v x) = Ok r -> f (project T cs r) = Ok (g x)) ->
  mapM f (map (project T cs) rs) = Ok (map g l).
Proof.
  intros R H. unfold rows_for in R. remember (map v l) as vs eqn:E. revert l E H. induction R as [|y r vs rs (k & P) R IH]; intros [|x l] E H; try discriminate; [reflexivity|].
  injection E as -> ->. cbn [map mapM]. rewrite (H x k r) by (auto; now left). cbn [bind]. rewrite (IH l eq_refl) by (intros; eapply H; eauto; now right). reflexivity.
Qed.
Lemma mapM_map {A B C} (f : B -> res C) (g : A -> B) l : mapM f (map g l) = mapM (fun x => f (g x)) l.
Proof. induction l; cbn; [reflexivity|]. now rewrite IHl. Qed.
Lemma sorted_seq {A} (l : list A) : forall n, StronglySorted (fun a b : Z * A => (fst a <=? fst b) = true) (combine (map Z.of_nat (seq n (length l))) l).
Proof.
  induction l as [|x l IH]; intros n; cbn [length seq map combine]; constructor; auto.
  apply Forall_forall. intros [i y] H. apply in_combine_l in H. apply in_map_iff in H as (j & <- & H). apply in_seq in H. cbn. apply Z.leb_le. lia.
Qed.
(** rows of an enumeration come back in its order *)
Lemma enumerate_seq {A} (l : list A) : StronglySorted (fun a b : Z * A => (fst a <=? fst b) = true) (enumerate l).
Proof. apply sorted_seq. Qed.
Lemma enumerate_snd {A} (l : list A) : map snd (enumerate l) = l.
Proof.
  unfold enumerate. generalize 0%nat. induction l as [|x l IH]; intros n; cbn; [reflexivity|]. now rewrite IH.
Qed.
Lemma by_index_enum {A} (l : list A) (rows : list row) (tl : list row) :
  Forall2 (fun ia rt => fst rt = CInt (fst ia) :: snd rt) (enumerate l) (combine rows tl) -> length rows = length tl -> length rows = length l ->
  by_index rows = Ok tl.
Proof.
  intros H L1 L2. unfold by_index.
  assert (M : mapM (fun r => match r with i :: r' => let* z := as_int i in Ok (z, r') | [] => Err Unmodelled end) rows = Ok (combine (map fst (enumerate l)) tl)).
  { remember (enumerate l) as e eqn:E. assert (L3 : length e = length rows). { subst e. rewrite <- (map_length snd), enumerate_snd. auto. }
    clear E L2. revert rows tl L1 L3 H. induction e as [|[i x] e IH]; intros [|r rows] [|t tl] L1 L3 H; try discriminate; [reflexivity|].
    cbn [combine] in H. inversion H as [|? ? ? ? H1 H2]; subst. cbn [fst snd] in H1. subst r. cbn [mapM as_int bind].
    rewrite (IH rows tl) by (cbn in *; auto; lia). reflexivity. }
  rewrite M. cbn [bind]. f_equal. rewrite ssort_id.
  - clear -L1 L2. assert (Hl : length tl = length (map fst (enumerate l))).
    { rewrite map_length, <- (map_length snd), enumerate_snd. lia. } revert Hl. generalize (map fst (enumerate l)). intros is Hl.
    revert is Hl. clear. induction tl as [|x tl IH]; intros [|i is] Hl; cbn in *; try discriminate; [reflexivity|]. f_equal. apply IH. lia.
  - pose proof (enumerate_seq l) as S0. clear -S0. revert tl. induction S0 as [|[i x] e S0 IH Hf]; intros [|t tl]; cbn [map combine fst]; constructor; try apply IH.
    apply Forall_forall. intros [j y] Hj. apply in_combine_l in Hj. apply in_map_iff in Hj as ((j' & y') & <- & Hj).
    rewrite Forall_forall in Hf. apply (Hf _ Hj).
Qed.

(** ** Rows and the rows that refer to them *)
Lemma F2_impl {A B} (R R' : A -> B -> Prop) l l' : (forall x y, R x y -> R' x y) -> Forall2 R l l' -> Forall2 R' l l'.
Proof. intros H. induction 1; constructor; auto. Qed.
Definition refer_to (t c : str) (a : affinity) (i : Z) (rs : list row) : Prop := Forall (fun r => refers t c a r i) rs.
Lemma rows_for_refer {A} t c a p names (v : A -> list (res cell)) i l rs : In (t, (c, a, p)) links -> (forall x, gives names (v x) c i) ->
  rows_for t names (map v l) rs -> refer_to t c a i rs.
Proof.
  intros L V R. unfold rows_for in R. remember (map v l) as vs eqn:E. revert l E. induction R as [|y r vs rs (k & P) R IH]; intros [|x l] E; try discriminate; constructor.
  - injection E as -> ->. exact (prep_refers _ _ _ _ _ _ _ _ _ L (V x) P).
  - injection E as -> ->. now apply (IH l).
Qed.
Lemma refer_all t c a p i rs : In (t, (c, a, p)) links -> refer_to t c a i rs -> filter (is_ref t c a i) rs = rs.
Proof.
  intros L H. apply ProofsDb.filter_all. intros r Hr. rewrite (is_ref_refers _ _ _ _ _ _ L). unfold refer_to in H. rewrite Forall_forall in H. now apply H.
Qed.
Lemma refer_none t c a p i j rs : In (t, (c, a, p)) links -> 0 <= i -> 0 <= j -> i <> j -> refer_to t c a i rs -> filter (is_ref t c a j) rs = [].
Proof.
  intros L Hi Hj N H. apply ProofsDb.filter_none. intros r Hr. destruct (is_ref t c a j r) eqn:E; [|reflexivity]. exfalso.
  apply (is_ref_refers _ _ _ _ _ _ L) in E. unfold refer_to in H. rewrite Forall_forall in H. specialize (H r Hr). unfold refers in *. rewrite H in E.
  apply ref_cell_inj in E; auto.
Qed.
  Lemma later_none t c a p base i rs : In (t, (c, a, p)) links -> 0 <= i <= base -> Forall (fun r => exists i, base < i /\ refers t c a r i) rs -> filter (is_ref t c a i) rs = [].
  Proof.
    intros L Hi H. apply ProofsDb.filter_none. intros r Hr. destruct (is_ref t c a i r) eqn:E; [|reflexivity]. exfalso.
    apply (is_ref_refers _ _ _ _ _ _ L) in E. rewrite Forall_forall in H. destruct (H r Hr) as (j & Hj & R). unfold refers in *. rewrite R in E.
    apply ref_cell_inj in E; lia.
  Qed.
Section trees.
  Context {A : Type} (P : Z -> A -> row -> Prop) (Q : Z -> A -> list row -> Prop) (t c : str) (a : affinity) (p : str).
  Hypothesis L : In (t, (c, a, p)) links.
  Hypothesis HQ : forall i x fr, Q i x fr -> refer_to t c a i fr.
  Lemma tree_later base l rs frs : tree P Q base l rs frs -> Forall (fun r => exists i, base < i /\ refers t c a r i) frs.
  Proof.
    induction 1 as [|base x l r fr rs frs HP Hq T IH]; [constructor|]. apply Forall_app. split.
    - specialize (HQ _ _ _ Hq). eapply Forall_impl; [|exact HQ]. cbv beta. intros r' Hr. exists (base + 1). split; [lia|auto].
    - eapply Forall_impl; [|exact IH]. cbv beta. intros r' (i & Hi & Hr). exists i. split; [lia|auto].
  Qed.
  Lemma tree_flat base l rs frs : 0 <= base -> tree P Q base l rs frs ->
    Forall2 (fun x r => exists i fr, base < i /\ P i x r /\ Q i x fr /\ filter (is_ref t c a i) frs = fr) l rs.
  Proof.
    intros B T. induction T as [|base x l r fr rs frs HP Hq T IH]; [constructor|]. constructor.
    - exists (base + 1), fr. split; [lia|]. split; [auto|]. split; [auto|]. rewrite filter_app.
      rewrite (refer_all _ _ _ _ _ _ L (HQ _ _ _ Hq)). rewrite (later_none t c a p (base + 1) _ _ L) by (try lia; eapply tree_later; eauto). apply app_nil_r.
    - eapply F2_impl; [|apply IH; lia]. cbv beta. intros y r' (i & fr' & Hi & H1 & H2 & H3). exists i, fr'. split; [lia|]. split; [auto|]. split; [auto|].
      rewrite filter_app. rewrite (refer_none _ _ _ _ (base + 1) i fr L) by (try lia; eauto). exact H3.
  Qed.
  Lemma tree_length base l rs frs : tree P Q base l rs frs -> length rs = length l.
  Proof. induction 1; cbn; auto. Qed.
End trees.

(** an info message with its lists *)
Lemma list_tree_refer message base l lr er : tree (list_saved message) elems_saved base l lr er ->
  refer_to (lit "ulogmessageinfomultiplelist") (lit "MessageId") AText message lr.
Proof. induction 1; constructor; auto. eapply prep_refers; [exact in_list|apply gv_list|exact H]. Qed.
Lemma elems_refer i il er : elems_saved i il er -> refer_to (lit "ulogmessageinfomultiplelistelement") (lit "ListId") AText i er.
Proof. intros H. eapply rows_for_refer; [exact in_elem|apply gv_elem|exact H]. Qed.
Definition list_back (ers : list row) (message lo : Z) (il : Z * list value) (r : row) : Prop :=
  exists i er, lo < i /\ list_saved message i il r /\ elems_saved i il er /\ filter (is_ref (lit "ulogmessageinfomultiplelistelement") (lit "ListId") AText i) ers = er.
Definition multi_back (lrs ers : list row) (pk lo loL : Z) (types : dict str str) (kl : str * list (list value)) (r : row) : Prop :=
  exists i lr, lo < i /\ multi_saved pk i types kl r /\ filter (is_ref (lit "ulogmessageinfomultiplelist") (lit "MessageId") AText i) lrs = lr /\
    Forall2 (list_back ers i loL) (enumerate (snd kl)) lr.
Lemma multis_later pk types base baseL l rs lrs ers : multis_saved pk types base baseL l rs lrs ers ->
  Forall (fun r => exists i, base < i /\ refers (lit "ulogmessageinfomultiplelist") (lit "MessageId") AText r i) lrs /\
  Forall (fun r => exists i, baseL < i /\ refers (lit "ulogmessageinfomultiplelistelement") (lit "ListId") AText r i) ers.
Proof.
  induction 1 as [|base baseL kl l r lr er rs lrs ers HM HL HS [IH1 IH2]]; [split; constructor|]. split; apply Forall_app; split.
  - pose proof (list_tree_refer _ _ _ _ _ HL) as R. eapply Forall_impl; [|exact R]. cbv beta. intros r' Hr. exists (base + 1). split; [lia|auto].
  - eapply Forall_impl; [|exact IH1]. cbv beta. intros r' (i & Hi & Hr). exists i. split; [lia|auto].
  - eapply tree_later; [apply elems_refer|exact HL].
  - eapply Forall_impl; [|exact IH2]. cbv beta. intros r' (i & Hi & Hr). exists i. split; [|auto]. pose proof (lenZ_nonneg lr). lia.
Qed.
Lemma elems_before message base l lr er : tree (list_saved message) elems_saved base l lr er ->
  Forall (fun r => exists i, base < i <= base + lenZ lr /\ refers (lit "ulogmessageinfomultiplelistelement") (lit "ListId") AText r i) er.
Proof.
  induction 1 as [|base x l r fr rs frs HP Hq T IH]; [constructor|]. rewrite lenZ_cons. pose proof (lenZ_nonneg rs). apply Forall_app. split.
  - pose proof (elems_refer _ _ _ Hq) as R. eapply Forall_impl; [|exact R]. cbv beta. intros r' Hr. exists (base + 1). split; [lia|auto].
  - eapply Forall_impl; [|exact IH]. cbv beta. intros r' (i & Hi & Hr). exists i. split; [lia|auto].
Qed.
Lemma before_none hi i rs : 0 <= hi < i -> Forall (fun r => exists j, 0 <= j <= hi /\ refers (lit "ulogmessageinfomultiplelistelement") (lit "ListId") AText r j) rs ->
  filter (is_ref (lit "ulogmessageinfomultiplelistelement") (lit "ListId") AText i) rs = [].
Proof.
  intros Hi H. apply ProofsDb.filter_none. intros r Hr. destruct (is_ref _ _ AText i r) eqn:E; [|reflexivity]. exfalso.
  apply (is_ref_refers _ _ _ _ _ _ in_elem) in E. rewrite Forall_forall in H. destruct (H r Hr) as (j & Hj & R). unfold refers in *. rewrite R in E.
  apply ref_cell_inj in E; lia.
Qed.
Lemma list_tree_ids message base l lr er : tree (list_saved message) elems_saved base l lr er ->
  Forall2 (fun il r => exists i, base < i <= base + lenZ lr /\ list_saved message i il r) l lr.
Proof.
  induction 1 as [|base x l r fr rs frs HP Hq T IH]; [constructor|]. rewrite lenZ_cons. pose proof (lenZ_nonneg rs). constructor.
  - exists (base + 1). split; [lia|auto].
  - eapply F2_impl; [|exact IH]. cbv beta. intros ? ? (i & Hi & Hs). exists i. split; [lia|auto].
Qed.
Lemma list_back_more message base l lr er pre post : 0 <= base -> tree (list_saved message) elems_saved base l lr er ->
  Forall (fun r => exists i, base + lenZ lr < i /\ refers (lit "ulogmessageinfomultiplelistelement") (lit "ListId") AText r i) post ->
  Forall (fun r => exists j, 0 <= j <= base /\ refers (lit "ulogmessageinfomultiplelistelement") (lit "ListId") AText r j) pre ->
  Forall2 (list_back (pre ++ er ++ post) message base) l lr.
Proof.
  intros B T. revert pre. induction T as [|base x l r fr rs frs HP Hq T IH]; intros pre HPost HPre; [constructor|].
  rewrite lenZ_cons in HPost. pose proof (lenZ_nonneg rs). constructor.
  - exists (base + 1), fr. split; [lia|]. split; [auto|]. split; [auto|]. rewrite !filter_app.
    rewrite (before_none base) by (auto; lia). rewrite (refer_all _ _ _ _ _ _ in_elem (elems_refer _ _ _ Hq)).
    rewrite (later_none _ _ _ _ (base + 1) _ _ in_elem) by (first [lia | eapply tree_later; [apply elems_refer|eassumption]]).
    rewrite (later_none _ _ _ _ (base + (1 + lenZ rs)) _ _ in_elem) by (auto; lia). now rewrite !app_nil_r.
  - replace (pre ++ (fr ++ frs) ++ post) with ((pre ++ fr) ++ frs ++ post) by now rewrite !app_assoc.
    eapply F2_impl; [|apply (IH ltac:(lia) (pre ++ fr))].
    + cbv beta. intros y r' (i & er' & Hi & H1 & H2 & H3). exists i, er'. split; [lia|auto].
    + eapply Forall_impl; [|exact HPost]. cbv beta. intros ? (i & Hi & Hr). exists i. split; [lia|auto].
    + apply Forall_app. split.
      * eapply Forall_impl; [|exact HPre]. cbv beta. intros ? (i & Hi & Hr). exists i. split; [lia|auto].
      * pose proof (elems_refer _ _ _ Hq) as R. eapply Forall_impl; [|exact R]. cbv beta. intros r' Hr. exists (base + 1). split; [lia|auto].
Qed.
Lemma multis_flat pk types base baseL l rs lrs ers : multis_saved pk types base baseL l rs lrs ers -> 0 <= base -> 0 <= baseL ->
  forall pre, Forall (fun r => exists j, 0 <= j <= baseL /\ refers (lit "ulogmessageinfomultiplelistelement") (lit "ListId") AText r j) pre ->
  Forall2 (multi_back lrs (pre ++ ers) pk base baseL types) l rs.
Proof.
  induction 1 as [|base baseL kl l r lr er rs lrs ers HM HL HS IH]; intros B BL pre HPre; [constructor|].
  destruct (multis_later _ _ _ _ _ _ _ _ HS) as [La Lb]. pose proof (lenZ_nonneg lr). constructor.
  - exists (base + 1), lr. split; [lia|]. split; [auto|]. split.
    + rewrite filter_app, (refer_all _ _ _ _ _ _ in_list (list_tree_refer _ _ _ _ _ HL)).
      rewrite (later_none _ _ _ _ (base + 1) _ _ in_list) by (auto; lia). apply app_nil_r.
    + now apply list_back_more.
  - rewrite app_assoc. eapply F2_impl; [|apply (IH ltac:(lia) ltac:(lia) (pre ++ er))].
    + cbv beta. intros x r' (i & lr' & Hi & H1 & H2 & H3). exists i, lr'. split; [lia|]. split; [auto|]. split.
      * rewrite filter_app. rewrite (refer_none _ _ _ _ (base + 1) i lr in_list) by (try lia; eapply list_tree_refer; exact HL). exact H2.
      * eapply F2_impl; [|exact H3]. intros y r2 (j & er' & Hj & G1 & G2 & G3). exists j, er'. split; [lia|auto].
    + apply Forall_app. split.
      * eapply Forall_impl; [|exact HPre]. cbv beta. intros ? (i & Hi & Hr). exists i. split; [lia|auto].
      * pose proof (elems_before _ _ _ _ _ HL) as R. eapply Forall_impl; [|exact R]. cbv beta. intros ? (i & Hi & Hr). exists i. split; [lia|auto].
Qed.

(** ** Grouping *)
Section group.
  Context {K V X : Type} (eqb : K -> K -> bool) (eqb_spec : forall a b, reflect (a = b) (eqb a b)) (g : option V -> X -> V).
  Definition gstep (d : dict K V) (kx : K * X) : dict K V := dset eqb (fst kx) (g (dget eqb (fst kx) d) (snd kx)) d.
  Lemma group_one k xs : forall acc v, ~ In k (dkeys acc) ->
    fold_left gstep (map (pair k) xs) (acc ++ [(k, v)]) = acc ++ [(k, fold_left (fun v x => g (Some v) x) xs v)].
  Proof.
    induction xs as [|x xs IH]; intros acc v H; cbn [map fold_left]; [reflexivity|]. unfold gstep at 2. cbn [fst snd].
    rewrite dset_app_r by auto. rewrite dget_app. replace (dget eqb k acc) with (@None V) by (symmetry; now apply dget_None).
    cbn [dget dset]. rewrite eqb_refl' by auto. now apply IH.
  Qed.
  Lemma group_all (l : list (K * list X)) (h : K * list X -> V) : forall acc, NoDup (dkeys acc ++ dkeys l) ->
    Forall (fun kxs => match snd kxs with [] => False | x :: xs => fold_left (fun v x => g (Some v) x) xs (g None x) = h kxs end) l ->
    fold_left gstep (flat_map (fun kxs => map (pair (fst kxs)) (snd kxs)) l) acc = acc ++ map (fun kxs => (fst kxs, h kxs)) l.
  Proof.
    induction l as [|[k xs] l IH]; intros acc ND H; cbn [flat_map map fold_left]; [now rewrite app_nil_r|].
    inversion H as [|? ? H1 H2]; subst. cbn [snd] in H1. destruct xs as [|x xs]; [destruct H1|].
    assert (Hk : ~ In k (dkeys acc)).
    { intros Hk. cbn in ND. apply NoDup_remove_2 in ND. apply ND. apply in_app_iff. now left. }
    rewrite fold_left_app. cbn [fst snd map fold_left]. unfold gstep at 3. cbn [fst snd].
    replace (dget eqb k acc) with (@None V) by (symmetry; now apply dget_None). rewrite dset_new by auto. rewrite group_one by auto. rewrite H1.
    rewrite IH; [now rewrite <- app_assoc| |auto].
    unfold dkeys in *. rewrite map_app. cbn [map fst]. rewrite <- app_assoc. exact ND.
  Qed.
End group.
