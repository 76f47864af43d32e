(** Logs that have been cut: the contents of the complete messages are an initial part of the log. *)
From Coq Require Import Permutation Sorted.
From Verif Require Import Base Dict Utf8 PyStr PyFloat Struct PySort ModelTypes ModelRead ModelWrite
  Spec SpecSection SpecMsg SpecLog SpecWrite SpecCut ProofsRead ProofsMsg ProofsFile ProofsInv ProofsTrace ProofsChange
  ProofsSection ProofsExpand ProofsData ProofsWhole ProofsFields ProofsLoad ProofsCut ProofsProps ProofsFilter ProofsDefaults ProofsLog ProofsEq
  ProofsWrite ProofsRound ProofsBack ProofsSame ProofsCopy.
Ltac Zify.zify_post_hook ::= Z.div_mod_to_equations.

Lemma prefix_app {A} (a b : list A) : prefix a (a ++ b).
Proof. exists b. reflexivity. Qed.
Lemma prefix_map {A B} (f : A -> B) a b : prefix a b -> prefix (map f a) (map f b).
Proof. intros (r & ->). exists (map f r). apply map_app. Qed.
Lemma collect_app {X} (g : list event -> event -> list X) a : forall pre b,
  collect g pre (a ++ b) = collect g pre a ++ collect g (pre ++ a) b.
Proof.
  induction a as [|e a IH]; intros pre b; cbn [app collect]; [now rewrite app_nil_r|]. rewrite IH, <- !app_assoc. reflexivity.
Qed.

(** ** Subscriptions *)
Lemma current_app id a b : current id (a ++ b) = fold_left (cur_step id) b (current id a).
Proof. apply fold_left_app. Qed.
Lemma current_add id ms : forall c, current id ms = Some c -> In id (flat_map add_of ms).
Proof.
  induction ms as [|m ms IH] using rev_ind; intros c E; [discriminate|]. rewrite current_app in E. cbn [fold_left] in E.
  rewrite flat_map_app. apply in_or_app. destruct m; cbn [cur_step] in E; try (left; eapply IH; exact E).
  - destruct (Z.eqb_spec id0 id) as [->|N]; [right; left; reflexivity|left; eapply IH; exact E].
  - destruct (id0 =? id); [|left; eapply IH; exact E]. destruct (current id ms) as [c'|] eqn:E'; [|discriminate]. left. eapply IH. reflexivity.
Qed.
Lemma current_more id ms : forall c, ~ In id (flat_map add_of ms) ->
  exists more, fold_left (cur_step id) ms (Some c) = Some (fst c, snd c ++ more).
Proof.
  induction ms as [|m ms IH]; intros c H; cbn [fold_left].
  - exists []. rewrite app_nil_r. destruct c. reflexivity.
  - assert (H' : ~ In id (flat_map add_of ms)) by (intros X; apply H; cbn [flat_map]; apply in_or_app; auto).
    destruct m; cbn [cur_step]; try (apply IH; exact H').
    + destruct (Z.eqb_spec id0 id) as [->|N]; [destruct H; left; reflexivity|apply IH; exact H'].
    + destruct (id0 =? id); [|apply IH; exact H']. cbn [option_map]. destruct (IH (fst c, snd c ++ [record]) H') as (more & E).
      exists (record :: more). rewrite E. cbn [fst snd]. rewrite <- app_assoc. reflexivity.
Qed.
Lemma current_part id a b c : NoDup (flat_map add_of (a ++ b)) -> current id a = Some c ->
  exists more, current id (a ++ b) = Some (fst c, snd c ++ more).
Proof.
  intros N E. rewrite current_app, E. apply current_more. intros H. rewrite flat_map_app in N.
  pose proof (current_add _ _ _ E) as H0. apply in_split in H0 as (l1 & l2 & E1). rewrite E1 in N. rewrite <- app_assoc in N. cbn [app] in N.
  apply NoDup_remove_2 in N. apply N. apply in_or_app. right. apply in_or_app. right. exact H.
Qed.

(** ** Prefixes of typed logs *)
Lemma typed_part f v t defs a b : typed_log f v t defs (a ++ b) -> a <> [] ->
  typed_log (file_header v t ++ frames (map wire defs) ++ frames (map wire a)) v t defs a.
Proof.
  intros [Hf Hh Hs Hd [D1 D2] St [C1 C2]] Ha. constructor; auto.
  - rewrite Hf, map_app, frames_app, !lenZ_app in Hs. rewrite !lenZ_app. pose proof (lenZ_nonneg (frames (map wire b))). lia.
  - apply Forall_app in D1, D2. tauto.
  - destruct a; [congruence|exact St].
  - split.
    + intros multi id name H. apply (C1 multi id name). apply in_or_app. auto.
    + intros pre id r post E. apply (C2 pre id r (post ++ b)). rewrite E, <- app_assoc. reflexivity.
Qed.

Theorem parts cf v t defs a b w u : NoDup (flat_map add_of (a ++ b)) ->
  Forall msg_ok defs -> Forall msg_ok (a ++ b) ->
  read_as cf v t (msgs (map wire defs)) [msgs (map wire a)] w -> contents (formats_in defs) v t defs a w ->
  read_as cf v t (msgs (map wire defs)) [msgs (map wire (a ++ b))] u -> contents (formats_in defs) v t defs (a ++ b) u ->
  part_of w u.
Proof.
  intros Nd Od Oab Rw Cw Ru Cu.
  assert (Em : msgs (map wire (a ++ b)) = msgs (map wire a) ++ msgs (map wire b)) by (unfold msgs; rewrite !map_app; reflexivity).
  rewrite Em in Ru.
  destruct (read_as_sections _ _ _ _ _ _ Rw) as (_ & Lw & Dw & Gw & _).
  destruct (read_as_sections _ _ _ _ _ _ Ru) as (_ & Lu & Du & Gu & _).
  assert (Ef : u_formats w = u_formats u) by (rewrite (ct_formats _ _ _ _ _ _ Cw), (ct_formats _ _ _ _ _ _ Cu); reflexivity).
  constructor.
  - destruct (ct_version _ _ _ _ _ _ Cw) as (-> & ->), (ct_version _ _ _ _ _ _ Cu) as (-> & ->). split; [reflexivity|]. split; [reflexivity|].
    rewrite Lw, Lu, Ef. unfold last_over. cbn [fold_left]. unfold last_stamp. rewrite collect_app, fold_left_app. apply fold_max_ge.
  - exact Ef.
  - rewrite (read_as_params _ _ _ _ _ _ Rw), (read_as_params _ _ _ _ _ _ Ru). reflexivity.
  - destruct (read_as_flags _ _ _ _ _ _ Rw) as (x & Ex & -> & -> & _), (read_as_flags _ _ _ _ _ _ Ru) as (y & Ey & -> & -> & _).
    rewrite Ex in Ey. injection Ey as <-. split; reflexivity.
  - rewrite (read_as_info _ _ _ _ _ _ Rw), (read_as_info _ _ _ _ _ _ Ru). cbn [concat]. rewrite !app_nil_r, !app_assoc. unfold infos.
    rewrite (flat_map_app _ (_ ++ _) (msgs (map wire b))), fold_left_app.
    generalize (fold_left ins_info (flat_map (of_type 73 (parse_info (cf_ign cf))) (msgs (map wire defs) ++ msgs (map wire a))) []). intros d k Hk.
    revert d Hk. induction (flat_map (of_type 73 (parse_info (cf_ign cf))) (msgs (map wire b))) as [|m l IH]; intros d Hk; [exact Hk|].
    cbn [fold_left]. apply IH. unfold ins_info. rewrite (dkeys_dset str_eqb str_eqb_spec). destruct (dmem _ _ _); [exact Hk|]. apply in_or_app. left. exact Hk.
  - rewrite (read_as_logged _ _ _ _ _ _ Rw), (read_as_logged _ _ _ _ _ _ Ru). cbn [concat]. rewrite !app_nil_r. unfold logs. rewrite flat_map_app. apply prefix_app.
  - intros g. unfold tags. rewrite (ct_tagged _ _ _ _ _ _ Cw g), (ct_tagged _ _ _ _ _ _ Cu g). rewrite flat_map_app, filter_app.
    destruct (filter (fun m => tg_tag m =? g) (flat_map tag_of a)) as [|x l]; [eexists; reflexivity|]. cbn [app]. eexists. reflexivity.
  - rewrite Dw, Du, Ef. cbn [over_sections]. rewrite !app_nil_r, collect_app. apply prefix_app.
  - rewrite Gw, Gu, Ef. cbn [over_sections]. rewrite !app_nil_r, collect_app. apply prefix_app.
  - intros d Hd. destruct (ct_datasets _ _ _ _ _ _ Cw) as (_ & A & _). destruct (A d Hd) as (multi & name & recs & fields & C & R & T & I).
    destruct (current_part _ _ _ _ Nd C) as (more & C'). cbn [fst snd] in C'.
    destruct (ct_datasets _ _ _ _ _ _ Cu) as (_ & A' & B'). destruct (B' _ _ _ _ C') as (d' & Hd' & Ei); [destruct recs; [congruence|discriminate]|].
    exists d'. split; [exact Hd'|]. destruct (A' d' Hd') as (multi' & name' & recs' & fields' & C'' & R' & T' & I').
    rewrite Ei in *. rewrite C' in C''. injection C'' as <- <- <-. rewrite (topic_fun _ _ _ _ T' T) in I'.
    destruct I as (I1 & I2 & I3 & I4 & I5 & I6), I' as (J1 & J2 & J3 & J4 & J5 & J6).
    split; [congruence|]. split; [congruence|]. split; [congruence|]. split; [congruence|].
    intros fd Hfd. rewrite I4 in Hfd. apply In_nth_error in Hfd as (i & Hi). eexists. eexists. split; [exact (I6 _ _ Hi)|]. split; [exact (J6 _ _ Hi)|].
    split; [reflexivity|]. cbn [c_raw]. apply prefix_map, prefix_app.
Qed.
Lemma no_defs l ign : Forall msg_ok l -> forallb (fun m => negb (defines m)) l = true ->
  infos ign (msgs (map wire l)) = [] /\ multis ign (msgs (map wire l)) = [] /\ pdefs ign (msgs (map wire l)) = [].
Proof.
  intros O H. rewrite forallb_forall in H.
  assert (Z : forall {B} (g : msg -> list B), (forall m, defines m = false -> g m = []) -> flat_map g l = []).
  { intros B g Hg. clear O. induction l as [|m r IH]; [reflexivity|]. cbn [flat_map]. rewrite Hg, IH; [reflexivity| |].
    - intros x Hx. apply H. right. exact Hx.
    - specialize (H m (or_introl eq_refl)). destruct (defines m); [discriminate|reflexivity]. }
  pose proof (infos_wire ign l O) as A. rewrite (Z _ info_of) in A by (intros m; destruct m; cbn; congruence).
  pose proof (multis_wire ign l O) as B. rewrite (Z _ multi_of) in B by (intros m; destruct m; cbn; congruence).
  pose proof (pdefs_wire ign l O) as C. rewrite (Z _ default_of) in C by (intros m; destruct m; cbn; congruence).
  inversion A. inversion B. inversion C. auto.
Qed.
Theorem parts_defs cf v t defs a b w u : Forall msg_ok (a ++ b) -> forallb (fun m => negb (defines m)) b = true ->
  read_as cf v t (msgs (map wire defs)) [msgs (map wire a)] w ->
  read_as cf v t (msgs (map wire defs)) [msgs (map wire (a ++ b))] u -> all_definitions w u.
Proof.
  intros O H Rw Ru. apply Forall_app in O as (_ & O). destruct (no_defs b (cf_ign cf) O H) as (A & B & C).
  assert (Em : msgs (map wire (a ++ b)) = msgs (map wire a) ++ msgs (map wire b)) by (unfold msgs; rewrite !map_app; reflexivity).
  rewrite Em in Ru.
  constructor; [split|split|];
  rewrite ?(read_as_info _ _ _ _ _ _ Rw), ?(read_as_info _ _ _ _ _ _ Ru), ?(read_as_infot _ _ _ _ _ _ Rw), ?(read_as_infot _ _ _ _ _ _ Ru),
    ?(read_as_multi _ _ _ _ _ _ Rw), ?(read_as_multi _ _ _ _ _ _ Ru), ?(read_as_multit_fold _ _ _ _ _ _ Rw), ?(read_as_multit_fold _ _ _ _ _ _ Ru),
    ?(read_as_defaults _ _ _ _ _ _ Rw), ?(read_as_defaults _ _ _ _ _ _ Ru);
  unfold infos, multis, pdefs in *; cbn [concat]; rewrite !app_nil_r, !flat_map_app, ?A, ?B, ?C, ?app_nil_r; reflexivity.
Qed.
(** one depth for all parts of a log *)
Definition loads_as (depth : nat) (f : bytes) (v t : Z) (defs data : list msg) : Prop :=
  forall cf, (depth <= cf_depth cf)%nat -> cf_hdr cf = false -> (forall n, cf_filter cf n = true) ->
  exists u, (forall r, produces cf f r <-> r = Ok u) /\ u_corrupt u = false /\
    read_as cf v t (msgs (map wire defs)) [msgs (map wire data)] u /\ contents (formats_in defs) v t defs data u.
Lemma typed_loads_as f v t defs data : typed_log f v t defs data -> exists depth, loads_as depth f v t defs data.
Proof.
  intros Ht. destruct (typed_reads _ _ _ _ _ Ht) as (depth & H). exists depth. intros cf H1 H2 H3.
  destruct (H cf H1 H2 H3) as (u & U1 & U2 & U3 & U4). exists u. split; [exact U1|]. split; [exact U2|]. split; [exact U4|].
  destruct Ht. apply (contents_read cf); tauto.
Qed.
Lemma parts_depth f v t defs data : typed_log f v t defs data ->
  exists depth, forall a b, data = a ++ b -> a <> [] ->
    loads_as depth (file_header v t ++ frames (map wire defs) ++ frames (map wire a)) v t defs a.
Proof.
  intros Ht.
  assert (G : forall n, exists depth, forall a b, data = a ++ b -> a <> [] -> (length a <= n)%nat ->
    loads_as depth (file_header v t ++ frames (map wire defs) ++ frames (map wire a)) v t defs a).
  { induction n as [|n (d1 & IH)].
    - exists O. intros a b _ Ha Hl. destruct a; [congruence|cbn in Hl; lia].
    - destruct (Nat.le_gt_cases (length data) n) as [L|L].
      + exists d1. intros a b E Ha Hl. apply (IH a b E Ha). rewrite E, app_length in L. lia.
      + set (a0 := firstn (S n) data). assert (E0 : data = a0 ++ skipn (S n) data) by (symmetry; apply firstn_skipn).
        assert (L0 : length a0 = S n) by (unfold a0; rewrite firstn_length; lia).
        assert (N0 : a0 <> []) by (intros X; rewrite X in L0; discriminate).
        rewrite E0 in Ht. destruct (typed_loads_as _ _ _ _ _ (typed_part _ _ _ _ _ _ Ht N0)) as (d2 & H2).
        exists (Nat.max d1 d2). intros a b E Ha Hl cf Hc. destruct (Nat.le_gt_cases (length a) n) as [La|La].
        * apply (IH a b E Ha La). lia.
        * assert (a = a0) as ->. { assert (La2 : length a = S n) by lia. unfold a0. rewrite E, firstn_app, La2, Nat.sub_diag, <- La2, firstn_all. cbn [firstn]. symmetry. apply app_nil_r. }
          apply H2. lia. }
  destruct (G (length data)) as (depth & H). exists depth. intros a b E Ha. apply (H a b E Ha). rewrite E, app_length. lia.
Qed.
(** a log that is cut after its first data message *)
Theorem cut_part f v t defs data : typed_log f v t defs data -> NoDup (flat_map add_of data) ->
  exists depth, forall cf, (depth <= cf_depth cf)%nat -> cf_hdr cf = false -> (forall n, cf_filter cf n = true) ->
  exists u, (forall r, produces cf f r <-> r = Ok u) /\ contents (formats_in defs) v t defs data u /\
  forall k, lenZ (file_header v t ++ frames (map wire defs) ++ frames (map wire (firstn 1 data))) <= k <= lenZ f ->
  exists w, (forall r, produces cf (takeZ k f) r <-> r = Ok w) /\ u_corrupt w = false /\ part_of w u /\
    (exists a b, data = a ++ b /\ contents (formats_in defs) v t defs a w /\
       match b with [] => k = lenZ f | x :: _ => k < lenZ (file_header v t ++ frames (map wire defs) ++ frames (map wire (a ++ [x]))) end) /\
    (forallb (fun m => negb (defines m)) data = true -> all_definitions w u).
Proof.
  intros Ht Nd. destruct (parts_depth _ _ _ _ _ Ht) as (depth & H). destruct (typed_loads_as _ _ _ _ _ Ht) as (d0 & H0).
  exists (Nat.max d0 depth). intros cf C1 C2 C3.
  pose proof (typed_framed _ _ _ _ _ Ht) as Hw. pose proof Ht as [Ef Hh Hs (Od & Idf) (Oa & _) _ _].
  destruct (H0 cf ltac:(lia) C2 C3) as (u & U1 & U2 & U3 & U4). exists u. split; [exact U1|]. split; [exact U4|]. intros k Hk.
  assert (Hall : k = lenZ f -> exists w, (forall r, produces cf (takeZ k f) r <-> r = Ok w) /\ u_corrupt w = false /\ part_of w u /\
    (exists a b, data = a ++ b /\ contents (formats_in defs) v t defs a w /\
       match b with [] => k = lenZ f | x :: _ => k < lenZ (file_header v t ++ frames (map wire defs) ++ frames (map wire (a ++ [x]))) end) /\
    (forallb (fun m => negb (defines m)) data = true -> all_definitions w u)).
  { intros ->. exists u. rewrite (takeZ_all (lenZ f) f) by lia. split; [exact U1|]. split; [exact U2|].
    split. { apply (parts cf v t defs data []); rewrite ?app_nil_r; assumption. }
    split. { exists data, []. rewrite app_nil_r. auto. }
    intros _. apply (parts_defs cf v t defs data []); rewrite ?app_nil_r; auto. }
  destruct data as [|m data].
  { apply Hall. rewrite Ef in Hk |- *. cbn [firstn] in Hk. lia. }
  destruct (cut_delivery cf f v t (map wire defs) (map wire (m :: data)) k Ef Hw (typed_not_appended _ Od Idf) C2) as (done & rest & E & L1 & L2 & P & _).
  - cbn [map]. cbn [map firstn] in Hk. rewrite frames_cons in Hk. cbn [frames map concat] in Hk. rewrite app_nil_r in Hk. lia.
  - lia.
  - apply map_eq_app in E as (a & b & Eab & <- & <-).
    assert (Na : a <> []).
    { intros ->. cbn [map app] in *. destruct b as [|m' b]; [discriminate|]. injection Eab as <- <-. cbn [map firstn] in *. cbn [app] in L2. lia. }
    destruct (H a b Eab Na cf ltac:(lia) C2 C3) as (w & W1 & W2 & W3 & W4).
    exists w. split; [intros r; rewrite P; apply W1|]. split; [exact W2|].
    rewrite Eab in *. split; [apply (parts cf v t defs a b); assumption|].
    split. { exists a, b. split; [reflexivity|]. split; [exact W4|]. destruct b as [|x b]; [exact L2|]. cbn [map] in L2. rewrite map_app. exact L2. }
    intros F. rewrite forallb_app in F. apply andb_true_iff in F as (_ & F). apply (parts_defs cf v t defs a b); assumption.
Qed.

(** ** Cuts inside the definition section *)
Lemma run_def_bare cf defs : forall u u1, run_def cf defs u = Ok u1 -> bare u -> bare u1.
Proof.
  induction defs as [|[ty p] defs IH]; intros u u1 H B; [injection H as <-; exact B|]. cbn [run_def] in H.
  destruct (def_effect cf ty p u) as [[u'|e]|] eqn:E.
  - apply (IH _ _ H). exact (def_effect_bare _ _ _ _ _ E B).
  - destruct e; try discriminate. apply (IH _ _ H). exact B.
  - apply (IH _ _ H B).
Qed.
Lemma finalize_bare u : bare u -> finalize u = Ok u.
Proof. intros (S1 & D1 & _). unfold finalize. rewrite S1, D1. destruct u; cbn in *; subst. reflexivity. Qed.
Lemma run_def_app cf a : forall b u, run_def cf (a ++ b) u = let* u' := run_def cf a u in run_def cf b u'.
Proof.
  induction a as [|[ty p] a IH]; intros b u; [reflexivity|]. cbn [app run_def].
  destruct (def_effect cf ty p u) as [[u'|e]|]; [apply IH| |apply IH]. destruct e; try reflexivity. apply IH.
Qed.
Lemma cut_payload_appended ty p n defs : not_appended (defs ++ [(ty, p)]) -> not_appended (defs ++ [(ty, takeZ n p)]).
Proof.
  unfold not_appended. rewrite !Forall_app. intros (A & B). split; [exact A|]. inversion B as [|? ? Hb _]; subst. constructor; [|constructor].
  cbn [fst snd] in *. intros E. specialize (Hb E). rewrite takeZ_firstn. destruct (Nat.lt_ge_cases 8 (Z.to_nat n)) as [L|L].
  - rewrite <- (firstn_skipn (Z.to_nat n) p) in Hb. destruct (Nat.lt_ge_cases 8 (length (firstn (Z.to_nat n) p))) as [L'|L'].
    + rewrite app_nth1 in Hb by exact L'. exact Hb.
    + now rewrite nth_overflow by exact L'.
  - rewrite nth_overflow; [reflexivity|]. rewrite firstn_length. lia.
Qed.
Theorem cut_definition cf v t defs ty p j : header_fits v t -> Forall plain_def (defs ++ [(ty, p)]) -> not_appended (defs ++ [(ty, p)]) ->
  cf_hdr cf = false -> 0 <= j < 3 + lenZ p ->
  lenZ (file_header v t ++ frames (defs ++ [(ty, p)])) <= BIG ->
  forall r, produces cf (takeZ (lenZ (file_header v t ++ frames defs) + j) (file_header v t ++ frames (defs ++ [(ty, p)]))) r <->
    r = match run_def cf defs (after_header v t) with
        | Err e => Err e
        | Ok u => if j =? 0 then Ok u else if j <? 3 then Err StructError else run_def cf [(ty, takeZ (j - 3) p)] u
        end.
Proof.
  intros Hh Hpl Hna Hhdr Hj Hbig. apply produces_iff. pose proof Hpl as Hpl'. apply Forall_app in Hpl' as (Hd & Hm). inversion Hm as [|? ? Hm1 _]; subst.
  set (f := takeZ _ _).
  assert (Ef : f = file_header v t ++ frames defs ++ takeZ j (frame ty p)).
  { unfold f. rewrite frames_app. cbn [frames map concat fst snd]. rewrite app_nil_r, (app_assoc (file_header v t)).
    rewrite takeZ_app_ge by lia. rewrite <- app_assoc. do 3 f_equal. lia. }
  clearbody f.
  destruct (run_def cf defs (after_header v t)) as [u1|e] eqn:E1.
  2:{ exact (load_def_raise cf v t defs e _ f Ef Hh Hd E1). }
  assert (Hlen : lenZ f <= BIG).
  { rewrite Ef. rewrite frames_app in Hbig. cbn [frames map concat fst snd] in Hbig. rewrite app_nil_r in Hbig. rewrite !lenZ_app in *.
    pose proof (lenZ_takeZ_le j (frame ty p)). lia. }
  assert (Hok : bytes_ok f).
  { rewrite Ef. apply Forall_app. split; [now apply header_bytes|]. apply Forall_app. split.
    - apply bytes_ok_frames. eapply Forall_impl; [|exact Hd]. intros m [Hm' _]. exact Hm'.
    - apply Forall_takeZ. pose proof (bytes_ok_frames [(ty, p)]) as Hb. cbn [frames map concat fst snd] in Hb. rewrite app_nil_r in Hb. apply Hb.
      constructor; [exact (proj1 Hm1)|constructor]. }
  assert (Hpos : dropZ (16 + lenZ (frames defs)) f = takeZ j (frame ty p)).
  { rewrite Ef. apply dropZ_file. }
  pose proof (lenZ_nonneg (frames defs)) as Hn.
  assert (Hlf : lenZ f = 16 + lenZ (frames defs) + j).
  { rewrite Ef, !lenZ_app, lenZ_file_header, lenZ_takeZ, lenZ_frame by lia. lia. }
  (* the rest of the file is empty *)
  assert (Hend : forall u2, run_def cf [(ty, takeZ (j - 3) p)] u1 = Ok u2 \/ u2 = u1 -> exists n, forall k,
    read_sections (n + k) cf f (if has_appended u2 then u_offsets u2 else []) (lenZ f) u2 = Some (Ok u2)).
  { intros u2 H2.
    assert (N2 : no_append u2).
    { destruct H2 as [H2 | ->].
      - apply (not_appended_ok cf (defs ++ [(ty, takeZ (j - 3) p)]) v t); [now apply cut_payload_appended|]. rewrite run_def_app, E1. exact H2.
      - apply (not_appended_ok cf defs v t); [|exact E1]. apply Forall_app in Hna. tauto. }
    assert (B2 : bare u2).
    { assert (B1 : bare u1) by (apply (run_def_bare _ _ _ _ E1); repeat split).
      destruct H2 as [H2 | ->]; [|exact B1]. exact (run_def_bare _ _ _ _ H2 B1). }
    destruct (read_sections_ok cf f [] (lenZ f) u2 [] []) as (n & Hrs); auto.
    - pose proof (lenZ_nonneg f). lia.
    - rewrite dropZ_all by lia. reflexivity.
    - now left.
    - constructor.
    - exists n. intros k. specialize (Hrs k). cbn [section_ends map app] in Hrs.
      assert ((if has_appended u2 then u_offsets u2 else []) = []) as ->.
      { destruct N2 as [-> | ->]; [reflexivity|destruct (has_appended u2); reflexivity]. }
      rewrite Hrs. cbn [run_sections run_data end_data]. rewrite (finalize_bare _ B2). reflexivity. }
  assert (Hgo : forall u2, (run_def cf [(ty, takeZ (j - 3) p)] u1 = Ok u2 \/ u2 = u1) ->
      (forall k, def_loop (S (S k)) cf f (16 + lenZ (frames defs)) u1 = Some (Ok (lenZ f, u2))) -> produces cf f (Ok u2)).
  { intros u2 H2 Hl. destruct (Hend u2 H2) as (n & Hr). exists (length defs + S (S n))%nat. unfold load, load_at. rewrite Ef at 1. rewrite read_header_ok by exact Hh.
    fold (after_header v t). change (0 + 16) with 16. rewrite (def_loop_frames cf f defs (S (S n)) 16 _ (takeZ j (frame ty p))).
    2: lia. 2:{ rewrite Ef. apply dropZ_app_exact. now rewrite lenZ_file_header. } 2: exact Hd.
    rewrite E1, Hl, Hhdr. replace (length defs + S (S n))%nat with (n + (length defs + 2))%nat by lia. apply Hr. }
  assert (Hstop : forall u k, def_loop (S k) cf f (lenZ f) u = Some (Ok (lenZ f, u))).
  { intros u k. cbn [def_loop]. rewrite def_step_end by (apply dropZ_all; lia). reflexivity. }
  destruct (Z.eqb_spec j 0) as [->|J0].
  { apply Hgo; [now right|]. intros k. replace (16 + lenZ (frames defs)) with (lenZ f) by lia. apply Hstop. }
  destruct (Z.ltb_spec j 3) as [J3|J3].
  { apply (cut_header_raises cf v t defs u1 (takeZ j (frame ty p)) f); auto. rewrite lenZ_takeZ, lenZ_frame by lia. lia. }
  assert (Hcut : takeZ j (frame ty p) = [lenZ p mod 256; lenZ p / 256; ty] ++ takeZ (j - 3) p).
  { unfold frame. rewrite takeZ_app_ge by (cbn; lia). f_equal. }
  assert (Hstep : def_step cf f (16 + lenZ (frames defs)) u1 = match def_effect cf ty (takeZ (j - 3) p) u1 with
    | None => DNext (lenZ f) u1 | Some (Ok u') => DNext (lenZ f) u'
    | Some (Err IndexError) => DNext (lenZ f) (set_corrupt true u1) | Some (Err e) => DRaise e end).
  { destruct Hm1 as [(_ & _ & Hlp) (Hne & Hk)]. cbn [fst snd] in *.
    unfold def_step. assert (rd f (16 + lenZ (frames defs)) 3 = [lenZ p mod 256; lenZ p / 256; ty]) as ->.
    { unfold rd. rewrite Hpos, Hcut. apply takeZ_app_exact. reflexivity. }
    cbv iota beta zeta. rewrite (le2 (lenZ p)) by lia.
    assert (rd f (16 + lenZ (frames defs) + 3) (lenZ p) = takeZ (j - 3) p) as ->.
    { rewrite rd_dropZ by lia. rewrite Hpos, Hcut, dropZ_app_exact by reflexivity. apply takeZ_all. apply lenZ_takeZ_le. }
    assert (16 + lenZ (frames defs) + 3 + lenZ (takeZ (j - 3) p) = lenZ f) as -> by (rewrite lenZ_takeZ by lia; lia).
    destruct (def_effect cf ty (takeZ (j - 3) p) u1) as [[u'|e]|] eqn:E; try reflexivity.
    destruct Hk as [Hk|(H0 & H1)]; [destruct (def_effect_known cf ty (takeZ (j - 3) p) u1 Hk); congruence|].
    assert ((ty =? T_ADD) || (ty =? T_LOG) || (ty =? T_LOGT) = false) as ->.
    { unfold T_ADD, T_LOG, T_LOGT. unfold end_types in Hne. cbn [In] in Hne. lia. }
    unfold packet_corrupt. destruct (Z.eqb_spec ty 0), (Z.eqb_spec (lenZ p) 0), (Z.ltb_spec 10000 (lenZ p)); try lia. reflexivity. }
  pose proof Hgo as Hgo'. cbn [run_def] in *.
  destruct (def_effect cf ty (takeZ (j - 3) p) u1) as [[u'|e]|] eqn:E.
  - apply Hgo; [now left|]. intros k. change (def_loop (S (S k)) cf f (16 + lenZ (frames defs)) u1) with
      (match def_step cf f (16 + lenZ (frames defs)) u1 with DNext p u' => def_loop (S k) cf f p u' | DStop p u' => Some (Ok (p, u')) | DRaise e => Some (Err e) end).
    rewrite Hstep. apply Hstop.
  - assert (D : e = IndexError \/ e <> IndexError) by (destruct e; auto; right; discriminate). destruct D as [-> | D].
    + apply Hgo; [now left|]. intros k. change (def_loop (S (S k)) cf f (16 + lenZ (frames defs)) u1) with
      (match def_step cf f (16 + lenZ (frames defs)) u1 with DNext p u' => def_loop (S k) cf f p u' | DStop p u' => Some (Ok (p, u')) | DRaise e => Some (Err e) end).
      rewrite Hstep. apply Hstop.
    + assert (match e with IndexError => Ok (set_corrupt true u1) | _ => Err e end = Err e) as -> by (destruct e; congruence).
      exists (length defs + 1)%nat. unfold load, load_at. rewrite Ef at 1. rewrite read_header_ok by exact Hh. fold (after_header v t). change (0 + 16) with 16.
      rewrite (def_loop_frames cf f defs 1 16 _ (takeZ j (frame ty p))).
      2: lia. 2:{ rewrite Ef. apply dropZ_app_exact. now rewrite lenZ_file_header. } 2: exact Hd.
      rewrite E1. cbn [def_loop]. rewrite Hstep. destruct e; try reflexivity. congruence.
  - apply Hgo; [now left|]. intros k. change (def_loop (S (S k)) cf f (16 + lenZ (frames defs)) u1) with
      (match def_step cf f (16 + lenZ (frames defs)) u1 with DNext p u' => def_loop (S k) cf f p u' | DStop p u' => Some (Ok (p, u')) | DRaise e => Some (Err e) end).
    rewrite Hstep. apply Hstop.
Qed.

(** ** Written logs *)
Lemma add_of_adds l : flat_map add_of (map m_add l) = map ds_id l.
Proof. induction l as [|d l IH]; [reflexivity|]. cbn [map flat_map]. rewrite IH. reflexivity. Qed.
Theorem written_cut u f : fits_format u -> write u = Ok f -> lenZ f <= BIG ->
  exists defs data depth, f = file_header (u_version u) (u_start u) ++ frames defs ++ frames data /\
    Forall plain_def defs /\ starts_data data /\
  forall cf, (depth <= cf_depth cf)%nat -> cf_hdr cf = false -> (forall n, cf_filter cf n = true) ->
  exists u', (forall r, produces cf f r <-> r = Ok u') /\ copy_of u u' /\
  forall k, lenZ (file_header (u_version u) (u_start u) ++ frames defs ++ frames (firstn 1 data)) <= k <= lenZ f ->
  exists w, (forall r, produces cf (takeZ k f) r <-> r = Ok w) /\ u_corrupt w = false /\ part_of w u' /\ all_definitions w u'.
Proof.
  intros Hf Hw Hl. destruct (write_ok u Hf) as (defs & pc & mi & mm & mp & mq & Wr & E).
  set (data := map m_add (by_id u) ++ map snd (sorted_items u pc)) in *.
  assert (Ef : f = file_header (u_version u) (u_start u) ++ frames (map wire defs) ++ frames (map wire data)).
  { rewrite E in Hw. now apply (f_equal (fun r => match r with Ok x => x | Err _ => f end)) in Hw. }
  pose proof (typed_written u defs pc mi mm mp mq Hf Wr f Ef Hl) as Ht. fold data in Ht.
  destruct (round_trip u Hf) as (f' & E' & Hrt).
  assert (f' = f) as ->. { rewrite Hw in E'. now apply (f_equal (fun r => match r with Ok x => x | Err _ => f end)) in E'. }
  destruct (Hrt Hl) as (d2 & Hc).
  assert (Hq : Forall (fun m => defines m = false /\ add_of m = []) (map snd (sorted_items u pc))).
  { apply Forall_forall. intros m Hm. apply in_map_iff in Hm as (p & <- & Hp).
    destruct (item_kinds u pc p Hp) as [H1|[H1|[H1|[H1|H1]]]].
    - destruct (p_data_in u p H1) as (ds & i & _ & _ & ->). split; reflexivity.
    - apply in_map_iff in H1 as (x & <- & _). split; reflexivity.
    - apply in_map_iff in H1 as (x & <- & _). split; reflexivity.
    - apply in_map_iff in H1 as (x & <- & _). split; reflexivity.
    - destruct (Forall2_in_r _ _ _ _ (wr_changed _ _ _ _ _ _ _ Wr) H1) as (c & _ & _ & raw & -> & _). split; reflexivity. }
  assert (Nd : NoDup (flat_map add_of data)).
  { unfold data. rewrite flat_map_app, add_of_adds.
    assert (flat_map add_of (map snd (sorted_items u pc)) = []) as ->.
    { clear -Hq. induction Hq as [|m l [_ Hm] _ IH]; [reflexivity|]. cbn [flat_map]. rewrite Hm. exact IH. }
    rewrite app_nil_r. exact (ids_by u Hf). }
  assert (Hnd : forallb (fun m => negb (defines m)) data = true).
  { unfold data. rewrite forallb_app. apply andb_true_iff. split; apply forallb_forall; intros m Hm.
    - apply in_map_iff in Hm as (x & <- & _). reflexivity.
    - rewrite Forall_forall in Hq. now rewrite (proj1 (Hq m Hm)). }
  destruct (cut_part f _ _ _ _ Ht Nd) as (d1 & Hcut).
  exists (map wire defs), (map wire data), (Nat.max d1 d2). pose proof (typed_framed _ _ _ _ _ Ht) as Hfr.
  split; [exact Ef|]. split; [exact (wf_defs _ _ _ _ _ Hfr)|]. split; [exact (wf_start _ _ _ _ _ Hfr)|].
  intros cf C1 C2 C3. destruct (Hcut cf ltac:(lia) C2 C3) as (u' & U1 & _ & Hk). destruct (Hc cf ltac:(lia) C2 C3) as (u'' & U2 & Cp & _).
  assert (u'' = u') as ->. { pose proof (proj1 (U1 (Ok u'')) (proj2 (U2 _) eq_refl)) as X. now injection X. }
  exists u'. split; [exact U1|]. split; [exact Cp|]. intros k Hkk. destruct (Hk k) as (w & W1 & W2 & W3 & _ & W4).
  { rewrite <- firstn_map. exact Hkk. }
  exists w. auto.
Qed.

(** ** Cuts inside the first message of the data section *)
Theorem cut_first cf m v t defs u1 ty p j f : cf_kind cf = OsFile m -> header_fits v t -> Forall plain_def defs ->
  run_def cf defs (after_header v t) = Ok u1 -> frame_fits (ty, p) -> In ty end_types -> 3 <= j < 3 + lenZ p ->
  f = file_header v t ++ frames defs ++ takeZ j (frame ty p) -> lenZ f < 3 + lenZ p ->
  forall r, produces cf f r <-> r = Err OSError.
Proof.
  intros Hk Hh Hd E1 (_ & _ & Hlp) Hty Hj Ef Hl. apply produces_iff. cbn [fst snd] in *.
  assert (Hpos : dropZ (16 + lenZ (frames defs)) f = takeZ j (frame ty p)) by (rewrite Ef; apply dropZ_file).
  assert (Hcut : takeZ j (frame ty p) = [lenZ p mod 256; lenZ p / 256; ty] ++ takeZ (j - 3) p).
  { unfold frame. rewrite takeZ_app_ge by (cbn; lia). f_equal. }
  pose proof (lenZ_nonneg (frames defs)) as Hn.
  assert (Hlf : lenZ f = 16 + lenZ (frames defs) + j).
  { rewrite Ef, !lenZ_app, lenZ_file_header, lenZ_takeZ, lenZ_frame by lia. lia. }
  exists (length defs + 1)%nat. unfold load, load_at. rewrite Ef at 1. rewrite read_header_ok by exact Hh. fold (after_header v t). change (0 + 16) with 16.
  rewrite (def_loop_frames cf f defs 1 16 _ (takeZ j (frame ty p))).
  2: lia. 2:{ rewrite Ef. apply dropZ_app_exact. now rewrite lenZ_file_header. } 2: exact Hd.
  rewrite E1. cbn [def_loop]. unfold def_step.
  assert (rd f (16 + lenZ (frames defs)) 3 = [lenZ p mod 256; lenZ p / 256; ty]) as ->.
  { unfold rd. rewrite Hpos, Hcut. apply takeZ_app_exact. reflexivity. }
  cbv iota beta zeta. rewrite (le2 (lenZ p)) by lia.
  assert (rd f (16 + lenZ (frames defs) + 3) (lenZ p) = takeZ (j - 3) p) as ->.
  { rewrite rd_dropZ by lia. rewrite Hpos, Hcut, dropZ_app_exact by reflexivity. apply takeZ_all. apply lenZ_takeZ_le. }
  assert (16 + lenZ (frames defs) + 3 + lenZ (takeZ (j - 3) p) = lenZ f) as -> by (rewrite lenZ_takeZ by lia; lia).
  rewrite def_effect_None by (unfold end_types in Hty; cbn [In] in Hty; cbn; intuition lia).
  assert ((ty =? T_ADD) || (ty =? T_LOG) || (ty =? T_LOGT) = true) as ->.
  { unfold T_ADD, T_LOG, T_LOGT. unfold end_types in Hty. cbn [In] in Hty. lia. }
  unfold seek_rel. rewrite Hk. destruct (Z.ltb_spec (lenZ f + - (3 + lenZ p)) 0); [reflexivity|lia].
Qed.

Lemma parse_flags_short p : lenZ p < 40 -> parse_flags p = Err StructError.
Proof.
  intros H. pose proof (lenZ_nonneg p) as Hn. unfold parse_flags, unpack_bytes8, unpack_u64x3, slice.
  assert (L : forall a n, 0 <= a -> 0 <= n -> Z.of_nat (length (takeZ n (dropZ a p))) = Z.min n (Z.max 0 (lenZ p - a))).
  { intros a n Ha Hn'. change (lenZ (takeZ n (dropZ a p)) = Z.min n (Z.max 0 (lenZ p - a))). now rewrite lenZ_takeZ, lenZ_dropZ by lia. }
  pose proof (L 0 (8 - 0) ltac:(lia) ltac:(lia)) as L1. pose proof (L 8 (16 - 8) ltac:(lia) ltac:(lia)) as L2. pose proof (L 16 (40 - 16) ltac:(lia) ltac:(lia)) as L3.
  destruct (Nat.eqb_spec (length (takeZ (8 - 0) (dropZ 0 p))) 8) as [E1|]; [|reflexivity]. cbn [bind].
  destruct (Nat.eqb_spec (length (takeZ (16 - 8) (dropZ 8 p))) 8) as [E2|]; [|reflexivity]. cbn [bind].
  destruct (Nat.eqb_spec (length (takeZ (40 - 16) (dropZ 16 p))) 24) as [E3|]; [lia|reflexivity].
Qed.
(** a cut inside the flag bits, the first message of a log *)
Theorem cut_flags cf v t p j : header_fits v t -> frame_fits (66, p) -> Z.land (nth 8 p 0) 1 = 0 -> cf_hdr cf = false ->
  0 < j < 3 + lenZ p -> j < 43 ->
  forall r, produces cf (takeZ (16 + j) (file_header v t ++ frame 66 p)) r <-> r = Err StructError.
Proof.
  intros Hh Hf Hl Hhdr Hj H40 r.
  pose proof (cut_definition cf v t [] 66 p j Hh) as C. cbn [app frames map concat fst snd] in C. rewrite !app_nil_r, lenZ_file_header in C. rewrite C.
  - cbn [run_def]. destruct (Z.eqb_spec j 0); [lia|]. destruct (Z.ltb_spec j 3) as [J|J]; [reflexivity|].
    unfold def_effect. cbn [Z.eqb Pos.eqb T_INFO T_MULTI T_FORMAT T_PARAM T_PDEF T_FLAGS].
    rewrite parse_flags_short; [reflexivity|]. rewrite lenZ_takeZ by lia. lia.
  - constructor; [|constructor]. split; [exact Hf|]. split; [cbn; intuition discriminate|]. left. cbn. tauto.
  - constructor; [|constructor]. cbn [fst snd]. intros _. exact Hl.
  - exact Hhdr.
  - lia.
  - rewrite lenZ_app, lenZ_file_header, lenZ_frame. destruct Hf as (_ & _ & L). cbn [snd] in L. unfold BIG. lia.
Qed.
