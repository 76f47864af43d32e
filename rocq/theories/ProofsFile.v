(** Whole files: valid header, frames, cut files, appended sections, header only. *)
From Verif Require Import Base Dict Utf8 PyStr PyFloat Struct PySort ModelTypes ModelRead Spec ProofsRead.
Ltac Zify.zify_post_hook ::= Z.div_mod_to_equations.


Lemma dropZ_file v t defs rest :
  dropZ (16 + lenZ (frames defs)) (file_header v t ++ frames defs ++ rest) = rest.
Proof.
  rewrite <- dropZ_dropZ; [|apply lenZ_nonneg|lia].
  rewrite (dropZ_app_exact 16) by (now rewrite lenZ_file_header).
  now apply dropZ_app_exact.
Qed.


Lemma data_loop_tail cf f data t pos u k :
  0 <= pos -> dropZ pos f = frames data ++ t -> Forall plain_data data ->
  file_tail t -> forall until cfp, cfp + lenZ (frames data) <= until ->
  data_loop (length data + S k) cf until f pos cfp u =
  match run_data cf data u with
  | RDone u' | RStop u' => Some (Ok u')
  | RRaise e => Some (Err e)
  end.
Proof.
  intros Hp Hd Hok Ht until cfp Hu. rewrite (data_loop_frames _ _ _ _ _ _ _ _ _ Hp Hd Hok Hu).
  destruct (run_data cf data u) as [u'| |]; try reflexivity.
  cbn [data_loop].
  assert (E : dropZ (pos + lenZ (frames data)) f = t).
  { rewrite <- dropZ_dropZ; [|apply lenZ_nonneg|lia]. rewrite Hd. now apply dropZ_app_exact. }
  pose proof (lenZ_nonneg (frames data)).
  assert (Hp2 : 0 <= pos + lenZ (frames data)) by lia.
  destruct Ht as [->|(m & Hm & Hc)].
  - now rewrite (data_step_end _ _ _ _ _ _ _ E).
  - now rewrite (data_step_cut _ _ _ _ _ _ _ m t Hp2 E Hm Hc).
Qed.

Lemma read_data_tail cf f data t pos u k until :
  0 <= pos -> dropZ pos f = frames data ++ t -> Forall plain_data data ->
  file_tail t -> pos + lenZ (frames data) <= until ->
  read_data (length data + S k) cf until f pos u = Some (end_data (run_data cf data u)).
Proof.
  intros Hp Hd Hok Ht Hu. unfold read_data.
  rewrite (data_loop_tail _ _ _ _ _ _ _ Hp Hd Hok Ht until pos Hu).
  destruct (run_data cf data u); reflexivity.
Qed.

(** Reading stops at the offset of an appended section. *)
Lemma data_step_remains fuel cf until f pos cfp u t rest :
  0 <= pos -> dropZ pos f = t ++ rest -> remains t -> bytes_ok f -> cfp + lenZ t = until ->
  data_step fuel cf until f pos cfp u = SStop u.
Proof.
  intros Hp Hd Hr Hok Hu. unfold data_step. unfold rd at 1. rewrite Hd.
  assert (Hok2 : bytes_ok (t ++ rest)) by (rewrite <- Hd; now apply Forall_dropZ).
  destruct (takeZ 3 (t ++ rest)) as [|s0 [|s1 [|ty [|x l]]]] eqn:E; try reflexivity.
  assert (Hs : byte_ok s0 /\ byte_ok s1).
  { assert (H : bytes_ok (takeZ 3 (t ++ rest))) by now apply Forall_takeZ.
    rewrite E in H. inversion H as [|? ? H1 H2]; inversion H2; auto. }
  set (size := le_dec [s0; s1]).
  assert (Hsz : size = s0 + 256 * s1) by (unfold size; cbn [le_dec]; lia).
  destruct (lenZ (rd f (pos + 3) size) <? size); [reflexivity|].
  assert (Hlt : until < cfp + 3 + size).
  { unfold byte_ok in *. destruct Hr as [Hr|(a & b & c & r & Et & _ & _ & Hr)]; [lia|].
    subst t. change (takeZ 3 ((a :: b :: c :: r) ++ rest)) with (a :: b :: c :: takeZ 0 (r ++ rest)) in E.
    injection E as -> -> -> _. rewrite !lenZ_cons in Hu. lia. }
  destruct (Z.ltb_spec until (cfp + 3 + size)); [reflexivity|lia].
Qed.

Lemma read_data_section cf f s rest pos u k :
  0 <= pos -> dropZ pos f = section_bytes s ++ rest -> bytes_ok f ->
  Forall plain_data (fst s) -> remains (snd s) ->
  read_data (length (fst s) + S k) cf (pos + lenZ (section_bytes s)) f pos u =
  Some (end_data (run_data cf (fst s) u)).
Proof.
  destruct s as [data t]. unfold section_bytes. cbn [fst snd].
  intros Hp Hd Hok Hpl Hr. unfold read_data. rewrite <- app_assoc in Hd. rewrite lenZ_app.
  pose proof (lenZ_nonneg t). pose proof (lenZ_nonneg (frames data)).
  rewrite (data_loop_frames _ _ _ _ _ _ _ _ _ Hp Hd Hpl) by lia.
  destruct (run_data cf data u) as [u'| |]; try reflexivity.
  cbn [data_loop].
  assert (E : dropZ (pos + lenZ (frames data)) f = t ++ rest).
  { rewrite <- dropZ_dropZ; [|apply lenZ_nonneg|lia]. rewrite Hd. now apply dropZ_app_exact. }
  assert (Hp2 : 0 <= pos + lenZ (frames data)) by lia.
  rewrite (data_step_remains _ _ _ _ _ _ _ t rest Hp2 E Hr Hok) by lia. reflexivity.
Qed.


Lemma seek_fit k o : o < 2 ^ 63 /\ match k with OsFile m => o <= m | MemFile => True end -> seek_abs k o = Ok o.
Proof.
  change (2 ^ 63) with 9223372036854775808. unfold seek_abs. intros [H1 H2].
  destruct k; repeat match goal with |- context [?a <? ?b] => destruct (Z.ltb_spec a b) | |- context [?a <=? ?b] => destruct (Z.leb_spec a b) end;
    reflexivity || lia.
Qed.
Lemma read_sections_ok cf f secs : forall pos u data t,
  0 <= pos <= lenZ f -> bytes_ok f ->
  dropZ pos f = concat (map section_bytes secs) ++ frames data ++ t ->
  Forall (fun s => Forall plain_data (fst s) /\ remains (snd s)) secs ->
  Forall plain_data data -> file_tail t -> lenZ f <= BIG ->
  offs_fit (cf_kind cf) (section_ends pos secs) ->
  exists n, forall k, read_sections (n + k) cf f (section_ends pos secs) pos u =
    Some (run_sections cf (map fst secs ++ [data]) u).
Proof.
  induction secs as [|s secs IH]; intros pos u data t Hp Hok Hd Hs Hpl Ht Hbig Hoff.
  - simpl in Hd. exists (S (length data)). intros k.
    cbn [section_ends read_sections map app run_sections].
    replace (S (length data) + k)%nat with (length data + S k)%nat by lia.
    rewrite (read_data_tail _ _ _ _ _ _ _ _ (proj1 Hp) Hd Hpl Ht).
    + destruct (end_data (run_data cf data u)); reflexivity.
    + apply (f_equal lenZ) in Hd. rewrite lenZ_app, lenZ_dropZ in Hd by lia.
      pose proof (lenZ_nonneg t). pose proof (lenZ_nonneg (frames data)). fold BIG. lia.
  - inversion Hs as [|? ? [Hs1 Hs2] Hs3]; subst. cbn [map concat] in Hd. rewrite <- app_assoc in Hd.
    cbn [section_ends] in *. inversion Hoff as [|? ? Ho1 Ho2]; subst.
    set (p := pos + lenZ (section_bytes s)) in *.
    assert (Hp' : 0 <= p <= lenZ f).
    { pose proof (f_equal lenZ Hd) as E. rewrite lenZ_app, lenZ_dropZ in E by lia.
      pose proof (lenZ_nonneg (section_bytes s)).
      pose proof (lenZ_nonneg (concat (map section_bytes secs) ++ frames data ++ t)). unfold p. lia. }
    assert (Hd' : dropZ p f = concat (map section_bytes secs) ++ frames data ++ t).
    { unfold p. rewrite <- dropZ_dropZ; [|apply lenZ_nonneg|lia]. rewrite Hd. now apply dropZ_app_exact. }
    cbn [map app run_sections].
    destruct (end_data (run_data cf (fst s) u)) as [u'|e] eqn:E.
    + destruct (IH p u' data t Hp' Hok Hd' Hs3 Hpl Ht Hbig Ho2) as [n Hn].
      exists (length (fst s) + S n)%nat. intros k. cbn [read_sections].
      replace (length (fst s) + S n + k)%nat with (length (fst s) + S (n + k))%nat by lia.
      unfold p at 1. rewrite (read_data_section _ _ _ _ _ _ _ (proj1 Hp) Hd Hok Hs1 Hs2).
      rewrite E, (seek_fit _ _ Ho1). replace (length (fst s) + S (n + k))%nat with (n + (length (fst s) + 1 + k))%nat by lia.
      apply Hn.
    + exists (length (fst s) + 1)%nat. intros k. cbn [read_sections].
      replace (length (fst s) + 1 + k)%nat with (length (fst s) + S k)%nat by lia.
      unfold p at 1. rewrite (read_data_section _ _ _ _ _ _ _ (proj1 Hp) Hd Hok Hs1 Hs2).
      rewrite E. reflexivity.
Qed.

Lemma bytes_ok_frames ms : Forall frame_fits ms -> bytes_ok (frames ms).
Proof.
  induction 1 as [|[ty p] ms (H1 & H2 & H3) Hms IH]; [constructor|].
  rewrite frames_cons. cbn [fst snd] in *. apply Forall_app; split; [|exact IH].
  unfold frame. pose proof (lenZ_nonneg p). apply Forall_app; split; [|exact H2].
  constructor; [unfold byte_ok; lia|]. constructor; [unfold byte_ok; lia|]. constructor; auto.
Qed.

(** The general theorem: a file with appended sections (none: [secs = []]). *)
Theorem load_sections cf v t defs u1 secs data tl f :
  f = file_header v t ++ frames defs ++ concat (map section_bytes secs) ++ frames data ++ tl ->
  header_fits v t -> bytes_ok f -> lenZ f <= BIG -> cf_hdr cf = false ->
  Forall plain_def defs -> run_def cf defs (after_header v t) = Ok u1 ->
  starts_data (concat (map fst secs) ++ data) ->
  (concat (map fst secs) ++ data = [] -> secs = [] /\ tl = []) ->
  (match secs with [] => True | s :: _ => fst s <> [] end) ->
  Forall (fun s => Forall plain_data (fst s) /\ remains (snd s)) secs ->
  Forall plain_data data -> file_tail tl ->
  (if has_appended u1 then u_offsets u1 else []) =
    section_ends (16 + lenZ (frames defs)) secs ->
  offs_fit (cf_kind cf) (section_ends (16 + lenZ (frames defs)) secs) ->
  produces cf f (run_sections cf (map fst secs ++ [data]) u1).
Proof.
  intros Hf Hh Hok Hbig Hhdr Hdef Hrun Hst Hemp Hs0 Hsec Hpl Htl Hoffs Hfit.
  assert (Hpos : 0 <= 16 + lenZ (frames defs) <= lenZ f).
  { pose proof (lenZ_nonneg (frames defs)). rewrite Hf, !lenZ_app, lenZ_file_header.
    pose proof (lenZ_nonneg (concat (map section_bytes secs))). pose proof (lenZ_nonneg (frames data)).
    pose proof (lenZ_nonneg tl). lia. }
  assert (Hd : dropZ (16 + lenZ (frames defs)) f = concat (map section_bytes secs) ++ frames data ++ tl).
  { rewrite Hf. apply dropZ_file. }
  destruct (read_sections_ok cf f secs _ u1 data tl Hpos Hok Hd Hsec Hpl Htl Hbig Hfit) as [n Hn].
  exists (n + S (length defs))%nat. unfold load, load_at.
  rewrite Hf at 1. rewrite read_header_ok by exact Hh. fold (after_header v t).
  assert (Hloop : def_loop (n + S (length defs)) cf f (0 + 16) (after_header v t) =
                  Some (Ok (16 + lenZ (frames defs), u1))).
  { change (0 + 16) with 16. destruct secs as [|s secs].
    - simpl in Hf, Hst, Hemp. eapply (def_loop_file cf f v t defs data tl); eauto; try lia.
      intros E. now apply Hemp.
    - pose proof (Forall_inv Hsec) as [Hs1 Hs2].
      destruct (fst s) as [|m ms] eqn:Es; [congruence|].
      simpl in Hst. rewrite Es in Hst.
      eapply (def_loop_file cf f v t defs (m :: ms)
                (snd s ++ concat (map section_bytes secs) ++ frames data ++ tl)); eauto; try lia.
      + rewrite Hf. cbn [map concat]. unfold section_bytes at 1. rewrite Es, <- !app_assoc. reflexivity.
      + discriminate. }
  rewrite Hloop, Hhdr, Hoffs. apply Hn.
Qed.

(** No appended data. *)
Theorem load_frames_gen cf v t defs u1 data tl f :
  f = file_header v t ++ frames defs ++ frames data ++ tl ->
  header_fits v t -> bytes_ok f -> lenZ f <= BIG -> cf_hdr cf = false ->
  Forall plain_def defs -> run_def cf defs (after_header v t) = Ok u1 ->
  starts_data data -> (data = [] -> tl = []) ->
  Forall plain_data data -> file_tail tl ->
  (has_appended u1 = false \/ u_offsets u1 = []) ->
  produces cf f (end_data (run_data cf data u1)).
Proof.
  intros Hf Hh Hok Hbig Hhdr Hdef Hrun Hst Hemp Hpl Htl Hoff.
  assert (H : produces cf f (run_sections cf [data] u1)).
  { apply (load_sections cf v t defs u1 [] data tl f); auto.
    - simpl. destruct Hoff as [-> | ->]; [reflexivity|]. destruct (has_appended u1); reflexivity.
    - constructor. }
  simpl in H. destruct (end_data (run_data cf data u1)); exact H.
Qed.

(** An exception in the definition section. *)
Theorem load_def_raise cf v t defs e rest f :
  f = file_header v t ++ frames defs ++ rest -> header_fits v t ->
  Forall plain_def defs -> run_def cf defs (after_header v t) = Err e ->
  produces cf f (Err e).
Proof.
  intros Hf Hh Hdef Hrun. exists (length defs + 1)%nat. unfold load, load_at.
  rewrite Hf at 1. rewrite read_header_ok by exact Hh. fold (after_header v t).
  change (0 + 16) with 16.
  rewrite (def_loop_frames cf f defs 1 16 _ rest); auto; try lia.
  - rewrite Hrun. reflexivity.
  - rewrite Hf. apply dropZ_app_exact. now rewrite lenZ_file_header.
Qed.

(** parse_header_only *)
Theorem load_header_only cf v t defs u1 data tl f :
  f = file_header v t ++ frames defs ++ frames data ++ tl ->
  header_fits v t -> cf_hdr cf = true ->
  Forall plain_def defs -> run_def cf defs (after_header v t) = Ok u1 ->
  starts_data data -> (data = [] -> tl = []) -> Forall plain_data data ->
  produces cf f (Ok u1).
Proof.
  intros Hf Hh Hhdr Hdef Hrun Hst Hemp Hpl. exists (S (length defs)). unfold load, load_at.
  rewrite Hf at 1. rewrite read_header_ok by exact Hh. fold (after_header v t).
  change (0 + 16) with 16.
  rewrite (def_loop_file cf f v t defs data tl _ u1); auto. now rewrite Hhdr.
Qed.
