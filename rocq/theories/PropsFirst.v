(** Properties C04, C07 and C61: logs that stop inside the first message of the data section, and headers that announce
    more bytes than there are. *)
From Verif Require Import Base Dict Utf8 PyStr PyFloat Struct PySort ModelTypes ModelRead Spec SpecSection SpecMsg SpecLog Samples
  ProofsRead ProofsFile ProofsSync ProofsTrace ProofsCut ProofsLog ProofsPart PropsRead PropsCut PropsCommand.
Ltac Zify.zify_post_hook ::= Z.div_mod_to_equations.

(** ** C07: the announced bytes are not there *)
Lemma short_tail s0 s1 ty rest : bytes_ok ([s0; s1; ty] ++ rest) -> lenZ rest < s0 + 256 * s1 -> file_tail ([s0; s1; ty] ++ rest).
Proof.
  intros Hb Hl. right. pose proof (lenZ_nonneg rest) as Hn. exists (ty, rest ++ repeat 0 (Z.to_nat (s0 + 256 * s1 - lenZ rest))).
  inversion Hb as [|? ? B0 Hb1]; subst. inversion Hb1 as [|? ? B1 Hb2]; subst. inversion Hb2 as [|? ? B2 Hb3]; subst. unfold byte_ok in *.
  assert (L : lenZ (rest ++ repeat 0 (Z.to_nat (s0 + 256 * s1 - lenZ rest))) = s0 + 256 * s1).
  { rewrite lenZ_app. unfold lenZ at 2. rewrite repeat_length. lia. }
  split.
  - split; [exact B2|]. cbn [fst snd]. split; [|lia]. apply Forall_app. split; [exact Hb3|]. apply Forall_forall. intros x Hx. apply repeat_spec in Hx. subst x. unfold byte_ok. lia.
  - unfold cut_of. cbn [fst snd]. unfold frame. rewrite L.
    replace ((s0 + 256 * s1) mod 256) with s0 by lia. replace ((s0 + 256 * s1) / 256) with s1 by lia.
    exists (repeat 0 (Z.to_nat (s0 + 256 * s1 - lenZ rest))). split; [destruct (Z.to_nat (s0 + 256 * s1 - lenZ rest)) eqn:E; [lia|discriminate]|].
    now rewrite <- app_assoc.
Qed.
(** A header of any type that announces more bytes than the file has, after at least one complete message of the data
    section: the bytes from there on are ignored without a sign, whatever messages they contain. *)
Theorem C07_overlong : forall cf v t defs data s0 s1 ty rest,
  header_fits v t -> Forall plain_def defs -> Forall plain_data data -> starts_data data -> data <> [] -> not_appended defs -> cf_hdr cf = false ->
  bytes_ok ([s0; s1; ty] ++ rest) -> lenZ rest < s0 + 256 * s1 ->
  lenZ (file_header v t ++ frames defs ++ frames data ++ [s0; s1; ty] ++ rest) <= BIG ->
  forall r, produces cf (file_header v t ++ frames defs ++ frames data ++ [s0; s1; ty] ++ rest) r <->
            produces cf (file_header v t ++ frames defs ++ frames data) r.
Proof.
  intros cf v t defs data s0 s1 ty rest Hh Hd Hdt Hst Hne Ha Hc Hb Hl Hs r.
  assert (Hw : forall tl, file_tail tl -> bytes_ok tl -> lenZ (file_header v t ++ frames defs ++ frames data ++ tl) <= BIG ->
                 well_framed (file_header v t ++ frames defs ++ frames data ++ tl) v t defs data).
  { intros tl T B L. split; try assumption.
    - exists tl. split; [reflexivity|]. split; [exact T|]. intros; contradiction.
    - apply Forall_app. split; [apply header_bytes; exact Hh|]. apply Forall_app. split; [apply bytes_ok_frames; eapply Forall_impl; [|exact Hd]; intros m H; apply H|].
      apply Forall_app. split; [apply bytes_ok_frames; eapply Forall_impl; [|exact Hdt]; intros m H; apply H|exact B]. }
  rewrite (delivery cf _ v t defs data (Hw _ (short_tail _ _ _ _ Hb Hl) Hb Hs) Ha Hc r).
  assert (E : file_header v t ++ frames defs ++ frames data = file_header v t ++ frames defs ++ frames data ++ []) by now rewrite app_nil_r.
  rewrite E. rewrite (delivery cf _ v t defs data); [reflexivity| |exact Ha|exact Hc].
  apply Hw; [now left|constructor|]. rewrite !lenZ_app in *. pose proof (lenZ_nonneg ([s0; s1; ty] ++ rest)). rewrite lenZ_app in *. cbn [lenZ length] in *. change (lenZ []) with 0. lia.
Qed.

(** ** C04, C61: a log that ends inside the first message of its data section *)
Section First.
Variables (cf : cfg) (v t : Z) (defs : list (Z * bytes)) (u1 : ulog) (ty : Z) (p : bytes) (j : Z).
Hypothesis Hh : header_fits v t.
Hypothesis Hd : Forall plain_def defs.
Hypothesis Ha : not_appended defs.
Hypothesis Hc : cf_hdr cf = false.
Hypothesis E1 : run_def cf defs (after_header v t) = Ok u1.
Hypothesis Hf : frame_fits (ty, p).
Hypothesis Hty : In ty end_types.
Hypothesis Hj : 0 < j < 3 + lenZ p.
Let f := file_header v t ++ frames defs ++ takeZ j (frame ty p).

Lemma first_pos : dropZ (16 + lenZ (frames defs)) f = takeZ j (frame ty p).
Proof. apply dropZ_file. Qed.
Lemma first_len : lenZ f = 16 + lenZ (frames defs) + j.
Proof. unfold f. rewrite !lenZ_app, lenZ_file_header, lenZ_takeZ, lenZ_frame by lia. lia. Qed.
Lemma first_loop k : def_loop (length defs + S k) cf f 16 (after_header v t) =
  match def_step cf f (16 + lenZ (frames defs)) u1 with DNext p' u' => def_loop k cf f p' u' | DStop p' u' => Some (Ok (p', u')) | DRaise e => Some (Err e) end.
Proof.
  rewrite (def_loop_frames cf f defs (S k) 16 _ (takeZ j (frame ty p))).
  - rewrite E1. reflexivity.
  - lia.
  - unfold f. apply dropZ_app_exact. now rewrite lenZ_file_header.
  - exact Hd.
Qed.
Lemma def_step_stop pos u q u' : def_step cf f pos u = DStop q u' -> u' = u.
Proof.
  unfold def_step. cbv zeta. destruct (rd f pos 3) as [|a l]; [congruence|]. destruct l as [|b l]; [discriminate|]. destruct l as [|c l]; [discriminate|]. destruct l as [|]; [|discriminate].
  destruct (def_effect cf c _ u) as [[?|[]]|]; try discriminate.
  destruct ((c =? T_ADD) || (c =? T_LOG) || (c =? T_LOGT)); [destruct (seek_rel _ _ _); [intros H; injection H; congruence|discriminate]|].
  destruct (packet_corrupt c _); [destruct (seek_rel _ _ _); discriminate|discriminate].
Qed.
Lemma first_load k : load (length defs + S k) cf f = match def_step cf f (16 + lenZ (frames defs)) u1 with
    | DNext p' u' => load (length defs + S k) cf f
    | DStop q u' => read_sections (length defs + S k) cf f [] q u'
    | DRaise e => Some (Err e) end \/ exists p' u', def_step cf f (16 + lenZ (frames defs)) u1 = DNext p' u'.
Proof.
  destruct (def_step cf f (16 + lenZ (frames defs)) u1) as [p' u'|q u'|e] eqn:Es; [right; eauto|left|left].
  - unfold load, load_at. unfold f at 1. rewrite read_header_ok by exact Hh. fold (after_header v t). change (0 + 16) with 16. rewrite first_loop, Es, Hc.
    assert (u' = u1) as ->. { eapply def_step_stop. exact Es. }
    rewrite (not_appended_run _ _ Ha _ _ E1) by reflexivity. reflexivity.
  - unfold load, load_at. unfold f at 1. rewrite read_header_ok by exact Hh. fold (after_header v t). change (0 + 16) with 16. rewrite first_loop, Es. reflexivity.
Qed.
Lemma first_step : def_step cf f (16 + lenZ (frames defs)) u1 =
  if j <? 3 then DRaise StructError
  else match seek_rel (cf_kind cf) (lenZ f) (- (3 + lenZ p)) with Ok q => DStop q u1 | Err e => DRaise e end.
Proof.
  destruct Hf as (_ & _ & Hlp). cbn [fst snd] in *. pose proof (lenZ_nonneg p) as Hp. pose proof (lenZ_nonneg (frames defs)) as Hn. unfold def_step. destruct (Z.ltb_spec j 3).
  - assert (E : lenZ (rd f (16 + lenZ (frames defs)) 3) = j).
    { unfold rd. rewrite first_pos, !lenZ_takeZ, lenZ_frame by lia. lia. }
    revert E. generalize (rd f (16 + lenZ (frames defs)) 3). intros l E. unfold lenZ in E. destruct l as [|a [|b [|c [|]]]]; cbn [length] in E; try reflexivity; lia.
  - assert (Hcut : takeZ j (frame ty p) = [lenZ p mod 256; lenZ p / 256; ty] ++ takeZ (j - 3) p).
    { unfold frame. rewrite takeZ_app_ge by (cbn; lia). f_equal. }
    assert (rd f (16 + lenZ (frames defs)) 3 = [lenZ p mod 256; lenZ p / 256; ty]) as ->.
    { unfold rd. rewrite first_pos, Hcut. apply takeZ_app_exact. reflexivity. }
    cbv iota beta zeta. rewrite (le2 (lenZ p)) by lia.
    assert (rd f (16 + lenZ (frames defs) + 3) (lenZ p) = takeZ (j - 3) p) as ->.
    { rewrite rd_dropZ by lia. rewrite first_pos, Hcut, dropZ_app_exact by reflexivity. apply takeZ_all. apply lenZ_takeZ_le. }
    assert (16 + lenZ (frames defs) + 3 + lenZ (takeZ (j - 3) p) = lenZ f) as -> by (rewrite first_len, lenZ_takeZ by lia; lia).
    rewrite def_effect_None by (unfold end_types in Hty; cbn [In] in Hty; cbn; intuition lia).
    assert ((ty =? T_ADD) || (ty =? T_LOG) || (ty =? T_LOGT) = true) as ->.
    { unfold T_ADD, T_LOG, T_LOGT. unfold end_types in Hty. cbn [In] in Hty. lia. }
    reflexivity.
Qed.
Lemma first_short : j < 3 -> forall r, produces cf f r <-> r = Err StructError.
Proof.
  intros H. apply produces_iff. exists (length defs + 1)%nat. destruct (first_load 0) as [E|(a & b & E)]; rewrite first_step in E; destruct (Z.ltb_spec j 3); try lia; [exact E|discriminate].
Qed.
Lemma first_before m : cf_kind cf = OsFile m -> 3 <= j -> lenZ f < 3 + lenZ p -> forall r, produces cf f r <-> r = Err OSError.
Proof.
  intros K H L. apply produces_iff. exists (length defs + 1)%nat. destruct (first_load 0) as [E|(a & b & E)]; rewrite first_step in E; (destruct (Z.ltb_spec j 3); [lia|]);
    unfold seek_rel in E; rewrite K in E; destruct (Z.ltb_spec (lenZ f + - (3 + lenZ p)) 0); try lia; [exact E|discriminate].
Qed.
(** the position that is read from *)
Definition back : Z := Z.max 0 (lenZ f - (3 + lenZ p)).
Lemma first_back : 3 <= j -> (cf_kind cf = MemFile \/ 3 + lenZ p <= lenZ f) -> seek_rel (cf_kind cf) (lenZ f) (- (3 + lenZ p)) = Ok back.
Proof.
  intros H K. unfold seek_rel, back. destruct (Z.ltb_spec (lenZ f + - (3 + lenZ p)) 0).
  - destruct K as [->|K]; [|lia]. f_equal. lia.
  - f_equal. lia.
Qed.
Lemma first_read : 3 <= j -> (cf_kind cf = MemFile \/ 3 + lenZ p <= lenZ f) -> forall n r, read_data n cf BIG f back u1 = Some r -> produces cf f r.
Proof.
  intros H K n r E. destruct (first_load n) as [E2|(a & b & E2)]; rewrite first_step in E2; (destruct (Z.ltb_spec j 3); [lia|]); rewrite first_back in E2 by assumption; [|discriminate].
  exists (length defs + S n)%nat. rewrite E2. cbn [read_sections]. apply (read_data_mono _ _ _ n); [exact E|lia].
Qed.
End First.

(** The law for such a log, cut [j] bytes into its first data message (of [3 + lenZ p] bytes).  Cut in the header of
    the message: struct.error.  Otherwise the reader goes back by the size that is announced, so to [back] if a file
    on disk reaches back so far (else OSError), and takes what lies there for the data section. *)
Theorem C04_first_law : forall cf v t defs u1 ty p j, let f := file_header v t ++ frames defs ++ takeZ j (frame ty p) in
  header_fits v t -> Forall plain_def defs -> not_appended defs -> cf_hdr cf = false -> run_def cf defs (after_header v t) = Ok u1 ->
  frame_fits (ty, p) -> In ty end_types -> 0 < j < 3 + lenZ p ->
  let back := lenZ f - (3 + lenZ p) in
  (j < 3 -> forall r, produces cf f r <-> r = Err StructError) /\
  (3 <= j -> forall m, cf_kind cf = OsFile m -> back < 0 -> forall r, produces cf f r <-> r = Err OSError) /\
  (3 <= j -> cf_kind cf = MemFile \/ 0 <= back -> exists evs, scattered f (Z.max 0 back) evs /\
     forall r, produces cf f r <-> r = end_data (run_events cf evs u1)).
Proof.
  intros cf v t defs u1 ty p j f Hh Hd Ha Hc E1 Hf Hty Hj b. split; [|split].
  - intros H. eapply first_short; eassumption.
  - intros H m K L. eapply first_before; try eassumption. unfold b in L. change (lenZ f < 3 + lenZ p). lia.
  - intros H K. assert (Hb : bytes_ok f).
    { unfold f. apply Forall_app. split; [apply header_bytes; exact Hh|]. apply Forall_app. split; [apply bytes_ok_frames; eapply Forall_impl; [|exact Hd]; intros m X; apply X|].
      apply Forall_takeZ. pose proof (bytes_ok_frames [(ty, p)] (Forall_cons _ Hf (Forall_nil _))) as X. unfold frames in X. cbn [map concat fst snd] in X. rewrite app_nil_r in X. exact X. }
    destruct (read_data_terminates cf BIG f (Z.max 0 b) u1 Hb) as (n & r0 & Hn); [lia|]. specialize (Hn 0%nat).
    destruct (read_data_events cf BIG f (Z.max 0 b) u1 r0 (n + 0)%nat Hb) as (evs & Hs & ->); [lia|exact Hn|].
    exists evs. split; [exact Hs|]. apply produces_iff. eapply first_read with (j := j) (p := p); try eassumption.
    destruct K as [K|K]; [left; exact K|right]. fold f. unfold b in K. lia.
Qed.
(** If exactly the bytes of the last definitions [b] are missing, these definitions are read again, as messages of
    the data section: parameters become parameter changes, and infos in several parts are doubled. *)
Theorem C04_first_again : forall cf v t a b u1 ty p j, let f := file_header v t ++ frames (a ++ b) ++ takeZ j (frame ty p) in
  header_fits v t -> Forall plain_def (a ++ b) -> not_appended (a ++ b) -> cf_hdr cf = false -> run_def cf (a ++ b) (after_header v t) = Ok u1 ->
  frame_fits (ty, p) -> In ty end_types -> 3 <= j < 3 + lenZ p -> lenZ f <= BIG ->
  Forall plain_data b -> 3 + lenZ p - j = lenZ (frames b) ->
  forall r, produces cf f r <-> r = end_data (run_data cf b u1).
Proof.
  intros cf v t a b u1 ty p j f Hh Hd Ha Hc E1 Hf Hty Hj Hs Hb Hm. apply produces_iff.
  pose proof (lenZ_nonneg (frames a)) as Na. pose proof (lenZ_nonneg (frames b)) as Nb.
  assert (Lf : lenZ f = 16 + lenZ (frames a) + lenZ (frames b) + j).
  { unfold f. rewrite !lenZ_app, lenZ_file_header, lenZ_takeZ, lenZ_frame, frames_app, lenZ_app by lia. lia. }
  eapply (first_read cf v t (a ++ b) u1 ty p j) with (n := (length b + 1)%nat); try eassumption; try lia.
  - right. fold f. lia.
  - unfold back. fold f. rewrite (read_data_tail cf f b (takeZ j (frame ty p)) _ u1 0 BIG); [reflexivity|lia| |exact Hb| |].
    + replace (Z.max 0 (lenZ f - (3 + lenZ p))) with (16 + lenZ (frames a)) by lia. unfold f. rewrite frames_app, <- app_assoc. apply dropZ_file.
    + right. exists (ty, p). split; [exact Hf|]. exists (dropZ j (frame ty p)). cbn [fst snd]. split.
      * intros E. apply (f_equal lenZ) in E. rewrite lenZ_dropZ, lenZ_frame in E by lia. change (lenZ []) with 0 in E. lia.
      * apply takeZ_dropZ_app.
    + lia.
Qed.

(** The parameter of this log is read again if its first text lacks as many bytes as the parameter has. *)
Example C04_first_ex : let b := map wire c_defs in let m := wire (MLog 54 1001 (lit "a text of some length")) in
  Forall plain_def ([] ++ b) /\ not_appended ([] ++ b) /\ (exists u1, run_def cf0 ([] ++ b) (after_header 1 500) = Ok u1 /\ u_changed u1 = [] /\
    match end_data (run_data cf0 b u1) with Ok u => u_changed u = [(500, lit "P", VInt 7)] | Err _ => False end) /\
  frame_fits m /\ In (fst m) end_types /\ Forall plain_data b /\ 3 <= 3 + lenZ (snd m) - lenZ (frames b).
Proof.
  cbv zeta. split; [apply all_defs; vm_compute; reflexivity|]. split; [repeat constructor; cbn; discriminate|].
  split; [eexists; split; [vm_compute; reflexivity|split; [reflexivity|vm_compute; reflexivity]]|].
  split; [apply (fits_b_ok end_types); [repeat constructor; unfold byte_ok; lia|vm_compute; reflexivity]|]. split; [cbn; tauto|].
  split; [apply all_data; vm_compute; reflexivity|vm_compute; discriminate].
Qed.
(** 65535 bytes are announced, 16 are there: a whole message that follows is not read. *)
Example C07_overlong_ex : let rest := sync_sequence ++ frame_of (m_log 8) in
  bytes_ok ([255; 255; 0] ++ rest) /\ lenZ rest < 255 + 256 * 255 /\ starts_data [m_log 7] /\ Forall plain_data [m_log 7].
Proof.
  cbv zeta. split; [|split; [vm_compute; reflexivity|split; [cbn; tauto|apply all_data; vm_compute; reflexivity]]].
  apply Forall_forall. intros x Hx. assert (E : forallb (fun b => (0 <=? b) && (b <? 256)) ([255; 255; 0] ++ sync_sequence ++ frame_of (m_log 8)) = true) by (vm_compute; reflexivity).
  rewrite forallb_forall in E. specialize (E x Hx). unfold byte_ok. lia.
Qed.
