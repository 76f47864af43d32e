(** Reading a log from the middle of a file object: the reader only looks at bytes relative to where it starts, unless
    it goes back before that place or to an offset from the start of the file. *)
From Verif Require Import Base Dict PyStr PyFloat Struct PySort ModelTypes ModelRead ModelWrite ModelWriting ModelHandle Spec SpecSection SpecMsg SpecLog SpecWrite
  SpecHandle ProofsRead ProofsFile ProofsLog ProofsWrite ProofsRound ProofsCopy ProofsWriting.

Section shifted.
Variables (cf : cfg) (m : Z) (a g : bytes).
Hypothesis Hg : bytes_ok g.

Lemma rd_shift q n : 0 <= q -> rd (a ++ g) (lenZ a + q) n = rd g q n.
Proof using. intros H. unfold rd. rewrite dropZ_app_ge by lia. do 2 f_equal. lia. Qed.
Lemma rd_shift3 q n : 0 <= q -> rd (a ++ g) (lenZ a + q + 3) n = rd g (q + 3) n.
Proof using. intros H. rewrite <- rd_shift by lia. f_equal. lia. Qed.

Definition shift_def (o : def_out) : def_out :=
  match o with DNext p u => DNext (lenZ a + p) u | DStop p u => DStop (lenZ a + p) u | DRaise e => DRaise e end.
Lemma effect_disk ty d u : def_effect (on_disk m cf) ty d u = def_effect cf ty d u.
Proof using. reflexivity. Qed.
Lemma seek_shift q d : seek_rel (OsFile m) q d <> Err OSError ->
  exists p, seek_rel (OsFile m) q d = Ok p /\ 0 <= p /\ seek_rel (cf_kind cf) (lenZ a + q) d = Ok (lenZ a + p).
Proof using.
  unfold seek_rel. pose proof (lenZ_nonneg a). destruct (Z.ltb_spec (q + d) 0); intros N; [easy|].
  exists (q + d). split; [reflexivity|]. split; [lia|]. destruct (Z.ltb_spec (lenZ a + q + d) 0); [lia|]. f_equal. lia.
Qed.
Lemma def_step_shift q u : 0 <= q -> def_step (on_disk m cf) g q u <> DRaise OSError ->
  def_step cf (a ++ g) (lenZ a + q) u = shift_def (def_step (on_disk m cf) g q u) /\
  match def_step (on_disk m cf) g q u with DNext p _ | DStop p _ => 0 <= p | DRaise _ => True end.
Proof using.
  intros Hq N. unfold def_step in *. rewrite rd_shift by lia.
  destruct (rd g q 3) as [|s0 [|s1 [|ty [|x r]]]]; try (split; [reflexivity|exact Hq]); try (split; [reflexivity|exact I]).
  cbv zeta in *. rewrite rd_shift3 by lia. set (size := le_dec [s0; s1]) in *. set (d := rd g (q + 3) size) in *.
  pose proof (lenZ_nonneg d) as Ld. rewrite effect_disk in *. replace (lenZ a + q + 3 + lenZ d) with (lenZ a + (q + 3 + lenZ d)) by lia.
  destruct (def_effect cf ty d u) as [[u'|e]|].
  - cbn. split; [reflexivity|lia].
  - destruct e; cbn; split; try reflexivity; try exact I; lia.
  - destruct ((ty =? T_ADD) || (ty =? T_LOG) || (ty =? T_LOGT)).
    + cbn [on_disk cf_kind] in *. destruct (seek_shift (q + 3 + lenZ d) (- (3 + size))) as (p & E & P & S').
      { intros E. rewrite E in N. now apply N. }
      rewrite E, S'. cbn. split; [reflexivity|exact P].
    + destruct (packet_corrupt ty size); [|cbn; split; [reflexivity|lia]].
      cbn [on_disk cf_kind] in *. destruct (seek_shift (q + 3 + lenZ d) (-2 - size)) as (p & E & P & S').
      { intros E. rewrite E in N. now apply N. }
      rewrite E, S'. cbn. split; [reflexivity|exact P].
Qed.
Definition shift_res (o : option (res (Z * ulog))) : option (res (Z * ulog)) :=
  match o with Some (Ok (p, u)) => Some (Ok (lenZ a + p, u)) | o => o end.
Lemma def_loop_shift n : forall q u, 0 <= q -> def_loop n (on_disk m cf) g q u <> Some (Err OSError) ->
  def_loop n cf (a ++ g) (lenZ a + q) u = shift_res (def_loop n (on_disk m cf) g q u) /\
  match def_loop n (on_disk m cf) g q u with Some (Ok (p, _)) => 0 <= p | _ => True end.
Proof using.
  induction n as [|n IH]; intros q u Hq N; [split; [reflexivity|exact I]|]. cbn [def_loop] in *.
  destruct (def_step_shift q u Hq) as (E & P).
  { intros E. rewrite E in N. now apply N. }
  rewrite E. destruct (def_step (on_disk m cf) g q u) as [p u'|p u'|e]; cbn [shift_def] in *.
  - apply IH; assumption.
  - split; [reflexivity|exact P].
  - split; [reflexivity|exact I].
Qed.

Lemma find_sync_loop_shift n : forall q, 0 <= q ->
  find_sync_loop n (a ++ g) (lenZ a + q) = match find_sync_loop n g q with Some (Some p) => Some (Some (lenZ a + p)) | o => o end /\
  match find_sync_loop n g q with Some (Some p) => q + 8 <= p | _ => True end.
Proof using.
  induction n as [|n IH]; intros q Hq; [split; [reflexivity|exact I]|]. cbn [find_sync_loop]. rewrite rd_shift by lia.
  set (c := rd g q 512). pose proof (lenZ_nonneg c). destruct (Z.ltb_spec (lenZ c) 8); [split; [reflexivity|exact I]|].
  destruct (Z.leb_spec 0 (find_sub SYNC_BYTES c)).
  - split; [do 2 f_equal; lia|lia].
  - replace (lenZ a + q + lenZ c - 7) with (lenZ a + (q + lenZ c - 7)) by lia. destruct (IH (q + lenZ c - 7)) as (E & P); [lia|].
    split; [exact E|]. destruct (find_sync_loop n g (q + lenZ c - 7)) as [[p|]|]; [lia|exact I|exact I].
Qed.
Lemma find_sync_shift n q u : 0 <= q ->
  find_sync n (a ++ g) (lenZ a + q) u = match find_sync n g q u with Some (p, u') => Some (lenZ a + p, u') | None => None end /\
  match find_sync n g q u with Some (p, _) => q <= p | None => True end.
Proof using.
  intros Hq. unfold find_sync. destruct (find_sync_loop_shift n q Hq) as (-> & P).
  destruct (find_sync_loop n g q) as [[p|]|]; cbn; split; try reflexivity; try exact I; lia.
Qed.
Lemma find_last_shift q n u : 0 <= n -> n <= q -> q <= lenZ g ->
  find_sync_last (a ++ g) (lenZ a + q) n u = (let '(p, u') := find_sync_last g q n u in (lenZ a + p, u')) /\
  let '(p, _) := find_sync_last g q n u in p = q \/ q - n + 8 <= p.
Proof using.
  intros Hn Hq Hl. unfold find_sync_last. replace (lenZ a + q - n) with (lenZ a + (q - n)) by lia. rewrite rd_shift by lia.
  set (c := rd g (q - n) n). destruct (Z.ltb_spec (lenZ c) 8); [split; [reflexivity|now left]|].
  destruct (Z.leb_spec 0 (find_sub SYNC_BYTES c)); split; try reflexivity; [f_equal; lia|right; lia|now left].
Qed.

Lemma size_bound q s0 s1 ty : rd g q 3 = [s0; s1; ty] -> 0 <= le_dec [s0; s1] <= 65535.
Proof using Hg.
  intros E. assert (B : bytes_ok (rd g q 3)) by (unfold rd; apply Forall_takeZ, Forall_dropZ; exact Hg). rewrite E in B.
  apply Forall_cons_iff in B as [B0 B]. apply Forall_cons_iff in B as [B1 _]. unfold byte_ok in *. cbn [le_dec]. lia.
Qed.
Definition shift_data (o : data_out) : data_out :=
  match o with SNext p c u => SNext (lenZ a + p) (lenZ a + c) u | o => o end.
Lemma snext_eq p p' c c' u : p = p' -> c = c' -> SNext p c u = SNext p' c' u.
Proof using. now intros -> ->. Qed.
Lemma data_step_shift n q c u : 0 <= q -> c <= 1000 * q -> lenZ a + 1000 * lenZ g <= BIG ->
  data_step n cf BIG (a ++ g) (lenZ a + q) (lenZ a + c) u = shift_data (data_step n (on_disk m cf) BIG g q c u) /\
  match data_step n (on_disk m cf) BIG g q c u with SNext p c' _ => 0 <= p /\ c' <= 1000 * p | _ => True end.
Proof using Hg.
  intros Hq Hc Hb. unfold data_step. rewrite rd_shift by lia. pose proof (lenZ_nonneg a) as La.
  destruct (rd g q 3) as [|s0 [|s1 [|ty [|x r]]]] eqn:E3; try (split; [reflexivity|exact I]).
  cbv zeta. rewrite rd_shift3 by lia. pose proof (size_bound _ _ _ _ E3) as Hs. set (size := le_dec [s0; s1]) in *.
  destruct (Z.ltb_spec (lenZ (rd g (q + 3) size)) size) as [|Hd]; [split; [reflexivity|exact I]|].
  assert (Hend : q + 3 + size <= lenZ g).
  { assert (L3 : lenZ (rd g q 3) = 3) by (rewrite E3; reflexivity). unfold rd in L3, Hd. rewrite lenZ_takeZ, lenZ_dropZ in L3 by lia.
    rewrite lenZ_takeZ, lenZ_dropZ in Hd by lia. lia. }
  destruct (Z.ltb_spec BIG (lenZ a + c + 3 + size)); [lia|]. destruct (Z.ltb_spec BIG (c + 3 + size)); [lia|].
  change (data_effect (on_disk m cf) ty (rd g (q + 3) size) u) with (data_effect cf ty (rd g (q + 3) size) u).
  destruct (data_effect cf ty (rd g (q + 3) size) u) as [[u' [e|]]|].
  - destruct e; cbn [shift_data]; split; try reflexivity; try exact I; [apply snext_eq; lia|lia].
  - cbn [shift_data]. split; [apply snext_eq; lia|lia].
  - unfold packet_corrupt. destruct (Z.eqb_spec ty 0); [|destruct (Z.eqb_spec size 0); [|destruct (Z.ltb_spec 10000 size)]]; cbn [orb].
    1-3: destruct (u_has_sync (set_corrupt true u));
      [replace (lenZ a + q + 3 + size + (-2 - size)) with (lenZ a + (q + 3 + size + (-2 - size))) by lia;
       destruct (find_sync_shift n (q + 3 + size + (-2 - size)) (set_corrupt true u)) as (-> & P); [lia|];
       destruct (find_sync n g (q + 3 + size + (-2 - size)) (set_corrupt true u)) as [[p u2]|]; cbn [shift_data]; split; try reflexivity; try exact I; lia
      |cbn [shift_data]; split; [apply snext_eq; lia|lia]].
    destruct (u_has_sync u); [|cbn [shift_data]; split; [apply snext_eq; lia|lia]].
    replace (lenZ a + q + 3 + size) with (lenZ a + (q + 3 + size)) by lia.
    destruct (find_last_shift (q + 3 + size) size u) as (-> & P); [lia|lia|lia|].
    destruct (find_sync_last g (q + 3 + size) size u) as [p u2]. cbn [shift_data]. split; [apply snext_eq; lia|lia].
Qed.
Lemma data_loop_shift n : forall q c u, 0 <= q -> c <= 1000 * q -> lenZ a + 1000 * lenZ g <= BIG ->
  data_loop n cf BIG (a ++ g) (lenZ a + q) (lenZ a + c) u = data_loop n (on_disk m cf) BIG g q c u.
Proof using Hg.
  induction n as [|n IH]; intros q c u Hq Hc Hb; [reflexivity|]. cbn [data_loop].
  destruct (data_step_shift (S n) q c u Hq Hc Hb) as (-> & P).
  destruct (data_step (S n) (on_disk m cf) BIG g q c u) as [p c' u'|u'|e|]; cbn [shift_data]; [|reflexivity..].
  apply IH; [apply P|apply P|exact Hb].
Qed.
End shifted.

(** ** The constructor *)
Lemma load_shift n cf m a g : bytes_ok g -> lenZ a + 1000 * lenZ g <= BIG -> ~ produces (on_disk m cf) g (Err OSError) -> unappended (on_disk m cf) g ->
  load_at n cf (a ++ g) (lenZ a) ulog0 = load_at n (on_disk m cf) g 0 ulog0.
Proof.
  intros Hg Hb N Ha. unfold load_at.
  assert (Er : read_header (a ++ g) (lenZ a) = read_header g 0).
  { unfold read_header. replace (lenZ a) with (lenZ a + 0) by lia. now rewrite rd_shift by lia. }
  rewrite Er. clear Er. destruct (read_header g 0) as [[v t]|e] eqn:Eh; [|reflexivity].
  set (u1 := set_last t (set_start t (set_version v ulog0))).
  assert (F : forall k r, def_loop k (on_disk m cf) g 16 u1 = Some (Err r) -> produces (on_disk m cf) g (Err r)).
  { intros k r E. exists k. unfold load, load_at. rewrite Eh. fold u1. change (0 + 16) with 16. now rewrite E. }
  destruct (def_loop_shift cf m a g n 16 u1) as (E & P); [lia|intros E; apply N; exact (F _ _ E)|].
  change (0 + 16) with 16. rewrite E. clear E.
  destruct (def_loop n (on_disk m cf) g 16 u1) as [[[p u2]|e]|] eqn:El; cbn [shift_res]; [|reflexivity..].
  change (cf_hdr (on_disk m cf)) with (cf_hdr cf). destruct (cf_hdr cf); [reflexivity|].
  assert (Ho : (if has_appended u2 then u_offsets u2 else []) = []).
  { destruct (Ha u2) as [->| ->]; [|reflexivity|now destruct (has_appended u2)].
    exists n. unfold load, load_at. rewrite Eh. fold u1. change (0 + 16) with 16.
    replace (def_loop n (with_hdr true (on_disk m cf)) g 16 u1) with (def_loop n (on_disk m cf) g 16 u1); [rewrite El; reflexivity|].
    clearbody u1. clear. revert u1. generalize 16. induction n as [|k IH]; intros q u; [reflexivity|]. cbn [def_loop].
    change (def_step (with_hdr true (on_disk m cf)) g q u) with (def_step (on_disk m cf) g q u). destruct (def_step (on_disk m cf) g q u); [apply IH|reflexivity..]. }
  rewrite Ho. cbn [read_sections]. unfold read_data. change 1125899906842624 with BIG. now rewrite (data_loop_shift cf m a g Hg) by lia.
Qed.
Lemma gives_open cf f p r : (exists c, gives cf (mkHandle f p false) r c) <-> exists n, load_at n cf f p ulog0 = Some r.
Proof.
  unfold gives, construct. cbn [h_closed h_bytes h_pos]. split.
  - intros (c & n & H). exists n. destruct (load_at n cf f p ulog0) as [[u|e]|]; [injection H as <- _; reflexivity|injection H as <- _; reflexivity|discriminate].
  - intros (n & H). destruct r as [u|e]; [exists true|exists false]; exists n; now rewrite H.
Qed.

(** ** Writing *)
Lemma put_over' x y z b : lenZ y = lenZ b -> put_at (x ++ y ++ z) (lenZ x) b = x ++ b ++ z.
Proof.
  intros H. destruct b as [|c b].
  - apply lenZ_0_nil in H as ->. reflexivity.
  - unfold put_at. set (d := c :: b) in *. rewrite takeZ_app_exact by reflexivity.
    rewrite lenZ_app. pose proof (lenZ_nonneg (y ++ z)). replace (Z.to_nat (lenZ x - (lenZ x + lenZ (y ++ z)))) with 0%nat by lia.
    cbn [repeat app]. f_equal. f_equal. rewrite app_assoc. apply dropZ_app_exact. rewrite lenZ_app. lia.
Qed.
Lemma put_beyond' x y b : lenZ y <= lenZ b -> put_at (x ++ y) (lenZ x) b = x ++ b.
Proof.
  intros H. destruct b as [|c b].
  - pose proof (lenZ_nonneg y). rewrite lenZ_nil in H. assert (y = []) as -> by (apply lenZ_0_nil; lia). reflexivity.
  - unfold put_at. set (d := c :: b) in *. rewrite takeZ_app_exact by reflexivity.
    rewrite lenZ_app. pose proof (lenZ_nonneg y). replace (Z.to_nat (lenZ x - (lenZ x + lenZ y))) with 0%nat by lia.
    rewrite dropZ_all by (rewrite lenZ_app; lia). cbn [repeat app]. now rewrite app_nil_r.
Qed.
Lemma put_gap x n b : b <> [] -> put_at x (lenZ x + Z.of_nat n) b = x ++ repeat 0 n ++ b.
Proof.
  intros H. destruct b as [|c b]; [easy|]. unfold put_at. set (d := c :: b) in *. pose proof (lenZ_nonneg d).
  rewrite takeZ_all by lia. rewrite dropZ_all by lia. replace (Z.to_nat (lenZ x + Z.of_nat n - lenZ x)) with n by lia. now rewrite app_nil_r.
Qed.
Lemma written_all u b : write u = Ok b -> put_all (messages u) = (b, None) /\ b <> [].
Proof.
  intros H. pose proof H as H'. rewrite write_messages in H. unfold outcome in H. destruct (put_all (messages u)) as [c [e|]] eqn:E; [discriminate|].
  injection H as ->. split; [reflexivity|]. unfold messages in E. cbn [app put_all] in E.
  destruct (write_header u) as [h|e] eqn:Eh; [|discriminate E].
  apply (f_equal fst) in E. match type of E with fst (let (_, _) := ?p in _) = _ => destruct p as [d e] end. cbn [fst] in E. subst b.
  unfold write_header in Eh. destruct (pack_u 1 (u_version u)) as [v|]; cbn in Eh; [|discriminate]. destruct (pack_u 8 (u_start u)) as [t|]; cbn in Eh; [|discriminate].
  intros X. apply app_eq_nil in X as [X _]. rewrite X in Eh. discriminate Eh.
Qed.
Lemma written_bytes u b : fits_format u -> write u = Ok b -> lenZ b <= BIG -> bytes_ok b.
Proof.
  intros Hf Hw Hl. destruct (write_ok u Hf) as (defs & pc & mi & mm & mp & mq & Wr & E).
  set (data := map m_add (by_id u) ++ map snd (sorted_items u pc)) in *.
  assert (Ef : b = file_header (u_version u) (u_start u) ++ frames (map wire defs) ++ frames (map wire data)).
  { rewrite E in Hw. now apply (f_equal (fun r => match r with Ok x => x | Err _ => b end)) in Hw. }
  exact (wf_bytes _ _ _ _ _ (typed_framed _ _ _ _ _ (typed_written u defs pc mi mm mp mq Hf Wr b Ef Hl))).
Qed.
