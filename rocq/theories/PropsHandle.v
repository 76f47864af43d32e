(** Property C74: logs in file objects. *)
From Verif Require Import Base Dict Utf8 PyStr PyFloat Struct PySort ModelTypes ModelRead ModelWrite ModelWriting ModelHandle
  Spec SpecSection SpecMsg SpecLog SpecWrite SpecWriting SpecHandle ProofsRead ProofsWriting ProofsHandle Samples SamplesWrite PropsRead PropsWrite PropsWriting.

(** A log is read from where the object stands: with other bytes [a] before it, it has exactly the results that the log has
    alone as a file on a disk.  Provided: that is not an OSError, the log names no offsets of appended data, and the object
    is not too large (lengths up to 2^50 bytes in total, 2^40 for the log). *)
Theorem C74_place : forall cf m a g, bytes_ok g -> lenZ a + 1000 * lenZ g <= BIG ->
  ~ produces (on_disk m cf) g (Err OSError) -> unappended (on_disk m cf) g ->
  forall r, (exists closed, gives cf (mkHandle (a ++ g) (lenZ a) false) r closed) <-> produces (on_disk m cf) g r.
Proof.
  intros cf m a g Hg Hb N Ha r. rewrite gives_open. unfold produces, load. split; intros (n & H); exists n.
  - now rewrite <- (load_shift n cf m a g Hg Hb N Ha).
  - now rewrite (load_shift n cf m a g Hg Hb N Ha).
Qed.
(** So bytes before the log have no effect. *)
Theorem C74_before : forall cf m a a' g, bytes_ok g -> lenZ a + 1000 * lenZ g <= BIG -> lenZ a' + 1000 * lenZ g <= BIG ->
  ~ produces (on_disk m cf) g (Err OSError) -> unappended (on_disk m cf) g ->
  forall r closed, gives cf (mkHandle (a ++ g) (lenZ a) false) r closed <-> gives cf (mkHandle (a' ++ g) (lenZ a') false) r closed.
Proof.
  intros cf m a a' g Hg Hb Hb' N Ha r closed. unfold gives, construct. cbn [h_closed h_bytes h_pos].
  split; intros (n & H); exists n; rewrite (load_shift n cf m a g), (load_shift n cf m a' g) in * by assumption; exact H.
Qed.
(** The object is closed exactly when the constructor returns.  With a closed object it raises ValueError, so that each
    object can be loaded once. *)
Theorem C74_closed : forall cf h r closed, gives cf h r closed ->
  (h_closed h = true -> r = Err ValueError /\ closed = true) /\
  (h_closed h = false -> (closed = true <-> exists u, r = Ok u)).
Proof.
  intros cf h r closed (n & H). unfold construct in H. destruct (h_closed h).
  - injection H as <- <-. split; [now split|discriminate].
  - split; [discriminate|]. intros _. destruct (load_at n cf (h_bytes h) (h_pos h) ulog0) as [[u|e]|]; [|  |discriminate]; injection H as <- <-.
    + split; [intros _; now exists u|reflexivity].
    + split; [discriminate|intros (u & X); discriminate X].
Qed.
(** write_ulog writes from where the object stands on and leaves it open, right behind what was written.  What is in
    front stays, and so does what is behind; a gap is filled with zeros. *)
Theorem C74_write : forall u b x, write u = Ok b ->
  (forall y z, lenZ y = lenZ b -> write_on (mkHandle (x ++ y ++ z) (lenZ x) false) u = (None, mkHandle (x ++ b ++ z) (lenZ (x ++ b)) false)) /\
  (forall y, lenZ y <= lenZ b -> write_on (mkHandle (x ++ y) (lenZ x) false) u = (None, mkHandle (x ++ b) (lenZ (x ++ b)) false)) /\
  (forall n, write_on (mkHandle x (lenZ x + Z.of_nat n) false) u = (None, mkHandle (x ++ repeat 0 n ++ b) (lenZ (x ++ repeat 0 n ++ b)) false)).
Proof.
  intros u b x H. destruct (written_all u b H) as (E & Hne). unfold write_on. rewrite E. cbn [h_closed h_bytes h_pos].
  split; [|split].
  - intros y z Hy. rewrite put_over' by assumption. now rewrite lenZ_app.
  - intros y Hy. rewrite put_beyond' by assumption. now rewrite lenZ_app.
  - intros n. rewrite put_gap by assumption. rewrite !lenZ_app. unfold lenZ at 4. rewrite repeat_length. do 2 f_equal. lia.
Qed.
(** If it raises, what is in the object is what would be in the file (C62), and the object is open. *)
Theorem C74_write_failed : forall u e fs name x y z, write u = Err e ->
  exists fs' b, write_to fs name u = (fs', Some e) /\ fs' name = Some b /\
    (lenZ y = lenZ b -> write_on (mkHandle (x ++ y ++ z) (lenZ x) false) u = (Some e, mkHandle (x ++ b ++ z) (lenZ (x ++ b)) false)) /\
    (lenZ y <= lenZ b -> write_on (mkHandle (x ++ y) (lenZ x) false) u = (Some e, mkHandle (x ++ b) (lenZ (x ++ b)) false)).
Proof.
  intros u e fs name x y z H. rewrite write_messages in H. unfold outcome in H. unfold write_to, write_on.
  destruct (put_all (messages u)) as [b [e'|]]; [|discriminate]. injection H as ->. do 2 eexists. split; [reflexivity|].
  cbv beta. rewrite str_eqb_refl. split; [reflexivity|]. cbn [h_closed h_bytes h_pos]. split; intros Hy.
  - rewrite put_over' by assumption. now rewrite lenZ_app.
  - rewrite put_beyond' by assumption. now rewrite lenZ_app.
Qed.
(** write_ulog on a closed object raises and changes nothing: ValueError from the first write, unless the header itself cannot
    be made. *)
Theorem C74_write_closed : forall h u, h_closed h = true ->
  exists e, write_on h u = (Some e, h) /\
    ((0 <= u_version u < 256 /\ 0 <= u_start u < 18446744073709551616) /\ e = ValueError \/
     ~ (0 <= u_version u < 256 /\ 0 <= u_start u < 18446744073709551616) /\ e = StructError).
Proof.
  intros h u C. unfold write_on. rewrite C. destruct (put_all (messages u)) as [b e]. eexists. split; [reflexivity|].
  unfold messages. cbn [app]. unfold write_header, pack_u. change (256 ^ Z.of_nat 1) with 256. change (256 ^ Z.of_nat 8) with 18446744073709551616.
  destruct (Z.leb_spec 0 (u_version u)), (Z.ltb_spec (u_version u) 256), (Z.leb_spec 0 (u_start u)), (Z.ltb_spec (u_start u) 18446744073709551616);
    cbn [andb bind]; first [left; split; [lia|reflexivity]|right; split; [lia|reflexivity]].
Qed.
Example C74_ex_closed : write_on (mkHandle (lit "xyz") 1 true) s_obj = (Some ValueError, mkHandle (lit "xyz") 1 true).
Proof. vm_compute. reflexivity. Qed.
(** A log that is written at the end of an object, wherever that is, and read back from there is the same as through a
    file of its own. *)
Theorem C74_round_trip : forall u b x y, fits_format u -> write u = Ok b -> lenZ x + 1000 * lenZ b <= BIG -> lenZ y <= lenZ b ->
  exists h depth, write_on (mkHandle (x ++ y) (lenZ x) false) u = (None, h) /\ h_closed h = false /\
  forall cf, (depth <= cf_depth cf)%nat -> cf_hdr cf = false -> (forall n, cf_filter cf n = true) ->
  exists u', (forall r, (exists closed, gives cf (mkHandle (h_bytes h) (lenZ x) false) r closed) <-> r = Ok u') /\ copy_of u u'.
Proof.
  intros u b x y Hf Hw Hb Hy. pose proof (lenZ_nonneg x) as Lx. pose proof (lenZ_nonneg b) as Lb.
  destruct (C22_round_trip u Hf) as (b' & Ew & R). rewrite Ew in Hw. injection Hw as ->.
  destruct R as (depth & R); [lia|].
  eexists. exists depth. split; [apply (C74_write u b x Ew); exact Hy|]. split; [reflexivity|]. cbn [h_bytes].
  intros cf Hd Hh Hall. destruct (R (on_disk 4611686018427387904 cf) Hd Hh Hall) as (u' & P & C). exists u'. split; [|exact C].
  assert (Ok' : bytes_ok b) by (exact (written_bytes u b Hf Ew ltac:(lia))).
  intros r. rewrite (C74_place cf 4611686018427387904 x b Ok' Hb).
  - apply P.
  - intros X. apply P in X. discriminate X.
  - intros w Hw. destruct (C18_header_only (on_disk 4611686018427387904 cf) b u' Ok' Hh) as (u0 & P0 & _ & _ & _ & _ & _ & _ & O & _); [now apply P|].
    right. assert (E : w = u0) by (pose proof (C03_deterministic _ _ _ _ Hw P0) as Q; now injection Q).
    rewrite E, O. apply (cp_flags _ _ C).
Qed.

(** *** Cases that meet the hypotheses *)
Example C74_ex_place : bytes_ok s_file /\ lenZ (lit "xyz") + 1000 * lenZ s_file <= BIG /\ ~ produces (on_disk 4611686018427387904 cf0) s_file (Err OSError) /\
  unappended (on_disk 4611686018427387904 cf0) s_file.
Proof.
  assert (B : bytes_ok s_file) by (exact (wf_bytes _ _ _ _ _ (proj1 C02_ex))).
  pose proof s_obj_loaded as L. change (on_disk 4611686018427387904 cf0) with cf0.
  split; [exact B|]. split; [vm_compute; discriminate|]. split; [intros X; pose proof (C03_deterministic _ _ _ _ L X) as Q; discriminate Q|].
  intros w Hw. destruct (C18_header_only cf0 s_file s_obj B eq_refl L) as (u0 & P0 & _ & _ & _ & _ & _ & _ & O & _).
  pose proof (C03_deterministic _ _ _ _ Hw P0) as Q. injection Q as ->. right. rewrite O. reflexivity.
Qed.
Example C74_ex_write : exists b, write s_obj = Ok b /\ lenZ (lit "xyz") + 1000 * lenZ b <= BIG /\ lenZ (lit "old") <= lenZ b /\ fits_format s_obj.
Proof. eexists. split; [vm_compute; reflexivity|]. split; [vm_compute; discriminate|]. split; [vm_compute; discriminate|exact s_fits]. Qed.
Example C74_ex_failed : exists e, write (set_version 256 s_obj) = Err e.
Proof. eexists. vm_compute. reflexivity. Qed.

(** *** What a user might expect and is not true *)
(** Writing a log over a longer one: the end of the old one stays, and its messages are loaded as if they belonged to
    the new log. *)
Definition h_flags : Z * bytes := wire (MFlags (repeat 0 8) (repeat 0 8) 0 0 0).
Theorem C74_behind_refuted : exists u old h w,
  produces cf0 (file_header 1 3 ++ frames [h_flags]) (Ok u) /\ u_logged u = [] /\
  old = file_header 1 5 ++ frames [h_flags; m_log 7] /\ write_on (mkHandle old 0 false) u = (None, h) /\
  gives cf0 (mkHandle (h_bytes h) 0 false) (Ok w) true /\ u_start w = 3 /\ u_logged w = [mkLog 54 7 (lit "a")] /\ u_corrupt w = false.
Proof.
  do 4 eexists. split; [exists 5%nat; vm_compute; reflexivity|]. split; [reflexivity|]. split; [reflexivity|].
  split; [vm_compute; reflexivity|]. split; [exists 5%nat; vm_compute; reflexivity|]. repeat split.
Qed.
(** The offsets of appended data count from the start of the file, not from the log. *)
Definition h_appended : bytes := hdr0 ++ frames [wire (MFlags (repeat 0 8) [1; 0; 0; 0; 0; 0; 0; 0] 72 0 0); m_log 7; m_log 9].
Theorem C74_appended_refuted : exists u w,
  produces cf0 h_appended (Ok u) /\ map lg_ts (u_logged u) = [7; 9] /\ u_corrupt u = false /\
  gives cf0 (mkHandle (lit "xyz" ++ h_appended) 3 false) (Ok w) true /\ u_logged w = [] /\ u_corrupt w = true.
Proof.
  do 2 eexists. split; [exists 5%nat; vm_compute; reflexivity|]. split; [reflexivity|]. split; [reflexivity|].
  split; [exists 5%nat; vm_compute; reflexivity|]. repeat split.
Qed.
(** A log that is cut in its first data message makes the reader go back, into the log before it: the messages of that log
    are loaded as those of this one. *)
Definition h_cut : bytes := hdr0 ++ takeZ 5 (frame_of (wire (MLog 54 9 (repeat 98 22)))).
Theorem C74_back_refuted : exists w, let a := hdr0 ++ frames [m_log 7] in
  produces cf0 h_cut (Err OSError) /\
  gives cf0 (mkHandle (a ++ h_cut) (lenZ a) false) (Ok w) true /\ u_logged w = [mkLog 54 7 (lit "a")] /\ u_corrupt w = false.
Proof.
  eexists. cbv zeta. split; [exists 5%nat; vm_compute; reflexivity|]. split; [exists 5%nat; vm_compute; reflexivity|]. repeat split.
Qed.
