(** Property C61: what a cut log shows is an initial part of the log. *)
From Coq Require Import Permutation Sorted.
From Verif Require Import Base Dict Utf8 PyStr PyFloat Struct PySort ModelTypes ModelRead ModelWrite
  Spec SpecSection SpecMsg SpecLog SpecWrite SpecCut ProofsRead ProofsFile ProofsCut ProofsLog ProofsWrite ProofsRound ProofsCopy ProofsPart
  Samples SamplesWrite.

(** ** C61 *)
(** A log without re-used message ids, cut anywhere after the first message of its data
    section: it loads without any sign of corruption, everything it shows is an initial part of
    what the complete log shows, every message that is complete is shown, and if the data
    section holds no definitions, the definitions are the same. *)
Theorem C61_cut_partial : forall f v t defs data, typed_log f v t defs data -> NoDup (flat_map add_of data) ->
  exists depth, forall cf, (depth <= cf_depth cf)%nat -> cf_hdr cf = false -> (forall n, cf_filter cf n = true) ->
  exists u, (forall r, produces cf f r <-> r = Ok u) /\ contents (formats_in defs) v t defs data u /\
  forall k, lenZ (file_header v t ++ frames (map wire defs) ++ frames (map wire (firstn 1 data))) <= k <= lenZ f ->
  exists w, (forall r, produces cf (takeZ k f) r <-> r = Ok w) /\ u_corrupt w = false /\ part_of w u /\
    (exists a b, data = a ++ b /\ contents (formats_in defs) v t defs a w /\
       match b with [] => k = lenZ f | x :: _ => k < lenZ (file_header v t ++ frames (map wire defs) ++ frames (map wire (a ++ [x]))) end) /\
    (forallb (fun m => negb (defines m)) data = true -> all_definitions w u).
Proof. exact cut_part. Qed.
Example C61_cut_ex : typed_log s_file 1 500 s_defs s_data /\ NoDup (flat_map add_of s_data).
Proof. split; [exact s_typed|]. repeat (constructor; [cbn; intuition discriminate|]). constructor. Qed.

(** write_ulog interrupted: whatever has reached the disk after the first message of the data
    section loads as an initial part of the copy, with all its definitions. *)
Theorem C61_written : forall u f, fits_format u -> write u = Ok f -> lenZ f <= BIG ->
  exists defs data depth, f = file_header (u_version u) (u_start u) ++ frames defs ++ frames data /\
    Forall plain_def defs /\ starts_data data /\
  forall cf, (depth <= cf_depth cf)%nat -> cf_hdr cf = false -> (forall n, cf_filter cf n = true) ->
  exists u', (forall r, produces cf f r <-> r = Ok u') /\ copy_of u u' /\
  forall k, lenZ (file_header (u_version u) (u_start u) ++ frames defs ++ frames (firstn 1 data)) <= k <= lenZ f ->
  exists w, (forall r, produces cf (takeZ k f) r <-> r = Ok w) /\ u_corrupt w = false /\ part_of w u' /\ all_definitions w u'.
Proof. exact written_cut. Qed.
Example C61_written_ex : fits_format s_obj.
Proof. exact s_fits. Qed.

(** A cut inside the definition section, after [j] bytes of the definition [(ty, p)]. *)
Theorem C61_cut_definitions : forall cf v t defs ty p j,
  header_fits v t -> Forall plain_def (defs ++ [(ty, p)]) -> not_appended (defs ++ [(ty, p)]) ->
  cf_hdr cf = false -> 0 <= j < 3 + lenZ p ->
  lenZ (file_header v t ++ frames (defs ++ [(ty, p)])) <= BIG ->
  forall r, produces cf (takeZ (lenZ (file_header v t ++ frames defs) + j) (file_header v t ++ frames (defs ++ [(ty, p)]))) r <->
    r = match run_def cf defs (after_header v t) with
        | Err e => Err e
        | Ok u => if j =? 0 then Ok u else if j <? 3 then Err StructError else run_def cf [(ty, takeZ (j - 3) p)] u
        end.
Proof. exact cut_definition. Qed.
(** The definition section of the sample log, cut inside the text of an entry. *)
Example C61_cut_definitions_ex : header_fits 1 500 /\ Forall plain_def (map wire (firstn 3 s_defs) ++ [wire (MInfo (lit "char[3]") (lit "sys_name") (lit "PX4"))]) /\
  not_appended (map wire (firstn 3 s_defs) ++ [wire (MInfo (lit "char[3]") (lit "sys_name") (lit "PX4"))]).
Proof.
  split; [split; [unfold byte_ok|]; lia|]. split.
  - pose proof (wf_defs _ _ _ _ _ (typed_framed _ _ _ _ _ s_typed)) as H. change (map wire s_defs) with
      ((map wire (firstn 3 s_defs) ++ [wire (MInfo (lit "char[3]") (lit "sys_name") (lit "PX4"))]) ++ map wire (skipn 4 s_defs)) in H.
    apply Forall_app in H. exact (proj1 H).
  - repeat constructor; cbn; intros; try discriminate; reflexivity.
Qed.

(** The flag bits are the first message of a log: a cut inside them always raises struct.error. *)
Theorem C61_cut_flags : forall cf v t p j, header_fits v t -> frame_fits (66, p) -> Z.land (nth 8 p 0) 1 = 0 -> cf_hdr cf = false ->
  0 < j < 3 + lenZ p -> j < 43 ->
  forall r, produces cf (takeZ (16 + j) (file_header v t ++ frame 66 p)) r <-> r = Err StructError.
Proof. exact cut_flags. Qed.
Example C61_cut_flags_ex : frame_fits (66, repeat 0 40) /\ Z.land (nth 8 (repeat 0 40) 0) 1 = 0 /\ 0 < 20 < 3 + lenZ (repeat 0 40).
Proof. split; [|split; [reflexivity|vm_compute; split; reflexivity]]. split; [unfold byte_ok; cbn; lia|]. split; [cbn; repeat constructor; discriminate|reflexivity]. Qed.

(** *** What is not true *)
(** A cut inside the definition section can shorten a text without any sign. *)
Theorem C61_text_refuted : exists f v t defs data k u w,
  typed_log f v t defs data /\ NoDup (flat_map add_of data) /\ 16 <= k <= lenZ f /\
  produces cf0 f (Ok u) /\ produces cf0 (takeZ k f) (Ok w) /\ u_corrupt w = false /\
  sget (lit "sys_name") (u_info u) = Some (VStr (lit "PX4")) /\ sget (lit "sys_name") (u_info w) = Some (VStr (lit "PX")).
Proof.
  exists s_file, 1, 500, s_defs, s_data, (lenZ (file_header 1 500 ++ frames (map wire (firstn 4 s_defs))) - 1), s_obj. eexists.
  split; [exact s_typed|]. split; [exact (proj2 C61_cut_ex)|]. split; [vm_compute; split; discriminate|]. split; [exact s_obj_loaded|].
  split; [exists 20%nat; vm_compute; reflexivity|]. split; [reflexivity|]. split; reflexivity.
Qed.
(** A cut inside the first message of the data section makes the reader go back by the size
    that is announced and not by the bytes that are there: it may take a definition for a
    message of the data section. *)
Definition c_defs : list msg := [MParam (lit "int32_t") (lit "P") [7; 0; 0; 0]].
Definition c_data : list msg := [MLog 54 1001 (lit "a text of some length")].
Definition c_file : bytes := file_header 1 500 ++ frames (map wire c_defs) ++ frames (map wire c_data).
Lemma c_typed : typed_log c_file 1 500 c_defs c_data.
Proof.
  constructor.
  - reflexivity.
  - split; [unfold byte_ok|]; lia.
  - vm_compute. discriminate.
  - split; [|repeat constructor]. constructor; [|constructor]. split; [|vm_compute; reflexivity]. cbn [msg_ok]. ok_kv ltac:(apply (ty_signed I32 7); [cbn; tauto|cbn; lia]).
  - split; [|repeat constructor]. constructor; [|constructor]. split; [|vm_compute; reflexivity]. split; [unfold u8; lia|split; [unfold u64; lia|ok_str]].
  - exact I.
  - split.
    + intros multi id name [H|[]]. discriminate.
    + intros pre id r post E. apply split_at in E as [_ E]. destruct (length pre) as [|n]; [discriminate|]. destruct n; discriminate.
Qed.
Theorem C61_first_refuted : exists f v t defs data k u w,
  typed_log f v t defs data /\ NoDup (flat_map add_of data) /\ lenZ (file_header v t ++ frames (map wire defs)) <= k <= lenZ f /\
  produces cf0 f (Ok u) /\ produces cf0 (takeZ k f) (Ok w) /\ u_corrupt w = false /\
  u_changed u = [] /\ u_changed w = [(500, lit "P", VInt 7)].
Proof.
  exists c_file, 1, 500, c_defs, c_data, (lenZ c_file - lenZ (frames (map wire c_defs))). eexists. eexists.
  split; [exact c_typed|]. split; [constructor|]. split; [vm_compute; split; discriminate|]. split; [exists 20%nat; vm_compute; reflexivity|].
  split; [exists 20%nat; vm_compute; reflexivity|]. split; [reflexivity|]. split; reflexivity.
Qed.
(** When a message id is subscribed again, the samples so far are dropped: the complete log
    lacks what the cut one shows. *)
Definition r_data : list msg := [MAdd 0 1 (lit "t"); MData 1 (rec_t 1000 5 1 2); MAdd 0 1 (lit "t"); MData 1 (rec_t 2000 6 1 2)].
Definition r_file : bytes := file_header 1 500 ++ frames (map wire s_defs) ++ frames (map wire r_data).
Lemma r_typed : typed_log r_file 1 500 s_defs r_data.
Proof.
  constructor.
  - reflexivity.
  - split; [unfold byte_ok|]; lia.
  - vm_compute. discriminate.
  - split; [exact s_defs_ok|]. repeat constructor.
  - split; [|repeat constructor]. repeat (apply Forall_cons; [split; [cbn [msg_ok]|vm_compute; reflexivity]|]); [..|constructor].
    + split; [unfold u8; lia|split; [unfold u16; lia|ok_str]].
    + split; [unfold u16; lia|]. cbn. ok_bytes.
    + split; [unfold u8; lia|split; [unfold u16; lia|ok_str]].
    + split; [unfold u16; lia|]. cbn. ok_bytes.
  - exact I.
  - split.
    + intros multi id name H. exists flat_t.
      repeat (destruct H as [H|H]; [try discriminate; injection H as <- <- <-; exact s_topic|]). destruct H.
    + intros pre id r post E. apply split_at in E as [-> E]. revert E. generalize (length pre). intros n E.
      do 4 (destruct n as [|n]; [cbn in E; first [discriminate | injection E as <- <-;
        do 3 eexists; exists flat_t; split; [vm_compute; reflexivity|split; [exact s_topic|reflexivity]]]|]).
      destruct n; discriminate.
Qed.
Theorem C61_reused_refuted : exists f v t defs data k u w,
  typed_log f v t defs data /\
  lenZ (file_header v t ++ frames (map wire defs) ++ frames (map wire (firstn 1 data))) <= k <= lenZ f /\
  produces cf0 f (Ok u) /\ produces cf0 (takeZ k f) (Ok w) /\ u_corrupt u = false /\ ~ part_of w u.
Proof.
  exists r_file, 1, 500, s_defs, r_data, (lenZ (file_header 1 500 ++ frames (map wire s_defs) ++ frames (map wire (firstn 2 r_data)))). eexists. eexists.
  split; [exact r_typed|]. split; [vm_compute; split; discriminate|]. split; [exists 20%nat; vm_compute; reflexivity|].
  split; [exists 20%nat; vm_compute; reflexivity|]. split; [reflexivity|]. intros P.
  destruct (po_data _ _ P _ (or_introl eq_refl)) as (d' & [<-|[]] & _ & _ & _ & _ & H).
  destruct (H _ (or_introl eq_refl)) as (a & b & Ha & Hb & _ & (s & Hs)). injection Ha as <-. injection Hb as <-. discriminate Hs.
Qed.
(** If that leads before the start of the file, a file on disk raises OSError; a BytesIO object
    goes on at its start. *)
Theorem C61_first_message : forall cf m v t defs u1 ty p j f, cf_kind cf = OsFile m -> header_fits v t -> Forall plain_def defs ->
  run_def cf defs (after_header v t) = Ok u1 -> frame_fits (ty, p) -> In ty end_types -> 3 <= j < 3 + lenZ p ->
  f = file_header v t ++ frames defs ++ takeZ j (frame ty p) -> lenZ f < 3 + lenZ p ->
  forall r, produces cf f r <-> r = Err OSError.
Proof. exact cut_first. Qed.
Definition f_text : bytes := snd (wire (MLog 54 1001 (lit "a text of some length"))).
Definition f_file : bytes := file_header 1 500 ++ frames [] ++ takeZ 5 (frame 76 f_text).
Example C61_first_message_ex : frame_fits (76, f_text) /\ lenZ f_file < 3 + lenZ f_text.
Proof.
  split; [|vm_compute; reflexivity]. split; [unfold byte_ok; cbn; lia|]. split; [|vm_compute; reflexivity].
  cbn. repeat (constructor; [unfold byte_ok; lia|]). constructor.
Qed.
(** From a BytesIO object the file header is read again, as a message of 19541 bytes. *)
Example C61_first_memory : exists u, produces (mkCfg false all_topics false 900 MemFile) f_file (Ok u) /\ u_corrupt u = false /\ u_logged u = [].
Proof. eexists. split; [exists 60%nat; vm_compute; reflexivity|]. split; reflexivity. Qed.

Print Assumptions C61_cut_partial.
Print Assumptions C61_written.
Print Assumptions C61_cut_definitions.
Print Assumptions C61_first_message.
