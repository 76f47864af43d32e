(** C70, C71: which messages of any file are read; logs with damaged places.

    The vocabulary is in SpecWalk.v: the way of the reader through the bytes of a file. *)
From Verif Require Import Base Dict Utf8 PyStr PyFloat Struct PySort ModelTypes ModelRead ModelApi Spec SpecSection SpecMsg SpecLog SpecWalk
  ProofsRead ProofsFile ProofsWalk ProofsDamage Samples PropsRead.

(** ** C70: the exact law of loading *)
(** Whatever the file: loading it has exactly the results the walk through its bytes gives. *)
Theorem C70_law : forall cf f r, bytes_ok f -> (produces cf f r <-> outcome cf f r).
Proof. intros cf f r Hb. split; [now apply produces_outcome|now apply outcome_produces]. Qed.
(** Any bytes can be walked, from any place, in exactly one way: the reader always gets to the end of a section. *)
Theorem C70_walk : forall f limit q c look, bytes_ok f -> 0 <= q ->
  exists evs, walk f limit q c look evs /\ forall evs', walk f limit q c look evs' -> evs' = evs.
Proof.
  intros f limit q c look Hb Hq. destruct (walk_exists f limit Hb q c look Hq) as (evs & W). exists evs. split; [exact W|].
  intros evs' W'. exact (walk_fun f limit q c look evs Hb W Hq evs' W').
Qed.
(** There is one result at most. *)
Theorem C70_one_result : forall cf f r r', bytes_ok f -> outcome cf f r -> outcome cf f r' -> r' = r.
Proof. intros cf f r r' Hb H H'. apply C70_law in H, H'; try exact Hb. exact (produces_fun _ _ _ _ H' H). Qed.
(** A log that loads was made from the messages of the walk, and of this walk only. *)
Theorem C70_trace : forall cf f u, bytes_ok f -> cf_hdr cf = false -> produces cf f (Ok u) ->
  exists defs secs, walked cf f u defs secs /\ read_as cf (u_version u) (u_start u) defs secs u /\
    forall defs' secs', walked cf f u defs' secs' -> defs' = defs /\ secs' = secs.
Proof.
  intros cf f u Hb Hh Hp. destruct (load_walked cf f u Hb Hh Hp) as (defs & secs & W & _ & _ & _ & R). exists defs, secs. split; [exact W|]. split; [exact R|].
  intros defs' secs' W'. exact (walked_unique cf f u defs secs defs' secs' Hb Hh Hp W W').
Qed.
(** a message, a damaged header, a sync sequence and a message: the walk through it *)
Definition c70_file : bytes := hdr0 ++ frame_of (m_log 7) ++ [5; 0; 0] ++ sync_sequence ++ frame_of (m_log 8).
Example C70_ex : walk c70_file BIG 16 16 true [EMsg 76 (snd (m_log 7)); ECorrupt; EMsg 76 (snd (m_log 8))] /\
  exists u, produces cf0 c70_file (Ok u) /\ map lg_ts (u_logged u) = [7; 8].
Proof.
  split; [|eexists; split; [exists 5%nat; vm_compute; reflexivity|reflexivity]].
  apply walk_message; [vm_compute; reflexivity|vm_compute; discriminate|vm_compute; tauto|].
  apply (walk_sync c70_file BIG _ _ 0 [47; 115; 19; 32; 37] 2); [vm_compute; reflexivity|vm_compute; discriminate|vm_compute; intuition discriminate|left; reflexivity| |].
  - split; [exists [0; 0], (frame_of (m_log 8)); split; vm_compute; reflexivity|]. intros a b E.
    destruct a as [|x [|y a]]; [discriminate E|discriminate E|]. rewrite !lenZ_cons. pose proof (lenZ_nonneg a). lia.
  - apply walk_message; [vm_compute; reflexivity|vm_compute; discriminate|vm_compute; tauto|].
    apply walk_end. intros ty p M. exfalso. revert M. apply tail_no_message with (tl := []); [vm_compute; reflexivity|now left].
Qed.

(** ** C71: damaged places *)
(** Damage that is recognised and that a sync sequence follows costs nothing but itself: the log is that of the file
    without these bytes, with file_corruption set. *)
Theorem C71_damage : forall cf f v t defs m rest ms hurt,
  f = file_header v t ++ frames defs ++ frames [m] ++ rest -> header_fits v t -> bytes_ok f -> 10000 * lenZ f <= BIG ->
  Forall plain_def defs -> not_appended defs -> frame_fits m -> In (fst m) end_types -> cf_hdr cf = false -> damaged rest ms hurt ->
  exists r r0, produces cf f r /\ produces cf (file_header v t ++ frames defs ++ frames (m :: ms)) r0 /\
    (r = r0 \/ hurt = true /\ r = rmap (set_corrupt true) r0) /\
    (hurt = true -> goes_on cf (format_dict (formats (cf_ign cf) (msgs defs))) (msgs (m :: ms)) -> r = rmap (set_corrupt true) r0).
Proof. exact damaged_load. Qed.
(** damage twice: a header with type 0, and a plausible message of an unknown type that swallows a message *)
Definition c71_rest : bytes := frames [] ++ [5; 0; 0] ++ sync_sequence ++ (frames [m_log 8] ++ ([24; 0; 90] ++ [1; 2; 3]) ++ sync_sequence ++ (frames [m_log 9] ++ [])).
Lemma first_sync (a b : bytes) : ~ In 47 a -> first_occurrence sync_sequence (a ++ sync_sequence ++ b) (lenZ a).
Proof.
  intros H. split; [exists a, b; auto|]. intros a' b' E. destruct (Z.le_gt_cases (lenZ a) (lenZ a')) as [L|L]; [exact L|]. exfalso. apply H.
  revert a' E L. induction a as [|x a IH]; intros a' E L; [pose proof (lenZ_nonneg a'); change (lenZ (@nil Z)) with 0 in L; lia|].
  destruct a' as [|y a']; [left; exact (f_equal (fun l => hd 0 l) E)|]. right. apply (IH ltac:(intros C; apply H; now right) a').
  - exact (f_equal (@tl Z) E).
  - rewrite !lenZ_cons in L. lia.
Qed.
Example C71_ex : damaged c71_rest [m_log 8; m_log 9] true /\
  exists u, produces cf0 (hdr0 ++ frames [] ++ frames [m_log 7] ++ c71_rest) (Ok u) /\ map lg_ts (u_logged u) = [7; 8; 9] /\ u_corrupt u = true.
Proof.
  split; [|eexists; split; [exists 8%nat; vm_compute; reflexivity|split; reflexivity]].
  assert (P : forall t, u64 t -> Forall plain_data [m_log t]) by (intros t Ht; constructor; [apply m_log_plain; exact Ht|constructor]).
  change [m_log 8; m_log 9] with ([] ++ [m_log 8; m_log 9]). unfold c71_rest. apply damaged_at with (hurt := true); [constructor| |].
  - exists 0, [47; 115; 19; 32; 37]. eexists. split; [vm_compute; reflexivity|]. split; [vm_compute; intuition discriminate|]. left.
    split; [left; reflexivity|]. split; [vm_compute; discriminate|]. exact (first_sync [0; 0] _ ltac:(cbn; lia)).
  - change [m_log 8; m_log 9] with ([m_log 8] ++ [m_log 9]). apply damaged_at with (hurt := false); [apply P; unfold u64; lia| |].
    + exists 90, ([1; 2; 3] ++ sync_sequence ++ frame_of (m_log 9)), []. split; [vm_compute; reflexivity|]. split; [vm_compute; intuition discriminate|]. right.
      split; [unfold doubtful; vm_compute; intuition discriminate|]. exact (first_sync [1; 2; 3] _ ltac:(cbn; lia)).
    + apply damaged_not; [apply P; unfold u64; lia|now left].
Qed.
(** With appended data this is false: when the reader resumes inside a message it goes on counting from that message's
    end, so that the section seems to end early and its last messages are lost. *)
Definition c71_swallowed (mid : bytes) (off : Z) : bytes :=
  hdr0 ++ frames (map wire [MFlags (repeat 0 8) [1; 0; 0; 0; 0; 0; 0; 0] off 0 0]) ++ frame_of (m_log 1) ++ mid ++ sync_sequence ++ frame_of (m_log 2) ++ frame_of (m_log 3) ++ frame_of (m_log 4).
Theorem C71_appended_refuted : exists u u0,
  produces cf0 (c71_swallowed [21; 0; 90] 109) (Ok u) /\ map lg_ts (u_logged u) = [1; 2; 4] /\
  produces cf0 (c71_swallowed [5; 0; 0] 109) (Ok u0) /\ map lg_ts (u_logged u0) = [1; 2; 3; 4].
Proof.
  do 2 eexists. split; [exists 10%nat; vm_compute; reflexivity|]. split; [reflexivity|]. split; [exists 10%nat; vm_compute; reflexivity|]. reflexivity.
Qed.
