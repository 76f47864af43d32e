(** Properties C01-C08, C10-C21, C51, C52: reading a log.

    The vocabulary is in Spec.v (files, frames, outcomes), SpecSection.v (the meaning of a
    sequence of messages), SpecMsg.v and SpecLog.v (well-formed messages and logs). *)
From Coq Require Import Permutation Sorted.
From Verif Require Import Base Dict Utf8 PyStr PyFloat Struct PySort ModelTypes ModelRead ModelApi Spec SpecSection SpecMsg SpecLog
  ProofsRead ProofsFile ProofsSync ProofsChange ProofsInv ProofsTrace ProofsSection ProofsData ProofsWhole ProofsFields ProofsLoad
  ProofsMsg ProofsExpand ProofsCut ProofsDefaults ProofsLog Samples ProofsProps SpecWalk ProofsWalk.
Ltac Zify.zify_post_hook ::= Z.div_mod_to_equations.

(** ** C01: text *)
Theorem C01_utf8_roundtrip : forall s, str_ok s -> exists b, utf8_encode s = Ok b /\ bytes_ok b /\
  forall ign, parse_string ign b = Ok s.
Proof.
  intros s H. destruct (utf8_encode_Ok s H) as (b & E). exists b. split; [exact E|].
  split; [eapply utf8_encode_bytes_ok; eauto|]. intros ign. now apply utf8_decode_encode.
Qed.
Theorem C01_ignore_total : forall b, exists s, parse_string true b = Ok s.
Proof. exact utf8_decode_ignore_total. Qed.
Theorem C01_strict_exact : forall b s, bytes_ok b -> parse_string false b = Ok s ->
  parse_string true b = Ok s /\ utf8_encode s = Ok b /\ str_ok s.
Proof.
  intros b s Hb H. split; [now apply utf8_decode_strict_ignore|].
  assert (E : utf8_encode s = Ok b) by now apply utf8_decode_strict_encode.
  split; [exact E|eapply utf8_encode_str_ok; eauto].
Qed.
(** strict mode fails only with UnicodeDecodeError *)
Theorem C01_strict_error : forall b e, parse_string false b = Err e -> e = UnicodeDecodeError.
Proof.
  intros b e H. pose proof (utf8_decode_err_aux (length b) false b (le_n _)) as E.
  unfold parse_string in H. rewrite H in E. cbn in E. intuition.
Qed.
Example C01_ex : str_ok [233; 8364; 128512; 65] /\ parse_string false [195; 169; 226; 130; 172; 240; 159; 152; 128; 65] = Ok [233; 8364; 128512; 65]
  /\ parse_string true [65; 255; 66] = Ok [65; 66] /\ parse_string false [65; 255; 66] = Err UnicodeDecodeError.
Proof. repeat split; repeat constructor. Qed.

(** ** C02: delivery *)
(** A file made of a header, definition messages and data messages (possibly cut in the last
    one) is read as the fold of the effects of exactly these messages, in order. *)
Theorem C02_delivery : forall cf f v t defs data,
  well_framed f v t defs data -> not_appended defs -> cf_hdr cf = false ->
  forall r, produces cf f r <->
    r = match run_def cf defs (after_header v t) with
        | Ok u => end_data (run_data cf data u)
        | Err e => Err e
        end.
Proof. exact delivery. Qed.
Theorem C02_delivery_header_only : forall cf v t defs data tl f u1,
  f = file_header v t ++ frames defs ++ frames data ++ tl ->
  header_fits v t -> cf_hdr cf = true ->
  Forall plain_def defs -> run_def cf defs (after_header v t) = Ok u1 ->
  starts_data data -> (data = [] -> tl = []) -> Forall plain_data data ->
  produces cf f (Ok u1).
Proof. intros. eapply load_header_only; eauto. Qed.

Lemma s_framed : well_framed s_file 1 500 (map wire s_defs) (map wire s_data).
Proof.
  exact (typed_framed _ _ _ _ _ s_typed).
Qed.
Example C02_ex : well_framed s_file 1 500 (map wire s_defs) (map wire s_data) /\ not_appended (map wire s_defs).
Proof. split; [exact s_framed|]. repeat constructor; cbn; intros; try discriminate; reflexivity. Qed.

(** ** C03: termination *)
(** False as stated: on this 19-byte file every load loops for ever (the definition reader
    seeks back by the announced instead of the available size). *)
Theorem C03_terminates_refuted : exists f, bytes_ok f /\ forall cf, diverges cf f.
Proof.
  exists hang_file. split; [|exact load_hangs].
  unfold hang_file. cbn. repeat (constructor; [unfold byte_ok; lia|]). constructor.
Qed.
(** It holds when no corrupt header announces more bytes than the file has left, ... *)
Theorem C03_terminates_partial : forall cf f, bytes_ok f -> (forall q, 16 <= q -> ~ overlong f q) ->
  exists r, produces cf f r.
Proof. exact load_terminates. Qed.
(** ... and when the definition section is intact, whatever follows its end. *)
Theorem C03_terminates_data_partial : forall cf v t defs ty p rest f,
  f = file_header v t ++ frames defs ++ frame ty p ++ rest ->
  header_fits v t -> bytes_ok f -> Forall plain_def defs ->
  frame_fits (ty, p) -> In ty end_types ->
  exists r, produces cf f r.
Proof. exact load_terminates_wf. Qed.
(** a result is the only one *)
Theorem C03_deterministic : forall cf f r r', produces cf f r -> produces cf f r' -> r = r'.
Proof. intros cf f r r' H H'. apply (proj1 (produces_iff cf f r' H' r)). exact H. Qed.

(** ** Small files *)
Definition hdr0 : bytes := file_header 1 0.
Definition m_log (t : Z) : Z * bytes := wire (MLog 54 t (lit "a")).
Definition frame_of (m : Z * bytes) : bytes := frame (fst m) (snd m).
Lemma m_log_plain t : u64 t -> plain_data (m_log t).
Proof.
  intros H. split; [|left; cbn; tauto]. unfold m_log. split; [unfold byte_ok; cbn; lia|].
  split; [|reflexivity]. cbn [wire snd]. constructor; [unfold byte_ok; lia|].
  apply Forall_app. split; [apply le_enc_bytes_ok|]. repeat constructor; unfold byte_ok; lia.
Qed.

(** ** C04: cuts *)
(** Cut anywhere after the first data message: exactly the complete messages remain. *)
Theorem C04_cut_partial : forall cf f v t defs data k,
  f = file_header v t ++ frames defs ++ frames data -> well_framed f v t defs data ->
  not_appended defs -> cf_hdr cf = false ->
  match data with [] => False | m :: _ => lenZ (file_header v t ++ frames defs ++ frame (fst m) (snd m)) <= k end ->
  k <= lenZ f ->
  exists done rest, data = done ++ rest /\
    lenZ (file_header v t ++ frames defs ++ frames done) <= k /\
    match rest with [] => k = lenZ f | m :: _ => k < lenZ (file_header v t ++ frames defs ++ frames (done ++ [m])) end /\
    (forall r, produces cf (takeZ k f) r <-> produces cf (file_header v t ++ frames defs ++ frames done) r) /\
    (forall u, produces cf f (Ok u) -> exists u', produces cf (takeZ k f) (Ok u') /\
       (u_corrupt u = false -> u_corrupt u' = false)).
Proof. exact cut_delivery. Qed.
(** False for a cut inside the first data message: struct.error is raised. *)
Theorem C04_cut_refuted : exists f v t defs data k u,
  f = file_header v t ++ frames defs ++ frames data /\ well_framed f v t defs data /\ not_appended defs /\
  lenZ (file_header v t ++ frames defs) < k < lenZ f /\
  produces cf0 f (Ok u) /\ u_corrupt u = false /\ u_logged u = [mkLog 54 7 (lit "a")] /\
  produces cf0 (takeZ k f) (Err StructError).
Proof.
  exists (hdr0 ++ frames [] ++ frames [m_log 7]), 1, 0, [], [m_log 7], 18. eexists.
  split; [reflexivity|]. split.
  { constructor.
    - exists []. split; [now rewrite app_nil_r|]. split; [now left|auto].
    - split; [unfold byte_ok|]; lia.
    - cbn. repeat (constructor; [unfold byte_ok; lia|]). constructor.
    - vm_compute. discriminate.
    - constructor.
    - constructor; [apply m_log_plain; unfold u64; lia|constructor].
    - cbn. tauto. }
  split; [constructor|]. split; [vm_compute; split; reflexivity|].
  split; [exists 5%nat; vm_compute; reflexivity|]. split; [reflexivity|]. split; [reflexivity|].
  exists 5%nat. vm_compute. reflexivity.
Qed.

(** ** C05: the file header *)
Theorem C05_not_a_ulog : forall cf f, bytes_ok f ->
  (produces cf f (Err TypeError) <-> lenZ f < 16 \/ takeZ 7 f <> [85; 76; 111; 103; 1; 18; 53]).
Proof. exact type_error_iff. Qed.
Theorem C05_version_start : forall cf f u, bytes_ok f -> produces cf f (Ok u) ->
  exists rest, f = file_header (u_version u) (u_start u) ++ rest /\ header_fits (u_version u) (u_start u).
Proof. exact version_start. Qed.
Example C05_ex : produces cf0 [1; 2; 3] (Err TypeError) /\ exists u, produces cf0 (file_header 1 513) (Ok u) /\ u_start u = 513.
Proof. split; [exists 1%nat; reflexivity|]. eexists. split; [exists 2%nat; vm_compute; reflexivity|reflexivity]. Qed.

(** ** C06: the search for the sync sequence *)
Theorem C06_sync_search : forall f pos u, 0 <= pos ->
  exists n q u', (forall k, (n <= k)%nat -> find_sync k f pos u = Some (q, u')) /\
  ((exists i, first_occurrence sync_sequence (dropZ pos f) i /\ q = pos + i + 8 /\ u' = set_corrupt true u) \/
   (~ occurs sync_sequence (dropZ pos f) /\ q = pos /\ u' = set_has_sync false u)).
Proof. exact sync_search. Qed.
(** a sequence across the first 512-byte boundary *)
Example C06_ex : exists u', find_sync 3 (repeat 0 508 ++ sync_sequence ++ [1]) 0 ulog0 = Some (516, u').
Proof. eexists. vm_compute. reflexivity. Qed.

(** ** C07: recovery *)
(** As stated it is false when the announced size exceeds the rest of the file: reading ends
    there without a flag, although a sync sequence and a complete message follow. *)
Definition c07_file : bytes :=
  hdr0 ++ frame_of (m_log 7) ++ [255; 255; 0] ++ sync_sequence ++ frame_of (m_log 8).
Theorem C07_recovery_refuted : exists u, produces cf0 c07_file (Ok u) /\
  u_corrupt u = false /\ u_logged u = [mkLog 54 7 (lit "a")].
Proof. eexists. split; [exists 5%nat; vm_compute; reflexivity|]. split; reflexivity. Qed.
(** It holds when the announced bytes are there. *)
Theorem C07_corrupt_header_partial : forall fuel cf until f pos cfp u s0 s1 ty,
  0 <= pos -> bytes_ok f -> lenZ f - pos < Z.of_nat fuel ->
  slice pos (pos + 3) f = [s0; s1; ty] ->
  ~ In ty data_types -> (ty = 0 \/ s0 + 256 * s1 = 0 \/ 10000 < s0 + 256 * s1) ->
  pos + 3 + (s0 + 256 * s1) <= lenZ f -> cfp + 3 + (s0 + 256 * s1) <= until ->
  sync_inv f pos u ->
  exists q u', data_step fuel cf until f pos cfp u = SNext q (pos + 1) u' /\
    u_corrupt u' = true /\
    (forall i, first_occurrence sync_sequence (dropZ (pos + 1) f) i -> q = pos + 1 + i + 8) /\
    (~ occurs sync_sequence (dropZ (pos + 1) f) -> q = pos + 1).
Proof. exact corrupt_recovery. Qed.
Theorem C07_unknown_message : forall fuel cf until f pos cfp u ty p tail,
  0 <= pos -> dropZ pos f = frame ty p ++ tail -> frame_fits (ty, p) ->
  ~ In ty data_types -> ty <> 0 -> 0 < lenZ p <= 10000 ->
  cfp + 3 + lenZ p <= until -> sync_inv f pos u ->
  (~ occurs sync_sequence p ->
     data_step fuel cf until f pos cfp u = SNext (pos + 3 + lenZ p) (cfp + 3 + lenZ p) u) /\
  (forall i, first_occurrence sync_sequence p i ->
     data_step fuel cf until f pos cfp u =
       SNext (pos + 3 + i + 8) (cfp + 3 + lenZ p) (set_corrupt true u)).
Proof. exact unknown_skipped. Qed.
(** The hypothesis [sync_inv] holds at the start and is kept by every iteration. *)
Theorem C07_sync_inv_start : forall f pos v t, sync_inv f pos (after_header v t).
Proof. intros f pos v t H. discriminate H. Qed.
Theorem C07_sync_inv_step : forall fuel cf until f pos cfp u p c u',
  0 <= pos -> bytes_ok f -> lenZ f - pos < Z.of_nat fuel -> sync_inv f pos u ->
  data_step fuel cf until f pos cfp u = SNext p c u' -> sync_inv f p u'.
Proof. exact sync_inv_step. Qed.
(** a file with a corrupt header, then a sync sequence and a message *)
Example C07_ex : exists u,
  produces cf0 (hdr0 ++ frame_of (m_log 7) ++ [5; 0; 0] ++ sync_sequence ++ frame_of (m_log 8)) (Ok u) /\
  u_corrupt u = true /\ u_logged u = [mkLog 54 7 (lit "a"); mkLog 54 8 (lit "a")].
Proof. eexists. split; [exists 5%nat; vm_compute; reflexivity|]. split; reflexivity. Qed.

(** ** C08: nothing goes backwards *)
Theorem C08_load_is_readings : forall cf f u, bytes_ok f -> produces cf f (Ok u) ->
  readings cf f (after_header (u_version u) (u_start u)) u.
Proof.
  intros cf f u Hb H. destruct (load_readings cf f u H) as (v & t & Hh & Hr).
  pose proof (preserved_changes cf _ (version_start_preserved cf v t) _ _ (readings_changes _ _ _ _ Hr)) as E.
  destruct E as [-> ->]; [split; reflexivity|]. exact Hr.
Qed.
Theorem C08_monotone : forall cf f u u', readings cf f u u' -> grows u u'.
Proof. intros cf f u u' H. eapply changes_grows, readings_changes; eauto. Qed.
Example C08_ex : exists u, produces cf0 s_file (Ok u) /\ u_last u = 2000 /\ length (u_data u) = 2%nat /\
  length (u_dropouts u) = 1%nat /\ length (u_changed u) = 1%nat.
Proof. eexists. split; [exists 30%nat; vm_compute; reflexivity|]. repeat split. Qed.

(** ** C51: what is processed *)
(** [defs] and [secs] are the messages (and corruption events) processed in the definition
    section and in the data sections of the file [f]: the ones [walked] says, in terms of the
    bytes of the file.  There is one such pair for a file (C51_trace_unique), so that
    "exists defs secs, trace cf f u defs secs /\ ..." says the same as for all of them. *)
Definition trace (cf : cfg) (f : bytes) (u : ulog) (defs : list event) (secs : list (list event)) : Prop :=
  walked cf f u defs secs /\ Forall (found_in f) defs /\ Forall (scattered f 0) secs /\ (0 < length secs)%nat /\
  read_as cf (u_version u) (u_start u) defs secs u.
Theorem C51_every_load_has_a_trace : forall cf f u, bytes_ok f -> cf_hdr cf = false -> produces cf f (Ok u) ->
  exists defs secs, trace cf f u defs secs.
Proof. exact load_walked. Qed.
Theorem C51_trace_unique : forall cf f u defs secs defs' secs', bytes_ok f -> cf_hdr cf = false -> produces cf f (Ok u) ->
  trace cf f u defs secs -> walked cf f u defs' secs' -> defs' = defs /\ secs' = secs.
Proof. intros cf f u defs secs defs' secs' Hb Hh Hp (Hw & _) Hw'. exact (walked_unique cf f u defs secs defs' secs' Hb Hh Hp Hw Hw'). Qed.
(** The definition messages lie one after another in the file, without overlap, unless a
    corrupt header announces more bytes than there are. *)
Theorem C51_definitions_in_order : forall cf f fuel pos u p u', bytes_ok f -> (forall q, 16 <= q -> ~ overlong f q) ->
  16 <= pos -> def_loop fuel cf f pos u = Some (Ok (p, u')) ->
  exists evs, run_def_events cf evs u = Ok u' /\ listed f pos evs.
Proof. intros. eapply def_loop_listed; eauto. Qed.
(** For a well-framed file the trace is the messages of the file, up to the first one the
    reader gives up at. *)
Theorem C51_framed : forall cf f v t defs data u, well_framed f v t defs data -> not_appended defs ->
  cf_hdr cf = false -> produces cf f (Ok u) ->
  exists evs, processed cf (format_dict (formats (cf_ign cf) (msgs defs))) data evs /\
    read_as cf v t (msgs defs) [evs] u.
Proof.
  intros cf f v t defs data u Hw Ha Hh Hp.
  destruct (run_def cf defs (after_header v t)) as [u1|e] eqn:E.
  - eapply frames_trace; eauto. eapply not_appended_ok; eauto.
  - apply (delivery cf f v t defs data Hw Ha Hh) in Hp. rewrite E in Hp. discriminate.
Qed.
Example C51_ex : exists u, produces cf0 s_file (Ok u) /\ length (u_logged u) = 1%nat.
Proof. eexists. split; [exists 30%nat; vm_compute; reflexivity|]. reflexivity. Qed.

(** ** C10: samples *)
Theorem C10_samples : forall cf f u, bytes_ok f -> cf_hdr cf = false -> produces cf f (Ok u) ->
  exists defs secs news, trace cf f u defs secs /\
    Forall2 (new_data cf (u_formats u)) secs news /\ Permutation (u_data u) (concat news) /\
    Forall (fun ds => exists n, (0 < n)%nat /\ Forall (fun nc => length (c_raw (snd nc)) = n) (ds_data ds) /\
                                length (ds_data ds) = length (ds_fields ds)) (u_data u).
Proof.
  intros cf f u Hb Hh Hp. destruct (load_walked cf f u Hb Hh Hp) as (defs & secs & Ht).
  pose proof Ht as (_ & _ & _ & _ & Hr). destruct (read_as_sections _ _ _ _ _ _ Hr) as (_ & _ & _ & _ & news & Hn & Hperm).
  exists defs, secs, news. split; [exact Ht|]. split; [exact Hn|]. split; [exact Hperm|].
  apply Forall_forall. intros ds Hin. eapply datasets_rect; eauto.
Qed.

(** ** C11: data_list *)
Theorem C11_sorted : forall cf f u, bytes_ok f -> cf_hdr cf = false -> produces cf f (Ok u) ->
  StronglySorted (fun a b => str_cmp (ds_name a) (ds_name b) = Lt \/
                             (ds_name a = ds_name b /\ ds_multi a <= ds_multi b)) (u_data u).
Proof.
  intros cf f u Hb Hh Hp. destruct (load_walked cf f u Hb Hh Hp) as (defs & secs & _ & _ & _ & _ & Hr).
  pose proof (read_as_sorted _ _ _ _ _ _ Hr) as H. induction H; constructor; auto.
  eapply Forall_impl; [|eassumption]. intros b. apply ds_leb_iff.
Qed.
Theorem C11_get_dataset : forall u name multi,
  (forall ds, get_dataset u name multi = Ok ds -> In ds (u_data u) /\ ds_name ds = name /\ ds_multi ds = multi) /\
  (forall e, get_dataset u name multi = Err e -> e = IndexError /\
     (forall ds, In ds (u_data u) -> ~ (ds_name ds = name /\ ds_multi ds = multi))) /\
  ((exists ds, In ds (u_data u) /\ ds_name ds = name /\ ds_multi ds = multi) -> exists ds, get_dataset u name multi = Ok ds).
Proof. exact get_dataset_spec. Qed.
Example C11_ex : exists u ds, produces cf0 s_file (Ok u) /\ get_dataset u (lit "t") 1 = Ok ds /\
  get_dataset u (lit "t") 2 = Err IndexError /\ sget (lit "x") (ds_data ds) = Some (mkCol (NI 1 false) [9]).
Proof. do 2 eexists. split; [exists 30%nat; vm_compute; reflexivity|]. repeat split. Qed.

(** ** C12: timestamps *)
Theorem C12_timestamps : forall cf f u, bytes_ok f -> cf_hdr cf = false -> produces cf f (Ok u) ->
  exists defs secs, trace cf f u defs secs /\
    u_last u = last_over cf (u_formats u) (u_start u) secs /\
    u_dropouts u = over_sections cf (u_formats u) (dropouts_at cf (u_formats u)) (u_start u) secs /\
    u_changed u = over_sections cf (u_formats u) (changed_at cf (u_formats u)) (u_start u) secs.
Proof.
  intros cf f u Hb Hh Hp. destruct (load_walked cf f u Hb Hh Hp) as (defs & secs & Ht).
  pose proof Ht as (_ & _ & _ & _ & Hr). destruct (read_as_sections _ _ _ _ _ _ Hr) as (_ & H1 & H2 & H3 & _).
  exists defs, secs. auto.
Qed.
Theorem C12_ordered : forall cf f u, bytes_ok f -> produces cf f (Ok u) ->
  u_start u <= u_last u /\
  ts_sorted (map dr_ts (u_dropouts u)) /\ Forall (fun x => x <= u_last u) (map dr_ts (u_dropouts u)) /\
  ts_sorted (map (fun c => fst (fst c)) (u_changed u)) /\
  Forall (fun x => x <= u_last u) (map (fun c => fst (fst c)) (u_changed u)).
Proof.
  intros cf f u Hb Hp. pose proof (C08_load_is_readings cf f u Hb Hp) as Hr. apply readings_changes in Hr.
  apply (preserved_changes cf ts_inv (ts_inv_preserved cf)) in Hr.
  - destruct Hr as (A & B & C & D & E). auto.
  - repeat split; cbn; try constructor. lia.
Qed.
Example C12_ex : exists u, produces cf0 s_file (Ok u) /\ u_dropouts u = [mkDrop 20 1500] /\
  map (fun c => fst (fst c)) (u_changed u) = [1500].
Proof. eexists. split; [exists 30%nat; vm_compute; reflexivity|]. repeat split. Qed.

(** ** C13: info messages and parameters *)
Lemma changed_keys cf fmts t0 secs :
  map (fun c : Z * str * value => (snd (fst c), snd c)) (over_sections cf fmts (changed_at cf fmts) t0 secs) =
  map (fun m => (im_key m, im_value m)) (params (cf_ign cf) (concat secs)).
Proof.
  revert t0. induction secs as [|s r IH]; intros t0; [reflexivity|]. cbn [over_sections concat].
  rewrite map_app, IH. unfold params. rewrite flat_map_app, map_app. f_equal.
  generalize (@nil event). clear. induction s as [|e s IH]; intros pre; [reflexivity|].
  cbn [collect flat_map]. rewrite !map_app, IH. f_equal. unfold changed_at. now rewrite map_map.
Qed.
Theorem C13_info : forall cf f u, bytes_ok f -> cf_hdr cf = false -> produces cf f (Ok u) ->
  exists defs secs, trace cf f u defs secs /\
    (forall k, sget k (u_info u) = option_map im_value (last_info k (infos (cf_ign cf) (defs ++ concat secs)))) /\
    (forall k, sget k (u_infot u) = option_map im_type (last_info k (infos (cf_ign cf) (defs ++ concat secs)))) /\
    (forall k, sget k (u_params u) = option_map im_value (last_info k (params (cf_ign cf) defs))) /\
    map (fun c => (snd (fst c), snd c)) (u_changed u) =
      map (fun m => (im_key m, im_value m)) (params (cf_ign cf) (concat secs)).
Proof.
  intros cf f u Hb Hh Hp. destruct (load_walked cf f u Hb Hh Hp) as (defs & secs & Ht).
  pose proof Ht as (_ & _ & _ & _ & Hr). exists defs, secs. split; [exact Ht|].
  destruct (read_as_sections _ _ _ _ _ _ Hr) as (_ & _ & _ & Hc & _).
  split; [|split; [|split]].
  - intros k. rewrite (read_as_info _ _ _ _ _ _ Hr). unfold ins_info. rewrite (fold_set_get im_key im_value). unfold last_info. now destruct (find _ _).
  - intros k. rewrite (read_as_infot _ _ _ _ _ _ Hr). unfold ins_infot. rewrite (fold_set_get im_key im_type). unfold last_info. now destruct (find _ _).
  - intros k. rewrite (read_as_params _ _ _ _ _ _ Hr). unfold ins_info. rewrite (fold_set_get im_key im_value). unfold last_info. now destruct (find _ _).
  - rewrite Hc. apply changed_keys.
Qed.
(** every info key has a type and conversely *)
Theorem C13_types_in_step : forall cf f u, bytes_ok f -> cf_hdr cf = false -> produces cf f (Ok u) ->
  forall k, sget k (u_info u) = None <-> sget k (u_infot u) = None.
Proof.
  intros cf f u Hb Hh Hp k. destruct (C13_info cf f u Hb Hh Hp) as (defs & secs & _ & H1 & H2 & _).
  rewrite H1, H2. destruct (last_info _ _); cbn; split; discriminate || auto.
Qed.
Example C13_ex : exists u, produces cf0 s_file (Ok u) /\ sget (lit "sys_name") (u_info u) = Some (VStr (lit "PX4")) /\
  sget (lit "P_A") (u_params u) = Some (VInt (-1)) /\ map (fun c => snd (fst c)) (u_changed u) = [lit "P_B"].
Proof. eexists. split; [exists 30%nat; vm_compute; reflexivity|]. repeat split. Qed.

(** ** C14: info-multiple messages *)
Theorem C14_groups : forall cf f u, bytes_ok f -> cf_hdr cf = false -> produces cf f (Ok u) ->
  exists defs secs, trace cf f u defs secs /\ forall k, exists gs,
    grouped_as (filter (fun cm => str_eqb k (im_key (snd cm))) (multis (cf_ign cf) (defs ++ concat secs))) gs /\
    sget k (u_multi u) = match gs with [] => None | _ => Some (map (map (fun x : Z * infomsg => im_value (snd x))) gs) end.
Proof.
  intros cf f u Hb Hh Hp. destruct (load_walked cf f u Hb Hh Hp) as (defs & secs & Ht).
  pose proof Ht as (_ & _ & _ & _ & Hr). exists defs, secs. split; [exact Ht|].
  intros k. rewrite (read_as_multi _ _ _ _ _ _ Hr). apply multi_grouped.
Qed.
(** nothing is lost by the grouping and no group is empty *)
Theorem C14_concat : forall A (l : list (Z * A)) gs, grouped_as l gs -> concat gs = l /\ Forall (fun g => g <> []) gs.
Proof. exact @grouped_concat. Qed.
Example C14_ex : exists u, produces cf0 s_file (Ok u) /\ sget (lit "k") (u_multi u) = Some [[VStr (lit "a"); VStr (lit "b")]].
Proof. eexists. split; [exists 30%nat; vm_compute; reflexivity|]. repeat split. Qed.

(** ** C15: default parameters *)
(** Exactly what happens: bit i lands under default type 2^i - 1. *)
Theorem C15_law : forall bits m u t k, 0 <= bits < 256 ->
  sget k (get_default_parameters (add_param_default bits m u) t) =
  if existsb (fun i => Z.testbit bits i && (t =? 2 ^ i - 1)) [0; 1; 2; 3; 4; 5; 6; 7] && str_eqb k (im_key m)
  then Some (im_value m) else sget k (get_default_parameters u t).
Proof.
  intros bits m u t k Hb. pose proof (default_law bits (im_key m) (im_value m) (u_defaults u) t k Hb) as H.
  unfold default_value, lands, bit_numbers in H. unfold get_default_parameters, add_param_default.
  cbn [u_defaults set_defaults]. destruct (zget t (add_default_bits _ _ _ _ _)); destruct (zget t (u_defaults u)); exact H.
Qed.
(** So the documented rule holds for the documented default types 0 (system) and 1 (setup). *)
Theorem C15_defaults_partial : forall bits m u t k, 0 <= bits < 4 -> t = 0 \/ t = 1 ->
  sget k (get_default_parameters (add_param_default bits m u) t) =
  if Z.testbit bits t && str_eqb k (im_key m) then Some (im_value m) else sget k (get_default_parameters u t).
Proof.
  intros bits m u t k Hb Ht. rewrite C15_law by lia. pose proof (lands_01 bits t Hb Ht) as E.
  unfold lands, bit_numbers in E. now rewrite E.
Qed.
(** It is false for bit 2: the value lands under type 3. *)
Definition c15_file : bytes :=
  hdr0 ++ frame_of (wire (MDefault 4 (lit "int32_t") (lit "P") [7; 0; 0; 0])).
Theorem C15_defaults_refuted : Z.testbit 4 2 = true /\ Z.testbit 4 3 = false /\ exists u, produces cf0 c15_file (Ok u) /\
  get_default_parameters u 2 = [] /\ sget (lit "P") (get_default_parameters u 3) = Some (VInt 7).
Proof. split; [reflexivity|]. split; [reflexivity|]. eexists. split; [exists 5%nat; vm_compute; reflexivity|]. split; reflexivity. Qed.
Example C15_ex : exists u, produces cf0 s_file (Ok u) /\ sget (lit "P_A") (get_default_parameters u 0) = Some (VInt 7) /\
  sget (lit "P_A") (get_default_parameters u 1) = Some (VInt 7).
Proof. eexists. split; [exists 30%nat; vm_compute; reflexivity|]. split; reflexivity. Qed.

(** ** C16: nested formats *)
Theorem C16_flattened : forall cf f u, bytes_ok f -> cf_hdr cf = false -> produces cf f (Ok u) ->
  forall ds, In ds (u_data u) ->
  exists fmt out, sget (ds_name ds) (u_formats u) = Some fmt /\ expands (u_formats u) [] (mf_fields fmt) out /\
    without_padding out (ds_fields ds) /\ size_is (u_formats u) (mf_fields fmt) (total out).
Proof.
  intros cf f u Hb Hh Hp ds Hin. destruct (load_walked cf f u Hb Hh Hp) as (defs & secs & _ & _ & _ & _ & Hr).
  eapply dataset_fields; eauto.
Qed.
(** Conversely every topic with a resolving format is accepted, given enough recursion depth. *)
Theorem C16_resolves : forall fmts name fields, topic fmts name fields -> str_ok name ->
  exists depth, forall cf multi id, (depth <= cf_depth cf)%nat -> u8 multi -> u16 id ->
  exists s, parse_add cf fmts ([multi] ++ le_enc 2 id ++ utf8 name) = Ok s /\
    sb_fields s = fields /\ sb_multi s = multi /\ sb_id s = id /\ sb_name s = name.
Proof.
  intros fmts name fields H Hn. destruct (topic_add fmts name fields H Hn) as (depth & Hd). exists depth.
  intros cf multi id A B C. destruct (Hd cf multi id A B C) as (ts & E). eexists. split; [exact E|]. repeat split.
Qed.
Example C16_ex : topic (formats_in s_defs) (lit "t") flat_t.
Proof. exact s_topic. Qed.

(** ** C17: trailing padding *)
(** Only payloads without the padding bytes are accepted. *)
Theorem C17_accepted_partial : forall cf fmts d s p, parse_add cf fmts d = Ok s ->
  (fits s p = true <-> lenZ p = 2 + total (sb_fields s)).
Proof. exact accepted_size. Qed.
Definition c17_file (payload : bytes) : bytes :=
  hdr0 ++ frame_of (wire (MFormat (lit "t") [(lit "uint64_t", 0, lit "timestamp"); (lit "uint8_t", 2, lit "_padding0")]))
       ++ frame_of (wire (MAdd 0 1 (lit "t"))) ++ frame_of (wire (MData 1 payload)).
(** A record written with its padding bytes is dropped and flagged as corruption. *)
Theorem C17_padding_refuted :
  (exists u, produces cf0 (c17_file (le_enc 8 5 ++ [0; 0])) (Ok u) /\ u_data u = [] /\ u_corrupt u = true) /\
  (exists u, produces cf0 (c17_file (le_enc 8 5)) (Ok u) /\ length (u_data u) = 1%nat /\ u_corrupt u = false).
Proof. split; eexists; (split; [exists 8%nat; vm_compute; reflexivity|]; split; reflexivity). Qed.

(** ** C18: header-only loading *)
Theorem C18_header_only : forall cf f u, bytes_ok f -> cf_hdr cf = false -> produces cf f (Ok u) ->
  exists u0, produces (with_hdr true cf) f (Ok u0) /\
    u_version u0 = u_version u /\ u_start u0 = u_start u /\ u_formats u0 = u_formats u /\
    u_params u0 = u_params u /\ u_compat u0 = u_compat u /\ u_incompat u0 = u_incompat u /\
    u_offsets u0 = u_offsets u /\
    u_data u0 = [] /\ u_logged u0 = [] /\ u_dropouts u0 = [] /\ u_changed u0 = [] /\ u_last u0 = u_start u /\
    (forall k, sget k (u_info u0) <> None -> sget k (u_info u) <> None) /\
    exists defs secs, trace cf f u defs secs /\
      (forall k, sget k (u_info u0) = option_map im_value (last_info k (infos (cf_ign cf) defs))) /\
      (forall k, sget k (u_info u) = option_map im_value (last_info k (infos (cf_ign cf) (defs ++ concat secs)))) /\
      u_defaults u0 = fold_left ins_pdef (pdefs (cf_ign cf) defs) [] /\
      u_defaults u = fold_left ins_pdef (pdefs (cf_ign cf) (concat secs)) (u_defaults u0).
Proof.
  intros cf f u Hb Hh Hp. destruct (header_walked cf f u Hb Hh Hp) as (u0 & defs & secs & H0 & Ht & R0). pose proof Ht as (_ & _ & _ & _ & R).
  exists u0. split; [exact H0|].
  assert (I0 : forall k, sget k (u_info u0) = option_map im_value (last_info k (infos (cf_ign cf) defs))).
  { intros k. rewrite (read_as_info _ _ _ _ _ _ R0). cbn [concat]. rewrite app_nil_r. unfold ins_info.
    rewrite (fold_set_get im_key im_value). unfold last_info. now destruct (find _ _). }
  assert (I : forall k, sget k (u_info u) = option_map im_value (last_info k (infos (cf_ign cf) (defs ++ concat secs)))).
  { intros k. rewrite (read_as_info _ _ _ _ _ _ R). unfold ins_info.
    rewrite (fold_set_get im_key im_value). unfold last_info. now destruct (find _ _). }
  destruct (read_as_flags _ _ _ _ _ _ R0) as (u1 & E1 & C1 & C2 & C3).
  destruct (read_as_flags _ _ _ _ _ _ R) as (u1' & E1' & D1 & D2 & D3).
  rewrite E1 in E1'. injection E1' as <-.
  pose proof (read_as_version _ _ _ _ _ _ R0) as [V1 V2].
  destruct (read_as_sections _ _ _ _ _ _ R0) as (_ & S1 & S2 & S3 & news & S4 & S5).
  inversion S4; subst news. apply Permutation_sym, Permutation_nil in S5.
  repeat (split; [first [assumption | congruence]|]).
  split; [rewrite (read_as_formats _ _ _ _ _ _ R0), (read_as_formats _ _ _ _ _ _ R); reflexivity|].
  split; [rewrite (read_as_params _ _ _ _ _ _ R0), (read_as_params _ _ _ _ _ _ R); reflexivity|].
  repeat (split; [first [assumption | congruence]|]).
  split; [exact (read_as_logged _ _ _ _ _ _ R0)|]. split; [exact S2|]. split; [exact S3|]. split; [exact S1|].
  split.
  { intros k. rewrite I0, I. unfold infos. rewrite flat_map_app. unfold last_info. rewrite rev_app_distr.
    generalize (rev (flat_map (of_type 73 (parse_info (cf_ign cf))) (concat secs))). induction l as [|x l IH]; cbn [app find]; [auto|].
    destruct (str_eqb k (im_key x)); [discriminate|exact IH]. }
  exists defs, secs.
  split; [exact Ht|]. split; [exact I0|]. split; [exact I|].
  rewrite (read_as_defaults _ _ _ _ _ _ R0), (read_as_defaults _ _ _ _ _ _ R). cbn [concat]. rewrite app_nil_r.
  split; [reflexivity|]. unfold pdefs. now rewrite flat_map_app, fold_left_app.
Qed.
Example C18_ex : exists u u0, produces cf0 s_file (Ok u) /\ produces (with_hdr true cf0) s_file (Ok u0) /\
  u_params u0 = u_params u /\ length (u_data u) = 2%nat /\ u_data u0 = [].
Proof. do 2 eexists. split; [exists 30%nat; vm_compute; reflexivity|]. split; [exists 30%nat; vm_compute; reflexivity|]. repeat split. Qed.

(** ** C19: incompatible logs *)
Theorem C19_refused : forall cf v t pre c i o1 o2 o3 rest f,
  f = file_header v t ++ frames (map wire pre) ++ frame 66 (snd (wire (MFlags c i o1 o2 o3))) ++ rest ->
  header_fits v t -> Forall msg_ok pre -> Forall is_def pre -> msg_ok (MFlags c i o1 o2 o3) ->
  ~ known_incompat i ->
  produces cf f (Err (if Z.land (nth 0 i 0) (Z.lnot 1) =? 0 then NotImplementedError else ValueError)).
Proof. exact unknown_incompat. Qed.
Theorem C19_loaded_compatible : forall cf f u, bytes_ok f -> produces cf f (Ok u) -> known_incompat (u_incompat u).
Proof.
  intros cf f u Hb Hp. pose proof (C08_load_is_readings cf f u Hb Hp) as Hr. apply readings_changes in Hr.
  apply (preserved_changes cf _ (incompat_preserved cf)) in Hr; [exact Hr|].
  split; [reflexivity|]. repeat constructor.
Qed.
Example C19_ex : produces cf0 (hdr0 ++ frame_of (wire (MFlags (repeat 0 8) [2; 0; 0; 0; 0; 0; 0; 0] 0 0 0))) (Err ValueError) /\
  produces cf0 (hdr0 ++ frame_of (wire (MFlags (repeat 0 8) [1; 0; 0; 0; 4; 0; 0; 0] 0 0 0))) (Err NotImplementedError).
Proof. split; exists 3%nat; vm_compute; reflexivity. Qed.

(** ** C20: appended sections *)
(** Each section is read up to its offset, the remains of a message before the offset are
    dropped, and reading goes on exactly at the offset. *)
Theorem C20_sections : forall cf v t defs u1 secs data tl f,
  f = file_header v t ++ frames defs ++ concat (map section_bytes secs) ++ frames data ++ tl ->
  header_fits v t -> bytes_ok f -> lenZ f <= BIG -> cf_hdr cf = false ->
  Forall plain_def defs -> run_def cf defs (after_header v t) = Ok u1 ->
  starts_data (concat (map fst secs) ++ data) ->
  (concat (map fst secs) ++ data = [] -> secs = [] /\ tl = []) ->
  (match secs with [] => True | s :: _ => fst s <> [] end) ->
  Forall (fun s => Forall plain_data (fst s) /\ remains (snd s)) secs ->
  Forall plain_data data -> file_tail tl ->
  (if has_appended u1 then u_offsets u1 else []) =
    section_ends (16 + lenZ (frames defs)) secs ->
  offs_fit (cf_kind cf) (section_ends (16 + lenZ (frames defs)) secs) ->
  produces cf f (run_sections cf (map fst secs ++ [data]) u1).
Proof. exact load_sections. Qed.
(** When the appended sections have no subscriptions and data messages, this is the same as
    reading the messages of all sections as one. *)
Theorem C20_same_as_one_partial : forall cf s secs u w, u_subs u = [] -> Forall (Forall quiet) secs ->
  run_data cf (s ++ concat secs) u = RDone w ->
  run_sections cf (s :: secs) u = end_data (run_data cf (s ++ concat secs) u).
Proof. exact sections_concat. Qed.
(** It is false in general: subscriptions end with their section, so a data message appended
    for an earlier subscription is lost and flagged. *)
Definition c20_defs (flag off : Z) : list msg :=
  [MFlags (repeat 0 8) [flag; 0; 0; 0; 0; 0; 0; 0] off 0 0;
   MFormat (lit "t") [(lit "uint64_t", 0, lit "timestamp")]].
Definition c20_file (flag off : Z) : bytes :=
  hdr0 ++ frames (map wire (c20_defs flag off ++ [MAdd 0 1 (lit "t"); MData 1 (le_enc 8 5); MData 1 (le_enc 8 6)])).
Definition c20_off : Z := lenZ (hdr0 ++ frames (map wire (c20_defs 0 0 ++ [MAdd 0 1 (lit "t"); MData 1 (le_enc 8 5)]))).
Theorem C20_same_as_one_refuted : exists u w ds dw,
  produces cf0 (c20_file 1 c20_off) (Ok u) /\ produces cf0 (c20_file 0 0) (Ok w) /\
  get_dataset u (lit "t") 0 = Ok ds /\ get_dataset w (lit "t") 0 = Ok dw /\
  sget (lit "timestamp") (ds_data ds) = Some (mkCol (NI 8 false) [5]) /\
  sget (lit "timestamp") (ds_data dw) = Some (mkCol (NI 8 false) [5; 6]) /\
  u_corrupt u = true /\ u_corrupt w = false.
Proof.
  do 4 eexists. split; [exists 9%nat; vm_compute; reflexivity|]. split; [exists 9%nat; vm_compute; reflexivity|].
  split; [reflexivity|]. split; [reflexivity|]. repeat split.
Qed.
(** a message cut by the appended section: the log starts with "L", is cut in a second "L" and
    goes on at the offset with an info-multiple message *)
Definition c20_part : bytes := hdr0 ++ frames (map wire [MFlags (repeat 0 8) [1; 0; 0; 0; 0; 0; 0; 0] 87 0 0]) ++ frame_of (m_log 7) ++ takeZ 15 (frame_of (wire (MLog 54 9 (lit "abcd")))).
Example C20_ex : lenZ c20_part = 87 /\ exists u,
  produces cf0 (c20_part ++ frame_of (wire (MMulti 0 (lit "char[1]") (lit "k") (lit "a")))) (Ok u) /\
  u_corrupt u = false /\ u_logged u = [mkLog 54 7 (lit "a")] /\ sget (lit "k") (u_multi u) = Some [[VStr (lit "a")]].
Proof. split; [reflexivity|]. eexists. split; [exists 9%nat; vm_compute; reflexivity|]. repeat split. Qed.

(** ** C21: malformed messages *)
(** False: an info message with a value of the wrong size silently ends the section. *)
Definition c21_file : bytes :=
  hdr0 ++ frame_of (m_log 7) ++ frame 73 (kv_bytes (lit "uint32_t") (lit "k") [1]) ++ frame_of (m_log 8).
Theorem C21_malformed_refuted : exists u, produces cf0 c21_file (Ok u) /\
  u_corrupt u = false /\ u_logged u = [mkLog 54 7 (lit "a")].
Proof. eexists. split; [exists 9%nat; vm_compute; reflexivity|]. repeat split. Qed.
(** Every message is processed when none has one of the defects listed in [stops]. *)
Theorem C21_malformed_partial : forall cf f v t defs data u, well_framed f v t defs data -> not_appended defs ->
  cf_hdr cf = false ->
  (forall pre m post, data = pre ++ m :: post ->
     ~ stops cf (format_dict (formats (cf_ign cf) (msgs defs))) (msgs pre) m) ->
  produces cf f (Ok u) -> read_as cf v t (msgs defs) [msgs data] u.
Proof.
  intros cf f v t defs data u Hw Ha Hh Hs Hp.
  destruct (run_def cf defs (after_header v t)) as [u1|e] eqn:E.
  - eapply all_processed; eauto. eapply not_appended_ok; eauto.
  - apply (delivery cf f v t defs data Hw Ha Hh) in Hp. rewrite E in Hp. discriminate.
Qed.

(** ** C52: well-formed logs *)
Theorem C52_well_formed : forall f v t defs data, typed_log f v t defs data ->
  exists depth, forall cf, (depth <= cf_depth cf)%nat -> cf_hdr cf = false -> (forall n, cf_filter cf n = true) ->
  exists u, (forall r, produces cf f r <-> r = Ok u) /\ u_corrupt u = false /\
            contents (formats_in defs) v t defs data u.
Proof. exact typed_loads. Qed.
Example C52_ex : typed_log s_file 1 500 s_defs s_data.
Proof. exact s_typed. Qed.

Print Assumptions C01_utf8_roundtrip.
Print Assumptions C02_delivery.
Print Assumptions C03_terminates_partial.
Print Assumptions C04_cut_partial.
Print Assumptions C07_corrupt_header_partial.
Print Assumptions C10_samples.
Print Assumptions C18_header_only.
Print Assumptions C20_sections.
Print Assumptions C52_well_formed.
