(** Specification vocabulary that does not mention how the reader works: the ULog wire
    format (header, frames, typed messages) and what "loading produces a result" means. *)
From Coq Require Import Permutation Sorted.
From Verif Require Import Base Dict Utf8 PyStr PyFloat Struct ModelTypes ModelRead.

(** ** Files as byte strings *)

(** A framed message: 16-bit little-endian payload size, type byte, payload. *)
Definition frame (ty : Z) (payload : bytes) : bytes :=
  [lenZ payload mod 256; lenZ payload / 256; ty] ++ payload.

Definition frames (ms : list (Z * bytes)) : bytes :=
  concat (map (fun m => frame (fst m) (snd m)) ms).

(** the message fits the format: its type is a byte, its size fits 16 bits *)
Definition frame_fits (m : Z * bytes) : Prop :=
  byte_ok (fst m) /\ bytes_ok (snd m) /\ lenZ (snd m) < 65536.

(** "ULog" 0x01 0x12 0x35, version byte, 64-bit little-endian start time *)
Definition file_header (version start : Z) : bytes :=
  [85; 76; 111; 103; 1; 18; 53] ++ [version] ++ le_enc 8 start.
Definition header_fits (version start : Z) : Prop :=
  byte_ok version /\ 0 <= start < 18446744073709551616.

(** ** Outcomes *)

(** ULog(f) finishes with result [r]: an object or an exception. *)
Definition produces (cf : cfg) (f : bytes) (r : res ulog) : Prop :=
  exists fuel, load fuel cf f = Some r.
(** ULog(f) never finishes. *)
Definition diverges (cf : cfg) (f : bytes) : Prop :=
  forall fuel, load fuel cf f = None.

(** Proper prefixes: what is left of a message when a file is cut inside it. *)
Definition cut_of (t : bytes) (m : Z * bytes) : Prop :=
  exists rest, rest <> [] /\ t ++ rest = frame (fst m) (snd m).

(** The sequence [p] occurs in [s]. *)
Definition occurs (p s : bytes) : Prop := exists a b, s = a ++ p ++ b.
Definition sync_sequence : bytes := [47; 115; 19; 32; 37; 12; 187; 18].

(** Message types the data section stores: I M P Q A L C D O S. *)
Definition data_types : list Z := [73; 77; 80; 81; 65; 76; 67; 68; 79; 83].
(** Message types the definition section stores: I M F P Q B. *)
Definition def_types : list Z := [73; 77; 70; 80; 81; 66].
(** Message types that end the definition section: A L C. *)
Definition end_types : list Z := [65; 76; 67].

(** A frame the data section reader takes as a unit: known type, or an unknown type of
    plausible size (1..10000, type not 0) without a sync sequence inside. *)
Definition plain_data (m : Z * bytes) : Prop :=
  frame_fits m /\
  (In (fst m) data_types \/
   (fst m <> 0 /\ 0 < lenZ (snd m) <= 10000 /\ ~ occurs sync_sequence (snd m))).
(** The same for the definition section: not one of the section-ending types. *)
Definition plain_def (m : Z * bytes) : Prop :=
  frame_fits m /\ ~ In (fst m) end_types /\
  (In (fst m) def_types \/ (fst m <> 0 /\ 0 < lenZ (snd m) <= 10000)).

(** ** Per-message effects, as folds *)
Inductive run := RDone (u : ulog) | RStop (u : ulog) | RRaise (e : exn).

(** The data section: an IndexError flags corruption and goes on, a struct.error silently
    ends the section, anything else is raised. *)
Fixpoint run_data (cf : cfg) (ms : list (Z * bytes)) (u : ulog) : run :=
  match ms with
  | [] => RDone u
  | (ty, p) :: r =>
    match data_effect cf ty p u with
    | None => run_data cf r u
    | Some (u', None) => run_data cf r u'
    | Some (u', Some IndexError) => run_data cf r (set_corrupt true u')
    | Some (u', Some StructError) => RStop u'
    | Some (_, Some e) => RRaise e
    end
  end.

(** The definition section: an IndexError flags corruption and goes on, anything else is
    raised. *)
Fixpoint run_def (cf : cfg) (ms : list (Z * bytes)) (u : ulog) : res ulog :=
  match ms with
  | [] => Ok u
  | (ty, p) :: r =>
    match def_effect cf ty p u with
    | None => run_def cf r u
    | Some (Ok u') => run_def cf r u'
    | Some (Err IndexError) => run_def cf r (set_corrupt true u)
    | Some (Err e) => Err e
    end
  end.

(** The object right after the 16-byte header. *)
Definition after_header (v t : Z) : ulog := set_last t (set_start t (set_version v ulog0)).

Definition end_data (r : run) : res ulog :=
  match r with RDone u | RStop u => finalize u | RRaise e => Err e end.

(** ** Appended sections *)

(** A section as it lies in the file: complete messages, then the remains [t] of a
    message that was cut when the next section was appended. *)
Definition section := (list (Z * bytes) * bytes)%type.
Definition section_bytes (s : section) : bytes := frames (fst s) ++ snd s.

(** What is left in front of an appended section does not hold a complete message: either
    less than a message header or a header announcing more bytes than are left. *)
Definition remains (t : bytes) : Prop :=
  lenZ t < 3 \/
  (exists s0 s1 ty r, t = s0 :: s1 :: ty :: r /\ byte_ok s0 /\ byte_ok s1 /\
     lenZ r < s0 + 256 * s1).

(** offsets at which the sections following each of [secs] start *)
Fixpoint section_ends (pos : Z) (secs : list section) : list Z :=
  match secs with
  | [] => []
  | s :: r => let p := pos + lenZ (section_bytes s) in p :: section_ends p r
  end.

(** Section-wise reading: the datasets are built at the end of each section. *)
Fixpoint run_sections (cf : cfg) (secs : list (list (Z * bytes))) (u : ulog) : res ulog :=
  match secs with
  | [] => Ok u
  | s :: r => match end_data (run_data cf s u) with
              | Ok u' => run_sections cf r u'
              | Err e => Err e
              end
  end.

(** 0 for None *)
Definition first_occurrence (p s : bytes) (i : Z) : Prop :=
  (exists a b, s = a ++ p ++ b /\ lenZ a = i) /\ (forall a b, s = a ++ p ++ b -> i <= lenZ a).

(** ** What happens while an arbitrary file is read *)

(** One iteration of the definition-section or data-section loop at some position of the
    file, or the construction of the datasets at the end of a section. *)
Inductive reading (cf : cfg) (f : bytes) (u u' : ulog) : Prop :=
| rd_def pos p : def_step cf f pos u = DNext p u' \/ def_step cf f pos u = DStop p u' ->
    reading cf f u u'
| rd_data fuel until pos cfp p c :
    data_step fuel cf until f pos cfp u = SNext p c u' \/
    data_step fuel cf until f pos cfp u = SStop u' ->
    reading cf f u u'
| rd_end : finalize u = Ok u' -> reading cf f u u'.

(** any number of them *)
Inductive readings (cf : cfg) (f : bytes) (u : ulog) : ulog -> Prop :=
| rds_refl : readings cf f u u
| rds_step u1 u2 : readings cf f u u1 -> reading cf f u1 u2 -> readings cf f u u2.

(** The events of reading: a processed message; a corruption that was noticed; the sync
    search reaching the end of the file. *)
Inductive event := EMsg (ty : Z) (payload : bytes) | ECorrupt | ENoSync.

Definition data_event (cf : cfg) (e : event) (u : ulog) : run :=
  match e with
  | EMsg ty p => run_data cf [(ty, p)] u
  | ECorrupt => RDone (set_corrupt true u)
  | ENoSync => RDone (set_has_sync false u)
  end.
Fixpoint run_events (cf : cfg) (evs : list event) (u : ulog) : run :=
  match evs with
  | [] => RDone u
  | e :: r => match data_event cf e u with
              | RDone u' => run_events cf r u'
              | RStop u' => RStop u'
              | RRaise x => RRaise x
              end
  end.
Definition def_event (cf : cfg) (e : event) (u : ulog) : res ulog :=
  match e with
  | EMsg ty p => run_def cf [(ty, p)] u
  | ECorrupt => Ok (set_corrupt true u)
  | ENoSync => Ok (set_has_sync false u)
  end.
Fixpoint run_def_events (cf : cfg) (evs : list event) (u : ulog) : res ulog :=
  match evs with
  | [] => Ok u
  | e :: r => let* u' := def_event cf e u in run_def_events cf r u'
  end.
Fixpoint run_event_sections (cf : cfg) (secs : list (list event)) (u : ulog) : res ulog :=
  match secs with
  | [] => Ok u
  | s :: r => match end_data (run_events cf s u) with
              | Ok u' => run_event_sections cf r u'
              | Err e => Err e
              end
  end.

(** The messages among the events are complete frames of the file from [pos] on, in file
    order and without overlap. *)
Fixpoint scattered (f : bytes) (pos : Z) (evs : list event) : Prop :=
  match evs with
  | [] => True
  | EMsg ty p :: r =>
      exists q, pos <= q /\ slice q (q + 3 + lenZ p) f = frame ty p /\
                scattered f (q + 3 + lenZ p) r
  | _ :: r => scattered f pos r
  end.

(** A message of the definition section lies at [q] in the file: a header and as many of
    the announced payload bytes as the file has. *)
Definition lies_at (f : bytes) (q : Z) (ty : Z) (p : bytes) : Prop :=
  0 <= q /\ exists s0 s1, slice q (q + 3) f = [s0; s1; ty] /\ p = slice (q + 3) (q + 3 + (s0 + 256 * s1)) f.
Definition found_in (f : bytes) (e : event) : Prop :=
  match e with EMsg ty p => exists q, lies_at f q ty p | _ => True end.
(** ... one after the other, from [pos] on, without overlap *)
Fixpoint listed (f : bytes) (pos : Z) (evs : list event) : Prop :=
  match evs with
  | [] => True
  | EMsg ty p :: r => exists q, pos <= q /\ lies_at f q ty p /\ listed f (q + 3 + lenZ p) r
  | _ :: r => listed f pos r
  end.

(** The largest file the reader reads completely (1 << 50 bytes). *)
Definition BIG : Z := 1125899906842624.

(** the end of the file, or the remains of a cut message *)
Definition file_tail (t : bytes) : Prop :=
  t = [] \/ exists m, frame_fits m /\ cut_of t m.

(** The appended offsets are within what a file object can seek to. *)
Definition offs_fit (k : filekind) (l : list Z) : Prop :=
  Forall (fun o => o < 2 ^ 63 /\ match k with OsFile m => o <= m | MemFile => True end) l.

(** The data part is empty or starts with a section-ending type. *)
Definition starts_data (data : list (Z * bytes)) : Prop :=
  match data with [] => True | m :: _ => In (fst m) end_types end.

(** A 3-byte message header at [q] of a type unknown to the definition section which counts
    as corrupt and announces more bytes than the file has left. *)
Definition overlong (f : bytes) (q : Z) : Prop :=
  exists s0 s1 ty, slice q (q + 3) f = [s0; s1; ty] /\
    ~ In ty def_types /\ ~ In ty end_types /\
    (ty = 0 \/ 10000 < s0 + 256 * s1) /\ lenZ f < q + 3 + (s0 + 256 * s1).

(** ** Vocabulary of the properties *)
(** No incompat bit other than bit 0 of byte 0 is set. *)
Definition known_incompat (i : list Z) : Prop :=
  Z.land (nth 0 i 0) (Z.lnot 1) = 0 /\ Forall (fun x => x = 0) (tl i).

(** [b] extends [a]. *)
Definition prefix {A} (a b : list A) : Prop := exists r, b = a ++ r.
(** What never goes backwards while a log is read. *)
Definition grows (u u' : ulog) : Prop :=
  (u_corrupt u = true -> u_corrupt u' = true) /\ u_last u <= u_last u' /\
  prefix (u_logged u) (u_logged u') /\ prefix (u_dropouts u) (u_dropouts u') /\
  prefix (u_changed u) (u_changed u') /\
  (exists r, Permutation (u_data u') (u_data u ++ r)).
Definition ts_sorted (l : list Z) : Prop := StronglySorted Z.le l.

(** Once the search for a sync sequence has failed there is none in the rest of the file. *)
Definition sync_inv (f : bytes) (pos : Z) (u : ulog) : Prop :=
  u_has_sync u = false -> ~ occurs sync_sequence (dropZ pos f).

(** a file the reader loops on for ever *)
Definition hang_file : bytes := file_header 1 0 ++ [1; 0; 0].

(** The log does not announce appended sections. *)
Definition no_append (u : ulog) : Prop := has_appended u = false \/ u_offsets u = [].

(** No flag-bits message announces appended sections (bit 0 of incompat byte 0, the ninth
    payload byte). *)
Definition not_appended (defs : list (Z * bytes)) : Prop :=
  Forall (fun m => fst m = 66 -> Z.land (nth 8 (snd m) 0) 1 = 0) defs.

(** The same arguments with parse_header_only set to [b]. *)
Definition with_hdr (b : bool) (cf : cfg) : cfg :=
  mkCfg (cf_ign cf) (cf_filter cf) b (cf_depth cf) (cf_kind cf).
