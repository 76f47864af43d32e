(** Which bytes of a file are taken for messages, whatever the file: the way of the reader
    through it, in terms of its bytes only (C70).  No state of the reader is threaded here but
    the place, the count of bytes that is compared with the start of the next section, and
    whether sync sequences are still looked for. *)
From Verif Require Import Base Dict ModelTypes ModelRead Spec SpecSection.

(** A whole message of type [ty] with payload [p] lies at [q]. *)
Definition message_at (f : bytes) (q ty : Z) (p : bytes) : Prop := slice q (q + 3 + lenZ p) f = frame ty p.
(** A message of a type the section does not know which is taken for garbage *)
Definition doubtful (ty size : Z) : Prop := ty = 0 \/ size = 0 \/ 10000 < size.

(** ** A data section *)
(** From place [q], with [c] bytes counted, up to the section's end at count [limit]; [look]:
    sync sequences are looked for. *)
Inductive walk (f : bytes) (limit : Z) : Z -> Z -> bool -> list event -> Prop :=
(* no whole message is left, or it ends behind the limit *)
| walk_end q c look : (forall ty p, message_at f q ty p -> limit < c + 3 + lenZ p) -> walk f limit q c look []
(* a message of a known type *)
| walk_message q c look ty p evs : message_at f q ty p -> c + 3 + lenZ p <= limit -> In ty data_types ->
    walk f limit (q + 3 + lenZ p) (c + 3 + lenZ p) look evs -> walk f limit q c look (EMsg ty p :: evs)
(* a plausible message of an unknown type: on behind it *)
| walk_skip q c look ty p evs : message_at f q ty p -> c + 3 + lenZ p <= limit -> ~ In ty data_types -> ~ doubtful ty (lenZ p) ->
    (look = true -> ~ occurs sync_sequence p) ->
    walk f limit (q + 3 + lenZ p) (c + 3 + lenZ p) look evs -> walk f limit q c look evs
(* with a sync sequence inside: on behind that *)
| walk_inside q c ty p i evs : message_at f q ty p -> c + 3 + lenZ p <= limit -> ~ In ty data_types -> ~ doubtful ty (lenZ p) ->
    first_occurrence sync_sequence p i ->
    walk f limit (q + 3 + i + 8) (c + 3 + lenZ p) true evs -> walk f limit q c true (ECorrupt :: evs)
(* garbage: on behind the next sync sequence *)
| walk_sync q c ty p i evs : message_at f q ty p -> c + 3 + lenZ p <= limit -> ~ In ty data_types -> doubtful ty (lenZ p) ->
    first_occurrence sync_sequence (dropZ (q + 1) f) i ->
    walk f limit (q + 1 + i + 8) (q + 1) true evs -> walk f limit q c true (ECorrupt :: evs)
(* no such: none is looked for from now on, on at the next byte *)
| walk_no_sync q c ty p evs : message_at f q ty p -> c + 3 + lenZ p <= limit -> ~ In ty data_types -> doubtful ty (lenZ p) ->
    ~ occurs sync_sequence (dropZ (q + 1) f) ->
    walk f limit (q + 1) (q + 1) false evs -> walk f limit q c true (ECorrupt :: ENoSync :: evs)
(* garbage when none is looked for any more: on at the next byte *)
| walk_byte q c ty p evs : message_at f q ty p -> c + 3 + lenZ p <= limit -> ~ In ty data_types -> doubtful ty (lenZ p) ->
    walk f limit (q + 1) (q + 1) false evs -> walk f limit q c false (ECorrupt :: evs).

(** The messages are processed up to the first one at which the reader gives up. *)
Definition goes_on (cf : cfg) (fmts : dict str mformat) (evs : list event) : Prop :=
  forall pre ty p post, evs = pre ++ EMsg ty p :: post -> ~ stops cf fmts pre (ty, p).
Definition taken (cf : cfg) (fmts : dict str mformat) (all evs : list event) : Prop :=
  (evs = all /\ goes_on cf fmts all) \/
  (exists pre ty p post, all = pre ++ EMsg ty p :: post /\ evs = pre ++ [EMsg ty p] /\
     goes_on cf fmts pre /\ stops cf fmts pre (ty, p)).
Definition looking (look : bool) (evs : list event) : bool :=
  look && negb (existsb (fun e => match e with ENoSync => true | _ => false end) evs).

(** The sections from place [q] on, the later ones at the offsets [offs]. *)
Inductive sections_walk (cf : cfg) (fmts : dict str mformat) (f : bytes) : list Z -> Z -> bool -> list (list event) -> Prop :=
| sw_last q look all evs : walk f BIG q q look all -> taken cf fmts all evs -> sections_walk cf fmts f [] q look [evs]
| sw_more o offs q look all evs secs : walk f o q q look all -> taken cf fmts all evs ->
    sections_walk cf fmts f offs o (looking look evs) secs -> sections_walk cf fmts f (o :: offs) q look (evs :: secs).

(** ** The definition section *)
(** A header at [q] with type [ty] and what there is of the [size] bytes it announces *)
Definition header_at (f : bytes) (q ty size : Z) (p : bytes) : Prop :=
  exists s0 s1, slice q (q + 3) f = [s0; s1; ty] /\ size = s0 + 256 * s1 /\ p = slice (q + 3) (q + 3 + size) f.
(** Going back to [back], never before the beginning; in a file of the operating system that
    would be an exception. *)
Definition goes_back (cf : cfg) (back q : Z) : Prop :=
  0 <= back /\ q = back \/ back < 0 /\ q = 0 /\ cf_kind cf = MemFile.

(** One message *)
Inductive hop (cf : cfg) (f : bytes) (q : Z) : list event -> Z -> Prop :=
| hop_message ty size p : header_at f q ty size p -> In ty def_types -> hop cf f q [EMsg ty p] (q + 3 + lenZ p)
| hop_skip ty size p : header_at f q ty size p -> ~ In ty def_types -> ~ In ty end_types -> ~ doubtful ty size ->
    hop cf f q [] (q + 3 + lenZ p)
| hop_garbage ty size p q' : header_at f q ty size p -> ~ In ty def_types -> ~ In ty end_types -> doubtful ty size ->
    goes_back cf (q + 3 + lenZ p - size - 2) q' -> hop cf f q [ECorrupt] q'.
Inductive hops (cf : cfg) (f : bytes) : Z -> list event -> Z -> Prop :=
| hops_none q : hops cf f q [] q
| hops_on q a q1 b q2 : hop cf f q a q1 -> hops cf f q1 b q2 -> hops cf f q (a ++ b) q2.
(** The definitions end at [q] and the data starts at [d]: nothing is left, or there is a
    message of the data section, of which not all bytes need be there. *)
Definition definitions_end (cf : cfg) (f : bytes) (q d : Z) : Prop :=
  slice q (q + 3) f = [] /\ d = q \/
  exists ty size p, header_at f q ty size p /\ In ty end_types /\ goes_back cf (q + 3 + lenZ p - (3 + size)) d.

(** ** A whole file *)
(** where the further sections start *)
Definition section_starts (u : ulog) : list Z := if has_appended u then u_offsets u else [].
(** [defs] and [secs] are what is processed of the file [f], from which [u] was loaded. *)
Definition walked (cf : cfg) (f : bytes) (u : ulog) (defs : list event) (secs : list (list event)) : Prop :=
  exists q d, hops cf f 16 defs q /\ definitions_end cf f q d /\
    sections_walk cf (u_formats u) f (section_starts u) d true secs.

(** ** Every outcome *)
(** The definition section fails with [e] at [q]. *)
Inductive hop_fails (cf : cfg) (f : bytes) (q : Z) (u : ulog) : exn -> Prop :=
| hf_header : 0 < lenZ (slice q (q + 3) f) < 3 -> hop_fails cf f q u StructError
| hf_message ty size p e : header_at f q ty size p -> In ty def_types -> def_event cf (EMsg ty p) u = Err e -> hop_fails cf f q u e
| hf_back ty size p m : header_at f q ty size p -> ~ In ty def_types -> ~ In ty end_types -> doubtful ty size ->
    q + 3 + lenZ p - size - 2 < 0 -> cf_kind cf = OsFile m -> hop_fails cf f q u OSError
| hf_end ty size p m : header_at f q ty size p -> In ty end_types -> q + 3 + lenZ p - (3 + size) < 0 -> cf_kind cf = OsFile m ->
    hop_fails cf f q u OSError.
(** Going to an offset fails: it does not fit 64 bits with sign, or the file system refuses. *)
Inductive seek_fails (k : filekind) (o : Z) : exn -> Prop :=
| sf_memory : k = MemFile -> 2 ^ 63 <= o -> seek_fails k o OverflowError
| sf_value m : k = OsFile m -> 2 ^ 63 <= o -> seek_fails k o ValueError
| sf_system m : k = OsFile m -> o < 2 ^ 63 -> m < o -> seek_fails k o OSError.
Definition seek_works (k : filekind) (o : Z) : Prop := o < 2 ^ 63 /\ match k with OsFile m => o <= m | MemFile => True end.
(** The sections are read one after another and end with [r]. *)
Inductive sections_give (cf : cfg) (f : bytes) : list Z -> Z -> ulog -> res ulog -> Prop :=
| sg_last q u evs : walk f BIG q q (u_has_sync u) evs -> sections_give cf f [] q u (end_data (run_events cf evs u))
| sg_error o offs q u evs e : walk f o q q (u_has_sync u) evs -> end_data (run_events cf evs u) = Err e ->
    sections_give cf f (o :: offs) q u (Err e)
| sg_seek o offs q u evs u1 e : walk f o q q (u_has_sync u) evs -> end_data (run_events cf evs u) = Ok u1 ->
    seek_fails (cf_kind cf) o e -> sections_give cf f (o :: offs) q u (Err e)
| sg_more o offs q u evs u1 r : walk f o q q (u_has_sync u) evs -> end_data (run_events cf evs u) = Ok u1 ->
    seek_works (cf_kind cf) o -> sections_give cf f offs o u1 r -> sections_give cf f (o :: offs) q u r.

Inductive outcome (cf : cfg) (f : bytes) : res ulog -> Prop :=
| out_no_log : lenZ f < 16 \/ firstn 7 f <> [85; 76; 111; 103; 1; 18; 53] -> outcome cf f (Err TypeError)
| out_error v t rest defs q u e : f = file_header v t ++ rest -> header_fits v t -> hops cf f 16 defs q ->
    run_def_events cf defs (after_header v t) = Ok u -> hop_fails cf f q u e -> outcome cf f (Err e)
| out_header v t rest defs q d u : f = file_header v t ++ rest -> header_fits v t -> hops cf f 16 defs q -> definitions_end cf f q d ->
    run_def_events cf defs (after_header v t) = Ok u -> cf_hdr cf = true -> outcome cf f (Ok u)
| out_data v t rest defs q d u r : f = file_header v t ++ rest -> header_fits v t -> hops cf f 16 defs q -> definitions_end cf f q d ->
    run_def_events cf defs (after_header v t) = Ok u -> cf_hdr cf = false ->
    sections_give cf f (section_starts u) d u r -> outcome cf f r.

(** ** Damage *)
(** The bytes [r] begin with [n] bytes that the reader recognises as damaged and that a sync sequence follows, the
    first one there: a whole message that counts as garbage, or a plausible one of an unknown type inside which the
    sequence lies. *)
Definition damage (r : bytes) (n : Z) : Prop :=
  exists ty p tail, r = frame ty p ++ tail /\ ~ In ty data_types /\
    ((doubtful ty (lenZ p) /\ 1 <= n /\ first_occurrence sync_sequence (dropZ 1 r) (n - 1)) \/
     (~ doubtful ty (lenZ p) /\ first_occurrence sync_sequence p (n - 3))).
(** The data section [r] consists of the messages [ms], and possibly the remains of a cut one, with damage followed
    by a sync sequence put in at any number of places ([hurt]: at least one). *)
Inductive damaged : bytes -> list (Z * bytes) -> bool -> Prop :=
| damaged_not ms tl : Forall plain_data ms -> file_tail tl -> damaged (frames ms ++ tl) ms false
| damaged_at ms d more ms2 hurt : Forall plain_data ms -> damage (d ++ sync_sequence ++ more) (lenZ d) -> damaged more ms2 hurt ->
    damaged (frames ms ++ d ++ sync_sequence ++ more) (ms ++ ms2) true.
