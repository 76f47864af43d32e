(** Which logs write_ulog() can write, in terms of the attributes of the log. *)
From Verif Require Import Base Dict PyStr PyFloat Struct ModelTypes Spec SpecMsg SpecLog SpecWrite SpecLoaded.

(** the number of bytes of a text *)
Definition text_size (s : str) : Z := lenZ (utf8 s).
(** a message has at most 65535 bytes after its header *)
Definition message_size (n : Z) : Prop := n < 65536.

(** the integers that a basic type holds *)
Definition in_type (c : ctype) (z : Z) : Prop :=
  if ctype_signed c then - (256 ^ Z.of_nat (ctype_size c) / 2) <= z < 256 ^ Z.of_nat (ctype_size c) / 2
  else 0 <= z < 256 ^ Z.of_nat (ctype_size c).
(** the float does not become infinite as a single float *)
Definition single_range (b : Z) : Prop := exists r, narrow b = Some r.
(** the value as a float: integers that are not too large have one *)
Definition float_of (v : value) (b : Z) : Prop :=
  match v with
  | VFloat x => x = b
  | VInt z => double_of_int z = Some b
  | VBool x => double_of_int (if x then 1 else 0) = Some b
  | _ => False
  end.
(** the values that can be written as a basic type: every value is true or false, a char is one byte *)
Definition packable (c : ctype) (v : value) : Prop :=
  match c with
  | CBool => True
  | CChar => exists b, v = VBytes [b]
  | F32 => exists b, float_of v b /\ single_range b
  | F64 => exists b, float_of v b
  | _ => match v with VInt z => in_type c z | VBool b => in_type c (if b then 1 else 0) | _ => False end
  end.
(** [v] can be written under the type name [ty], and takes [n] bytes *)
Inductive takes : str -> value -> Z -> Prop :=
| tk_text r s : encodable s -> takes (lit "char[" ++ r) (VStr s) (text_size s)
| tk_bytes r b : takes (lit "uint8_t[" ++ r) (VBytes b) (lenZ b)
| tk_basic c v : packable c v -> takes (ctype_name c) v (Z.of_nat (ctype_size c)).
(** an information message: its name is preceded by its type, and both by their length in one byte; [extra] further bytes *)
Definition entry_ok (extra : Z) (ty key : str) (v : value) : Prop :=
  encodable ty /\ encodable key /\ text_size (ty ++ lit " " ++ key) < 256 /\
  exists n, takes ty v n /\ message_size (extra + 1 + text_size (ty ++ lit " " ++ key) + n).
(** parameters are written as int32_t or float *)
Definition param_ok (key : str) (v : value) : Prop :=
  encodable key /\
  match v with
  | VInt z => -2147483648 <= z < 2147483648 /\ text_size key < 248
  | VBool _ => text_size key < 248
  | VFloat b => single_range b /\ text_size key < 250
  | _ => False
  end.
(** the elements of samples *)
Definition element_ok (c : ctype) (v : value) : Prop :=
  match c with CChar => exists z, v = VInt z /\ 0 <= z < 128 | _ => packable c v end.
Record writable_dataset (ds : dataset) : Prop := {
  (* its subscription *)
  wd_sub : u8 (ds_multi ds) /\ u16 (ds_id ds) /\ encodable (ds_name ds) /\ message_size (3 + text_size (ds_name ds));
  (* the first field has a column, which tells how many samples there are *)
  wd_first : exists fd r c, ds_fields ds = fd :: r /\ sget (fd_name fd) (ds_data ds) = Some c;
  (* every sample has a timestamp, and a value of each field that can be written *)
  wd_samples : forall i, (i < samples_in ds)%nat ->
    (exists t, elem_at ds (lit "timestamp") i (VInt t)) /\
    Forall (fun fd => exists v, elem_at ds (fd_name fd) i v /\ element_ok (fd_type fd) v) (ds_fields ds) /\
    message_size (2 + total (ds_fields ds)) }.
Record writable (u : ulog) : Prop := {
  wr_head : u8 (u_version u) /\ u64 (u_start u);
  (* of the first incompat flag only the bits of 254 are written *)
  wr_flags : length (u_compat u) = 8%nat /\ Forall u8 (u_compat u) /\ length (u_incompat u) = 8%nat /\ Forall u8 (tl (u_incompat u));
  wr_formats : Forall (fun nm => encodable (format_text (mf_name (snd nm)) (mf_fields (snd nm))) /\
    message_size (text_size (format_text (mf_name (snd nm)) (mf_fields (snd nm))))) (u_formats u);
  wr_info : Forall (fun kv => exists ty, sget (fst kv) (u_infot u) = Some ty /\ entry_ok 0 ty (fst kv) (snd kv)) (u_info u);
  wr_multi : Forall (fun kl => exists ty, sget (fst kl) (u_multit u) = Some ty /\ Forall (Forall (entry_ok 1 ty (fst kl))) (snd kl)) (u_multi u);
  wr_params : Forall (fun kv => param_ok (fst kv) (snd kv)) (u_params u);
  (* the types of default parameters are bits of one byte *)
  wr_defaults : Forall (fun td => 0 <= fst td /\ Forall (fun kv => fst td < 8 /\ param_ok (fst kv) (snd kv)) (snd td)) (u_defaults u);
  wr_data : Forall writable_dataset (u_data u);
  wr_logged : Forall (fun m => u8 (lg_level m) /\ u64 (lg_ts m) /\ encodable (lg_msg m) /\ message_size (9 + text_size (lg_msg m))) (u_logged u);
  wr_tagged : Forall (fun tl => Forall (fun m => u8 (tg_level m) /\ u16 (tg_tag m) /\ u64 (tg_ts m) /\ encodable (tg_msg m) /\
    message_size (11 + text_size (tg_msg m))) (snd tl)) (u_tagged u);
  wr_dropouts : Forall (fun d => u16 (dr_dur d)) (u_dropouts u);
  wr_changed : Forall (fun c => param_ok (snd (fst c)) (snd c)) (u_changed u) }.

(** What the model leaves open: timestamps that are floats *)
Definition covered (u : ulog) : Prop :=
  Forall (fun ds => forall i v, elem_at ds (lit "timestamp") i v -> exists t, v = VInt t) (u_data u).

(** The exceptions that write_ulog() raises, and those that it raises on a log that was read from a file. *)
Definition write_exceptions : list exn := [StructError; KeyError; TypeError; ValueError; OverflowError; IndexError; UnicodeEncodeError].
Definition rewrite_exceptions : list exn := [StructError; KeyError; TypeError; ValueError; OverflowError].

(** ** Logs that were read from a file *)
(** the names of types of information messages that write_ulog() knows *)
Definition known_type (ty : str) : Prop :=
  (exists r, ty = lit "char[" ++ r) \/ (exists r, ty = lit "uint8_t[" ++ r) \/ exists c, ty = ctype_name c.
Record rewritable_dataset (ds : dataset) : Prop := {
  rd_time : exists fd, In fd (ds_fields ds) /\ fd_name fd = lit "timestamp";
  rd_named : Forall (fun fd => fd_name fd <> []) (ds_fields ds);
  (* char elements are ASCII *)
  rd_chars : forall fd i z, In fd (ds_fields ds) -> fd_type fd = CChar -> elem_at ds (fd_name fd) i (VInt z) -> 0 <= z }.
Record rewritable (u : ulog) : Prop := {
  (* a format text becomes longer if the file omits the last semicolon *)
  rw_formats : Forall (fun nm => message_size (text_size (format_text (mf_name (snd nm)) (mf_fields (snd nm))))) (u_formats u);
  rw_info : Forall (fun kv => forall ty, sget (fst kv) (u_infot u) = Some ty -> known_type ty) (u_info u);
  (* all values of a key are written under the type of the first *)
  rw_multi : Forall (fun kl => forall ty, sget (fst kl) (u_multit u) = Some ty -> Forall (Forall (entry_ok 1 ty (fst kl))) (snd kl)) (u_multi u);
  rw_params : Forall (fun kv => param_ok (fst kv) (snd kv)) (u_params u);
  rw_defaults : Forall (fun td => fst td < 8 /\ Forall (fun kv => param_ok (fst kv) (snd kv)) (snd td)) (u_defaults u);
  rw_changed : Forall (fun c => param_ok (snd (fst c)) (snd c)) (u_changed u);
  rw_data : Forall rewritable_dataset (u_data u) }.
