(** Why save() refuses a log: for every exception, what is there in the log. *)
From Verif Require Import Base Dict PyStr PyFloat Struct ModelTypes SpecDb SpecStorable.

(** the integers of a log that are stored, with the positions in its lists *)
Inductive log_int (u : ulog) : Z -> Prop :=
| li_head z : In z [u_version u; u_start u; u_last u; u_sync_cnt u] -> log_int u z
| li_offset z : In z (u_offsets u) -> log_int u z
| li_offset_at i : 0 <= i < lenZ (u_offsets u) -> log_int u i
| li_dataset ds z : In ds (u_data u) -> In z [ds_multi ds; ds_id ds; ds_tsidx ds] -> log_int u z
| li_dropout x z : In x (u_dropouts u) -> In z [dr_ts x; dr_dur x] -> log_int u z
| li_logged m z : In m (u_logged u) -> In z [lg_level m; lg_ts m] -> log_int u z
| li_tagged tl m z : In tl (u_tagged u) -> In m (snd tl) -> In z [fst tl; tg_level m; tg_ts m] -> log_int u z
| li_format nm f : In nm (u_formats u) -> In f (mf_fields (snd nm)) -> log_int u (snd (fst f))
| li_info k z : In (k, VInt z) (u_info u) -> log_int u z
| li_multi_at kl i : In kl (u_multi u) -> 0 <= i < lenZ (snd kl) -> log_int u i
| li_list_at kl l i : In kl (u_multi u) -> In l (snd kl) -> 0 <= i < lenZ l -> log_int u i
| li_multi kl l z : In kl (u_multi u) -> In l (snd kl) -> In (VInt z) l -> log_int u z
| li_param k z : In (k, VInt z) (u_params u) -> log_int u z
| li_default td kv : In td (u_defaults u) -> In kv (snd td) -> log_int u (fst td)
| li_default_value td k z : In td (u_defaults u) -> In (k, VInt z) (snd td) -> log_int u z
| li_changed c : In c (u_changed u) -> log_int u (fst (fst c))
| li_changed_value tk z : In (tk, VInt z) (u_changed u) -> log_int u z.

(** its texts that are stored *)
Inductive log_text (u : ulog) : str -> Prop :=
| lt_head s : In s [u_compat u; u_incompat u] -> log_text u s
| lt_dataset ds : In ds (u_data u) -> log_text u (ds_name ds)
| lt_field ds f : In ds (u_data u) -> In f (ds_fields ds) -> log_text u (fd_name f)
| lt_logged m : In m (u_logged u) -> log_text u (lg_msg m)
| lt_tagged tl m : In tl (u_tagged u) -> In m (snd tl) -> log_text u (tg_msg m)
| lt_format nm : In nm (u_formats u) -> log_text u (fst nm)
| lt_ffield nm f s : In nm (u_formats u) -> In f (mf_fields (snd nm)) -> In s [fst (fst f); snd f] -> log_text u s
| lt_info_key kv : In kv (u_info u) -> log_text u (fst kv)
| lt_info k s : In (k, VStr s) (u_info u) -> log_text u s
| lt_info_type kv s : In kv (u_info u) -> sget (fst kv) (u_infot u) = Some s -> log_text u s
| lt_multi_key kl : In kl (u_multi u) -> log_text u (fst kl)
| lt_multi kl l s : In kl (u_multi u) -> In l (snd kl) -> In (VStr s) l -> log_text u s
| lt_multi_type kl s : In kl (u_multi u) -> sget (fst kl) (u_multit u) = Some s -> log_text u s
| lt_param_key kv : In kv (u_params u) -> log_text u (fst kv)
| lt_param k s : In (k, VStr s) (u_params u) -> log_text u s
| lt_default_key td kv : In td (u_defaults u) -> In kv (snd td) -> log_text u (fst kv)
| lt_default td k s : In td (u_defaults u) -> In (k, VStr s) (snd td) -> log_text u s
| lt_changed_key c : In c (u_changed u) -> log_text u (snd (fst c))
| lt_changed tk s : In (tk, VStr s) (u_changed u) -> log_text u s.

(** something that is looked up is not there: the column of a field, the type of an info message,
    and, for JSON copies, the column of times *)
Inductive log_lacks (json : bool) (u : ulog) : Prop :=
| lack_column ds f : In ds (u_data u) -> In f (ds_fields ds) -> sget (fd_name f) (ds_data ds) = None -> log_lacks json u
| lack_info kv : In kv (u_info u) -> sget (fst kv) (u_infot u) = None -> log_lacks json u
| lack_multi kl : In kl (u_multi u) -> sget (fst kl) (u_multit u) = None -> log_lacks json u
| lack_times ds : json = true -> In ds (u_data u) -> ds_fields ds <> [] -> sget (lit "timestamp") (ds_data ds) = None -> log_lacks json u.

(** what an exception raised for the sake of the log says about it; [sha] is the hash of its file *)
Definition refused_for (json : bool) (sha : str) (u : ulog) (e : exn) : Prop :=
  match e with
  | OverflowError => exists z, log_int u z /\ ~ int64 z
  | UnicodeEncodeError => exists s, (s = sha \/ log_text u s) /\ ~ no_surrogate s
  | KeyError => log_lacks json u
  | IntegrityError => ~ NoDup (map (fun ds => (ds_name ds, ds_multi ds)) (u_data u))
  | OperationalError => json = true /\ exists ds, In ds (u_data u) /\ ~ json_dataset ds
  | _ => False
  end.
