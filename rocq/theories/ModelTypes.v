(** The state of a ULog object (core.py 95-138) and of the objects it holds. *)
From Verif Require Import Base Dict PyStr PyFloat Struct.

(** MessageFormat (core.py 621-631): name and fields (type, array_size, name). *)
Record mformat := mkFmt { mf_name : str; mf_fields : list (str * Z * str) }.

(** MessageLogging (core.py 654-660) *)
Record logmsg := mkLog { lg_level : Z; lg_ts : Z; lg_msg : str }.
(** MessageLoggingTagged (core.py 680-687) *)
Record tagmsg := mkTag { tg_level : Z; tg_tag : Z; tg_ts : Z; tg_msg : str }.
(** MessageDropout (core.py 708-712) *)
Record dropout := mkDrop { dr_dur : Z; dr_ts : Z }.

(** _FieldData (720-724).  Simplification: [type_str] is held as the entry of the type
    table instead of its name; the reader only creates _FieldData objects with type names
    found in _UNPACK_TYPES (773-780). *)
Record fielddata := mkFD { fd_name : str; fd_type : ctype }.

(** _MessageAddLogged (732-758).  [sb_dtype] is the numpy dtype: names and types. *)
Record subscr := mkSub {
  sb_multi : Z; sb_id : Z; sb_name : str;
  sb_fields : list fielddata; sb_tsidx : Z; sb_max : Z; sb_tsoff : Z;
  sb_buf : bytes; sb_dtype : list (str * nptype) }.

(** A numpy column: element type and the raw little-endian element values (as
    unsigned integers).  What a user sees of an element is [np_elem] below
    (core.py 520-526).  Simplification: the bytes, strides and flags of the array object are
    not modelled. *)
Record column := mkCol { c_type : nptype; c_raw : list Z }.

(** Data (510-526). *)
Record dataset := mkDS {
  ds_multi : Z; ds_id : Z; ds_name : str;
  ds_fields : list fielddata; ds_tsidx : Z; ds_data : dict str column }.

(** The Python number a numpy element stands for: an integer or a float (as binary64 bits);
    the element types are the third entries of _UNPACK_TYPES (core.py 49-62). *)
Definition np_elem (t : nptype) (raw : Z) : value :=
  match t with
  | NI n sg => VInt (if sg then to_signed n raw else raw)
  | NF 4 => VFloat (widen raw)
  | NF _ => VFloat raw
  end.

(** The attributes of a ULog object (core.py 106-133).  [_debug] is always False,
    [_file_handle] is deleted at the end of loading (882). *)
Record ulog := mkU {
  u_corrupt : bool;                            (* _file_corrupt (108) *)
  u_start : Z;                                 (* _start_timestamp (110) *)
  u_last : Z;                                  (* _last_timestamp (111) *)
  u_info : dict str value;                     (* _msg_info_dict (112) *)
  u_infot : dict str str;                      (* _msg_info_dict_types (113) *)
  u_multi : dict str (list (list value));      (* _msg_info_multiple_dict (114) *)
  u_multit : dict str str;                     (* _msg_info_multiple_dict_types (115) *)
  u_params : dict str value;                   (* _initial_parameters (116) *)
  u_defaults : dict Z (dict str value);        (* _default_parameters (117) *)
  u_changed : list (Z * str * value);          (* _changed_parameters (118) *)
  u_formats : dict str mformat;                (* _message_formats (119) *)
  u_logged : list logmsg;                      (* _logged_messages (120) *)
  u_tagged : dict Z (list tagmsg);             (* _logged_messages_tagged (121) *)
  u_dropouts : list dropout;                   (* _dropouts (122) *)
  u_data : list dataset;                       (* _data_list (123) *)
  u_subs : dict Z subscr;                      (* _subscriptions (125) *)
  u_filtered : list Z;                         (* _filtered_message_ids, a set (126) *)
  u_missing : list Z;                          (* _missing_message_ids, a set (127) *)
  u_version : Z;                               (* _file_version (128) *)
  u_compat : list Z;                           (* _compat_flags (129) *)
  u_incompat : list Z;                         (* _incompat_flags (130) *)
  u_offsets : list Z;                          (* _appended_offsets (131) *)
  u_has_sync : bool;                           (* _has_sync (132) *)
  u_sync_cnt : Z }.                            (* _sync_seq_cnt (133) *)

(** Assigning one attribute (core.py 106-133): one definition per attribute. *)

(** assigning _file_corrupt (108) of core.py; the other attributes stay *)
Definition set_corrupt (v : bool) (u : ulog) : ulog :=
  mkU v (u_start u) (u_last u) (u_info u) (u_infot u) (u_multi u) (u_multit u) (u_params u) (u_defaults u) (u_changed u) (u_formats u) (u_logged u) (u_tagged u) (u_dropouts u) (u_data u) (u_subs u) (u_filtered u) (u_missing u) (u_version u) (u_compat u) (u_incompat u) (u_offsets u) (u_has_sync u) (u_sync_cnt u).
(** assigning _start_timestamp (110) of core.py; the other attributes stay *)
Definition set_start (v : Z) (u : ulog) : ulog :=
  mkU (u_corrupt u) v (u_last u) (u_info u) (u_infot u) (u_multi u) (u_multit u) (u_params u) (u_defaults u) (u_changed u) (u_formats u) (u_logged u) (u_tagged u) (u_dropouts u) (u_data u) (u_subs u) (u_filtered u) (u_missing u) (u_version u) (u_compat u) (u_incompat u) (u_offsets u) (u_has_sync u) (u_sync_cnt u).
(** assigning _last_timestamp (111) of core.py; the other attributes stay *)
Definition set_last (v : Z) (u : ulog) : ulog :=
  mkU (u_corrupt u) (u_start u) v (u_info u) (u_infot u) (u_multi u) (u_multit u) (u_params u) (u_defaults u) (u_changed u) (u_formats u) (u_logged u) (u_tagged u) (u_dropouts u) (u_data u) (u_subs u) (u_filtered u) (u_missing u) (u_version u) (u_compat u) (u_incompat u) (u_offsets u) (u_has_sync u) (u_sync_cnt u).
(** assigning _msg_info_dict (112) of core.py; the other attributes stay *)
Definition set_info (v : dict str value) (u : ulog) : ulog :=
  mkU (u_corrupt u) (u_start u) (u_last u) v (u_infot u) (u_multi u) (u_multit u) (u_params u) (u_defaults u) (u_changed u) (u_formats u) (u_logged u) (u_tagged u) (u_dropouts u) (u_data u) (u_subs u) (u_filtered u) (u_missing u) (u_version u) (u_compat u) (u_incompat u) (u_offsets u) (u_has_sync u) (u_sync_cnt u).
(** assigning _msg_info_dict_types (113) of core.py; the other attributes stay *)
Definition set_infot (v : dict str str) (u : ulog) : ulog :=
  mkU (u_corrupt u) (u_start u) (u_last u) (u_info u) v (u_multi u) (u_multit u) (u_params u) (u_defaults u) (u_changed u) (u_formats u) (u_logged u) (u_tagged u) (u_dropouts u) (u_data u) (u_subs u) (u_filtered u) (u_missing u) (u_version u) (u_compat u) (u_incompat u) (u_offsets u) (u_has_sync u) (u_sync_cnt u).
(** assigning _msg_info_multiple_dict (114) of core.py; the other attributes stay *)
Definition set_multi (v : dict str (list (list value))) (u : ulog) : ulog :=
  mkU (u_corrupt u) (u_start u) (u_last u) (u_info u) (u_infot u) v (u_multit u) (u_params u) (u_defaults u) (u_changed u) (u_formats u) (u_logged u) (u_tagged u) (u_dropouts u) (u_data u) (u_subs u) (u_filtered u) (u_missing u) (u_version u) (u_compat u) (u_incompat u) (u_offsets u) (u_has_sync u) (u_sync_cnt u).
(** assigning _msg_info_multiple_dict_types (115) of core.py; the other attributes stay *)
Definition set_multit (v : dict str str) (u : ulog) : ulog :=
  mkU (u_corrupt u) (u_start u) (u_last u) (u_info u) (u_infot u) (u_multi u) v (u_params u) (u_defaults u) (u_changed u) (u_formats u) (u_logged u) (u_tagged u) (u_dropouts u) (u_data u) (u_subs u) (u_filtered u) (u_missing u) (u_version u) (u_compat u) (u_incompat u) (u_offsets u) (u_has_sync u) (u_sync_cnt u).
(** assigning _initial_parameters (116) of core.py; the other attributes stay *)
Definition set_params (v : dict str value) (u : ulog) : ulog :=
  mkU (u_corrupt u) (u_start u) (u_last u) (u_info u) (u_infot u) (u_multi u) (u_multit u) v (u_defaults u) (u_changed u) (u_formats u) (u_logged u) (u_tagged u) (u_dropouts u) (u_data u) (u_subs u) (u_filtered u) (u_missing u) (u_version u) (u_compat u) (u_incompat u) (u_offsets u) (u_has_sync u) (u_sync_cnt u).
(** assigning _default_parameters (117) of core.py; the other attributes stay *)
Definition set_defaults (v : dict Z (dict str value)) (u : ulog) : ulog :=
  mkU (u_corrupt u) (u_start u) (u_last u) (u_info u) (u_infot u) (u_multi u) (u_multit u) (u_params u) v (u_changed u) (u_formats u) (u_logged u) (u_tagged u) (u_dropouts u) (u_data u) (u_subs u) (u_filtered u) (u_missing u) (u_version u) (u_compat u) (u_incompat u) (u_offsets u) (u_has_sync u) (u_sync_cnt u).
(** assigning _changed_parameters (118) of core.py; the other attributes stay *)
Definition set_changed (v : list (Z * str * value)) (u : ulog) : ulog :=
  mkU (u_corrupt u) (u_start u) (u_last u) (u_info u) (u_infot u) (u_multi u) (u_multit u) (u_params u) (u_defaults u) v (u_formats u) (u_logged u) (u_tagged u) (u_dropouts u) (u_data u) (u_subs u) (u_filtered u) (u_missing u) (u_version u) (u_compat u) (u_incompat u) (u_offsets u) (u_has_sync u) (u_sync_cnt u).
(** assigning _message_formats (119) of core.py; the other attributes stay *)
Definition set_formats (v : dict str mformat) (u : ulog) : ulog :=
  mkU (u_corrupt u) (u_start u) (u_last u) (u_info u) (u_infot u) (u_multi u) (u_multit u) (u_params u) (u_defaults u) (u_changed u) v (u_logged u) (u_tagged u) (u_dropouts u) (u_data u) (u_subs u) (u_filtered u) (u_missing u) (u_version u) (u_compat u) (u_incompat u) (u_offsets u) (u_has_sync u) (u_sync_cnt u).
(** assigning _logged_messages (120) of core.py; the other attributes stay *)
Definition set_logged (v : list logmsg) (u : ulog) : ulog :=
  mkU (u_corrupt u) (u_start u) (u_last u) (u_info u) (u_infot u) (u_multi u) (u_multit u) (u_params u) (u_defaults u) (u_changed u) (u_formats u) v (u_tagged u) (u_dropouts u) (u_data u) (u_subs u) (u_filtered u) (u_missing u) (u_version u) (u_compat u) (u_incompat u) (u_offsets u) (u_has_sync u) (u_sync_cnt u).
(** assigning _logged_messages_tagged (121) of core.py; the other attributes stay *)
Definition set_tagged (v : dict Z (list tagmsg)) (u : ulog) : ulog :=
  mkU (u_corrupt u) (u_start u) (u_last u) (u_info u) (u_infot u) (u_multi u) (u_multit u) (u_params u) (u_defaults u) (u_changed u) (u_formats u) (u_logged u) v (u_dropouts u) (u_data u) (u_subs u) (u_filtered u) (u_missing u) (u_version u) (u_compat u) (u_incompat u) (u_offsets u) (u_has_sync u) (u_sync_cnt u).
(** assigning _dropouts (122) of core.py; the other attributes stay *)
Definition set_dropouts (v : list dropout) (u : ulog) : ulog :=
  mkU (u_corrupt u) (u_start u) (u_last u) (u_info u) (u_infot u) (u_multi u) (u_multit u) (u_params u) (u_defaults u) (u_changed u) (u_formats u) (u_logged u) (u_tagged u) v (u_data u) (u_subs u) (u_filtered u) (u_missing u) (u_version u) (u_compat u) (u_incompat u) (u_offsets u) (u_has_sync u) (u_sync_cnt u).
(** assigning _data_list (123) of core.py; the other attributes stay *)
Definition set_data (v : list dataset) (u : ulog) : ulog :=
  mkU (u_corrupt u) (u_start u) (u_last u) (u_info u) (u_infot u) (u_multi u) (u_multit u) (u_params u) (u_defaults u) (u_changed u) (u_formats u) (u_logged u) (u_tagged u) (u_dropouts u) v (u_subs u) (u_filtered u) (u_missing u) (u_version u) (u_compat u) (u_incompat u) (u_offsets u) (u_has_sync u) (u_sync_cnt u).
(** assigning _subscriptions (125) of core.py; the other attributes stay *)
Definition set_subs (v : dict Z subscr) (u : ulog) : ulog :=
  mkU (u_corrupt u) (u_start u) (u_last u) (u_info u) (u_infot u) (u_multi u) (u_multit u) (u_params u) (u_defaults u) (u_changed u) (u_formats u) (u_logged u) (u_tagged u) (u_dropouts u) (u_data u) v (u_filtered u) (u_missing u) (u_version u) (u_compat u) (u_incompat u) (u_offsets u) (u_has_sync u) (u_sync_cnt u).
(** assigning _filtered_message_ids (126) of core.py; the other attributes stay *)
Definition set_filtered (v : list Z) (u : ulog) : ulog :=
  mkU (u_corrupt u) (u_start u) (u_last u) (u_info u) (u_infot u) (u_multi u) (u_multit u) (u_params u) (u_defaults u) (u_changed u) (u_formats u) (u_logged u) (u_tagged u) (u_dropouts u) (u_data u) (u_subs u) v (u_missing u) (u_version u) (u_compat u) (u_incompat u) (u_offsets u) (u_has_sync u) (u_sync_cnt u).
(** assigning _missing_message_ids (127) of core.py; the other attributes stay *)
Definition set_missing (v : list Z) (u : ulog) : ulog :=
  mkU (u_corrupt u) (u_start u) (u_last u) (u_info u) (u_infot u) (u_multi u) (u_multit u) (u_params u) (u_defaults u) (u_changed u) (u_formats u) (u_logged u) (u_tagged u) (u_dropouts u) (u_data u) (u_subs u) (u_filtered u) v (u_version u) (u_compat u) (u_incompat u) (u_offsets u) (u_has_sync u) (u_sync_cnt u).
(** assigning _file_version (128) of core.py; the other attributes stay *)
Definition set_version (v : Z) (u : ulog) : ulog :=
  mkU (u_corrupt u) (u_start u) (u_last u) (u_info u) (u_infot u) (u_multi u) (u_multit u) (u_params u) (u_defaults u) (u_changed u) (u_formats u) (u_logged u) (u_tagged u) (u_dropouts u) (u_data u) (u_subs u) (u_filtered u) (u_missing u) v (u_compat u) (u_incompat u) (u_offsets u) (u_has_sync u) (u_sync_cnt u).
(** assigning _compat_flags (129) of core.py; the other attributes stay *)
Definition set_compat (v : list Z) (u : ulog) : ulog :=
  mkU (u_corrupt u) (u_start u) (u_last u) (u_info u) (u_infot u) (u_multi u) (u_multit u) (u_params u) (u_defaults u) (u_changed u) (u_formats u) (u_logged u) (u_tagged u) (u_dropouts u) (u_data u) (u_subs u) (u_filtered u) (u_missing u) (u_version u) v (u_incompat u) (u_offsets u) (u_has_sync u) (u_sync_cnt u).
(** assigning _incompat_flags (130) of core.py; the other attributes stay *)
Definition set_incompat (v : list Z) (u : ulog) : ulog :=
  mkU (u_corrupt u) (u_start u) (u_last u) (u_info u) (u_infot u) (u_multi u) (u_multit u) (u_params u) (u_defaults u) (u_changed u) (u_formats u) (u_logged u) (u_tagged u) (u_dropouts u) (u_data u) (u_subs u) (u_filtered u) (u_missing u) (u_version u) (u_compat u) v (u_offsets u) (u_has_sync u) (u_sync_cnt u).
(** assigning _appended_offsets (131) of core.py; the other attributes stay *)
Definition set_offsets (v : list Z) (u : ulog) : ulog :=
  mkU (u_corrupt u) (u_start u) (u_last u) (u_info u) (u_infot u) (u_multi u) (u_multit u) (u_params u) (u_defaults u) (u_changed u) (u_formats u) (u_logged u) (u_tagged u) (u_dropouts u) (u_data u) (u_subs u) (u_filtered u) (u_missing u) (u_version u) (u_compat u) (u_incompat u) v (u_has_sync u) (u_sync_cnt u).
(** assigning _has_sync (132) of core.py; the other attributes stay *)
Definition set_has_sync (v : bool) (u : ulog) : ulog :=
  mkU (u_corrupt u) (u_start u) (u_last u) (u_info u) (u_infot u) (u_multi u) (u_multit u) (u_params u) (u_defaults u) (u_changed u) (u_formats u) (u_logged u) (u_tagged u) (u_dropouts u) (u_data u) (u_subs u) (u_filtered u) (u_missing u) (u_version u) (u_compat u) (u_incompat u) (u_offsets u) v (u_sync_cnt u).
(** assigning _sync_seq_cnt (133) of core.py; the other attributes stay *)
Definition set_sync_cnt (v : Z) (u : ulog) : ulog :=
  mkU (u_corrupt u) (u_start u) (u_last u) (u_info u) (u_infot u) (u_multi u) (u_multit u) (u_params u) (u_defaults u) (u_changed u) (u_formats u) (u_logged u) (u_tagged u) (u_dropouts u) (u_data u) (u_subs u) (u_filtered u) (u_missing u) (u_version u) (u_compat u) (u_incompat u) (u_offsets u) (u_has_sync u) v.

(** The object before anything is read (core.py 106-133). *)
Definition ulog0 : ulog :=
  mkU false 0 0 [] [] [] [] [] [] [] [] [] [] [] [] [] [] [] 0
      [0;0;0;0;0;0;0;0] [0;0;0;0;0;0;0;0] [] true 0.
