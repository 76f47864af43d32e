(** Which logs save() accepts, in terms of the attributes of the log. *)
From Verif Require Import Base Dict PyStr PyFloat Struct ModelTypes SpecDb.

(** SQLite has integers of 64 bits and texts that can be encoded; floats, bools and bytes are all accepted *)
Definition storable_value (v : value) : Prop := match v with VInt z => int64 z | VStr s => no_surrogate s | _ => True end.
(** a dataset whose fields all have a column *)
Definition storable_dataset (ds : dataset) : Prop :=
  no_surrogate (ds_name ds) /\ int64 (ds_multi ds) /\ int64 (ds_id ds) /\ int64 (ds_tsidx ds) /\
  Forall (fun f => no_surrogate (fd_name f) /\ exists c, sget (fd_name f) (ds_data ds) = Some c) (ds_fields ds).
(** the key has a type *)
Definition typed (types : dict str str) (key : str) : Prop := exists ty, sget key types = Some ty /\ no_surrogate ty.
Record storable (u : ulog) : Prop := {
  st_head : int64 (u_version u) /\ int64 (u_start u) /\ int64 (u_last u) /\ int64 (u_sync_cnt u) /\
    no_surrogate (u_compat u) /\ no_surrogate (u_incompat u);
  st_offsets : lenZ (u_offsets u) <= 2 ^ 63 /\ Forall int64 (u_offsets u);
  st_data : Forall storable_dataset (u_data u);
  (* no two datasets of the same name and instance *)
  st_once : NoDup (map (fun ds => (ds_name ds, ds_multi ds)) (u_data u));
  st_dropouts : Forall (fun x => int64 (dr_ts x) /\ int64 (dr_dur x)) (u_dropouts u);
  st_logged : Forall (fun m => int64 (lg_level m) /\ int64 (lg_ts m) /\ no_surrogate (lg_msg m)) (u_logged u);
  st_tagged : Forall (fun tl => Forall (fun m => int64 (fst tl) /\ int64 (tg_level m) /\ int64 (tg_ts m) /\ no_surrogate (tg_msg m)) (snd tl)) (u_tagged u);
  st_formats : Forall (fun nm => no_surrogate (fst nm) /\
    Forall (fun f => no_surrogate (fst (fst f)) /\ int64 (snd (fst f)) /\ no_surrogate (snd f)) (mf_fields (snd nm))) (u_formats u);
  st_info : Forall (fun kv => no_surrogate (fst kv) /\ storable_value (snd kv) /\ typed (u_infot u) (fst kv)) (u_info u);
  st_multi : Forall (fun kl => no_surrogate (fst kl) /\ typed (u_multit u) (fst kl) /\ lenZ (snd kl) <= 2 ^ 63 /\
    Forall (fun l => lenZ l <= 2 ^ 63 /\ Forall storable_value l) (snd kl)) (u_multi u);
  st_params : Forall (fun kv => no_surrogate (fst kv) /\ storable_value (snd kv)) (u_params u);
  st_defaults : Forall (fun td => Forall (fun kv => int64 (fst td) /\ no_surrogate (fst kv) /\ storable_value (snd kv)) (snd td)) (u_defaults u);
  st_changed : Forall (fun c => int64 (fst (fst c)) /\ no_surrogate (snd (fst c)) /\ storable_value (snd c)) (u_changed u) }.
