(** The texts and numbers of a log that was read from a file, and when such a log can be stored. *)
From Verif Require Import Base Dict PyStr PyFloat Struct ModelTypes SpecDb.

(** a text of Unicode code points without surrogates: exactly what UTF-8 can encode *)
Definition encodable (s : str) : Prop := Forall (fun c => 0 <= c <= 1114111 /\ ~ (55296 <= c <= 57343)) s.
Definition encodable_value (v : value) : Prop := match v with VStr s => encodable s | _ => True end.
Record encodable_log (u : ulog) : Prop := {
  en_data : Forall (fun ds => encodable (ds_name ds) /\ Forall (fun f => encodable (fd_name f)) (ds_fields ds)) (u_data u);
  en_logged : Forall (fun m => encodable (lg_msg m)) (u_logged u);
  en_tagged : Forall (fun tl => Forall (fun m => encodable (tg_msg m)) (snd tl)) (u_tagged u);
  en_formats : Forall (fun nm => encodable (fst nm) /\ Forall (fun f => encodable (fst (fst f)) /\ encodable (snd f)) (mf_fields (snd nm))) (u_formats u);
  en_info : Forall (fun kv => encodable (fst kv) /\ encodable_value (snd kv)) (u_info u);
  en_infot : Forall (fun kt => encodable (fst kt) /\ encodable (snd kt)) (u_infot u);
  en_multi : Forall (fun kl => encodable (fst kl) /\ Forall (Forall encodable_value) (snd kl)) (u_multi u);
  en_multit : Forall (fun kt => encodable (fst kt) /\ encodable (snd kt)) (u_multit u);
  en_params : Forall (fun kv => encodable (fst kv) /\ encodable_value (snd kv)) (u_params u);
  en_defaults : Forall (fun td => Forall (fun kv => encodable (fst kv) /\ encodable_value (snd kv)) (snd td)) (u_defaults u);
  en_changed : Forall (fun c => encodable (snd (fst c)) /\ encodable_value (snd c)) (u_changed u) }.

(** an unsigned 64-bit number is the only kind of number in a ULog file that is too large for SQLite *)
Definition below63 (z : Z) : Prop := z < 2 ^ 63.
Definition value_below63 (v : value) : Prop := match v with VInt z => below63 z | _ => True end.
(** What decides whether a loaded log can be stored *)
Record in_range (u : ulog) : Prop := {
  (* the latest timestamp of the samples, the offsets of appended data, the times of the text messages *)
  ir_last : below63 (u_last u);
  ir_offsets : Forall below63 (u_offsets u);
  ir_logged : Forall (fun m => below63 (lg_ts m)) (u_logged u);
  ir_tagged : Forall (fun tl => Forall (fun m => below63 (tg_ts m)) (snd tl)) (u_tagged u);
  (* the values *)
  ir_info : Forall (fun kv => value_below63 (snd kv)) (u_info u);
  ir_multi : Forall (fun kl => Forall (Forall value_below63) (snd kl)) (u_multi u);
  ir_params : Forall (fun kv => value_below63 (snd kv)) (u_params u);
  ir_defaults : Forall (fun td => Forall (fun kv => value_below63 (snd kv)) (snd td)) (u_defaults u);
  ir_changed : Forall (fun c => value_below63 (snd c)) (u_changed u);
  (* the sizes that formats announce, which are texts in the file *)
  ir_formats : Forall (fun nm => Forall (fun f => int64 (snd (fst f))) (mf_fields (snd nm))) (u_formats u);
  (* every field of a topic has a name, and no two datasets have the same name and instance *)
  ir_named : Forall (fun ds => Forall (fun f => fd_name f <> []) (ds_fields ds)) (u_data u);
  ir_once : NoDup (map (fun ds => (ds_name ds, ds_multi ds)) (u_data u));
  (* nothing is there 2^63 times *)
  ir_syncs : below63 (u_sync_cnt u);
  ir_fields : Forall (fun ds => ds_tsidx ds < 2 ^ 63) (u_data u);
  ir_lists : Forall (fun kl => lenZ (snd kl) <= 2 ^ 63 /\ Forall (fun l => lenZ l <= 2 ^ 63) (snd kl)) (u_multi u) }.
