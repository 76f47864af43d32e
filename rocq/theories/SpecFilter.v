(** What loading with a list of topics means. *)
From Verif Require Import Base Dict PyStr Struct ModelTypes ModelRead Spec SpecSection.

(** the arguments with message_name_filter_list set; [keep] is membership in the list *)
Definition with_filter (keep : str -> bool) (cf : cfg) : cfg := mkCfg (cf_ign cf) keep (cf_hdr cf) (cf_depth cf) (cf_kind cf).

(** the subscriptions of a section *)
Definition adds (cf : cfg) (fmts : dict str mformat) (evs : list event) : list subscr := flat_map (of_type 65 (parse_add cf fmts)) evs.
(** a message id stands for one topic *)
Definition one_topic_per_id (l : list subscr) : Prop := forall a b, In a l -> In b l -> sb_id a = sb_id b -> sb_name a = sb_name b.
(** every sample that is stored has a timestamp (without one, the load ends at the sample) *)
Definition samples_timed (cf : cfg) (fmts : dict str mformat) (evs : list event) : Prop :=
  forall pre p post id s rows, evs = pre ++ EMsg 68 p :: post -> msg_id p = Some id ->
    subscription cf fmts pre id = Some (s, rows) -> fits s p = true -> exists t, stamp s p = Some t.
Definition clean_section (cf : cfg) (fmts : dict str mformat) (evs : list event) : Prop :=
  one_topic_per_id (adds cf fmts evs) /\ samples_timed cf fmts evs.

(** [v] is [u] with only these topics *)
Record only_topics (keep : str -> bool) (u v : ulog) : Prop := mkOnly {
  on_data : u_data v = filter (fun d => keep (ds_name d)) (u_data u);
  on_info : u_info v = u_info u /\ u_infot v = u_infot u;
  on_multi : u_multi v = u_multi u /\ u_multit v = u_multit u;
  on_params : u_params v = u_params u /\ u_defaults v = u_defaults u;
  on_changed : Forall2 (fun a b => snd a = snd b /\ snd (fst a) = snd (fst b) /\ fst (fst b) <= fst (fst a)) (u_changed u) (u_changed v);
  on_formats : u_formats v = u_formats u;
  on_logged : u_logged v = u_logged u /\ u_tagged v = u_tagged u;
  on_dropouts : Forall2 (fun a b => dr_dur a = dr_dur b /\ dr_ts b <= dr_ts a) (u_dropouts u) (u_dropouts v);
  on_head : u_version v = u_version u /\ u_start v = u_start u /\ u_compat v = u_compat u /\ u_incompat v = u_incompat u /\ u_offsets v = u_offsets u;
  on_sync : u_has_sync v = u_has_sync u /\ u_sync_cnt v = u_sync_cnt u;
  on_last : u_last v <= u_last u;
  on_corrupt : u_corrupt v = true -> u_corrupt u = true;
  on_missing : incl (u_missing v) (u_missing u) }.
