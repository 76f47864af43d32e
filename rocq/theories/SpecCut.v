(** Property C61: parts of a log. *)
From Verif Require Import Base Dict Utf8 PyStr PyFloat Struct ModelTypes ModelRead Spec SpecMsg SpecLog SpecWrite.

(** the message ids that are subscribed *)
Definition add_of (m : msg) : list Z := match m with MAdd _ id _ => [id] | _ => [] end.
(** messages that a definition section holds, too *)
Definition defines (m : msg) : bool := match m with MInfo _ _ _ | MMulti _ _ _ _ | MDefault _ _ _ _ => true | _ => false end.
Definition tags (g : Z) (u : ulog) : list tagmsg := match zget g (u_tagged u) with Some l => l | None => [] end.
(** [d] holds the first samples of [d'] *)
Definition first_samples (d d' : dataset) : Prop :=
  ds_id d = ds_id d' /\ ds_multi d = ds_multi d' /\ ds_name d = ds_name d' /\ ds_fields d = ds_fields d' /\
  forall fd, In fd (ds_fields d) -> exists a b, sget (fd_name fd) (ds_data d) = Some a /\ sget (fd_name fd) (ds_data d') = Some b /\
    c_type a = c_type b /\ prefix (c_raw a) (c_raw b).
(** [w] is an initial part of [u]: what is in [w] comes first in [u], nothing is different. *)
Record part_of (w u : ulog) : Prop := mkPart {
  po_header : u_version w = u_version u /\ u_start w = u_start u /\ u_last w <= u_last u;
  po_formats : u_formats w = u_formats u;
  po_params : u_params w = u_params u;
  po_flags : u_compat w = u_compat u /\ u_incompat w = u_incompat u;
  po_info : incl (dkeys (u_info w)) (dkeys (u_info u));
  po_logged : prefix (u_logged w) (u_logged u);
  po_tagged : forall g, prefix (tags g w) (tags g u);
  po_dropouts : prefix (u_dropouts w) (u_dropouts u);
  po_changed : prefix (u_changed w) (u_changed u);
  po_data : forall d, In d (u_data w) -> exists d', In d' (u_data u) /\ first_samples d d' }.
(** the definitions are complete *)
Record all_definitions (w u : ulog) : Prop := mkAllDefs {
  ad_info : u_info w = u_info u /\ u_infot w = u_infot u;
  ad_multi : u_multi w = u_multi u /\ u_multit w = u_multit u;
  ad_defaults : u_defaults w = u_defaults u }.
