(** Property C62: what a write_ulog that fails has written. *)
From Verif Require Import Base Dict Struct ModelTypes Spec SpecWrite.

(** the first entries of the groups of an info-multiple dictionary, in order *)
Definition groups_first (a l : list (list value)) : Prop :=
  (exists b, l = a ++ b) \/ (exists c g h b, a = c ++ [g] /\ l = c ++ (g ++ h) :: b).
Definition multi_first (a l : dict str (list (list value))) : Prop :=
  (exists b, l = a ++ b) \/
  (exists c k gs gs' b, a = c ++ [(k, gs)] /\ l = c ++ (k, gs') :: b /\ groups_first gs gs').
(** the first default values *)
Definition defaults_first (a l : dict Z (dict str value)) : Prop :=
  (exists b, l = a ++ b) \/
  (exists c t d d' b, a = c ++ [(t, d)] /\ l = c ++ (t, d ++ d') :: b).

(** The definitions and topics of [u] that come first in a file: formats, infos, info-multiples,
    parameters, defaults, topics by message id, of which none begins before the last is complete. *)
Inductive first_parts (u : ulog) : dict str mformat -> dict str value -> dict str (list (list value)) ->
    dict str value -> dict Z (dict str value) -> list dataset -> Prop :=
| fp_formats a b : u_formats u = a ++ b -> first_parts u a [] [] [] [] []
| fp_info a b : u_info u = a ++ b -> first_parts u (u_formats u) a [] [] [] []
| fp_multi a : multi_first a (u_multi u) -> first_parts u (u_formats u) (u_info u) a [] [] []
| fp_params a b : u_params u = a ++ b -> first_parts u (u_formats u) (u_info u) (u_multi u) a [] []
| fp_defaults a : defaults_first a (u_defaults u) ->
    first_parts u (u_formats u) (u_info u) (u_multi u) (u_params u) a []
| fp_topics a b : sorted_from ds_id (u_data u) (a ++ b) ->
    first_parts u (u_formats u) (u_info u) (u_multi u) (u_params u) (u_defaults u) a.

(** the same topic without samples *)
Definition unsampled (ds d : dataset) : Prop :=
  ds_multi d = ds_multi ds /\ ds_id d = ds_id ds /\ ds_name d = ds_name ds /\
  exists fd r c, ds_fields d = fd :: r /\ sget (fd_name fd) (ds_data d) = Some c /\ c_raw c = [].

(** [w] holds the first definitions and topics of [u] and nothing else. *)
Record begins (u w : ulog) : Prop := mkBegins {
  bg_head : u_version w = u_version u /\ u_start w = u_start u /\ u_compat w = u_compat u /\ u_incompat w = u_incompat u;
  bg_parts : exists topics, Forall2 unsampled topics (u_data w) /\
    first_parts u (u_formats w) (u_info w) (u_multi w) (u_params w) (u_defaults w) topics;
  bg_types : (forall k, In k (dkeys (u_info w)) -> sget k (u_infot w) = sget k (u_infot u)) /\
             (forall k, In k (dkeys (u_multi w)) -> sget k (u_multit w) = sget k (u_multit u));
  bg_rest : u_logged w = [] /\ u_tagged w = [] /\ u_dropouts w = [] /\ u_changed w = [] }.
