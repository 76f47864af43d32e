(** What it means for two logs to have the same contents.  Nothing here uses the comparison
    functions of the model. *)
From Coq Require Import Sorted.
From Verif Require Import Base Dict Utf8 PyStr PyFloat Struct ModelTypes.

(** The number a binary64 stands for: infinite, or finite and then 2^1074 times its value is
    the integer given.  NaN is no number. *)
Inductive number := Fin (scaled : Z) | Inf (negative : bool).
Definition number_of_float (b : Z) : option number :=
  let sg := if f64_sign b =? 0 then 1 else -1 in
  if f64_exp b =? 2047 then
    if f64_man b =? 0 then Some (Inf (negb (f64_sign b =? 0))) else None
  else if f64_exp b =? 0 then Some (Fin (sg * f64_man b))
  else Some (Fin (sg * ((f64_man b + 2 ^ 52) * 2 ^ (f64_exp b - 1)))).
Definition number_of (v : value) : option number :=
  match v with
  | VInt z => Some (Fin (z * 2 ^ 1074))
  | VBool b => Some (Fin ((if b then 1 else 0) * 2 ^ 1074))
  | VFloat b => number_of_float b
  | _ => None
  end.

(** Python values are the same: the same number, text or bytes. *)
Inductive same_value : value -> value -> Prop :=
| sv_num v w n : number_of v = Some n -> number_of w = Some n -> same_value v w
| sv_str s : same_value (VStr s) (VStr s)
| sv_bytes s : same_value (VBytes s) (VBytes s).

(** Dictionaries: the same keys with the same values, in whatever order. *)
Definition same_opt {A} (R : A -> A -> Prop) (a b : option A) : Prop :=
  match a, b with Some x, Some y => R x y | None, None => True | _, _ => False end.
Definition same_dict {K V} (keqb : K -> K -> bool) (R : V -> V -> Prop) (d e : dict K V) : Prop :=
  forall k, same_opt R (dget keqb k d) (dget keqb k e).
Definition same_set (a b : list Z) : Prop := forall x, In x a <-> In x b.

(** Samples: numpy elements, NaN being the same as NaN. *)
Definition same_elem (t : nptype) (x y : Z) : Prop :=
  match np_elem t x, np_elem t y with
  | VFloat a, VFloat b => number_of_float a = number_of_float b
  | _, _ => x = y
  end.
Record same_column (a b : column) : Prop := {
  sc_type : c_type a = c_type b;
  sc_elems : Forall2 (same_elem (c_type a)) (c_raw a) (c_raw b) }.
Record same_dataset (a b : dataset) : Prop := {
  sd_multi : ds_multi a = ds_multi b;
  sd_id : ds_id a = ds_id b;
  sd_name : ds_name a = ds_name b;
  sd_fields : ds_fields a = ds_fields b;
  sd_tsidx : ds_tsidx a = ds_tsidx b;
  sd_names : forall k, In k (dkeys (ds_data a)) <-> In k (dkeys (ds_data b));
  sd_columns : Forall2 same_column (map snd (ds_data a)) (map snd (ds_data b)) }.

(** Two logs have the same contents. *)
Record same_log (a b : ulog) : Prop := {
  sl_corrupt : u_corrupt a = u_corrupt b;
  sl_start : u_start a = u_start b;
  sl_last : u_last a = u_last b;
  sl_info : same_dict str_eqb same_value (u_info a) (u_info b);
  sl_infot : same_dict str_eqb eq (u_infot a) (u_infot b);
  sl_multi : same_dict str_eqb (Forall2 (Forall2 same_value)) (u_multi a) (u_multi b);
  sl_multit : same_dict str_eqb eq (u_multit a) (u_multit b);
  sl_params : same_dict str_eqb same_value (u_params a) (u_params b);
  sl_defaults : same_dict Z.eqb (same_dict str_eqb same_value) (u_defaults a) (u_defaults b);
  sl_changed : Forall2 (fun x y => fst x = fst y /\ same_value (snd x) (snd y)) (u_changed a) (u_changed b);
  sl_formats : same_dict str_eqb eq (u_formats a) (u_formats b);
  sl_logged : u_logged a = u_logged b;
  sl_tagged : same_dict Z.eqb eq (u_tagged a) (u_tagged b);
  sl_dropouts : u_dropouts a = u_dropouts b;
  sl_data : Forall2 same_dataset (u_data a) (u_data b);
  sl_filtered : same_set (u_filtered a) (u_filtered b);
  sl_missing : same_set (u_missing a) (u_missing b);
  sl_version : u_version a = u_version b;
  sl_compat : u_compat a = u_compat b;
  sl_incompat : u_incompat a = u_incompat b;
  sl_offsets : u_offsets a = u_offsets b;
  sl_has_sync : u_has_sync a = u_has_sync b;
  sl_sync_cnt : u_sync_cnt a = u_sync_cnt b }.

(** numpy equality of two elements of a column (NaN equals nothing) and equality with 0. *)
Definition np_equal (t : nptype) (x y : Z) : Prop :=
  match np_elem t x, np_elem t y with
  | VFloat a, VFloat b => exists n, number_of_float a = Some n /\ number_of_float b = Some n
  | _, _ => x = y
  end.
Definition np_is_zero (t : nptype) (x : Z) : Prop :=
  match np_elem t x with VFloat a => number_of_float a = Some (Fin 0) | _ => x = 0 end.
(** The change list of a series of (timestamp, value) pairs: the pairs at the positions [idx],
    which are position 0 and those whose value differs from the one before. *)
Definition changes_at (t : nptype) (l : list (Z * Z)) (i : nat) : Prop :=
  exists q, nth_error l i = Some q /\
    (i = O \/ exists j p, i = S j /\ nth_error l j = Some p /\ ~ np_equal t (snd p) (snd q)).
Definition change_list (t : nptype) (l out : list (Z * Z)) : Prop :=
  exists idx, StronglySorted lt idx /\ (forall i, In i idx <-> changes_at t l i) /\
    Forall2 (fun i q => nth_error l i = Some q) idx out.

(** A log has no NaN among its info values and parameters. *)
Definition not_nan (v : value) : Prop := match v with VFloat b => f64_is_nan b = false | _ => True end.
Record no_nan (u : ulog) : Prop := {
  nn_info : Forall (fun kv => not_nan (snd kv)) (u_info u);
  nn_multi : Forall (fun kv => Forall (Forall not_nan) (snd kv)) (u_multi u);
  nn_params : Forall (fun kv => not_nan (snd kv)) (u_params u);
  nn_defaults : Forall (fun kv => Forall (fun kv => not_nan (snd kv)) (snd kv)) (u_defaults u);
  nn_changed : Forall (fun c => not_nan (snd c)) (u_changed u) }.
