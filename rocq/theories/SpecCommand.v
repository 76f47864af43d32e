(** The files of the command-line programs: names and what may change. *)
From Verif Require Import Base Dict PyStr Struct ModelTypes ModelTools SpecTools ModelCommand.

(** the content of a file *)
Definition file_of (k : disk) (name : str) : option content := sget name (k_files k).

(** ** Names *)
(** .ulg in upper or lower case *)
Definition ulg_suffix (x : str) : Prop := exists u l g, x = [46; u; l; g] /\ (u = 117 \/ u = 85) /\ (l = 108 \/ l = 76) /\ (g = 103 \/ g = 71).
(** the name of a log without that suffix *)
Definition stem (file s : str) : Prop :=
  (exists x, ulg_suffix x /\ file = s ++ x) \/ ((forall t x, ulg_suffix x -> file <> t ++ x) /\ s = file).
(** the last component of a path *)
Definition last_part (path base : str) : Prop :=
  ~ In 47 base /\ (path = base \/ exists dir, path = dir ++ [47] ++ base).
(** the path of [base] in a directory *)
Definition within (dir base path : str) : Prop :=
  ((exists d, dir = d ++ [47]) /\ path = dir ++ base) \/
  ((forall d, dir <> d ++ [47]) /\ path = dir ++ [47] ++ base).
(** where the CSV files of a log go: beside it, or under its name in the output directory *)
Definition csv_place (file : str) (output : option str) (p : str) : Prop :=
  exists s, stem file s /\
  match output with
  | None | Some [] => p = s
  | Some o => exists b, last_part s b /\ within o b p
  end.
(** where a GPS dump goes: in the current or the output directory *)
Definition gps_place (file : str) (output : option str) (p : str) : Prop :=
  exists b s, last_part file b /\ stem b s /\
  match output with
  | None => p = s
  | Some o => within o s p
  end.
(** a name with every / as _ *)
Definition flat_name (s t : str) : Prop := Forall2 (fun a b => (a = 47 /\ b = 95) \/ (a <> 47 /\ b = a)) s t.
(** the CSV file of a dataset *)
Definition csv_file_of (p : str) (d : dataset) (name : str) : Prop :=
  exists t, flat_name (ds_name d) t /\ name = p ++ lit "_" ++ t ++ lit "_" ++ str_of_Z (ds_multi d) ++ lit ".csv".

(** ** Options *)
(** the topics that -m asks for *)
Definition asked (m : option str) (topic : str) : Prop :=
  match m with
  | None | Some [] => True
  | Some s => exists names, s = separated [44] names /\ Forall (fun n => ~ In 44 n) names /\ In topic names
  end.
