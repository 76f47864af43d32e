(** Comparing logs and database logs with == (core.py 497-508, db.py 182-190). *)
From Verif Require Import Base Dict PyStr ModelTypes ModelApi ModelDb.

(** A ULog, or a DatabaseULog with its handle.  A handle is a function made by get_db_handle (db.py 54-68), and
    functions are compared by identity: a number here. *)
Inductive pyobj := PLog (u : ulog) | PDb (handle : Z) (o : dbulog).
(** _pk == _pk (db.py 172, core.py 506): None or an int *)
Definition key_eqb (a b : option Z) : bool :=
  match a, b with None, None => true | Some x, Some y => x =? y | _, _ => false end.
(** ULog.__eq__ of two DatabaseULogs (core.py 505-508): all attributes, those of db.py 172-176 included *)
Definition db_attr_eqb (h1 h2 : Z) (a b : dbulog) : bool :=
  key_eqb (o_pk a) (o_pk b) && (h1 =? h2) && eqb (o_lazy a) (o_lazy b) && str_eqb (o_sha a) (o_sha b) &&
  ulog_eqb (o_log a) (o_log b).
(** DatabaseULog.__eq__ (db.py 182-190); for a ULog, other.__eq__(self) looks at the attributes of the ULog only *)
Definition db_eq (h : Z) (o : dbulog) (other : pyobj) : bool :=
  match other with PLog u => ulog_eqb u (o_log o) | PDb h' o' => db_attr_eqb h h' o o' end.
(** a == b in Python: if the class of b is a proper subclass of that of a, b's method is asked
    first; core.py 497-508 and db.py 182-190. *)
Definition py_eq (a b : pyobj) : bool :=
  match a, b with
  | PLog u, PLog v => ulog_eqb u v
  | PLog u, PDb h o => db_eq h o a
  | PDb h o, _ => db_eq h o b
  end.
