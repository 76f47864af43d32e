(** Quaternions, rotations and the angles of an attitude, independently of the model. *)
From Coq Require Import Reals.
From Coq Require Import String.
From Verif Require Import Base Dict.
Open Scope R_scope.

Definition vec : Type := R * R * R.
Definition quat : Type := R * R * R * R.
(** Hamilton's product *)
Definition qmul (p q : quat) : quat :=
  let '(a, b, c, d) := p in let '(e, f, g, h) := q in
  (a * e - b * f - c * g - d * h, a * f + b * e + c * h - d * g, a * g - b * h + c * e + d * f, a * h + b * g - c * f + d * e).
Definition conj (q : quat) : quat := let '(a, b, c, d) := q in (a, - b, - c, - d).
Definition unit_quat (q : quat) : Prop := let '(a, b, c, d) := q in a * a + b * b + c * c + d * d = 1.
(** the rotation of a unit quaternion: the vector part of q v q* *)
Definition rotate (q : quat) (v : vec) : vec :=
  let '(x, y, z) := v in let '(_, x', y', z') := qmul (qmul q (0, x, y, z)) (conj q) in (x', y', z').

(** turning about an axis *)
Definition rot_x (t : R) (v : vec) : vec := let '(x, y, z) := v in (x, cos t * y - sin t * z, sin t * y + cos t * z).
Definition rot_y (t : R) (v : vec) : vec := let '(x, y, z) := v in (cos t * x + sin t * z, y, - sin t * x + cos t * z).
Definition rot_z (t : R) (v : vec) : vec := let '(x, y, z) := v in (cos t * x - sin t * y, sin t * x + cos t * y, z).
(** first roll, then pitch, then yaw *)
Definition turn (roll pitch yaw : R) (v : vec) : vec := rot_z yaw (rot_y pitch (rot_x roll v)).
(** gimbal lock: the forward axis is vertical *)
Definition gimbal_lock (q : quat) : Prop := let '(x, y, _) := rotate q (1, 0, 0) in x = 0 /\ y = 0.

(** ** What is asked for: "name" is the topic's column q, "name:_d" its column q_d *)
Definition asks (ms : list str) (name suffix : str) : Prop :=
  (suffix = [] /\ In name ms /\ ~ exists n, name = n ++ lit ":_d") \/ (suffix = lit "_d" /\ In (name ++ lit ":_d") ms).
(** row i of the quaternion columns *)
Definition quat_col (suffix : str) (i : string) : str := lit "q" ++ suffix ++ lit "[" ++ lit i ++ lit "]".
Definition column (d : dict str (list R)) (k : str) : list R := match sget k d with Some c => c | None => [] end.
Definition quat_row (d : dict str (list R)) (suffix : str) (i : nat) : option quat :=
  match nth_error (column d (quat_col suffix "0")) i, nth_error (column d (quat_col suffix "1")) i,
        nth_error (column d (quat_col suffix "2")) i, nth_error (column d (quat_col suffix "3")) i with
  | Some a, Some b, Some c, Some e => Some (a, b, c, e)
  | _, _, _, _ => None
  end.
Definition has_quat (d : dict str (list R)) (suffix : str) : Prop :=
  forall i, In i ["0"; "1"; "2"; "3"]%string -> In (quat_col suffix i) (dkeys d).
