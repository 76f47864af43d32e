(** Model of PX4ULog.add_roll_pitch_yaw (px4.py 67-102).

    Simplification: columns hold exact real numbers instead of float32 values, so nothing is said about rounding. *)
From Coq Require Import Reals.
From Verif Require Import Base Dict PyStr.

(** a dataset as far as these functions use it: its name and its columns; px4.py 91-101.
    Simplification: the other attributes of a dataset are left out, these functions do not
    touch them. *)
Record table := mkTable { tb_name : str; tb_data : dict str (list R) }.

(** np.arctan2 on real numbers: the angle of the point (x, y), and 0 at the origin *)
Definition atan2 (y x : R) : R :=
  if Rlt_dec 0 x then atan (y / x)
  else if Rlt_dec x 0 then (if Rle_dec 0 y then atan (y / x) + PI else atan (y / x) - PI)
  else if Rlt_dec 0 y then PI / 2 else if Rlt_dec y 0 then - (PI / 2) else 0.

(** roll (94-95) *)
Definition roll_of (q0 q1 q2 q3 : R) : R := atan2 (2 * (q0 * q1 + q2 * q3)) (1 - 2 * (q1 * q1 + q2 * q2)).
(** pitch (96) *)
Definition pitch_of (q0 q1 q2 q3 : R) : R := asin (2 * (q0 * q2 - q3 * q1)).
(** yaw (97-98) *)
Definition yaw_of (q0 q1 q2 q3 : R) : R := atan2 (2 * (q0 * q3 + q1 * q2)) (1 - 2 * (q2 * q2 + q3 * q3)).

(** an operation on four numpy arrays, element by element.  Simplification: arrays of
    different lengths, where numpy raises ValueError, are cut to the shortest; the columns of
    a dataset have one length. px4.py 94-98. *)
Fixpoint map4 (f : R -> R -> R -> R -> R) (a b c d : list R) : list R :=
  match a, b, c, d with
  | w :: a', x :: b', y :: c', z :: d' => f w x y z :: map4 f a' b' c' d'
  | _, _, _, _ => []
  end.

(** message_data.data['q'+field_name_suffix+'['+str(i)+']'] (93) *)
Definition q_name (suffix : str) (i : Z) : str := lit "q" ++ suffix ++ lit "[" ++ str_of_Z i ++ lit "]".
(** message_data.data[...] (93): KeyError if there is no such column *)
Definition q_column (suffix : str) (data : dict str (list R)) (i : Z) : res (list R) :=
  match sget (q_name suffix i) data with Some c => Ok c | None => Err KeyError end.

(** one round of the loop of _add_roll_pitch_yaw_to_message (92-101) *)
Definition add_angles (suffix : str) (t : table) : res table :=
  let* a := q_column suffix (tb_data t) 0 in
  let* b := q_column suffix (tb_data t) 1 in
  let* c := q_column suffix (tb_data t) 2 in
  let* d := q_column suffix (tb_data t) 3 in
  Ok (mkTable (tb_name t)
    (sset (lit "yaw" ++ suffix) (map4 yaw_of a b c d)
      (sset (lit "pitch" ++ suffix) (map4 pitch_of a b c d)
        (sset (lit "roll" ++ suffix) (map4 roll_of a b c d) (tb_data t))))).
(** _add_roll_pitch_yaw_to_message (89-101): the datasets of that name, in order.  An exception ends the call; the datasets
    done before it keep their new columns, which the model does not show. *)
Definition add_to_message (l : list table) (name suffix : str) : res (list table) :=
  mapM (fun t => if str_eqb (tb_name t) name then add_angles suffix t else Ok t) l.

(** message.endswith(e) (81) *)
Definition ends_with (e s : str) : bool := starts_with (rev e) (rev s).
(** the message name and the suffix (81-85) *)
Definition split_suffix (m : str) : str * str :=
  if ends_with (lit ":_d") m then (firstn (length m - 3) m, lit "_d") else (m, []).
(** the default of the argument messages (76-79) *)
Definition default_messages : list str :=
  [lit "vehicle_attitude"; lit "vehicle_vision_attitude"; lit "vehicle_attitude_groundtruth"; lit "vehicle_attitude_setpoint:_d"].
(** add_roll_pitch_yaw (67-86); [None] is the default argument *)
Definition add_roll_pitch_yaw (messages : option (list str)) (l : list table) : res (list table) :=
  foldM (fun l m => add_to_message l (fst (split_suffix m)) (snd (split_suffix m)))
    (match messages with Some ms => ms | None => default_messages end) l.
