(** JSON texts (RFC 8259), and the object that copies the values of a field. *)
From Verif Require Import Base PyStr PyFloat Struct ModelTypes.

(** A JSON value.  Numbers and strings are kept as their characters. *)
Inductive jtree :=
| JNull
| JBool (b : bool)
| JNum (t : str)
| JStr (s : str)
| JArr (l : list jtree)
| JObj (l : list (str * jtree)).

Definition digits (s : str) : Prop := Forall (fun c => 48 <= c <= 57) s.
(** RFC 8259, 6: number = [ minus ] int [ frac ] [ exp ] *)
Definition json_number (t : str) : Prop :=
  exists m i f e, t = m ++ i ++ f ++ e /\
    (m = [] \/ m = lit "-") /\
    (i = lit "0" \/ exists d r, i = d :: r /\ 49 <= d <= 57 /\ digits r) /\
    (f = [] \/ exists r, f = lit "." ++ r /\ r <> [] /\ digits r) /\
    (e = [] \/ exists c s r, e = [c] ++ s ++ r /\ (c = 101 \/ c = 69) /\ (s = [] \/ s = lit "+" \/ s = lit "-") /\ r <> [] /\ digits r).
(** 7: the characters between the quotes *)
Inductive json_chars : str -> Prop :=
| chars_nil : json_chars []
| chars_plain c s : 32 <= c <= 1114111 -> c <> 34 -> c <> 92 -> json_chars s -> json_chars (c :: s)
| chars_escape c s : In c (lit "bfnrt/\" ++ [34]) -> json_chars s -> json_chars (92 :: c :: s)
| chars_code a b c d s : Forall (fun x => 48 <= x <= 57 \/ 65 <= x <= 70 \/ 97 <= x <= 102) [a; b; c; d] -> json_chars s ->
    json_chars (92 :: 117 :: a :: b :: c :: d :: s).
(** 2: white space *)
Definition blank (w : str) : Prop := Forall (fun c => c = 32 \/ c = 9 \/ c = 10 \/ c = 13) w.
(** 3, 4, 5: values, objects, arrays *)
Inductive json : str -> jtree -> Prop :=
| json_null : json (lit "null") JNull
| json_true : json (lit "true") (JBool true)
| json_false : json (lit "false") (JBool false)
| json_num t : json_number t -> json t (JNum t)
| json_str s : json_chars s -> json (34 :: s ++ [34]) (JStr s)
| json_arr0 w : blank w -> json (91 :: w ++ [93]) (JArr [])
| json_arr t l : json_items t l -> json (91 :: t ++ [93]) (JArr l)
| json_obj0 w : blank w -> json (123 :: w ++ [125]) (JObj [])
| json_obj t l : json_members t l -> json (123 :: t ++ [125]) (JObj l)
with json_items : str -> list jtree -> Prop :=
| items_last w1 t w2 v : blank w1 -> json t v -> blank w2 -> json_items (w1 ++ t ++ w2) [v]
| items_more w1 t w2 v r l : blank w1 -> json t v -> blank w2 -> json_items r l -> json_items (w1 ++ t ++ w2 ++ 44 :: r) (v :: l)
with json_members : str -> list (str * jtree) -> Prop :=
| members_last w1 k w2 w3 t w4 v : blank w1 -> json_chars k -> blank w2 -> blank w3 -> json t v -> blank w4 ->
    json_members (w1 ++ 34 :: k ++ 34 :: w2 ++ 58 :: w3 ++ t ++ w4) [(k, v)]
| members_more w1 k w2 w3 t w4 v r l : blank w1 -> json_chars k -> blank w2 -> blank w3 -> json t v -> blank w4 ->
    json_members r l -> json_members (w1 ++ 34 :: k ++ 34 :: w2 ++ 58 :: w3 ++ t ++ w4 ++ 44 :: r) ((k, v) :: l).
(** a JSON text (2) *)
Definition json_document (t : str) (v : jtree) : Prop :=
  exists w1 x w2, t = w1 ++ x ++ w2 /\ blank w1 /\ blank w2 /\ json x v.

(** binary64: the infinities, and the numbers *)
Definition plus_infinity : Z := 9218868437227405312.
Definition minus_infinity : Z := 18442240474082181120.
Definition finite (b : Z) : Prop := f64_is_nan b = false /\ b <> plus_infinity /\ b <> minus_infinity.
(** What the copy has for a value. *)
Definition copied (frepr : Z -> str) (v : value) (j : jtree) : Prop :=
  match v with
  | VInt z => j = JNum (str_of_Z z)
  | VFloat b => (finite b -> j = JNum (frepr b)) /\ (~ finite b -> j = JNull)
  | _ => False
  end.
(** The times in the order in which they come first. *)
Fixpoint firsts (l : list Z) : list Z :=
  match l with [] => [] | x :: r => x :: filter (fun y => negb (y =? x)) (firsts r) end.
(** The last sample of time t has the value v. *)
Definition last_at (samples : list (Z * value)) (t : Z) (v : value) : Prop :=
  exists a b, samples = a ++ (t, v) :: b /\ ~ In t (map fst b).
(** repr() of the numbers of binary64 is a number of JSON. *)
Definition reprs (frepr : Z -> str) : Prop := forall b, finite b -> json_number (frepr b).
(** The samples of a field: integer times and values. *)
Definition samples_of (ts c : column) (samples : list (Z * value)) : Prop :=
  exists times, map (np_elem (c_type ts)) (c_raw ts) = map VInt times /\ samples = combine times (map (np_elem (c_type c)) (c_raw c)).
(** The times are a column of integers of its size, as numpy holds them. *)
Definition labels (ts : column) : Prop :=
  exists n sg, c_type ts = NI n sg /\ Forall (fun x => 0 <= x < 256 ^ Z.of_nat n) (c_raw ts).
(** A value that the copy tells: an integer or a number of binary64. *)
Definition told (v : value) : Prop := match v with VInt _ => True | VFloat b => finite b | _ => False end.
