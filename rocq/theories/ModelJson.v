(** The JSON copy of the values of a field that DatabaseULog.save(append_json=True) hands to SQLite's json().
    Simplifications: [frepr] is the text repr() of a float that is neither a NaN nor infinite, an arbitrary function of
    its binary64 bits; texts of timestamps hold no quotes, so that repr() puts them between single quotes. *)
From Verif Require Import Base Dict PyStr PyFloat Struct ModelTypes ModelTools.

(** repr of an element of tolist(): int or float (db.py 572) *)
Definition py_repr (frepr : Z -> str) (v : value) : str :=
  match v with
  | VInt z => str_of_Z z
  | VFloat b =>
    if f64_is_nan b then lit "nan"
    else if b =? 9218868437227405312 then lit "inf"
    else if b =? 18442240474082181120 then lit "-inf"
    else frepr b
  | _ => []
  end.
(** column.tolist() (db.py 570, 572) *)
Definition tolist (c : column) : list value := map (np_elem (c_type c)) (c_raw c).
(** dict(zip([str(s) for s in timestamps], values)) (db.py 570-572) *)
Definition values_dict (frepr : Z -> str) (ts c : column) : dict str value :=
  fold_left (fun a kv => sset (fst kv) (snd kv) a) (combine (map (py_repr frepr) (tolist ts)) (tolist c)) [].
(** one item of str(dict) (db.py 571) *)
Definition dict_item (frepr : Z -> str) (kv : str * value) : str :=
  39 :: fst kv ++ lit "': " ++ py_repr frepr (snd kv).
(** str(dict) (db.py 571) *)
Definition dict_str (frepr : Z -> str) (d : dict str value) : str :=
  123 :: join (lit ", ") (map (dict_item frepr) d) ++ [125].
(** str.replace(p, r) for a text p that is not empty: from the left, occurrences that do not overlap; [k] characters are
    still to be passed over (db.py 573) *)
Fixpoint replace_from (p r : str) (k : nat) (s : str) : str :=
  match s with
  | [] => []
  | c :: t =>
    match k with
    | S k' => replace_from p r k' t
    | O => if starts_with p s then r ++ replace_from p r (length p - 1) t else c :: replace_from p r O t
    end
  end.
(** str.replace(p, r) (db.py 573) *)
Definition py_replace (p r s : str) : str := replace_from p r O s.
(** values_json (db.py 571-573) *)
Definition values_json (frepr : Z -> str) (ts c : column) : str :=
  py_replace [39] [34] (py_replace (lit "inf") (lit "null") (py_replace (lit "nan") (lit "null")
    (dict_str frepr (values_dict frepr ts c)))).
