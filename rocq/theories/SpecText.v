(** The texts in the messages of a log: numbers, formats and keys, as grammars. *)
From Verif Require Import Base Dict PyStr Utf8 Struct ModelTypes ModelRead SpecTools.

(** ** Decimal numbers as int() reads them (ASCII) *)
Definition digit (c : Z) : Prop := 48 <= c <= 57.
Definition blank (s : str) : Prop := Forall (fun c => 9 <= c <= 13 \/ c = 32) s.
(** digits, with single underscores between them *)
Inductive digits : str -> Z -> Prop :=
| dg_one c : digit c -> digits [c] (c - 48)
| dg_more s v c : digits s v -> digit c -> digits (s ++ [c]) (v * 10 + (c - 48))
| dg_under s v c : digits s v -> digit c -> digits (s ++ [95; c]) (v * 10 + (c - 48)).
Inductive decimal : str -> Z -> Prop :=
| dc_plain a b s v : blank a -> blank b -> digits s v -> decimal (a ++ s ++ b) v
| dc_plus a b s v : blank a -> blank b -> digits s v -> decimal (a ++ 43 :: s ++ b) v
| dc_minus a b s v : blank a -> blank b -> digits s v -> decimal (a ++ 45 :: s ++ b) (- v).

(** ** Fields: "type name" or "type[size] name"; what follows a second space is ignored *)
Definition ignored (c : Z) (t : str) : Prop := t = [] \/ exists r, t = c :: r.
Inductive field_def : str -> str * Z * str -> Prop :=
| fd_plain ty name t : ~ In 32 ty -> ~ In 91 ty -> ~ In 32 name -> ignored 32 t -> field_def (ty ++ 32 :: name ++ t) (ty, 0, name)
| fd_array ty size n junk name t : ~ In 91 ty -> ~ In 93 (ty ++ size) -> ~ In 32 (ty ++ size ++ junk) -> decimal size n -> ~ In 32 name -> ignored 32 t ->
    field_def (ty ++ 91 :: size ++ 93 :: junk ++ 32 :: name ++ t) (ty, n, name)
(** without the closing bracket the last character is taken to be it *)
| fd_open ty size n c name t : ~ In 91 ty -> ~ In 93 (ty ++ size ++ [c]) -> ~ In 32 (ty ++ size ++ [c]) -> decimal size n -> ~ In 32 name -> ignored 32 t ->
    field_def (ty ++ 91 :: size ++ c :: 32 :: name ++ t) (ty, n, name).
(** ** Formats: "name:field;field;...;"; what follows a second colon is ignored, and so are empty fields *)
Definition format_def (s : str) (f : mformat) : Prop :=
  exists parts t, s = mf_name f ++ 58 :: separated [59] parts ++ t /\ ignored 58 t /\ parts <> [] /\
    ~ In 58 (mf_name f) /\ Forall (fun p => ~ In 58 p /\ ~ In 59 p) parts /\
    Forall2 field_def (filter (fun p => negb (Nat.eqb (length p) 0)) parts) (mf_fields f).

(** ** Info messages: a length byte, that many bytes of "type key" (fewer at the end of the message), the value *)
Definition info_value (ign : bool) (ty : str) (b : bytes) (v : value) : Prop :=
  (exists r s, ty = lit "char[" ++ r /\ utf8_decode ign b = Ok s /\ v = VStr s) \/
  (exists c, (forall r, ty <> lit "char[" ++ r) /\ ctype_of ty = Some c /\ unpack_val c b = Ok v) \/
  ((forall r, ty <> lit "char[" ++ r) /\ ctype_of ty = None /\ v = VBytes b).
Definition info_def (ign : bool) (data : bytes) (m : infomsg) : Prop :=
  exists k rest text t, data = k :: rest /\ utf8_decode ign (firstn (Z.to_nat k) rest) = Ok text /\
    text = im_type m ++ 32 :: im_key m ++ t /\ ~ In 32 (im_type m) /\ ~ In 32 (im_key m) /\ ignored 32 t /\
    info_value ign (im_type m) (skipn (Z.to_nat k) rest) (im_value m).
