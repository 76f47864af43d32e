(** What the bytes of a log stand for: integers, numbers of IEEE 754 and texts in UTF-8.
    Nothing here mentions the functions that read them. *)
From Verif Require Import Base Dict PyStr Struct ModelTypes ModelRead.

(** ** Integers: little-endian, two's complement *)
Definition weight (b : bytes) : Z :=
  fold_right Z.add 0 (map (fun i => nth i b 0 * 256 ^ Z.of_nat i) (seq 0 (length b))).
(** size in bits, and whether there are negative ones *)
Definition int_type (c : ctype) : option (Z * bool) :=
  match c with
  | I8 => Some (8, true) | I16 => Some (16, true) | I32 => Some (32, true) | I64 => Some (64, true)
  | U8 => Some (8, false) | U16 => Some (16, false) | U32 => Some (32, false) | U64 => Some (64, false)
  | _ => None
  end.
Definition integer (bits : Z) (signed : bool) (b : bytes) (z : Z) : Prop :=
  lenZ b * 8 = bits /\ (exists q, z = weight b + q * 2 ^ bits) /\
  if signed then - 2 ^ (bits - 1) <= z < 2 ^ (bits - 1) else 0 <= z < 2 ^ bits.

(** ** Numbers of IEEE 754 (3.4): sign, [we] bits of exponent, [wm] bits of fraction.  The magnitude of a finite
    number is in units of the smallest positive one.  A NaN has a quiet bit and a payload. *)
Inductive number :=
| Finite (negative : bool) (magnitude : Z)
| Infinite (negative : bool)
| NaN (negative quiet : bool) (payload : Z).
Definition ieee (we wm b : Z) : number :=
  let negative := 2 ^ (we + wm) <=? b in
  let e := (b / 2 ^ wm) mod 2 ^ we in
  let m := b mod 2 ^ wm in
  if e =? 2 ^ we - 1 then
    if m =? 0 then Infinite negative else NaN negative (2 ^ (wm - 1) <=? m) (m mod 2 ^ (wm - 1))
  else Finite negative (if e =? 0 then m else (2 ^ wm + m) * 2 ^ (e - 1)).
Definition binary32 : Z -> number := ieee 8 23.
Definition binary64 : Z -> number := ieee 11 52.
(** The units are 2^-149 and 2^-1074. *)
Definition unit_ratio : Z := 2 ^ 925.
(** A binary32 number as a binary64 number: the same, and NaNs become quiet. *)
Definition as_double (x : number) : number :=
  match x with
  | Finite s n => Finite s (n * unit_ratio)
  | Infinite s => Infinite s
  | NaN s _ p => NaN s true (p * 2 ^ 29)
  end.
(** The binary32 number that is nearest to the magnitude n in units of binary64; of two as near the even one. *)
Definition nearest (n : Z) (negative : bool) (r : Z) : Prop :=
  exists k, binary32 r = Finite negative k /\
    forall r' k', 0 <= r' < 2 ^ 32 -> binary32 r' = Finite negative k' ->
      Z.abs (k * unit_ratio - n) < Z.abs (k' * unit_ratio - n) \/
      (Z.abs (k * unit_ratio - n) = Z.abs (k' * unit_ratio - n) /\ (k = k' \/ Z.even r = true)).
(** Too large: as far from the largest binary32 number as from the power of two above it, or further. *)
Definition too_large (n : Z) : Prop := (2 ^ 25 - 1) * 2 ^ 252 * unit_ratio <= n.
(** The same for integers as binary64 numbers, n in units of binary64; one is 2^1074 units. *)
Definition nearest_double (n : Z) (negative : bool) (b : Z) : Prop :=
  exists k, binary64 b = Finite negative k /\
    forall b' k', 0 <= b' < 2 ^ 64 -> binary64 b' = Finite negative k' ->
      Z.abs (k - n) < Z.abs (k' - n) \/ (Z.abs (k - n) = Z.abs (k' - n) /\ (k = k' \/ Z.even b = true)).
Definition double_too_large (n : Z) : Prop := (2 ^ 54 - 1) * 2 ^ 2044 <= n.

(** ** Texts: the well-formed byte sequences of Unicode (Table 3-7) *)
Definition cont (x : Z) : Prop := 128 <= x <= 191.
Inductive char_bytes : Z -> bytes -> Prop :=
| cb_1 a : 0 <= a <= 127 -> char_bytes a [a]
| cb_2 a x : 194 <= a <= 223 -> cont x -> char_bytes ((a - 192) * 64 + (x - 128)) [a; x]
| cb_e0 x y : 160 <= x <= 191 -> cont y -> char_bytes ((x - 128) * 64 + (y - 128)) [224; x; y]
| cb_3 a x y : 225 <= a <= 239 -> a <> 237 -> cont x -> cont y -> char_bytes ((a - 224) * 4096 + (x - 128) * 64 + (y - 128)) [a; x; y]
| cb_ed x y : 128 <= x <= 159 -> cont y -> char_bytes (13 * 4096 + (x - 128) * 64 + (y - 128)) [237; x; y]
| cb_f0 x y z : 144 <= x <= 191 -> cont y -> cont z -> char_bytes ((x - 128) * 4096 + (y - 128) * 64 + (z - 128)) [240; x; y; z]
| cb_4 a x y z : 241 <= a <= 243 -> cont x -> cont y -> cont z ->
    char_bytes ((a - 240) * 262144 + (x - 128) * 4096 + (y - 128) * 64 + (z - 128)) [a; x; y; z]
| cb_f4 x y z : 128 <= x <= 143 -> cont y -> cont z -> char_bytes (4 * 262144 + (x - 128) * 4096 + (y - 128) * 64 + (z - 128)) [244; x; y; z].
(** a text and its bytes *)
Inductive spelled : bytes -> str -> Prop :=
| sp_nil : spelled [] []
| sp_char c p b s : char_bytes c p -> spelled b s -> spelled (p ++ b) (c :: s).
(** the start of a well-formed sequence *)
Definition opening (p : bytes) : Prop := p <> [] /\ exists c q, char_bytes c (p ++ q).
(** errors='ignore': where no well-formed sequence starts, the longest start of one is left out, or else one byte *)
Inductive lenient : bytes -> str -> Prop :=
| ln_nil : lenient [] []
| ln_char c p b s : char_bytes c p -> lenient b s -> lenient (p ++ b) (c :: s)
| ln_skip p b s : p <> [] -> (forall c q r, char_bytes c q -> p ++ b <> q ++ r) ->
    (opening p \/ lenZ p = 1) -> (forall x r, b = x :: r -> ~ opening (p ++ [x])) -> lenient b s -> lenient (p ++ b) s.
Definition text (ign : bool) (b : bytes) (s : str) : Prop := if ign then lenient b s else spelled b s.

(** ** Values of information messages and parameters *)
Inductive stands (ign : bool) : str -> bytes -> value -> Prop :=
| sd_text r b s : text ign b s -> stands ign (lit "char[" ++ r) b (VStr s)
| sd_int c bits signed b z : int_type c = Some (bits, signed) -> integer bits signed b z -> stands ign (ctype_name c) b (VInt z)
| sd_float b x : lenZ b = 4 -> 0 <= x < 2 ^ 64 -> binary64 x = as_double (binary32 (weight b)) -> stands ign (lit "float") b (VFloat x)
| sd_double b : lenZ b = 8 -> stands ign (lit "double") b (VFloat (weight b))
| sd_bool x : stands ign (lit "bool") [x] (VBool (negb (x =? 0)))
| sd_char x : stands ign (lit "char") [x] (VBytes [x])
| sd_bytes ty b : (forall c, ty <> ctype_name c) -> (forall r, ty <> lit "char[" ++ r) -> stands ign ty b (VBytes b).
(** An element of a dataset: bool and char are signed bytes. *)
Inductive stands_elem : ctype -> bytes -> value -> Prop :=
| se_int c bits signed b z : int_type c = Some (bits, signed) -> integer bits signed b z -> stands_elem c b (VInt z)
| se_byte c b z : (c = CBool \/ c = CChar) -> integer 8 true b z -> stands_elem c b (VInt z)
| se_float b x : lenZ b = 4 -> 0 <= x < 2 ^ 64 -> binary64 x = as_double (binary32 (weight b)) -> stands_elem F32 b (VFloat x)
| se_double b : lenZ b = 8 -> stands_elem F64 b (VFloat (weight b)).
(** An information message: a length byte, that many bytes of "type key" (fewer at the end of the message), the
    value; what follows a second space is ignored. *)
Definition info_says (ign : bool) (data : bytes) (m : infomsg) : Prop :=
  exists k rest t, data = k :: rest /\ text ign (firstn (Z.to_nat k) rest) (im_type m ++ 32 :: im_key m ++ t) /\
    ~ In 32 (im_type m) /\ ~ In 32 (im_key m) /\ (t = [] \/ exists r, t = 32 :: r) /\
    stands ign (im_type m) (skipn (Z.to_nat k) rest) (im_value m).
