(** The messages of the ULog format: their bytes and what they mean.  This file does not
    mention the reader's parsing functions. *)
From Verif Require Import Base Dict Utf8 PyStr PyFloat Struct ModelTypes ModelRead Spec.

(** text as UTF-8 bytes; [str_ok]: all characters are Unicode scalar values *)
Definition utf8 (s : str) : bytes := match utf8_encode s with Ok b => b | Err _ => [] end.

(** [typed ty raw v]: the bytes [raw] stand for the value [v] when the type is called [ty] *)
Inductive typed : str -> bytes -> value -> Prop :=
| ty_text rest s : str_ok s -> typed (lit "char[" ++ rest) (utf8 s) (VStr s)
| ty_unsigned c z : In c [U8; U16; U32; U64] -> 0 <= z < 256 ^ Z.of_nat (ctype_size c) ->
    typed (ctype_name c) (le_enc (ctype_size c) z) (VInt z)
| ty_signed c z : In c [I8; I16; I32; I64] ->
    - (256 ^ Z.of_nat (ctype_size c) / 2) <= z < 256 ^ Z.of_nat (ctype_size c) / 2 ->
    typed (ctype_name c) (le_enc (ctype_size c) (z mod 256 ^ Z.of_nat (ctype_size c))) (VInt z)
| ty_float b : 0 <= b < 4294967296 -> typed (lit "float") (le_enc 4 b) (VFloat (widen b))
| ty_double b : 0 <= b < 18446744073709551616 -> typed (lit "double") (le_enc 8 b) (VFloat b)
| ty_bool b : byte_ok b -> typed (lit "bool") [b] (VBool (negb (b =? 0)))
| ty_char b : typed (lit "char") [b] (VBytes [b])
| ty_other ty raw : (forall c, ty <> ctype_name c) -> (forall r, ty <> lit "char[" ++ r) ->
    typed ty raw (VBytes raw).

(** The messages.  [MInfo ty key raw] is an info message with the value bytes [raw]. *)
Inductive msg :=
| MInfo (ty key : str) (raw : bytes)
| MMulti (continued : Z) (ty key : str) (raw : bytes)
| MParam (ty key : str) (raw : bytes)
| MDefault (bits : Z) (ty key : str) (raw : bytes)
| MFormat (name : str) (fields : list (str * Z * str))  (* type, array size or 0, name *)
| MFlags (compat incompat : bytes) (o1 o2 o3 : Z)
| MAdd (multi id : Z) (name : str)
| MData (id : Z) (record : bytes)
| MLog (level ts : Z) (text : str)
| MTag (level tag ts : Z) (text : str)
| MDrop (duration : Z)
| MSync (raw : bytes).

Definition kv_bytes (ty key : str) (raw : bytes) : bytes :=
  let k := utf8 (ty ++ [32] ++ key) in [lenZ k] ++ k ++ raw.
Definition field_text (f : str * Z * str) : str :=
  let '(ty, n, name) := f in
  ty ++ (if 0 <? n then [91] ++ str_of_Z n ++ [93] else []) ++ [32] ++ name ++ [59].
Definition format_text (name : str) (fields : list (str * Z * str)) : str :=
  name ++ [58] ++ concat (map field_text fields).

(** type byte and payload *)
Definition wire (m : msg) : Z * bytes :=
  match m with
  | MInfo ty key raw => (73, kv_bytes ty key raw)
  | MMulti c ty key raw => (77, [c] ++ kv_bytes ty key raw)
  | MParam ty key raw => (80, kv_bytes ty key raw)
  | MDefault b ty key raw => (81, [b] ++ kv_bytes ty key raw)
  | MFormat name fields => (70, utf8 (format_text name fields))
  | MFlags c i o1 o2 o3 => (66, c ++ i ++ le_enc 8 o1 ++ le_enc 8 o2 ++ le_enc 8 o3)
  | MAdd multi id name => (65, [multi] ++ le_enc 2 id ++ utf8 name)
  | MData id r => (68, le_enc 2 id ++ r)
  | MLog l t s => (76, [l] ++ le_enc 8 t ++ utf8 s)
  | MTag l g t s => (67, [l] ++ le_enc 2 g ++ le_enc 8 t ++ utf8 s)
  | MDrop d => (79, le_enc 2 d)
  | MSync raw => (83, raw)
  end.

(** ** Well-formed messages *)
Definition u8 (z : Z) := 0 <= z < 256.
Definition u16 (z : Z) := 0 <= z < 65536.
Definition u64 (z : Z) := 0 <= z < 18446744073709551616.
(** text without the given separators *)
Definition word (seps : list Z) (s : str) : Prop := str_ok s /\ Forall (fun c => ~ In c seps) s.
Definition kv_ok (ty key : str) (raw : bytes) : Prop :=
  word [32] ty /\ word [32] key /\ lenZ (utf8 (ty ++ [32] ++ key)) < 256 /\ bytes_ok raw /\
  (exists v, typed ty raw v).
Definition field_ok (f : str * Z * str) : Prop :=
  let '(ty, n, name) := f in
  word [32; 58; 59; 91; 93] ty /\ 0 <= n /\ word [32; 58; 59] name.
Definition msg_ok (m : msg) : Prop :=
  match m with
  | MInfo ty key raw | MParam ty key raw => kv_ok ty key raw
  | MMulti c ty key raw => u8 c /\ kv_ok ty key raw
  | MDefault b ty key raw => u8 b /\ kv_ok ty key raw
  | MFormat name fields => word [58] name /\ Forall field_ok fields
  | MFlags c i o1 o2 o3 => lenZ c = 8 /\ lenZ i = 8 /\ bytes_ok c /\ bytes_ok i /\ u64 o1 /\ u64 o2 /\ u64 o3
  | MAdd multi id name => u8 multi /\ u16 id /\ str_ok name
  | MData id r => u16 id /\ bytes_ok r
  | MLog l t s => u8 l /\ u64 t /\ str_ok s
  | MTag l g t s => u8 l /\ u16 g /\ u64 t /\ str_ok s
  | MDrop d => u16 d
  | MSync raw => bytes_ok raw
  end /\ lenZ (snd (wire m)) < 65536.

(** ** Nested formats *)
(** the indices of an array of size n *)
Definition indices (n : Z) : list Z := map Z.of_nat (seq 0 (Z.to_nat n)).
Definition index_text (i : Z) : str := [91] ++ str_of_Z i ++ [93].

(** [expands fmts p fields out]: depth-first, left-to-right expansion of the fields of a
    format, all names prefixed with [p]. *)
Inductive expands (fmts : dict str mformat) : str -> list (str * Z * str) -> list fielddata -> Prop :=
| ex_nil p : expands fmts p [] []
| ex_scalar p c n name r out : n <= 0 -> expands fmts p r out ->
    expands fmts p ((ctype_name c, n, name) :: r) (mkFD (p ++ name) c :: out)
| ex_array p c n name r out : 0 < n -> expands fmts p r out ->
    expands fmts p ((ctype_name c, n, name) :: r)
      (map (fun i => mkFD (p ++ name ++ index_text i) c) (indices n) ++ out)
| ex_nested p ty n name r fmt sub out : (forall c, ty <> ctype_name c) -> n <= 0 ->
    sget ty fmts = Some fmt -> expands fmts (p ++ name ++ [46]) (mf_fields fmt) sub ->
    expands fmts p r out ->
    expands fmts p ((ty, n, name) :: r) (sub ++ out)
| ex_nested_array p ty n name r fmt subs out : (forall c, ty <> ctype_name c) -> 0 < n ->
    sget ty fmts = Some fmt ->
    expands_all fmts (map (fun i => p ++ name ++ index_text i ++ [46]) (indices n)) (mf_fields fmt) subs ->
    expands fmts p r out ->
    expands fmts p ((ty, n, name) :: r) (subs ++ out)
(** one expansion per prefix, one after another *)
with expands_all (fmts : dict str mformat) : list str -> list (str * Z * str) -> list fielddata -> Prop :=
| xa_nil fields : expands_all fmts [] fields []
| xa_cons p ps fields out outs : expands fmts p fields out -> expands_all fmts ps fields outs ->
    expands_all fmts (p :: ps) fields (out ++ outs).

(** the byte size of the fields of a format *)
Inductive size_is (fmts : dict str mformat) : list (str * Z * str) -> Z -> Prop :=
| sz_nil : size_is fmts [] 0
| sz_basic c n name r z : size_is fmts r z ->
    size_is fmts ((ctype_name c, n, name) :: r) (Z.max 1 n * Z.of_nat (ctype_size c) + z)
| sz_nested ty n name r fmt k z : (forall c, ty <> ctype_name c) -> sget ty fmts = Some fmt ->
    size_is fmts (mf_fields fmt) k -> size_is fmts r z ->
    size_is fmts ((ty, n, name) :: r) (Z.max 1 n * k + z).

(** [l] without its trailing fields called _padding... *)
Definition padding (fd : fielddata) : Prop := exists r, fd_name fd = lit "_padding" ++ r.
Definition without_padding (l l' : list fielddata) : Prop :=
  exists pad, l = l' ++ pad /\ Forall padding pad /\
    (forall a fd, l' = a ++ [fd] -> ~ padding fd).
