(** The defects of single messages at which the reader of the data section gives up, read off
    their payloads. *)
From Verif Require Import Base Dict PyStr Utf8 Struct ModelTypes ModelRead Spec SpecSection.

(** Sizes of the number types *)
Definition number_sizes : list (str * nat) :=
  [(lit "int8_t", 1); (lit "uint8_t", 1); (lit "int16_t", 2); (lit "uint16_t", 2);
   (lit "int32_t", 4); (lit "uint32_t", 4); (lit "int64_t", 8); (lit "uint64_t", 8);
   (lit "float", 4); (lit "double", 8); (lit "bool", 1); (lit "char", 1)]%nat.

(** An info or parameter payload that is empty, or names a number type and has a value that
    is not of that type's size *)
Inductive bad_value (ign : bool) : bytes -> Prop :=
| bv_empty : bad_value ign []
| bv_size k rest ty r n : utf8_decode ign (firstn (Z.to_nat k) rest) = Ok (ty ++ 32 :: r) -> ~ In 32 ty ->
    In (ty, n) number_sizes -> length (skipn (Z.to_nat k) rest) <> n -> bad_value ign (k :: rest).

(** A data message [m] after the events [pre] that is too short for an id, or whose record,
    though of the right size, has no room for the timestamp *)
Definition no_stamp (cf : cfg) (fmts : dict str mformat) (pre : list event) (p : bytes) : Prop :=
  (length p < 2)%nat \/
  exists lo hi r s rs, p = lo :: hi :: r /\ subscription cf fmts pre (lo + 256 * hi) = Some (s, rs) /\
    itemsize (sb_dtype s) <= lenZ r <= sb_max s /\ itemsize (sb_dtype s) < sb_tsoff s + 8.

Definition defect (cf : cfg) (fmts : dict str mformat) (pre : list event) (m : Z * bytes) : Prop :=
  let (ty, p) := m in
  ((ty = 73 \/ ty = 80) /\ bad_value (cf_ign cf) p) \/
  ((ty = 77 \/ ty = 81) /\ (p = [] \/ exists b q, p = b :: q /\ bad_value (cf_ign cf) q)) \/
  (ty = 65 /\ (length p < 3)%nat) \/
  (ty = 76 /\ (length p < 9)%nat) \/
  (ty = 67 /\ (length p < 11)%nat) \/
  (ty = 79 /\ length p <> 2%nat) \/
  (ty = 68 /\ no_stamp cf fmts pre p).
