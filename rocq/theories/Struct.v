(** Python's [struct] for the little-endian codes the code uses, and the
    [_UNPACK_TYPES] table (core.py 49-62). *)
From Verif Require Import Base PyStr PyFloat.
Ltac Zify.zify_post_hook ::= Z.div_mod_to_equations.

(** little-endian bytes <-> unsigned integers (core.py 591, 614-615) *)
Fixpoint le_dec (l : bytes) : Z :=
  match l with [] => 0 | b :: r => b + 256 * le_dec r end.
(** Bytes of an integer, least significant first (core.py 265, 281, 366) *)
Fixpoint le_enc (n : nat) (v : Z) : bytes :=
  match n with O => [] | S k => v mod 256 :: le_enc k (v / 256) end.

(** [struct.unpack('<X', d)] for one unsigned integer of n bytes: the buffer must
    have exactly n bytes. (core.py 580-615, 658-659, 684-686, 711, 735-736) *)
Definition unpack_u (n : nat) (d : bytes) : res Z :=
  if Nat.eqb (length d) n then Ok (le_dec d) else Err StructError.

(** [struct.pack('<X', v)] for one unsigned integer of n bytes.
    (core.py 264-283, 354-366, 397, 427, 453, 467, 480) *)
Definition pack_u (n : nat) (v : Z) : res bytes :=
  if (0 <=? v) && (v <? 256 ^ Z.of_nat n) then Ok (le_enc n v) else Err StructError.

(** two's complement (the signed types of core.py 50-56) *)
Definition to_signed (n : nat) (v : Z) : Z :=
  if v <? 256 ^ Z.of_nat n / 2 then v else v - 256 ^ Z.of_nat n.
(** The inverse of [to_signed], for struct.pack of a signed type (core.py 366, 441) *)
Definition of_signed (n : nat) (v : Z) : Z :=
  if v <? 0 then v + 256 ^ Z.of_nat n else v.

(** The Python values that info messages and parameters can have. (core.py 588-596, 366) *)
Inductive value :=
| VInt (z : Z)          (* int *)
| VBool (b : bool)      (* bool *)
| VFloat (bits : Z)     (* float, as binary64 bits *)
| VStr (s : str)        (* str *)
| VBytes (b : bytes).   (* bytes *)

(** The twelve entries of [_UNPACK_TYPES] (core.py 49-62). *)
Inductive ctype := I8 | U8 | I16 | U16 | I32 | U32 | I64 | U64 | F32 | F64 | CBool | CChar.

(** The table _UNPACK_TYPES (core.py 49-62) *)
Definition type_table : list (str * ctype) :=
  [ (lit "int8_t", I8); (lit "uint8_t", U8); (lit "int16_t", I16); (lit "uint16_t", U16);
    (lit "int32_t", I32); (lit "uint32_t", U32); (lit "int64_t", I64); (lit "uint64_t", U64);
    (lit "float", F32); (lit "double", F64); (lit "bool", CBool); (lit "char", CChar) ].

(** [type_name in ULog._UNPACK_TYPES] and its entry (core.py 589-590, 773) *)
Definition ctype_of (s : str) : option ctype :=
  match find (fun p => str_eqb (fst p) s) type_table with
  | Some p => Some (snd p)
  | None => None
  end.

(** The keys of _UNPACK_TYPES (core.py 50-61) *)
Definition ctype_name (c : ctype) : str :=
  match c with
  | I8 => lit "int8_t" | U8 => lit "uint8_t" | I16 => lit "int16_t" | U16 => lit "uint16_t"
  | I32 => lit "int32_t" | U32 => lit "uint32_t" | I64 => lit "int64_t" | U64 => lit "uint64_t"
  | F32 => lit "float" | F64 => lit "double" | CBool => lit "bool" | CChar => lit "char"
  end.

(** The second component of an entry of _UNPACK_TYPES (core.py 50-61) *)
Definition ctype_size (c : ctype) : nat :=
  match c with
  | I8 | U8 | CBool | CChar => 1
  | I16 | U16 => 2
  | I32 | U32 | F32 => 4
  | I64 | U64 | F64 => 8
  end.

(** Whether the struct code of the entry is a signed integer (core.py 50-61) *)
Definition ctype_signed (c : ctype) : bool :=
  match c with I8 | I16 | I32 | I64 => true | _ => false end.

(** the numpy element type (core.py 49-62, third column): bool and char are int8 *)
Inductive nptype := NI (size : nat) (signed : bool) | NF (size : nat).
(** The third component of an entry of _UNPACK_TYPES (core.py 50-61); bool and char are np.int8 *)
Definition np_of (c : ctype) : nptype :=
  match c with
  | F32 => NF 4 | F64 => NF 8
  | CBool | CChar => NI 1 true
  | _ => NI (ctype_size c) (ctype_signed c)
  end.
(** The item size of a numpy type of _UNPACK_TYPES (core.py 50-61) *)
Definition np_size (t : nptype) : nat := match t with NI n _ => n | NF n => n end.
(** Equality of two numpy types of _UNPACK_TYPES (core.py 50-61) *)
Definition nptype_eqb (a b : nptype) : bool :=
  match a, b with
  | NI n s, NI m r => Nat.eqb n m && eqb s r
  | NF n, NF m => Nat.eqb n m
  | _, _ => false
  end.

(** [value, = struct.unpack('<' + code, d)] (core.py 591) *)
Definition unpack_val (c : ctype) (d : bytes) : res value :=
  let* v := unpack_u (ctype_size c) d in
  Ok (match c with
      | F32 => VFloat (widen v)
      | F64 => VFloat v
      | CBool => VBool (negb (v =? 0))
      | CChar => VBytes d
      | _ => VInt (if ctype_signed c then to_signed (ctype_size c) v else v)
      end).

(** [bool(value)] (core.py 60, 366) *)
Definition truthy (v : value) : bool :=
  match v with
  | VInt z => negb (z =? 0)
  | VBool b => b
  | VFloat b => negb (f64_is_zero b)
  | VStr s => match s with [] => false | _ => true end
  | VBytes s => match s with [] => false | _ => true end
  end.

(** struct.pack of an integer under an integer type (core.py 366, 441) *)
Definition pack_int (c : ctype) (z : Z) : res bytes :=
  if ctype_signed c then
    let h := 256 ^ Z.of_nat (ctype_size c) / 2 in
    if (- h <=? z) && (z <? h) then Ok (le_enc (ctype_size c) (of_signed (ctype_size c) z))
    else Err StructError
  else pack_u (ctype_size c) z.

(** [struct.pack('<' + code, value)] (core.py 366).  An int packed as 'f'/'d' is
    converted to a float; one that is too large is a struct.error. *)
Definition pack_f32 (b : Z) : res bytes := match narrow b with Some r => Ok (le_enc 4 r) | None => Err OverflowError end.
(** The same for any value (core.py 366, 441). *)
Definition pack_val (c : ctype) (v : value) : res bytes :=
  match c with
  | CBool => Ok [if truthy v then 1 else 0]
  | CChar => match v with VBytes [b] => Ok [b] | _ => Err StructError end
  | F32 => match v with
           | VFloat b => match narrow b with Some r => Ok (le_enc 4 r) | None => Err OverflowError end
           | VInt z => match double_of_int z with Some b => pack_f32 b | None => Err StructError end
           | VBool x => match double_of_int (if x then 1 else 0) with Some b => pack_f32 b | None => Err StructError end
           | _ => Err StructError
           end
  | F64 => match v with
           | VFloat b => Ok (le_enc 8 b)
           | VInt z => match double_of_int z with Some b => Ok (le_enc 8 b) | None => Err StructError end
           | VBool x => match double_of_int (if x then 1 else 0) with Some b => Ok (le_enc 8 b) | None => Err StructError end
           | _ => Err StructError
           end
  | _ => match v with
         | VInt z => pack_int c z
         | VBool b => pack_int c (if b then 1 else 0)
         | _ => Err StructError
         end
  end.

(* ------------------------------------------------------------------ *)

Lemma length_le_enc n v : length (le_enc n v) = n.
Proof. revert v; induction n; intros; simpl; auto. Qed.

Lemma le_enc_bytes_ok n v : bytes_ok (le_enc n v).
Proof.
  revert v; induction n; intros; simpl; constructor; auto. unfold byte_ok. lia.
  apply IHn.
Qed.

Lemma pow256_S n : 256 ^ Z.of_nat (S n) = 256 * 256 ^ Z.of_nat n.
Proof. rewrite Nat2Z.inj_succ, Z.pow_succ_r; lia. Qed.

Lemma pow256_pos n : 0 < 256 ^ Z.of_nat n.
Proof. apply Z.pow_pos_nonneg; lia. Qed.

Lemma le_dec_enc n v : 0 <= v < 256 ^ Z.of_nat n -> le_dec (le_enc n v) = v.
Proof.
  revert v; induction n; intros v Hv.
  - simpl in *. lia.
  - cbn [le_enc le_dec]. rewrite IHn; [lia|]. rewrite pow256_S in Hv.
    pose proof (pow256_pos n). lia.
Qed.

Lemma le_dec_range l : bytes_ok l -> 0 <= le_dec l < 256 ^ Z.of_nat (length l).
Proof.
  induction 1 as [|b l Hb Hl IH]; [simpl; lia|].
  cbn [le_dec]. simpl length. rewrite pow256_S. unfold byte_ok in Hb. lia.
Qed.

Lemma le_enc_dec l : bytes_ok l -> le_enc (length l) (le_dec l) = l.
Proof.
  induction 1 as [|b l Hb Hl IH]; [reflexivity|]. cbn [le_dec length le_enc].
  unfold byte_ok in Hb. f_equal; [lia|].
  replace ((b + 256 * le_dec l) / 256) with (le_dec l) by lia. apply IH.
Qed.

Lemma unpack_u_enc n v : 0 <= v < 256 ^ Z.of_nat n -> unpack_u n (le_enc n v) = Ok v.
Proof.
  intros H. unfold unpack_u. rewrite length_le_enc, Nat.eqb_refl. now rewrite le_dec_enc.
Qed.

Lemma unpack_u_Ok n d v : unpack_u n d = Ok v -> length d = n /\ le_dec d = v.
Proof.
  unfold unpack_u. destruct (Nat.eqb_spec (length d) n); [|discriminate]. intros E; injection E. auto.
Qed.

Lemma unpack_u_Err n d e : unpack_u n d = Err e -> e = StructError /\ length d <> n.
Proof.
  unfold unpack_u. destruct (Nat.eqb_spec (length d) n); [discriminate|]. intros E; injection E. auto.
Qed.

Lemma pack_u_Ok n v b : pack_u n v = Ok b ->
  0 <= v < 256 ^ Z.of_nat n /\ b = le_enc n v.
Proof.
  unfold pack_u. destruct ((0 <=? v) && (v <? 256 ^ Z.of_nat n)) eqn:E; [|discriminate].
  intros H; injection H as <-. split; [lia|reflexivity].
Qed.

Lemma pow256_even n : (0 < n)%nat -> 256 ^ Z.of_nat n = 2 * (256 ^ Z.of_nat n / 2).
Proof.
  destruct n; [lia|]. intros _. rewrite pow256_S. 
  replace (256 * 256 ^ Z.of_nat n) with ((128 * 256 ^ Z.of_nat n) * 2) by lia.
  rewrite Z.div_mul by lia. lia.
Qed.

Lemma of_to_signed n v : (0 < n)%nat -> 0 <= v < 256 ^ Z.of_nat n -> of_signed n (to_signed n v) = v.
Proof.
  intros Hn Hv. pose proof (pow256_even n Hn). unfold of_signed, to_signed.
  set (p := 256 ^ Z.of_nat n) in *. clearbody p.
  destruct (Z.ltb_spec v (p / 2)).
  - destruct (Z.ltb_spec v 0); lia.
  - destruct (Z.ltb_spec (v - p) 0); lia.
Qed.

Lemma to_signed_range n v : (0 < n)%nat -> 0 <= v < 256 ^ Z.of_nat n ->
  - (256 ^ Z.of_nat n / 2) <= to_signed n v < 256 ^ Z.of_nat n / 2.
Proof.
  intros Hn Hv. pose proof (pow256_even n Hn). unfold to_signed.
  set (p := 256 ^ Z.of_nat n) in *. clearbody p.
  destruct (Z.ltb_spec v (p / 2)); lia.
Qed.

Lemma to_of_signed n v : (0 < n)%nat ->
  - (256 ^ Z.of_nat n / 2) <= v < 256 ^ Z.of_nat n / 2 -> to_signed n (of_signed n v) = v.
Proof.
  intros Hn Hv. pose proof (pow256_even n Hn). unfold of_signed, to_signed.
  set (p := 256 ^ Z.of_nat n) in *. clearbody p.
  destruct (Z.ltb_spec v 0).
  - destruct (Z.ltb_spec (v + p) (p / 2)); lia.
  - destruct (Z.ltb_spec v (p / 2)); lia.
Qed.

Lemma of_signed_range n v : (0 < n)%nat ->
  - (256 ^ Z.of_nat n / 2) <= v < 256 ^ Z.of_nat n / 2 -> 0 <= of_signed n v < 256 ^ Z.of_nat n.
Proof.
  intros Hn Hv. pose proof (pow256_even n Hn). unfold of_signed.
  set (p := 256 ^ Z.of_nat n) in *. clearbody p. destruct (Z.ltb_spec v 0); lia.
Qed.

Lemma ctype_size_pos c : (0 < ctype_size c)%nat.
Proof. destruct c; simpl; lia. Qed.

Lemma np_size_of c : np_size (np_of c) = ctype_size c.
Proof. destruct c; reflexivity. Qed.

Lemma ctype_of_name c : ctype_of (ctype_name c) = Some c.
Proof. destruct c; reflexivity. Qed.

Lemma ctype_of_Some s c : ctype_of s = Some c -> s = ctype_name c.
Proof.
  unfold ctype_of. destruct (find (fun p => str_eqb (fst p) s) type_table) as [p|] eqn:E; [|discriminate].
  intros H; injection H as <-. apply find_some in E as [Hin Heq].
  apply str_eqb_eq in Heq. subst s.
  repeat (destruct Hin as [<-|Hin]; [reflexivity|]). destruct Hin.
Qed.

Lemma unpack_val_Ok c d v : unpack_val c d = Ok v -> length d = ctype_size c.
Proof.
  unfold unpack_val. intros H. apply bind_Ok in H as (x & H & _). now apply unpack_u_Ok in H.
Qed.

Lemma unpack_val_length c d : length d = ctype_size c -> exists v, unpack_val c d = Ok v.
Proof.
  intros H. unfold unpack_val, unpack_u. rewrite H, Nat.eqb_refl. simpl. eauto.
Qed.

Lemma unpack_val_Err c d e : unpack_val c d = Err e -> e = StructError.
Proof.
  unfold unpack_val. destruct (unpack_u (ctype_size c) d) eqn:E; simpl; [discriminate|].
  intros H; injection H as <-. now apply unpack_u_Err in E.
Qed.

(** Reading back what was packed.  For floats this is the rounded value. *)
Lemma pack_val_length c v b : pack_val c v = Ok b -> length b = ctype_size c.
Proof.
  assert (Hi : forall z, pack_int c z = Ok b -> length b = ctype_size c).
  { intros z. unfold pack_int. destruct (ctype_signed c).
    - match goal with |- (if ?t then _ else _) = _ -> _ => destruct t; [|discriminate] end.
      intros H; injection H as <-. apply length_le_enc.
    - intros H. apply pack_u_Ok in H as [_ ->]. apply length_le_enc. }
  destruct c; simpl; intros H; 
    try (destruct v; try discriminate; eauto; fail).
  - unfold pack_f32 in H. destruct v; try discriminate; try (destruct (double_of_int _) in H; [|discriminate]); destruct (narrow _) in H; try discriminate;
      apply (f_equal (fun r => match r with Ok x => length x | Err _ => 4%nat end)) in H; cbv beta iota in H; symmetry; exact H.
  - destruct v; try discriminate; try (destruct (double_of_int _) in H; [|discriminate]);
      apply (f_equal (fun r => match r with Ok x => length x | Err _ => 4%nat end)) in H; cbv beta iota in H; symmetry; exact H.
  - injection H as <-. reflexivity.
  - destruct v; try discriminate. destruct b0 as [|x [|]]; try discriminate. injection H as <-. reflexivity.
Qed.

(** A value that was unpacked from bytes packs to the same bytes, except for
    bool bytes other than 0/1 and signalling float32 NaNs. *)
Definition exact_bytes (c : ctype) (d : bytes) : bool :=
  match c with
  | CBool => le_dec d <=? 1
  | F32 => negb (f32_is_snan (le_dec d))
  | _ => true
  end.

Lemma pack_unpack_val c d v : bytes_ok d -> unpack_val c d = Ok v ->
  exact_bytes c d = true -> pack_val c v = Ok d.
Proof.
  intros Hok H Hex. unfold unpack_val in H. apply bind_Ok in H as (x & H & E).
  injection E as <-. apply unpack_u_Ok in H as [Hl <-].
  pose proof (le_dec_range d Hok) as Hr. rewrite Hl in Hr.
  assert (Henc : le_enc (ctype_size c) (le_dec d) = d) by (rewrite <- Hl; now apply le_enc_dec).
  assert (Hu : pack_u (ctype_size c) (le_dec d) = Ok d).
  { unfold pack_u. rewrite Henc.
    replace ((0 <=? le_dec d) && (le_dec d <? 256 ^ Z.of_nat (ctype_size c))) with true by lia. reflexivity. }
  assert (Hs : (let h := 256 ^ Z.of_nat (ctype_size c) / 2 in
     let z := to_signed (ctype_size c) (le_dec d) in
    if (- h <=? z) && (z <? h) then Ok (le_enc (ctype_size c) (of_signed (ctype_size c) z))
    else Err StructError) = Ok d).
  { cbn zeta. rewrite of_to_signed; [|apply ctype_size_pos|assumption]. rewrite Henc.
    pose proof (to_signed_range (ctype_size c) (le_dec d) (ctype_size_pos c) Hr).
    match goal with |- (if ?t then _ else _) = _ => replace t with true by lia end. reflexivity. }
  destruct c; simpl in *; try exact Hs; try exact Hu.
  - assert (Hr' : 0 <= le_dec d < 4294967296) by exact Hr.
    rewrite narrow_widen_exact; [|assumption|]. 2:{ destruct (f32_is_snan (le_dec d)); [discriminate|reflexivity]. }
    f_equal. exact Henc.
  - f_equal. exact Henc.
  - f_equal. rewrite <- Henc. cbn [le_enc]. f_equal. rewrite <- Henc in Hex.
    cbn [le_enc le_dec] in Hex. destruct (Z.eqb_spec (le_dec d) 0) as [E|E].
    + rewrite E. reflexivity.
    + assert (le_dec d = 1) as -> by lia. reflexivity.
  - destruct d as [|b [|]]; try discriminate. reflexivity.
Qed.
