(** What the files of a failed conversion hold, in terms of the tables of SpecTools.v. *)
From Verif Require Import Base Dict PyStr PyFloat Struct ModelTypes ModelApi ModelTools SpecTools.

(** the text of file [name] after [files] were written over those of [disk] *)
Definition over (files disk : dict str str) (name : str) : option str :=
  match sget name files with Some t => Some t | None => sget name disk end.
(** the text [name] of [n] chars of sample [i] has an element that is no character, before any 0 *)
Definition text_bad (d : dataset) (name : str) (n i : nat) : Prop :=
  exists l, Forall2 (fun k c => cell d (item name k) i = Some (VInt c)) (seq 0 n) l /\ chars l = None.
(** cells with a separator after each *)
Definition open_row (sep : str) (cells : list str) : str := concat (map (fun c => c ++ sep) cells).
(** sample [i] has fewer data fields than its length says: the [m] bytes [b] are there, and the next one is not *)
Definition gps_short (d : dataset) (inst : Z) (i : nat) (len : Z) (b : bytes) : Prop :=
  match sget (lit "instance") (ds_data d) with Some _ => cell d (lit "instance") i = Some (VInt inst) | None => inst = 0 end /\
  byte_field d (lit "len") i len /\ Z.of_nat (length b) < len mod 128 /\
  Forall2 (fun k x => byte_field d (item (lit "data") k) i x) (seq 0 (length b)) b /\
  sget (item (lit "data") (length b)) (ds_data d) = None.
