(** Specification for the exact law of termination (C03): how far one message of the definition
    section moves the reader, in terms of the bytes of the file only. *)
From Verif Require Import Base ModelTypes ModelRead Spec.

(** The message makes the definition reader raise no exception: a log that consists of the
    header and this message loads (header only). *)
Definition harmless (cf : cfg) (ty : Z) (p : bytes) : Prop :=
  exists u, produces (mkCfg (cf_ign cf) (cf_filter cf) true (cf_depth cf) (cf_kind cf))
                     (file_header 1 0 ++ frame ty p) (Ok u).

(** One message header at [q] takes the definition reader on to [q']. *)
Inductive moves (cf : cfg) (f : bytes) (q : Z) : Z -> Prop :=
(* a definition that raises no exception: to its end, or to that of the file *)
| moves_definition s0 s1 ty : slice q (q + 3) f = [s0; s1; ty] -> In ty def_types ->
    harmless cf ty (slice (q + 3) (q + 3 + (s0 + 256 * s1)) f) ->
    moves cf f q (Z.min (q + 3 + (s0 + 256 * s1)) (lenZ f))
(* an unknown message of a plausible size: likewise *)
| moves_unknown s0 s1 ty : slice q (q + 3) f = [s0; s1; ty] -> ~ In ty def_types -> ~ In ty end_types ->
    ty <> 0 -> 0 < s0 + 256 * s1 <= 10000 ->
    moves cf f q (Z.min (q + 3 + (s0 + 256 * s1)) (lenZ f))
(* any other: back from there by the announced size and two more bytes, never before the
   beginning; in a file of the operating system that would be an exception *)
| moves_corrupt s0 s1 ty q' : slice q (q + 3) f = [s0; s1; ty] -> ~ In ty def_types -> ~ In ty end_types ->
    ty = 0 \/ s0 + 256 * s1 = 0 \/ 10000 < s0 + 256 * s1 ->
    (let back := Z.min (q + 3 + (s0 + 256 * s1)) (lenZ f) - (s0 + 256 * s1) - 2 in
     0 <= back /\ q' = back \/ back < 0 /\ q' = 0 /\ cf_kind cf = MemFile) ->
    moves cf f q q'.

Inductive moves_many (cf : cfg) (f : bytes) : Z -> Z -> Prop :=
| moves_none q : moves_many cf f q q
| moves_on q r s : moves cf f q r -> moves_many cf f r s -> moves_many cf f q s.

(** The reader of the definitions, which starts behind the header, comes to some place twice. *)
Definition comes_back (cf : cfg) (f : bytes) : Prop :=
  exists q r, moves_many cf f 16 q /\ moves cf f q r /\ moves_many cf f r q.

(** The file starts with a header. *)
Definition has_header (f : bytes) : Prop :=
  exists v t rest, header_fits v t /\ f = file_header v t ++ rest.
