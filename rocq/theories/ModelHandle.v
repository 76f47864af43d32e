(** File objects given to ULog() and write_ulog(): where they stand, what is left in them, and whether they are closed
    (core.py 240-259, 851-882).  [ModelRead.load_at] and [ModelWriting.messages] do the reading and writing.
    Simplifications: the object can be read, written and moved in, and is not in append mode; where it stands after an
    exception of the constructor is left open. *)
From Verif Require Import Base Dict Struct ModelTypes ModelRead ModelWrite ModelWriting.

(** A file object: its contents, where it stands, whether it is closed (853-856, 242-245). *)
Record handle := mkHandle { h_bytes : bytes; h_pos : Z; h_closed : bool }.

(** ULog(handle, ...) (851-882): the result and whether the object is closed then.  It is closed at the end of the
    loading only (867, 881); reading from a closed object raises ValueError (885).  [None]: not finished within [fuel]. *)
Definition construct (fuel : nat) (cf : cfg) (h : handle) : option (res ulog * bool) :=
  if h_closed h then Some (Err ValueError, true)
  else match load_at fuel cf (h_bytes h) (h_pos h) ulog0 with
       | None => None
       | Some (Ok u) => Some (Ok u, true)
       | Some (Err e) => Some (Err e, false)
       end.

(** file.write(b) (269 and the other calls): the bytes from the place of the object on are replaced, those behind stay;
    a gap in front is filled with zeros. *)
Definition put_at (old : bytes) (p : Z) (b : bytes) : bytes :=
  match b with
  | [] => old
  | _ => takeZ p old ++ repeat 0 (Z.to_nat (p - lenZ old)) ++ b ++ dropZ (p + lenZ b) old
  end.
(** write_ulog(handle) (240-259): nullcontext does not close the object (245). *)
Definition write_on (h : handle) (u : ulog) : option exn * handle :=
  let '(b, e) := put_all (messages u) in
  if h_closed h then (Some (match messages u with Err x :: _ => x | _ => ValueError end), h)
  else (e, mkHandle (put_at (h_bytes h) (h_pos h) b) (h_pos h + lenZ b) false).
