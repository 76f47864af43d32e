(** Property C74: file objects. *)
From Verif Require Import Base Dict ModelTypes ModelRead ModelHandle Spec.

(** ULog(h) ends with the result [r]; [closed] tells whether the object is closed then. *)
Definition gives (cf : cfg) (h : handle) (r : res ulog) (closed : bool) : Prop := exists fuel, construct fuel cf h = Some (r, closed).
(** The same arguments, for a file on a disk *)
Definition on_disk (m : Z) (cf : cfg) : cfg := mkCfg (cf_ign cf) (cf_filter cf) (cf_hdr cf) (cf_depth cf) (OsFile m).
(** The header of the log names no places where data was appended. *)
Definition unappended (cf : cfg) (g : bytes) : Prop :=
  forall u, produces (with_hdr true cf) g (Ok u) -> has_appended u = false \/ u_offsets u = [].
