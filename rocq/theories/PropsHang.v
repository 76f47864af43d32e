(** Properties of loading: exactly which files make it loop for ever (C03). *)
From Verif Require Import Base Dict ModelTypes ModelRead Spec SpecHang Samples ProofsRead ProofsHang.

(** A load never finishes exactly if the file has a header and the reader of its definitions,
    moving as [moves] says, comes to some place twice. *)
Theorem C03_exact : forall cf f, bytes_ok f -> (diverges cf f <-> has_header f /\ comes_back cf f).
Proof. exact diverges_iff. Qed.
(** In all other cases there is a result, an object or an exception. *)
Theorem C03_decided : forall cf f, bytes_ok f -> (exists r, produces cf f r) \/ diverges cf f.
Proof. exact finishes_or_not. Qed.

(** The header of a log and a corrupt message header that announces 65535 bytes: the file object
    of an opened file refuses to go back before the beginning ... *)
Definition far_back : bytes := file_header 1 0 ++ [255; 255; 0].
Example C03_refused_ex : forall m, produces (mkCfg false (fun _ => true) false 1000 (OsFile m)) far_back (Err OSError).
Proof. intros m. exists 1%nat. reflexivity. Qed.
(** ... while an io.BytesIO goes to the beginning, where the header is taken for a message of
    19541 bytes, again and again. *)
Example C03_memory_ex : diverges (mkCfg false (fun _ => true) false 1000 MemFile) far_back.
Proof.
  apply C03_exact.
  { unfold far_back. cbn. repeat (constructor; [unfold byte_ok; lia|]). constructor. }
  split; [exists 1, 0, [255; 255; 0]; split; [unfold header_fits, byte_ok; lia|reflexivity]|].
  exists 0, 0. split.
  - apply moves_on with 0; [|constructor]. apply moves_corrupt with 255 255 0; [reflexivity| | |left; reflexivity|].
    + cbn. lia.
    + cbn. lia.
    + right. vm_compute. auto.
  - split; [|constructor]. apply moves_corrupt with 85 76 111; [reflexivity| | |right; right; lia|].
    + cbn. lia.
    + cbn. lia.
    + right. vm_compute. auto.
Qed.
(** A header behind which a message announces more bytes than are left does not always make the
    reader loop: here it goes back to a place it has not been to and finds the end of the section. *)
Definition gets_out : bytes := file_header 1 0 ++ frame 88 [9; 1; 0; 76; 7] ++ [6; 0; 0; 1].
Example C03_gets_out_ex : exists u, produces (mkCfg false (fun _ => true) true 1000 MemFile) gets_out (Ok u).
Proof. eexists. exists 5%nat. vm_compute. reflexivity. Qed.
