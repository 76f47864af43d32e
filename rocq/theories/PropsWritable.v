(** Property C67: exactly which logs write_ulog() can write, whatever put the values there, and exactly which
    logs that were read from a file. *)
From Verif Require Import Base Dict Utf8 PyStr PyFloat Struct ModelTypes ModelRead ModelWrite Spec SpecSection SpecMsg SpecLog SpecWrite SpecLoaded SpecWritable
  ProofsLoaded ProofsWritable ProofsRewritable ProofsRaises PropsLoaded Samples SamplesWrite PropsWrite.

(** write_ulog() succeeds exactly on the writable logs. *)
Theorem C67_exact : forall u, covered u -> ((exists f, write u = Ok f) <-> writable u).
Proof. intros u _. apply write_fine. Qed.
(** Of a log that was read from a file, only these parts can prevent it from being written: the size of format texts, the types of
    information messages, parameters that are no int32_t or float, default types above 7, and datasets without a
    timestamp, with a field without a name, or with a char that is not ASCII. *)
Theorem C67_loaded : forall cf f u, bytes_ok f -> produces cf f (Ok u) -> covered u ->
  ((exists f', write u = Ok f') <-> rewritable u).
Proof. intros cf f u Hf Hp Hc. rewrite <- (loaded_writable cf f u Hf Hp Hc). apply write_fine. Qed.

(** Not every file that loads can be written again. *)
(** an information message with an array of floats *)
Definition f_array : bytes := file_header 1 500 ++ frames [(73, [10] ++ lit "float[1] a" ++ [0; 0; 128; 63])].
(** the default of a parameter with the fifth bit *)
Definition f_default : bytes := file_header 1 500 ++ frames [(81, [16; 9] ++ lit "int32_t P" ++ [1; 0; 0; 0])].
(** a parameter of 64 bits *)
Definition f_wide : bytes := file_header 1 500 ++ frames [(80, [9] ++ lit "int64_t P" ++ [0; 0; 0; 128; 0; 0; 0; 0])].
(** values of two types under one key *)
Definition f_mixed : bytes := file_header 1 500 ++ frames [(77, [0; 9] ++ lit "char[1] k" ++ lit "a"); (77, [1; 9] ++ lit "uint8_t k" ++ [7])].
Theorem C67_every_file_refuted :
  (exists u, produces cf0 f_array (Ok u) /\ u_corrupt u = false /\ write u = Err KeyError) /\
  (exists u, produces cf0 f_default (Ok u) /\ u_corrupt u = false /\ write u = Err StructError) /\
  (exists u, produces cf0 f_wide (Ok u) /\ u_corrupt u = false /\ write u = Err StructError) /\
  (exists u, produces cf0 f_mixed (Ok u) /\ u_corrupt u = false /\ write u = Err TypeError).
Proof. repeat split; (eexists; split; [exists 30%nat; vm_compute; reflexivity|split; vm_compute; reflexivity]). Qed.

Example C67_ex : covered s_obj /\ writable s_obj /\ rewritable s_obj.
Proof.
  assert (Hf : bytes_ok s_file) by (vm_compute; repeat constructor; discriminate).
  assert (C : covered s_obj).
  { unfold covered. cbn [s_obj u_data].
    repeat (apply Forall_cons; [intros i v (c & raw & E & _ & ->); vm_compute in E; injection E as <-; eexists; reflexivity|]). constructor. }
  split; [exact C|]. assert (W : exists f, write s_obj = Ok f) by (eexists; vm_compute; reflexivity).
  split; [now apply C67_exact|]. apply (C67_loaded cf0 s_file); [exact Hf|exact s_obj_loaded|exact C|exact W].
Qed.

(** ** What is raised *)
(** When write_ulog() fails it raises one of these exceptions. *)
Theorem C67_exceptions : forall u e, covered u -> write u = Err e -> In e write_exceptions.
Proof.
  intros u e C. apply (raises_write (fun e => In e write_exceptions) u); [|exact C|left; cbn; tauto|left; cbn; tauto].
  apply Forall_forall. intros x Hx. unfold write_exceptions. cbn in Hx |- *. tauto.
Qed.
(** Of these, a log that was read from a file raises no IndexError, for its lists are long enough, and no UnicodeEncodeError, for
    its texts can be encoded. *)
Theorem C67_loaded_exceptions : forall cf f u e, bytes_ok f -> produces cf f (Ok u) -> covered u -> write u = Err e -> In e rewrite_exceptions.
Proof.
  intros cf f u e Hf Hp C. destruct (loaded_sized cf f u Hf Hp) as (K & Z).
  assert (D : Forall even_ds (u_data u) /\ Forall ascii_ds (u_data u)).
  { pose proof (cl_data _ K) as A. pose proof (sz_data _ Z) as B. rewrite !Forall_forall in *. split; intros ds Hd; apply (loaded_even ds (A ds Hd) (B ds Hd)). }
  apply (raises_write (fun e => In e rewrite_exceptions) u); [apply Forall_forall; auto|exact C|right|right].
  - split; [|apply D]. destruct (sz_flags _ Z) as (_ & L). intros Q. rewrite Q in L. discriminate.
  - split; [exact (C66_texts cf f u Hf Hp)|]. split; [exact (sz_formats _ Z)|apply D].
Qed.
(** Each of them is raised: StructError, KeyError and TypeError for the files above, the others for a parameter that is too
    large a double and for a char that is not ASCII ... *)
Definition f_double : bytes := file_header 1 500 ++ frames [(80, [8] ++ lit "double P" ++ [0; 0; 0; 0; 0; 0; 240; 126])].
Definition f_char : bytes := file_header 1 500 ++ frames [(70, lit "a:uint64_t timestamp;char c;"); (65, [0; 1; 0] ++ lit "a"); (68, [1; 0; 5; 0; 0; 0; 0; 0; 0; 0; 200])].
Example C67_raised_loaded : (exists u, produces cf0 f_double (Ok u) /\ write u = Err OverflowError) /\ (exists u, produces cf0 f_char (Ok u) /\ write u = Err ValueError).
Proof. split; (eexists; split; [exists 30%nat; vm_compute; reflexivity|vm_compute; reflexivity]). Qed.
(** ... and for logs that were made in another way: a text with a surrogate, no flags, a column that is too short. *)
Definition w_short : dataset := mkDS 0 1 (lit "a") [mkFD (lit "x") U8; mkFD (lit "timestamp") U64] 1
  [(lit "x", mkCol (NI 1 false) [1; 2]); (lit "timestamp", mkCol (NI 8 false) [5])].
Theorem C67_short_column : write (set_data [w_short] s_obj) = Err IndexError /\ write (set_params [(lit "P" ++ [55296], VInt 1)] s_obj) = Err UnicodeEncodeError.
Proof. split; vm_compute; reflexivity. Qed.
