(** Property C62: what is in the file when write_ulog returns or raises. *)
From Coq Require Import Permutation Sorted.
From Verif Require Import Base Dict Utf8 PyStr PyFloat Struct PySort ModelTypes ModelRead ModelWrite ModelWriting
  Spec SpecSection SpecMsg SpecLog SpecWrite SpecWriting ProofsLog ProofsWrite ProofsRound ProofsCopy ProofsWriting Samples SamplesWrite PropsWrite.

(** write_ulog(name) returns: the file holds the log, whatever was in it before; other files
    are as they were. *)
Theorem C62_complete : forall fs name u b, write u = Ok b ->
  exists fs', write_to fs name u = (fs', None) /\ fs' name = Some b /\ forall n, n <> name -> fs' n = fs n.
Proof.
  intros fs name u b H. rewrite write_messages in H. unfold outcome in H. unfold write_to.
  destruct (put_all (messages u)) as [c [e|]]; [discriminate|]. injection H as ->. eexists. split; [reflexivity|].
  cbv beta. rewrite str_eqb_refl. split; [reflexivity|]. intros n Hn. destruct (str_eqb n name) eqn:E; [|reflexivity].
  apply str_eqb_eq in E. contradiction.
Qed.

(** write_ulog(name) raises: the file holds exactly what writing some beginning of the log gives.
    It is the longest one: each beginning of the log either writes an initial part of
    that or raises the same exception.  Other files are as they were. *)
Theorem C62_failed : forall fs name u e, write u = Err e -> header_fits (u_version u) (u_start u) ->
  lenZ (u_compat u) = 8 -> lenZ (u_incompat u) = 8 -> bytes_ok (u_compat u) -> bytes_ok (u_incompat u) ->
  exists fs' b w, write_to fs name u = (fs', Some e) /\ fs' name = Some b /\ (forall n, n <> name -> fs' n = fs n) /\
    begins u w /\ write w = Ok b /\
    forall w', begins u w' -> (exists b', write w' = Ok b' /\ prefix b' b) \/ write w' = Err e.
Proof.
  intros fs name u e H Hh C1 C2 C3 C4. rewrite write_messages in H. unfold outcome in H. unfold write_to.
  destruct (put_all (messages u)) as [b [e'|]] eqn:E; [|discriminate]. injection H as ->.
  destruct (stops_at u b e E) as [[_ X]|[[_ X]|(w & Hw & Ew)]].
  - rewrite (write_header_ok u Hh) in X. discriminate.
  - rewrite (write_flags_ok u C1 C2 C3 C4) in X. discriminate.
  - eexists. exists b, w. split; [reflexivity|]. cbv beta. rewrite str_eqb_refl. split; [reflexivity|].
    split. { intros n Hn. destruct (str_eqb n name) eqn:En; [|reflexivity]. apply str_eqb_eq in En. contradiction. }
    split; [exact Hw|]. split; [exact Ew|]. intros w' Hw'. destruct (begins_prefix u w' Hw') as (r & Er).
    rewrite Er in E. rewrite write_messages. destruct (put_prefix _ _ _ _ E) as [X|X]; [left|right]; assumption.
Qed.
(** Header and flags that cannot be packed: the file is empty or holds the header only. *)
Theorem C62_failed_head : forall fs name u e, write u = Err e ->
  ~ (header_fits (u_version u) (u_start u) /\ lenZ (u_compat u) = 8 /\ lenZ (u_incompat u) = 8 /\
     bytes_ok (u_compat u) /\ bytes_ok (without_append (u_incompat u))) ->
  exists fs', write_to fs name u = (fs', Some e) /\
    (fs' name = Some [] \/ fs' name = Some (file_header (u_version u) (u_start u))).
Proof.
  intros fs name u e H Hn. rewrite write_messages in H. unfold outcome in H. unfold write_to.
  destruct (put_all (messages u)) as [b [e'|]] eqn:E; [|discriminate]. injection H as ->.
  eexists. split; [reflexivity|]. cbv beta. rewrite str_eqb_refl.
  destruct (stops_at u b e E) as [[-> _]|[[X _]|(w & Hw & Ew)]].
  - left. reflexivity.
  - right. apply write_header_inv in X as [_ ->]. reflexivity.
  - exfalso. apply Hn. destruct Hw as [(A & B & C & D) _ _ _].
    pose proof Ew as Ew'. unfold write in Ew'. destruct (write_header w) as [h|] eqn:Eh; [|discriminate].
    destruct (write_flags w) as [g|] eqn:Eg; [|discriminate].
    apply write_header_inv in Eh. apply write_flags_inv in Eg. rewrite A, B in Eh. rewrite C, D in Eg.
    tauto.
Qed.

(** The loaded log of C25, whose char is outside ASCII, and a disk with a file. *)
Definition old_log : bytes := one_field (lit "uint8_t") [7].
Definition one_file : files := fun n => if str_eqb n (lit "a.ulg") then Some old_log else None.
Example C62_failed_ex : exists u, produces cf0 (one_field (lit "char") [200]) (Ok u) /\ u_corrupt u = false /\ write u = Err ValueError /\
  header_fits (u_version u) (u_start u) /\ lenZ (u_compat u) = 8 /\ lenZ (u_incompat u) = 8 /\ bytes_ok (u_compat u) /\ bytes_ok (u_incompat u).
Proof.
  eexists. split; [exists 9%nat; vm_compute; reflexivity|]. split; [reflexivity|]. split; [vm_compute; reflexivity|].
  split; [unfold header_fits, byte_ok; cbn; lia|]. repeat (split; [reflexivity|]). split; cbn; repeat constructor; discriminate.
Qed.
Example C62_failed_head_ex : exists e, write (set_version 256 s_obj) = Err e /\ ~ header_fits (u_version (set_version 256 s_obj)) (u_start s_obj).
Proof. eexists. split; [vm_compute; reflexivity|]. unfold header_fits, byte_ok. cbn. lia. Qed.

(** *** What a user might expect and is not true *)
(** A write that fails does not keep the old contents of the file, and what is there loads as a
    log without samples and without any sign of damage. *)
Theorem C62_kept_refuted : exists u fs' b old w,
  produces cf0 (one_field (lit "char") [200]) (Ok u) /\ write_to one_file (lit "a.ulg") u = (fs', Some ValueError) /\
  produces cf0 old_log (Ok old) /\ length (u_data old) = 1%nat /\
  fs' (lit "a.ulg") = Some b /\ b <> old_log /\
  produces cf0 b (Ok w) /\ u_corrupt w = false /\ length (u_data u) = 1%nat /\ u_data w = [].
Proof.
  do 5 eexists. split; [exists 9%nat; vm_compute; reflexivity|].
  split; [unfold write_to; match goal with |- context [put_all ?m] => let x := eval vm_compute in (put_all m) in replace (put_all m) with x by (vm_compute; reflexivity) end; reflexivity|].
  split; [exists 9%nat; vm_compute; reflexivity|]. split; [reflexivity|]. split; [reflexivity|].
  split; [vm_compute; discriminate|]. split; [exists 9%nat; vm_compute; reflexivity|].
  repeat split.
Qed.
