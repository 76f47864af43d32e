(** Property C56: from the database back to a file. *)
From Verif Require Import Base Dict PyStr PyFloat PySort Struct ModelTypes ModelRead ModelWrite ModelApi Sql Schema5 ModelDb
  Spec SpecLog SpecWrite SpecDb SpecHist ProofsDb ProofsHist Samples SamplesWrite PropsDb PropsWrite.

(** ** The database changes no byte of the file that is written *)
Lemma pack_stored c v : pack_val c (stored_value v) = pack_val c v.
Proof. destruct v as [z|[|]|b|s|b]; try reflexivity; destruct c; reflexivity. Qed.
Lemma value_stored ty v : write_value ty (stored_value v) = write_value ty v.
Proof.
  unfold write_value. destruct (starts_with (lit "char[") ty); [destruct v; reflexivity|].
  destruct (starts_with (lit "uint8_t[") ty); [destruct v; reflexivity|]. destruct (ctype_of ty); [apply pack_stored|reflexivity].
Qed.
Lemma data_stored k v ty c : info_data k (stored_value v) ty c = info_data k v ty c.
Proof. unfold info_data. rewrite value_stored. reflexivity. Qed.
Lemma param_stored k v : parameter_data k (stored_value v) = parameter_data k v.
Proof.
  unfold parameter_data. destruct v as [z|b|b|s|b]; reflexivity.
Qed.
Lemma mapM_same {A B C} (f : B -> res C) (f' : A -> res C) (g : A -> B) l : (forall x, f (g x) = f' x) -> mapM f (map g l) = mapM f' l.
Proof. intros H. induction l as [|x r IH]; simpl; [reflexivity|]. rewrite H, IH. reflexivity. Qed.
Lemma write_stored u : write (stored u) = write u.
Proof.
  unfold write.
  assert (E1 : write_info (stored u) = write_info u).
  { unfold write_info, stored, stored_dict. cbn [u_info u_infot]. apply mapM_same. intros [k v]. cbn [fst snd]. destruct (lookup k (u_infot u)); [|reflexivity].
    cbn [bind]. rewrite data_stored. reflexivity. }
  assert (E2 : write_params (stored u) = write_params u).
  { unfold write_params, stored, stored_dict. cbn [u_params]. apply mapM_same. intros [k v]. cbn [fst snd]. rewrite param_stored. reflexivity. }
  assert (E3 : write_defaults (stored u) = write_defaults u).
  { unfold write_defaults, stored. cbn [u_defaults]. f_equal. apply mapM_same. intros [b d]. cbn [fst snd]. destruct (b <? 0); [reflexivity|].
    unfold stored_dict. apply mapM_same. intros [k v]. cbn [fst snd]. rewrite param_stored. reflexivity. }
  assert (E4 : changed_items (stored u) = changed_items u).
  { unfold changed_items, stored. cbn [u_changed]. apply mapM_same. intros [[t k] v]. cbn [fst snd]. rewrite param_stored. reflexivity. }
  assert (E5 : write_data (stored u) = write_data u) by (unfold write_data; rewrite E4; reflexivity).
  rewrite E1, E2, E3, E5. reflexivity.
Qed.

(** A log opened by key with lazy=False, after any history of the database, is written as the very bytes, or the
    exception, that writing the saved log gives. *)
Theorem C56_same_file : forall d k sha u, fits_db u -> holds d k sha u ->
  exists o, open_key d k false = Ok o /\ db_write o = write u.
Proof.
  intros d k sha u FT (es & R & H). destruct (C30_map _ _ R) as (M & _). specialize (M k sha u false H FT).
  eexists. split; [exact M|]. unfold db_write. cbn [o_lazy o_log]. unfold loaded_as.
  refine (eq_trans _ (write_stored u)). f_equal.
Qed.
(** So for a log within the limits of the file format the file exists, and any reader gets a copy of the saved log. *)
Theorem C56_round_trip : forall d k sha u, fits_db u -> holds d k sha u -> fits_format u ->
  exists o f, open_key d k false = Ok o /\ db_write o = Ok f /\
  (lenZ f <= BIG -> exists depth, forall cf, (depth <= cf_depth cf)%nat -> cf_hdr cf = false -> (forall n, cf_filter cf n = true) ->
     exists u', (forall r, produces cf f r <-> r = Ok u') /\ copy_of u u').
Proof.
  intros d k sha u FT H FF. destruct (C56_same_file d k sha u FT H) as (o & E & W). destruct (C22_round_trip u FF) as (f & Wf & L).
  exists o, f. split; [exact E|]. split; [congruence|exact L].
Qed.
Example C56_ex : exists d o f, holds d 1 (lit "abc") s_obj /\ fits_format s_obj /\ open_key d 1 false = Ok o /\ db_write o = Ok f /\ lenZ f <= BIG.
Proof.
  destruct C35_ex as (d & _ & FT & H & _). destruct C22_ex as (FF & _). destruct C22_ex_size as (f & W & L).
  destruct (C56_same_file d 1 (lit "abc") s_obj FT H) as (o & E & Wo). exists d, o, f. repeat (split; auto). congruence.
Qed.
Lemma get_call_lazy o c : o_lazy (get_call o c) = o_lazy o.
Proof.
  unfold get_call, get_dataset_db. destruct (find _ _) as [ds|]; [destruct (_ && _); [reflexivity|]|];
    destruct (fetch_dataset _ _ _ _ _); try reflexivity. cbn [bind]. destruct (ca_caching c); reflexivity.
Qed.
(** Opened lazily it cannot be written, whatever was fetched with get_dataset before: no file without its samples. *)
Theorem C56_lazy : forall d k sha u o calls, holds d k sha u -> fits_db u -> open_key d k true = Ok o ->
  db_write (fold_left get_call calls o) = Err ValueError.
Proof.
  intros d k sha u o calls (es & R & H) FT E. destruct (C30_map _ _ R) as (M & _). rewrite (M k sha u true H FT) in E.
  assert (L : o_lazy o = true) by (injection E as <-; reflexivity). clear E. revert o L.
  induction calls as [|c r IH]; intros o L; cbn [fold_left]; [unfold db_write; rewrite L; reflexivity|].
  apply IH. rewrite get_call_lazy. exact L.
Qed.
(** Finding: an object made from a file, which has all its samples, cannot be written either unless lazy=False is
    given, since lazy=True is the default. *)
Theorem C56_from_file_refuted : exists fuel o, init_file fuel (fun b => b) cf0 d5 s_file None true = Some (Ok o) /\
  o_log o = s_obj /\ db_write o = Err ValueError /\ exists f, write s_obj = Ok f.
Proof.
  destruct C34_ex as (_ & fuel & E). exists fuel. eexists. split; [exact E|]. split; [reflexivity|]. split; [reflexivity|].
  eexists. vm_compute. reflexivity.
Qed.
