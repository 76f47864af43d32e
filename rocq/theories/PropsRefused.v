(** Property C65, continued: what the exception of a refused save says. *)
From Verif Require Import Base Dict Utf8 PyStr PyFloat Struct ModelTypes ModelRead ModelApi Sql Schema5 ModelDb Spec SpecDb SpecStorable SpecLoaded SpecRefused.
From Verif Require Import ProofsDb ProofsSave ProofsFwd ProofsStorable ProofsReload ProofsHist ProofsRefused SpecMsg SpecLog ProofsChange ProofsLoaded Samples SamplesWrite PropsDb PropsStorable PropsLoaded.

(** Every exception of save() is one of a statement that failed for a reason outside the program, or the KeyError of
    an object or of a file that is in the database already, or it names what is wrong with the log: an OverflowError an
    integer outside 64 bits, a UnicodeEncodeError a text with a surrogate, a KeyError something that is not there,
    an IntegrityError two datasets of the same name and instance, an OperationalError (with JSON copies only)
    a copy that is no JSON.  There are no others. *)
Theorem C65_exceptions : forall F json o d e o' d', good d -> save F json o d = (Err e, o', d') ->
  (exists n, F n = Some e) \/ (e = KeyError /\ (o_pk o <> None \/ has_hash d (o_sha o))) \/
  (o_pk o = None /\ ~ has_hash d (o_sha o) /\ refused_for json (o_sha o) (o_log o) e).
Proof.
  intros F json o d e o' d' G E. unfold save in E. destruct (o_pk o) as [k|] eqn:Pk.
  { injection E as <- _ _. right. left. split; [reflexivity|]. left. discriminate. }
  destruct (find_sha d (o_sha o) G) as [[Hs Ex]|(r & k & Hs & Hr & _ & Es)]; rewrite Hs in E.
  - assert (Nh : ~ has_hash d (o_sha o)). { intros Hh. destruct (hash_found d _ G Hh) as (r0 & k & E0 & _). congruence. }
    destruct (save_tx_err F json o d e o' d' G Hs E) as [X|X]; auto.
  - injection E as <- _ _. right. left. split; [reflexivity|]. right. exists r. auto.
Qed.

(** And what it names is really wrong: a log of which it is true is never saved. *)
Theorem C65_causes : forall F json o d e o' d', good d -> refused_for json (o_sha o) (o_log o) e -> save F json o d <> (Ok tt, o', d').
Proof.
  intros F json o d e o' d' G R E. destruct (C65_saved _ _ _ _ _ _ G E) as (P & St & Ns & Nh & _).
  destruct e; cbn in R; try contradiction.
  - (* KeyError *) destruct R as [ds f Hd Hf N|kv Hk N|kl Hk N|ds J Hd Hf N].
    + pose proof (st_data _ St) as X. rewrite Forall_forall in X. destruct (X ds Hd) as (_ & _ & _ & _ & Y). rewrite Forall_forall in Y. destruct (Y f Hf) as (_ & c & C). congruence.
    + pose proof (st_info _ St) as X. rewrite Forall_forall in X. destruct (X kv Hk) as (_ & _ & ty & C & _). congruence.
    + pose proof (st_multi _ St) as X. rewrite Forall_forall in X. destruct (X kl Hk) as (_ & (ty & C & _) & _). congruence.
    + unfold save in E. rewrite P, (hash_absent _ _ G Nh), J in E. pose proof (save_tx_json _ _ _ _ _ E) as X.
      rewrite Forall_forall in X. specialize (X ds Hd). unfold json_dataset in X. destruct (ds_fields ds) as [|f l]; [now elim Hf|].
      apply Forall_cons_iff in X as [(ts & Ts & _) _]. congruence.
  - (* UnicodeEncodeError *) destruct R as (s & [->|L] & N); [contradiction|]. apply N. clear N. revert St. destruct L; intros St.
    + destruct (st_head _ St) as (_ & _ & _ & _ & A & B). destruct H as [<-|[<-|[]]]; assumption.
    + pose proof (st_data _ St) as X. rewrite Forall_forall in X. apply (X ds H).
    + pose proof (st_data _ St) as X. rewrite Forall_forall in X. destruct (X ds H) as (_ & _ & _ & _ & Y). rewrite Forall_forall in Y. apply (Y f H0).
    + pose proof (st_logged _ St) as X. rewrite Forall_forall in X. apply (X m H).
    + pose proof (st_tagged _ St) as X. rewrite Forall_forall in X. specialize (X tl H). rewrite Forall_forall in X. apply (X m H0).
    + pose proof (st_formats _ St) as X. rewrite Forall_forall in X. apply (X nm H).
    + pose proof (st_formats _ St) as X. rewrite Forall_forall in X. destruct (X nm H) as (_ & Y). rewrite Forall_forall in Y. destruct (Y f H0) as (A & _ & B). destruct H1 as [<-|[<-|[]]]; assumption.
    + pose proof (st_info _ St) as X. rewrite Forall_forall in X. apply (X kv H).
    + pose proof (st_info _ St) as X. rewrite Forall_forall in X. destruct (X _ H) as (_ & A & _). exact A.
    + pose proof (st_info _ St) as X. rewrite Forall_forall in X. destruct (X kv H) as (_ & _ & ty & A & B). congruence.
    + pose proof (st_multi _ St) as X. rewrite Forall_forall in X. apply (X kl H).
    + pose proof (st_multi _ St) as X. rewrite Forall_forall in X. destruct (X kl H) as (_ & _ & _ & A). rewrite Forall_forall in A. destruct (A l H0) as (_ & B). rewrite Forall_forall in B. exact (B _ H1).
    + pose proof (st_multi _ St) as X. rewrite Forall_forall in X. destruct (X kl H) as (_ & (ty & A & B) & _). congruence.
    + pose proof (st_params _ St) as X. rewrite Forall_forall in X. apply (X kv H).
    + pose proof (st_params _ St) as X. rewrite Forall_forall in X. apply (proj2 (X _ H)).
    + pose proof (st_defaults _ St) as X. rewrite Forall_forall in X. specialize (X td H). rewrite Forall_forall in X. apply (X kv H0).
    + pose proof (st_defaults _ St) as X. rewrite Forall_forall in X. specialize (X td H). rewrite Forall_forall in X. apply (proj2 (proj2 (X _ H0))).
    + pose proof (st_changed _ St) as X. rewrite Forall_forall in X. apply (X c H).
    + pose proof (st_changed _ St) as X. rewrite Forall_forall in X. apply (proj2 (proj2 (X _ H))).
  - (* OverflowError *) destruct R as (z & L & N). apply N. clear N. revert St. destruct L; intros St.
    + destruct (st_head _ St) as (A & B & C & D & _). destruct H as [<-|[<-|[<-|[<-|[]]]]]; assumption.
    + destruct (st_offsets _ St) as (_ & X). rewrite Forall_forall in X. auto.
    + destruct (st_offsets _ St) as (X & _). unfold int64. lia.
    + pose proof (st_data _ St) as X. rewrite Forall_forall in X. destruct (X ds H) as (_ & A & B & C & _). destruct H0 as [<-|[<-|[<-|[]]]]; assumption.
    + pose proof (st_dropouts _ St) as X. rewrite Forall_forall in X. destruct (X x H) as (A & B). destruct H0 as [<-|[<-|[]]]; assumption.
    + pose proof (st_logged _ St) as X. rewrite Forall_forall in X. destruct (X m H) as (A & B & _). destruct H0 as [<-|[<-|[]]]; assumption.
    + pose proof (st_tagged _ St) as X. rewrite Forall_forall in X. specialize (X tl H). rewrite Forall_forall in X. destruct (X m H0) as (A & B & C & _). destruct H1 as [<-|[<-|[<-|[]]]]; assumption.
    + pose proof (st_formats _ St) as X. rewrite Forall_forall in X. destruct (X nm H) as (_ & Y). rewrite Forall_forall in Y. apply (Y f H0).
    + pose proof (st_info _ St) as X. rewrite Forall_forall in X. destruct (X _ H) as (_ & A & _). exact A.
    + pose proof (st_multi _ St) as X. rewrite Forall_forall in X. destruct (X kl H) as (_ & _ & A & _). unfold int64. lia.
    + pose proof (st_multi _ St) as X. rewrite Forall_forall in X. destruct (X kl H) as (_ & _ & _ & A). rewrite Forall_forall in A. destruct (A l H0) as (B & _). unfold int64. lia.
    + pose proof (st_multi _ St) as X. rewrite Forall_forall in X. destruct (X kl H) as (_ & _ & _ & A). rewrite Forall_forall in A. destruct (A l H0) as (_ & B). rewrite Forall_forall in B. exact (B _ H1).
    + pose proof (st_params _ St) as X. rewrite Forall_forall in X. apply (proj2 (X _ H)).
    + pose proof (st_defaults _ St) as X. rewrite Forall_forall in X. specialize (X td H). rewrite Forall_forall in X. apply (X kv H0).
    + pose proof (st_defaults _ St) as X. rewrite Forall_forall in X. specialize (X td H). rewrite Forall_forall in X. apply (proj2 (proj2 (X _ H0))).
    + pose proof (st_changed _ St) as X. rewrite Forall_forall in X. apply (X c H).
    + pose proof (st_changed _ St) as X. rewrite Forall_forall in X. apply (proj2 (proj2 (X _ H))).
  - (* IntegrityError *) exact (R (st_once _ St)).
  - (* OperationalError *) destruct R as (J & ds & Hd & N). unfold save in E. rewrite P, (hash_absent _ _ G Nh), J in E. pose proof (save_tx_json _ _ _ _ _ E) as X.
    rewrite Forall_forall in X. exact (N (X ds Hd)).
Qed.

(** Each of the five is raised. *)
Definition outcome (json : bool) (u : ulog) : res unit := fst (fst (save no_fault json (mkObj None (lit "abc") false u) d5)).
Definition two_equal : ulog := set_data [mkDS 0 1 (lit "t") [] 0 []; mkDS 0 2 (lit "t") [] 0 []] ulog0.
Definition no_column : ulog := set_data [mkDS 0 1 (lit "t") [mkFD (lit "x") F32] 0 []] ulog0.
Example C65_exceptions_ex : good d5 /\
  outcome false (set_start (2 ^ 63) ulog0) = Err OverflowError /\
  outcome false (set_params [([55296], VInt 0)] ulog0) = Err UnicodeEncodeError /\
  outcome false two_equal = Err IntegrityError /\
  outcome false no_column = Err KeyError /\
  outcome true (s_minus [5] [4286578688]) = Err OperationalError /\
  outcome false (s_minus [5] [4286578688]) = Ok tt.
Proof. split; [auto using fresh_good, d5_fresh|]. repeat split; vm_compute; reflexivity. Qed.

(** ** A log that was read from a file *)
Lemma loaded_texts cf f u s : bytes_ok f -> produces cf f (Ok u) -> log_text u s -> no_surrogate s.
Proof.
  intros Hf H L. assert (V : forall v x, clean_value v -> v = VStr x -> no_surrogate x) by (intros v x C ->; now apply encodable_surrogate).
  destruct (loaded_clean cf f u Hf H). destruct cl_head as (_ & _ & _ & _ & Co & In').
  assert (Bt : forall l, bytes_ok l -> no_surrogate l). { intros l. apply Forall_impl. intros b Hb. unfold byte_ok in Hb. lia. }
  unfold clean_formats in cl_formats. rewrite Forall_forall in *. destruct L.
  - destruct H0 as [<-|[<-|[]]]; now apply Bt.
  - destruct (cl_data ds H0). now apply encodable_surrogate.
  - destruct (cl_data ds H0). rewrite Forall_forall in cd_fields. now apply encodable_surrogate, cd_fields.
  - destruct (cl_logged m H0) as (_ & _ & A). now apply encodable_surrogate.
  - destruct (cl_tagged tl H0) as (_ & A). rewrite Forall_forall in A. destruct (A m H1) as (_ & _ & B). now apply encodable_surrogate.
  - destruct (cl_formats nm H0) as (A & _). now apply encodable_surrogate.
  - destruct (cl_formats nm H0) as (_ & A). rewrite Forall_forall in A. destruct (A _ H1) as (B & C). destruct H2 as [<-|[<-|[]]]; now apply encodable_surrogate.
  - destruct (cl_info _ H0) as (A & _). now apply encodable_surrogate.
  - destruct (cl_info _ H0) as (_ & A & _). now apply (V _ s A).
  - apply (dget_In str_eqb str_eqb_spec) in H1. destruct (cl_infot _ H1) as (_ & A). now apply encodable_surrogate.
  - destruct (cl_multi _ H0) as (A & _). now apply encodable_surrogate.
  - destruct (cl_multi _ H0) as (_ & _ & A). rewrite Forall_forall in A. specialize (A _ H1). rewrite Forall_forall in A. now apply (V _ s (A _ H2)).
  - apply (dget_In str_eqb str_eqb_spec) in H1. destruct (cl_multit _ H1) as (_ & A). now apply encodable_surrogate.
  - destruct (cl_params _ H0) as (A & _). now apply encodable_surrogate.
  - destruct (cl_params _ H0) as (_ & A). now apply (V _ s A).
  - destruct (cl_defaults _ H0) as (_ & A). rewrite Forall_forall in A. destruct (A _ H1) as (B & _). now apply encodable_surrogate.
  - destruct (cl_defaults _ H0) as (_ & A). rewrite Forall_forall in A. destruct (A _ H1) as (_ & B). now apply (V _ s B).
  - destruct (cl_changed _ H0) as (_ & A & _). now apply encodable_surrogate.
  - destruct (cl_changed _ H0) as (_ & _ & A). now apply (V _ s A).
Qed.
Lemma loaded_ints cf f u z : bytes_ok f -> produces cf f (Ok u) -> log_int u z ->
  - 2 ^ 63 <= z \/ exists nm fd, In nm (u_formats u) /\ In fd (mf_fields (snd nm)) /\ z = snd (fst fd).
Proof.
  intros Hf H L. destruct (loaded_clean cf f u Hf H). destruct cl_head as (H1 & H2 & H3 & H4 & _). destruct cl_offsets as (_ & Of).
  assert (V : forall v x, clean_value v -> v = VInt x -> - 2 ^ 63 <= x) by (intros v x C ->; exact (proj1 C)).
  assert (Q : 1 <= 2 ^ 63) by lia. remember (2 ^ 63) as q eqn:Eq. clear Eq. rewrite Forall_forall in *.
  destruct L; try (right; exists nm, f0; auto; fail); left; try lia.
  - cbn in H0. intuition lia.
  - specialize (Of z H0). lia.
  - destruct (cl_data ds H0). cbn in H5. intuition lia.
  - specialize (cl_drop x H0). cbn in H5. intuition lia.
  - specialize (cl_logged m H0). cbn in H5. intuition lia.
  - destruct (cl_tagged tl H0) as (A & B). rewrite Forall_forall in B. specialize (B m H5). cbn in H6. intuition lia.
  - destruct (cl_info _ H0) as (_ & A & _). now apply (V _ z A).
  - destruct (cl_multi _ H0) as (_ & _ & A). rewrite Forall_forall in A. specialize (A _ H5). rewrite Forall_forall in A. now apply (V _ z (A _ H6)).
  - destruct (cl_params _ H0) as (_ & A). now apply (V _ z A).
  - destruct (cl_defaults _ H0) as (A & _). apply Z.le_trans with (-1); [lia|exact (proj1 A)].
  - destruct (cl_defaults _ H0) as (_ & A). rewrite Forall_forall in A. destruct (A _ H5) as (_ & B). now apply (V _ z B).
  - destruct (cl_changed _ H0) as (_ & _ & A). now apply (V _ z A).
Qed.
(** save() of a log from a file raises KeyError if the file is in the database already, if a field has no name or, for JSON
    copies, if a topic has no times; OverflowError for a number from 2^63 on (or a format that announces such an array);
    IntegrityError for a repeated instance and OperationalError for a JSON copy that is no JSON: nothing else. *)
Theorem C66_exceptions : forall fuel H cf d f lazy o json e o' d', bytes_ok f -> good d -> no_surrogate (H f) ->
  init_file fuel H cf d f None lazy = Some (Ok o) -> save no_fault json o d = (Err e, o', d') ->
  match e with
  | KeyError => has_hash d (H f) \/ (exists ds fd, In ds (u_data (o_log o)) /\ In fd (ds_fields ds) /\ fd_name fd = []) \/
      (json = true /\ exists ds, In ds (u_data (o_log o)) /\ ds_fields ds <> [] /\ sget (lit "timestamp") (ds_data ds) = None)
  | OverflowError => (exists z, log_int (o_log o) z /\ 2 ^ 63 <= z) \/
      (exists nm fd, In nm (u_formats (o_log o)) /\ In fd (mf_fields (snd nm)) /\ ~ int64 (snd (fst fd)))
  | IntegrityError => ~ NoDup (map (fun ds => (ds_name ds, ds_multi ds)) (u_data (o_log o)))
  | OperationalError => json = true /\ exists ds, In ds (u_data (o_log o)) /\ ~ json_dataset ds
  | _ => False
  end.
Proof.
  intros fuel H cf d f lazy o json e o' d' Hf G Hs E S. destruct (C34_by_name_partial fuel H cf d f lazy o E) as (A & B & C & _).
  destruct (C65_exceptions no_fault json o d e o' d' G S) as [(n & X)|[(-> & [X|X])|(_ & _ & X)]]; [discriminate|congruence|rewrite A in X; auto|].
  rewrite A in X. destruct e; cbn in X; try contradiction; auto.
  - destruct X as [ds x Hd Hx N|kv Hk N|kl Hk N|ds J Hd Hn N].
    + right. left. exists ds, x. split; [exact Hd|]. split; [exact Hx|]. destruct (loaded_clean cf f _ Hf B). rewrite Forall_forall in cl_data. destruct (cl_data ds Hd).
      rewrite Forall_forall in cd_cols. destruct (fd_name x) as [|c l] eqn:Ex; [reflexivity|]. destruct (proj1 (cd_cols x Hx)) as (c0 & X0); [rewrite Ex; discriminate|]. rewrite Ex in X0. congruence.
    + destruct (loaded_clean cf f _ Hf B). rewrite Forall_forall in cl_info. destruct (cl_info kv Hk) as (_ & _ & ty & T). congruence.
    + destruct (loaded_clean cf f _ Hf B). rewrite Forall_forall in cl_multi. destruct (cl_multi kl Hk) as (_ & (ty & T) & _). congruence.
    + right. right. split; [exact J|]. exists ds. auto.
  - destruct X as (s & [->|L] & N); [contradiction|]. apply N. eapply loaded_texts; eauto.
  - destruct X as (z & L & N). destruct (loaded_ints cf f _ z Hf B L) as [Q|(nm & fd & X1 & X2 & ->)]; [left|right; exists nm, fd; auto].
    exists z. split; [exact L|]. destruct (Z.le_gt_cases (2 ^ 63) z) as [Y|Y]; [exact Y|]. exfalso. apply N. split; assumption.
Qed.
(** The file of C66_unnamed_refuted is an example for the KeyError. *)
Example C66_exceptions_ex : exists o o' d', init_file 9 (fun _ => lit "abc") cf0 d5 n_file None true = Some (Ok o) /\ save no_fault false o d5 = (Err KeyError, o', d').
Proof.
  assert (X : match init_file 9 (fun _ => lit "abc") cf0 d5 n_file None true with
              | Some (Ok o) => match fst (fst (save no_fault false o d5)) with Err KeyError => true | _ => false end | _ => false end = true) by (vm_compute; reflexivity).
  destruct (init_file _ _ _ _ _ _ _) as [[o|]|]; try discriminate X. destruct (save no_fault false o d5) as [[r o'] d'] eqn:S. cbn [fst] in X.
  destruct r as [|[]]; try discriminate X. exists o, o', d'. auto.
Qed.

(** ** delete *)
(** The exceptions of delete(): that of a statement that failed for a reason outside the program, and the KeyError
    of an object that is not in the database. *)
Theorem C31_exceptions : forall F o d e o' d', good d -> delete F o d = (Err e, o', d') -> (exists n, F n = Some e) \/ (e = KeyError /\ o_pk o = None).
Proof.
  intros F o d e o' d' G E. unfold delete in E. destruct (o_pk o) as [k|] eqn:P; [|right; split; [congruence|reflexivity]]. left.
  destruct (F O) as [e0|] eqn:F0; [exists O; congruence|]. destruct (C31_delete d o k G P) as (d1 & D & _).
  unfold delete in D. rewrite P in D. cbn [no_fault] in D. destruct (sql_delete d (lit "ULog") [(lit "Id", CInt k)]) as [d2|e1]; [|discriminate D].
  destruct (F 1%nat) as [e1|] eqn:F1; [exists 1%nat; congruence|discriminate E].
Qed.
Example C31_exceptions_ex : delete no_fault (mkObj None (lit "abc") false ulog0) d5 = (Err KeyError, mkObj None (lit "abc") false ulog0, d5).
Proof. reflexivity. Qed.
