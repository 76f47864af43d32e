(** Property C65: exactly which logs can be saved. *)
From Verif Require Import Base Dict PyStr PyFloat Struct ModelTypes ModelApi Sql Schema5 ModelDb SpecDb SpecStorable.
From Verif Require Import ProofsDb ProofsSave ProofsFwd ProofsStorable ProofsReload ProofsHist Samples SamplesWrite PropsDb.

(** save() of a new log returns exactly when the log can be stored, its hash is a text and no log has it. *)
Theorem C65_exact : forall o d, good d ->
  (exists o' d', save no_fault false o d = (Ok tt, o', d')) <->
  o_pk o = None /\ storable (o_log o) /\ no_surrogate (o_sha o) /\ ~ has_hash d (o_sha o).
Proof.
  intros o d G. split.
  - intros (o' & d' & E). unfold save in E. destruct (o_pk o) eqn:P; [discriminate|]. split; [reflexivity|].
    destruct (primary_key_from_sha256sum d (o_sha o)) as [[k|]|] eqn:H; try discriminate.
    destruct (save_tx_cases no_fault false o d G) as [(e & E')|[(e & E')|(r & d1 & N & d'' & E' & X)]]; rewrite E' in E; try discriminate.
    destruct (tx_storable _ _ _ _ _ _ _ X) as (S & Ns). split; [exact S|]. split; [exact Ns|].
    intros Hh. destruct (hash_found d _ G Hh) as (r0 & k & E0 & _). congruence.
  - intros (P & S & Ns & Nh). destruct (save_storable false o d G S Ns ltac:(discriminate) (hash_absent _ _ G Nh)) as (r & d1 & N & d' & E & _).
    eexists _, d'. unfold save. rewrite P, (hash_absent _ _ G Nh). exact E.
Qed.
(** Whatever fails and with or without JSON copies: what was saved could be stored. *)
Theorem C65_saved : forall F json o d o' d', good d -> save F json o d = (Ok tt, o', d') ->
  o_pk o = None /\ storable (o_log o) /\ no_surrogate (o_sha o) /\ ~ has_hash d (o_sha o) /\ F O = None.
Proof.
  intros F json o d o' d' G E. unfold save in E. destruct (o_pk o) eqn:P; [discriminate|]. split; [reflexivity|].
  destruct (primary_key_from_sha256sum d (o_sha o)) as [[k|]|] eqn:H; try discriminate.
  assert (F0 : F O = None).
  { unfold save_tx in E. destruct (ins F (O, d) (lit "ULog") _ _) as [[pk s]|e] eqn:E0; [|discriminate]. unfold ins in E0.
    destruct (mapM (fun x => x) _) as [v|]; [|discriminate]. cbn [bind fst] in E0. destruct (F O); [discriminate|reflexivity]. }
  destruct (save_tx_cases F json o d G) as [(e & E')|[(e & E')|(r & d1 & N & d'' & E' & X)]]; rewrite E' in E; try discriminate.
  destruct (tx_storable _ _ _ _ _ _ _ X) as (S & Ns). split; [exact S|]. split; [exact Ns|]. split; [|exact F0].
  intros Hh. destruct (hash_found d _ G Hh) as (r0 & k & E0 & _). congruence.
Qed.
(** With JSON copies it returns exactly when moreover every field has times and no copied value is minus infinity. *)
Theorem C65_json : forall o d, good d ->
  (exists o' d', save no_fault true o d = (Ok tt, o', d')) <->
  o_pk o = None /\ storable (o_log o) /\ no_surrogate (o_sha o) /\ ~ has_hash d (o_sha o) /\ Forall json_dataset (u_data (o_log o)).
Proof.
  intros o d G. split.
  - intros (o' & d' & E). destruct (C65_saved _ _ _ _ _ _ G E) as (P & S & Ns & Nh & _). repeat (split; [assumption|]).
    unfold save in E. rewrite P, (hash_absent _ _ G Nh) in E. exact (save_tx_json _ _ _ _ _ E).
  - intros (P & S & Ns & Nh & J). destruct (save_storable true o d G S Ns (fun _ => J) (hash_absent _ _ G Nh)) as (r & d1 & N & d' & E & _).
    eexists _, d'. unfold save. rewrite P, (hash_absent _ _ G Nh). exact E.
Qed.
(** In particular when there is a column of times and minus infinity nowhere ... *)
Theorem C65_json_plain : forall o d, good d -> o_pk o = None -> storable (o_log o) -> no_surrogate (o_sha o) -> ~ has_hash d (o_sha o) ->
  Forall (fun ds => (exists ts, sget (lit "timestamp") (ds_data ds) = Some ts) /\
    Forall (fun nc => Forall (fun x => np_elem (c_type (snd nc)) x <> VFloat 18442240474082181120) (c_raw (snd nc))) (ds_data ds)) (u_data (o_log o)) ->
  exists o' d', save no_fault true o d = (Ok tt, o', d').
Proof.
  intros o d G P S Ns Nh J. apply C65_json; [exact G|]. repeat (split; [assumption|]). eapply Forall_impl; [|exact J]. cbv beta. intros ds ((ts & Et) & Fv).
  apply Forall_forall. intros f _. exists ts. split; [exact Et|]. intros c C a t x b E _. apply (dget_In _ str_eqb_spec) in C.
  rewrite Forall_forall in Fv. specialize (Fv _ C). cbn [snd] in Fv. rewrite Forall_forall in Fv. apply Fv.
  apply (in_combine_r (c_raw ts) _ t). rewrite E. apply in_elt.
Qed.
(** A log that is refused leaves the database as it was (C32), so the same object can be corrected and saved. *)
Theorem C65_refused : forall F json o d, good d -> o_pk o = None -> ~ storable (o_log o) -> exists e o', save F json o d = (Err e, o', d).
Proof.
  intros F json o d G P N. destruct (save F json o d) as [[r o'] d'] eqn:E. destruct r as [[]|e].
  - destruct (C65_saved _ _ _ _ _ _ G E) as (_ & S & _). contradiction.
  - exists e, o'. f_equal. destruct (C32_database_partial _ _ _ _ _ _ _ G E) as (D & _). exact D.
Qed.
(** The log of C29 can be stored; so can one that does not come back as it was (a parameter that is NaN),
    and not one whose file starts after 2^63 microseconds. *)
Example C65_ex : good d5 /\ storable s_obj /\ ~ has_hash d5 (lit "abc").
Proof. split; [auto using fresh_good, d5_fresh|]. split; [apply fits_storable, s_fits_db|apply d5_no_hash]. Qed.
Definition s_nan : ulog := set_params [(lit "P", VFloat 9221120237041090560)] ulog0.
Example C65_ex_nan : storable s_nan /\ ~ fits_db s_nan.
Proof.
  split.
  - split; unfold int64; cbn; repeat (first [apply Forall_nil | apply NoDup_nil | apply Forall_cons | split]); try lia; try exact I; repeat (apply Forall_cons; [lia|]); try apply Forall_nil.
  - intros H. destruct (ft_params _ H) as (_ & F). inversion F as [|? ? (_ & V) _]; subst. cbn in V. discriminate.
Qed.
Example C65_ex_late : ~ storable (set_start (2 ^ 63) ulog0).
Proof. intros H. destruct (st_head _ H) as (_ & S & _). unfold int64 in S. cbn in S. lia. Qed.
(** Minus infinity in the only sample refuses the copy; an earlier sample of the same time does not. *)
Definition s_minus (times values : list Z) : ulog :=
  set_data [mkDS 0 1 (lit "t") [mkFD (lit "timestamp") U64; mkFD (lit "x") F32] 0
    [(lit "timestamp", mkCol (NI 8 false) times); (lit "x", mkCol (NF 4) values)]] ulog0.
Example C65_ex_minus : ~ Forall json_dataset (u_data (s_minus [5] [4286578688])) /\
  Forall json_dataset (u_data (s_minus [5; 5] [4286578688; 0])).
Proof.
  split.
  - intros H. cbn [u_data s_minus set_data] in H. apply Forall_cons_iff in H as [H _]. unfold json_dataset in H. cbn [ds_fields] in H.
    apply Forall_cons_iff in H as [_ H]. apply Forall_cons_iff in H as [(ts & Et & H) _]. injection Et as <-.
    specialize (H _ eq_refl [] 5 4286578688 [] eq_refl (fun x => x)). apply H. reflexivity.
  - apply Forall_cons; [|apply Forall_nil]. unfold json_dataset. cbn [ds_fields].
    repeat (apply Forall_cons; [|try apply Forall_nil]); (eexists; split; [reflexivity|]); intros c E; injection E as <-; intros a t x b Eb N; [cbn; discriminate|].
    cbn [c_raw combine] in Eb. destruct a as [|p [|q [|r a]]]; cbn [app] in Eb; try discriminate.
    + injection Eb as <- <- <-. elim N. now left.
    + injection Eb as _ _ <- _. cbn. discriminate.
Qed.
