(** Property C54: several connections to one database. *)
From Verif Require Import Base Dict PyStr PyFloat PySort Struct ModelTypes ModelApi Sql Schema5 ModelDb ModelConc SpecDb SpecHist SpecConc
  ProofsDb ProofsDel ProofsFrame ProofsSave ProofsHist ProofsConc ProofsTorn PropsDb.

(** The statements of opening by key, run on one database, are the function the other properties speak about. *)
Theorem C54_statements : forall d k lazy, alone (open_key_p k lazy) d = open_key d k lazy.
Proof. intros. apply alone_open. Qed.

(** Processes that save and delete, in any order and with the look for the hash at any time before: the database is
    the map that the successful operations give. *)
Theorem C54_map : forall d es, creached d es ->
  (forall k sha u lazy, In (k, (sha, u)) (stored_logs es) -> fits_db u ->
     open_key d k lazy = Ok (mkObj (Some k) sha lazy (loaded_as u lazy))) /\
  (forall k lazy, ~ In k (map fst (stored_logs es)) -> open_key d k lazy = Err KeyError) /\
  NoDup (map fst (stored_logs es)) /\ NoDup (saved_keys es).
Proof.
  intros d es R. pose proof (creached_inv _ _ R) as I. split; [|split; [|split]].
  - intros k sha u lazy H FT. rewrite open_key_load by apply (iv_version _ _ I). eapply kept_load; eauto; [apply (iv_good _ _ I)|].
    eapply inv_kept; eauto.
  - intros k lazy H. rewrite open_key_load by apply (iv_version _ _ I). apply (log_absent d k); auto; [apply (iv_good _ _ I)|]. now rewrite (iv_keys _ _ I).
  - apply (iv_nodup _ _ I).
  - apply (iv_once _ _ I).
Qed.
(** No two stored logs have one hash. *)
Theorem C54_hashes : forall d es, creached d es -> forall k1 k2 sha u1 u2,
  In (k1, (sha, u1)) (stored_logs es) -> In (k2, (sha, u2)) (stored_logs es) -> k1 = k2.
Proof.
  intros d es R k1 k2 sha u1 u2 H1 H2. pose proof (creached_inv _ _ R) as I. pose proof (iv_good _ _ I) as G.
  pose proof (kept_hash _ _ _ _ G (inv_kept _ _ _ _ _ I H1)) as E1. pose proof (kept_hash _ _ _ _ G (inv_kept _ _ _ _ _ I H2)) as E2. congruence.
Qed.
(** A save that lost the race, because the log came into the database after the look, raises and changes neither the
    database nor the object ... *)
Theorem C54_race : forall d es F json o k u, creached d es -> In (k, (o_sha o, u)) (stored_logs es) ->
  exists e, save_tx F json o d = (Err e, o, d).
Proof.
  intros d es F json o k u R H. pose proof (creached_inv _ _ R) as I. apply tx_dup; [apply (iv_good _ _ I)|]. eapply kept_has_hash, inv_kept; eauto.
Qed.
(** ... but not the KeyError that save documents. *)
Theorem C54_race_refuted : forall d es json o k u, creached d es -> In (k, (o_sha o, u)) (stored_logs es) -> fits_db (o_log o) -> no_surrogate (o_sha o) ->
  save_tx no_fault json o d = (Err IntegrityError, o, d).
Proof.
  intros d es json o k u R H FT Ns. pose proof (creached_inv _ _ R) as I. apply tx_dup_error; auto; [apply (iv_good _ _ I)|]. eapply kept_has_hash, inv_kept; eauto.
Qed.

(** Opening a log while others save and delete other logs is as with the database alone. *)
Theorem C54_apart : forall w es k lazy others r w' es', creached (w_db w) es -> among (open_key_p k lazy) w others 0 = (r, w', es') ->
  (forall sha u, ~ In (Saved k sha u) es') -> ~ In (Deleted k) es' -> r = open_key (w_db w) k lazy.
Proof.
  intros w es k lazy others r w' es' R E Ns Nd. pose proof (creached_inv _ _ R) as I. pose proof (iv_good _ _ I) as G.
  assert (Q : Forall (fun e => ~ about k e) es').
  { apply Forall_forall. intros [k' sha u|k'|] He Hk; cbn in Hk; try subst k'; eauto. eapply Ns; eauto. }
  destruct (among_open _ _ _ _ _ _ _ G (iv_version _ _ I) E) as (w1 & es1 & es2 & C & M & ->). apply Forall_app in Q as [Q1 Q2].
  destruct (crun_agree (w_db w) k _ _ _ _ G (agree_refl _ _) C Q1) as [G1 A1].
  rewrite open_key_load by apply (iv_version _ _ I). rewrite <- alone_load. eapply tame_apart; eauto. now apply tame_load.
Qed.
(** In particular a stored log that nobody deletes comes back whole. *)
Theorem C54_stored : forall w es k sha u lazy others r w' es', creached (w_db w) es -> In (k, (sha, u)) (stored_logs es) -> fits_db u ->
  among (open_key_p k lazy) w others 0 = (r, w', es') -> ~ In (Deleted k) es' -> r = Ok (mkObj (Some k) sha lazy (loaded_as u lazy)).
Proof.
  intros w es k sha u lazy others r w' es' R H FT E Nd. destruct (C54_map _ _ R) as (M & _). rewrite <- (M k sha u lazy H FT).
  eapply C54_apart; eauto. pose proof (among_inv _ _ _ _ _ _ _ _ (creached_inv _ _ R) E) as I'.
  eapply saved_once; [apply (iv_once _ _ I')|]. apply stored_saved. now apply (in_map fst) in H.
Qed.
(** Nobody sees a part of a log that is being saved: without deletions of the log, it is as before or as after. *)
Theorem C54_atomic : forall w es k lazy others r w' es', creached (w_db w) es -> among (open_key_p k lazy) w others 0 = (r, w', es') ->
  ~ In (Deleted k) es' -> r = open_key (w_db w) k lazy \/ r = open_key (w_db w') k lazy.
Proof.
  intros w es k lazy others r w' es' R E Nd. pose proof (creached_inv _ _ R) as I. pose proof (iv_good _ _ I) as G.
  destruct (in_dec Z.eq_dec k (map fst (stored_logs es))) as [Hk|Hk].
  { left. eapply C54_apart; eauto. pose proof (among_inv _ _ _ _ _ _ _ _ I E) as I'.
    eapply saved_once; [apply (iv_once _ _ I')|]. now apply stored_saved. }
  pose proof (among_inv _ _ _ _ _ _ _ _ I E) as I'.
  destruct (among_open _ _ _ _ _ _ _ G (iv_version _ _ I) E) as (w1 & es1 & es2 & C & M & ->). pose proof (crun_inv _ _ _ _ _ I C) as I1.
  rewrite !open_key_load by (apply (iv_version _ _ I) || apply (iv_version _ _ I')).
  set (o := mkObj (Some k) [] lazy ulog0) in *.
  destruct (crun w1 (others 1%nat)) as [w2 es3] eqn:C2. pose proof (crun_inv _ _ _ _ _ I1 C2) as I2. pose proof (iv_good _ _ I2) as G2.
  pose proof (tame_load (w_db w2) k G2 o lazy eq_refl) as T. pose proof (alone_load o lazy (w_db w2)) as AL.
  destruct (in_dec Z.eq_dec k (map fst (stored_logs ((es ++ es1) ++ es3)))) as [H2|H2].
  - right. remember (load_p o lazy) as p eqn:Ep. destruct p as [|q f]; [unfold load_p, o, ask in Ep; cbn in Ep; discriminate|]. cbn [tame among alone] in T, M, AL. rewrite C2 in M.
    destruct T as (_ & _ & (rows & Eq & T) & _). rewrite Eq in M, AL. destruct (among (f rows) w2 others 2) as [[r2 w3] es4] eqn:M2. injection M as <- <- <-.
    assert (Q : Forall (fun e => ~ about k e) es4).
    { apply Forall_forall. intros [k' sha u|k'|] He Hk'; cbn in Hk'; try subst k'.
      - revert He. eapply (saved_once ((es ++ es1) ++ es3)); [|apply stored_saved; exact H2]. pose proof (iv_once _ _ I') as N. now rewrite !app_assoc in N.
      - apply Nd. apply in_or_app. right. apply in_or_app. now right.
      - exact Hk'. }
    rewrite (tame_apart (w_db w2) k (f rows) others w2 2 r2 w3 es4 T G2 (agree_refl _ _) M2 Q).
    destruct (among_agree (w_db w2) k (f rows) others w2 2 r2 w3 es4 G2 (agree_refl _ _) M2 Q) as [G3 A3].
    rewrite AL. apply (load_same _ _ k G2 (gd_defs _ G3) A3). reflexivity.
  - left. rewrite (log_absent (w_db w) k G) by (auto; now rewrite (iv_keys _ _ I)).
    unfold load_p, o, ask in M. cbn [o_pk pbind among] in M. rewrite C2 in M.
    rewrite select_log in M by (try apply (gd_defs _ G2); reflexivity).
    assert (log_rows (w_db w2) k = []) as E0.
    { unfold log_rows. apply filter_none. intros x Hx. apply not_true_is_false. intros X. apply log_id in X. apply H2. apply (iv_keys _ _ I2). apply row_ids_In. eauto. }
    rewrite E0 in M. cbn [map length Nat.eqb negb among] in M. now injection M as <- _ _.
Qed.
Lemma stored_phase d es k sha u : inv d es -> In (k, (sha, u)) (stored_logs es) -> phase d k d.
Proof.
  intros I H. split; [apply (iv_good _ _ I)|]. split; [|left; apply agree_refl]. pose proof (iv_saved _ _ I) as S0. rewrite Forall_forall in S0. apply S0. apply stored_saved.
  now apply (in_map fst) in H.
Qed.
(** A log that is deleted while it is opened gives an exception, or an object that may lack parts; it has nothing
    that is not of the log. *)
Theorem C54_torn_partial : forall w es k sha u lazy others r w' es', creached (w_db w) es -> In (k, (sha, u)) (stored_logs es) -> fits_db u ->
  among (open_key_p k lazy) w others 0 = (r, w', es') ->
  r = Err KeyError \/ r = Err TypeError \/
  exists o, r = Ok o /\ o_pk o = Some k /\ o_lazy o = lazy /\ o_sha o = sha /\ remains (loaded_as u lazy) (o_log o).
Proof.
  intros w es k sha u lazy others r w' es' R H FT E. pose proof (creached_inv _ _ R) as I. pose proof (iv_good _ _ I) as G.
  destruct (C54_map _ _ R) as (Mp & _). pose proof (Mp k sha u lazy H FT) as Eo. rewrite open_key_load in Eo by apply (iv_version _ _ I).
  destruct (among_open _ _ _ _ _ _ _ G (iv_version _ _ I) E) as (w1 & es1 & es2 & C & M & ->).
  assert (Ph : phase (w_db w) k (w_db w)).
  { split; auto. split; [|left; apply agree_refl]. pose proof (iv_saved _ _ I) as S0. rewrite Forall_forall in S0. apply S0. apply stored_saved. now apply (in_map fst) in H. }
  pose proof (crun_phase _ _ _ _ _ _ Ph C) as Ph1. pose proof (tame_among _ k _ _ _ _ _ _ _ (tame_load _ k G (mkObj (Some k) [] lazy ulog0) lazy eq_refl) Ph1 M) as My.
  rewrite <- alone_load in Eo. destruct (cut_load (w_db w) k lazy _ Eo _ My) as [X|[X|(o & -> & H1 & H2 & H3 & H4)]]; auto.
  right. right. exists o. split; auto.
Qed.

(** In the order in which the parts are read: behind a part that is not whole there is nothing. The datasets are all there, or
    none, or all with only the columns of the last one missing. *)
Theorem C54_torn_order : forall w es k sha u lazy others o w' es', creached (w_db w) es -> In (k, (sha, u)) (stored_logs es) -> fits_db u ->
  among (open_key_p k lazy) w others 0 = (Ok o, w', es') ->
  read_in_order (loaded_as u lazy) (o_log o) /\ last_missing (u_data (loaded_as u lazy)) (u_data (o_log o)).
Proof.
  intros w es k sha u lazy others o w' es' R H FT E. pose proof (creached_inv _ _ R) as I. pose proof (iv_good _ _ I) as G.
  destruct (C54_map _ _ R) as (Mp & _). pose proof (Mp k sha u lazy H FT) as Eo. rewrite open_key_load in Eo by apply (iv_version _ _ I).
  destruct (among_open _ _ _ _ _ _ _ G (iv_version _ _ I) E) as (w1 & es1 & es2 & C & M & ->).
  pose proof (crun_phase _ _ _ _ _ _ (stored_phase _ _ _ _ _ I H) C) as Ph1. rewrite <- alone_load in Eo.
  destruct (among_torn _ k _ _ _ _ _ _ _ (tame_load _ k G (mkObj (Some k) [] lazy ulog0) lazy eq_refl) Ph1 M) as [X|X].
  - rewrite Eo in X. injection X as ->. cbn [o_log]. split; [|now left]. repeat (split; [left; first [reflexivity|split; reflexivity]|]). exact Logic.I.
  - exact (tear_load _ _ _ _ _ Eo X).
Qed.
(** Exactly: every open of a stored log gives what it gives when the log is deleted before some statement and nothing else
    happens ... *)
Theorem C54_torn_law : forall w es k sha u lazy others r w' es' o d', creached (w_db w) es -> In (k, (sha, u)) (stored_logs es) ->
  among (open_key_p k lazy) w others 0 = (r, w', es') -> o_pk o = Some k -> delete no_fault o (w_db w) = (Ok tt, set_pk None o, d') ->
  exists n, r = split_at (open_key_p k lazy) n (w_db w) d'.
Proof.
  intros w es k sha u lazy others r w' es' o d' R H E P D. pose proof (creached_inv _ _ R) as I. pose proof (iv_good _ _ I) as G. pose proof (iv_version _ _ I) as V.
  destruct (among_open _ _ _ _ _ _ _ G V E) as (w1 & es1 & es2 & C & M & ->). pose proof (stored_phase _ _ _ _ _ I H) as Ph.
  pose proof (crun_phase _ _ _ _ _ _ Ph C) as Ph1. unfold delete in D. rewrite P in D. cbn [no_fault] in D.
  destruct (sql_delete_log _ k G) as (d1 & Ed & Cu). rewrite Ed in D. injection D as ->.
  pose proof (cuts_good _ _ _ G Cu) as Gd. assert (Go : gone (w_db w) d' k) by (destruct Ph as (_ & K & _); exact (cuts_gone_all _ _ _ _ G (agree_refl _ _) K Cu)).
  pose proof (tame_load _ k G (mkObj (Some k) [] lazy ulog0) lazy eq_refl) as T.
  assert (N : exists n, r = split_at (load_p (mkObj (Some k) [] lazy ulog0) lazy) n (w_db w) d').
  { destruct (among_torn _ k _ _ _ _ _ _ _ T Ph1 M) as [X|X]; [rewrite X; now apply (alone_split _ k)|now apply (tear_split _ k)]. }
  destruct N as (n & ->). exists (S n). unfold open_key_p, ask. cbn [pbind split_at pred]. now rewrite V, Z.ltb_irrefl.
Qed.
(** ... and each of these can happen. *)
Definition at_statement (n : nat) (cs : list cop) (m : nat) : list cop := if Nat.eqb m n then cs else [].
Theorem C54_torn_possible : forall w i o k lazy n d', nth_error (w_objs w) i = Some o -> o_pk o = Some k ->
  delete no_fault o (w_db w) = (Ok tt, set_pk None o, d') ->
  exists w' es', among (open_key_p k lazy) w (at_statement n [CDo (ODelete i no_fault)]) 0 = (split_at (open_key_p k lazy) n (w_db w) d', w', es').
Proof.
  intros w i o k lazy n d' Ei P D. generalize (open_key_p k lazy). intros p.
  assert (St : crun w [CDo (ODelete i no_fault)] = (mkW d' (put i (set_pk None o) (w_objs w)), [Deleted k])).
  { cbn [crun cstep step]. now rewrite Ei, D, P. }
  assert (A : forall (p : prog dbulog) w1 m d, (n < m)%nat -> exists w' es', among p w1 (at_statement n [CDo (ODelete i no_fault)]) m = (split_at p 0 d (w_db w1), w', es')).
  { clear p. induction p as [r|q f IH]; intros w1 m d Hm; cbn [among split_at pred]; [eauto|]. unfold at_statement at 1. destruct (Nat.eqb_spec m n); [lia|]. cbn [crun].
    destruct (q (w_db w1)) as [rows|e]; [|eauto]. destruct (IH rows w1 (S m) d) as (w2 & es2 & ->); [lia|]. cbn [app]. eauto. }
  assert (B : forall (p : prog dbulog) m j, (m + j)%nat = n -> exists w' es', among p w (at_statement n [CDo (ODelete i no_fault)]) m = (split_at p j (w_db w) d', w', es')).
  { clear p. induction p as [r|q f IH]; intros m j Hm; cbn [among split_at]; [eauto|]. unfold at_statement at 1. destruct j as [|j]; cbn [pred].
    - replace (Nat.eqb m n) with true by (symmetry; apply Nat.eqb_eq; lia). rewrite St. cbn [w_db]. destruct (q d') as [rows|e]; [|eauto].
      destruct (A (f rows) (mkW d' (put i (set_pk None o) (w_objs w))) (S m) (w_db w)) as (w2 & es2 & X); [lia|]. cbn [w_db] in X. rewrite X. eauto.
    - destruct (Nat.eqb_spec m n); [lia|]. cbn [crun]. destruct (q (w_db w)) as [rows|e]; [|eauto]. destruct (IH rows (S m) j) as (w2 & es2 & ->); [lia|]. cbn [app]. eauto. }
  apply (B p O n). lia.
Qed.

(** ** Concrete cases *)
Definition t_log : ulog := set_dropouts [mkDrop 5 100] (set_params [(lit "P", VInt 3)] ulog0).
Definition t_start : world := mkW d5 [mkObj None (lit "abc") false t_log; mkObj None (lit "abc") false t_log].
Definition t_world : world := fst (crun t_start [CCommit 0 no_fault false]).
Lemma t_creached : exists es, creached (w_db t_world) es /\ In (1, (lit "abc", t_log)) (stored_logs es).
Proof.
  exists (snd (crun t_start [CCommit 0 no_fault false])). split.
  - exists d5, (w_objs t_start), [CCommit 0 no_fault false], t_world. split; [apply d5_fresh|]. split; [|reflexivity]. vm_compute. reflexivity.
  - vm_compute. now left.
Qed.
(** A delete between the statement for the parts before the dropouts and the one for them: the opened object has no
    dropouts and no parameters, and there was no exception. *)
Theorem C54_torn_refuted : exists o w' es', among (open_key_p 1 false) t_world (at_statement 5 [CDo (ODelete 0 no_fault)]) 0 = (Ok o, w', es') /\
  u_dropouts (o_log o) = [] /\ u_params (o_log o) = [] /\
  open_key (w_db t_world) 1 false = Ok (mkObj (Some 1) (lit "abc") false t_log) /\ u_dropouts t_log <> [] /\ u_params t_log <> [] /\
  open_key (w_db w') 1 false = Err KeyError.
Proof.
  do 3 eexists. split; [vm_compute; reflexivity|]. split; [reflexivity|]. split; [reflexivity|]. split; [vm_compute; reflexivity|].
  split; [discriminate|]. split; [discriminate|]. vm_compute. reflexivity.
Qed.
(** ... and right after the look for the key, a TypeError. *)
Theorem C54_type_refuted : exists w' es', among (open_key_p 1 false) t_world (at_statement 2 [CDo (ODelete 0 no_fault)]) 0 = (Err TypeError, w', es').
Proof. do 2 eexists. vm_compute. reflexivity. Qed.
(** The second save of the same file: both found it absent, one is stored. *)
Example C54_race_ex : exists w es, crun t_start [CCommit 0 no_fault false; CCommit 1 no_fault false] = (w, es) /\
  es = [Saved 1 (lit "abc") t_log; Other] /\ map o_pk (w_objs w) = [Some 1; None].
Proof. do 2 eexists. split; [vm_compute; reflexivity|]. split; reflexivity. Qed.
(** Another log saved, and deleted again, between the statements. *)
Example C54_apart_ex : exists r w' es', among (open_key_p 1 false) t_world (fun n => if Nat.eqb n 3 then [CDo (OFile (lit "x") (Ok t_log) false); CDo (OSave 2 no_fault false)]
    else if Nat.eqb n 5 then [CDo (ODelete 2 no_fault)] else []) 0 = (r, w', es') /\ es' = [Other; Saved 2 (lit "x") t_log; Deleted 2] /\ r = open_key (w_db t_world) 1 false.
Proof. do 3 eexists. split; [vm_compute; reflexivity|]. split; [reflexivity|]. vm_compute. reflexivity. Qed.
(** A delete before the dropouts are read: the later parts are empty. *)
Example C54_torn_ex : exists o w' es', among (open_key_p 1 false) t_world (at_statement 5 [CDo (ODelete 0 no_fault)]) 0 = (Ok o, w', es') /\
  (u_dropouts (o_log o) = u_dropouts t_log -> False) /\ u_params (o_log o) = [] /\
  exists d', delete no_fault (mkObj (Some 1) (lit "abc") false t_log) (w_db t_world) = (Ok tt, set_pk None (mkObj (Some 1) (lit "abc") false t_log), d') /\
  Ok o = split_at (open_key_p 1 false) 5 (w_db t_world) d'.
Proof.
  do 3 eexists. split; [vm_compute; reflexivity|]. split; [discriminate|]. split; [reflexivity|]. eexists. split; [vm_compute; reflexivity|]. vm_compute. reflexivity.
Qed.
