(** Exact laws for C32 (the key of an object after a failed save) and C36 (loading twice). *)
From Verif Require Import Base Dict PyStr PyFloat PySort Struct ModelTypes Sql Schema5 ModelDb SpecDb SpecHist Samples SamplesWrite.
From Verif Require ProofsFwd ProofsFrame.
From Verif Require Import ProofsDb ProofsDel ProofsSave ProofsHist ProofsCache ProofsAgain PropsDb.

(** ** C32 *)
(** The key after a failed save, in every reachable database: as before; or, for an object without key
    whose hash is stored, that of the log with this hash; or else the key that no log has and that
    the next save to succeed, of whatever object, will give. *)
Theorem C32_key : forall d es F json o e o' d', reached d es -> save F json o d = (Err e, o', d') ->
  o_pk o' = o_pk o \/
  o_pk o = None /\ exists k, o_pk o' = Some k /\
    ((e = KeyError /\ exists u, In (k, (o_sha o, u)) (stored_logs es)) \/
     ((forall k' u, ~ In (k', (o_sha o, u)) (stored_logs es)) /\ ~ In k (map fst (stored_logs es)) /\
      forall F2 json2 o2 o2' d2, save F2 json2 o2 d = (Ok tt, o2', d2) -> o_pk o2' = Some k)).
Proof.
  intros d es F json o e o' d' R E. pose proof (reached_inv _ _ R) as I. pose proof (iv_good _ _ I) as G.
  unfold save in E. destruct (o_pk o) as [k|] eqn:P; [left; apply (f_equal (fun x => snd (fst x))) in E; cbn [fst snd] in E; subst o'; exact P|].
  destruct (C33_hashes d es R) as (_ & Hin & Hout).
  destruct (primary_key_from_sha256sum d (o_sha o)) as [[k|]|e1] eqn:H.
  - right. split; [reflexivity|]. exists k. injection E as <- <- <-. split; [reflexivity|]. left. split; [reflexivity|].
    destruct (ProofsFwd.find_sha d (o_sha o) G) as [(E0 & _)|(r0 & k0 & E0 & Hr & _ & Es)]; rewrite H in E0; [discriminate|].
    destruct (inv_hash d es (o_sha o) I (ex_intro _ r0 (conj Hr Es))) as (k1 & u & Hu). pose proof (Hin _ _ _ Hu) as E1. rewrite H in E1. injection E1 as ->. now exists u.
  - destruct (save_tx_cases F json o d G) as [(e1 & X)|[(e1 & X)|(r & d1 & N & d2 & X & _)]]; rewrite X in E; [left; injection E as _ <- _; exact P| |discriminate].
    right. split; [reflexivity|]. exists (next_key d). injection E as _ <- _. split; [reflexivity|]. right. split; [|split].
    + intros k' u Hu. rewrite (Hin _ _ _ Hu) in H. discriminate.
    + intros Hk. apply (iv_keys _ _ I) in Hk. pose proof (good_id_bound _ _ _ G par_log Hk) as B. unfold next_key in B. lia.
    + intros F2 json2 o2 o2' d2 E2. destruct (save_cases F2 json2 o2 d G) as [(e3 & o3 & E3 & _)|(r & d1 & N & d3 & E3 & _)]; rewrite E3 in E2; [discriminate|].
      injection E2 as <- _. reflexivity.
  - left. injection E as _ <- _. exact P.
Qed.

(** ... so that in every case delete() of an object whose save failed (no statement failing) removes nothing, or a log
    that was saved from another object. *)
Theorem C32_delete_after : forall d es F json o e o' d' k, reached d es -> o_pk o = None -> save F json o d = (Err e, o', d') -> o_pk o' = Some k ->
  exists d2, delete no_fault o' d = (Ok tt, set_pk None o', d2) /\ open_key d2 k false = Err KeyError /\
    (forall k' lazy, k' <> k -> open_key d2 k' lazy = open_key d k' lazy).
Proof.
  intros d es F json o e o' d' k R P E K. pose proof (reached_inv _ _ R) as I. pose proof (iv_good _ _ I) as G.
  destruct (sql_delete_log d k G) as (d2 & E2 & C). exists d2. split; [unfold delete; rewrite K, E2; reflexivity|]. split.
  - unfold open_key. rewrite (ct_ver _ _ _ C), (iv_version _ _ I), Z.ltb_irrefl. eapply log_absent; [eapply cuts_good; eauto| |reflexivity]. eapply cuts_gone; eauto.
  - intros k' lazy Ne. unfold open_key. rewrite (ct_ver _ _ _ C). destruct (_ <? _); [reflexivity|].
    symmetry. apply (ProofsFrame.load_same d d2 k' G (gd_defs _ (cuts_good _ _ _ G C)) (cuts_agree _ _ _ _ G C Ne)). reflexivity.
Qed.
(** Three failures: of the first statement, for a stored hash, and of the second statement. *)
Example C32_ex_key : exists d es, reached d es /\
  o_pk (snd (fst (save (fail_at 0) false (mkObj None (lit "x") false s_obj) d))) = None /\
  o_pk (snd (fst (save no_fault false (mkObj None (lit "abc") false s_obj) d))) = Some 1 /\
  o_pk (snd (fst (save (fail_at 1) false (mkObj None (lit "x") false s_obj) d))) = Some 2.
Proof.
  exists (w_db (fst (run (mkW d5 []) (firstn 2 ops1)))). eexists. split; [exact (ex_intro _ d5 (ex_intro _ [] (ex_intro _ (firstn 2 ops1) (ex_intro _ _ (conj d5_fresh (conj (surjective_pairing _) eq_refl))))))|].
  vm_compute. auto.
Qed.

(** ** C36 *)
(** What a second load adds, completely: the dictionaries of scalars and texts, the scalars and the datasets stay (C36_load_partial),
    the lists double (C36_lists_refuted), and so do the messages of each tag and the fields of each format. *)
Theorem C36_grouped : forall d k lazy0 o lazy o', open_key d k lazy0 = Ok o -> load d o lazy = Ok o' ->
  let a := o_log o in let b := o_log o' in
  u_tagged b = map (fun tl => (fst tl, snd tl ++ snd tl)) (u_tagged a) /\
  u_formats b = map (fun nm => (fst nm, mkFmt (mf_name (snd nm)) (mf_fields (snd nm) ++ mf_fields (snd nm)))) (u_formats a) /\
  u_corrupt b = u_corrupt a /\ u_subs b = u_subs a /\ u_filtered b = u_filtered a /\ u_missing b = u_missing a /\ o_lazy o' = lazy.
Proof.
  intros d k lazy0 o lazy o' E1 E2. unfold open_key in E1. destruct (_ <? _); [discriminate|].
  destruct (load_again_grouped d (mkObj (Some k) [] lazy0 ulog0) o o' lazy0 lazy eq_refl E1 E2) as (A & B & C & D & E & F & T & _ & M & _). cbv zeta. auto 10.
Qed.
(** Any number of further loads: [n] in all repeat each list n times, also the messages of each tag and the fields of each
    format; everything else is as after the first one, the datasets if the last load is as lazy as the first. *)
Theorem C36_many : forall d k lazy0 o modes o', open_key d k lazy0 = Ok o -> foldM (load d) modes o = Ok o' ->
  let a := o_log o in let b := o_log o' in let n := S (length modes) in
  (o_pk o' = o_pk o /\ o_sha o' = o_sha o /\
   u_corrupt b = u_corrupt a /\ u_start b = u_start a /\ u_last b = u_last a /\ u_info b = u_info a /\ u_infot b = u_infot a /\ u_multi b = u_multi a /\
   u_multit b = u_multit a /\ u_params b = u_params a /\ u_defaults b = u_defaults a /\ u_version b = u_version a /\ u_compat b = u_compat a /\
   u_incompat b = u_incompat a /\ u_has_sync b = u_has_sync a /\ u_sync_cnt b = u_sync_cnt a /\ u_subs b = u_subs a /\ u_filtered b = u_filtered a /\ u_missing b = u_missing a) /\
  (last modes lazy0 = lazy0 -> u_data b = u_data a) /\
  u_changed b = concat (repeat (u_changed a) n) /\ u_logged b = concat (repeat (u_logged a) n) /\
  u_dropouts b = concat (repeat (u_dropouts a) n) /\ u_offsets b = concat (repeat (u_offsets a) n) /\
  u_tagged b = map (fun tl => (fst tl, concat (repeat (snd tl) n))) (u_tagged a) /\
  u_formats b = map (fun nm => (fst nm, mkFmt (mf_name (snd nm)) (concat (repeat (mf_fields (snd nm)) n)))) (u_formats a).
Proof.
  intros d k lazy0 o modes o' E1 E2. cbv zeta.
  assert (L : loads (S (length modes)) o o' /\ (last modes lazy0 = lazy0 -> u_data (o_log o') = u_data (o_log o))).
  { unfold open_key in E1. destruct (_ <? _); [discriminate|]. revert o' E2. induction modes as [|m modes IH] using rev_ind; intros o' E2.
    - injection E2 as <-. split; [apply loads_1|reflexivity].
    - rewrite foldM_app in E2. destruct (foldM (load d) modes o) as [om|] eqn:Em; [|discriminate]. cbn [bind foldM] in E2.
      destruct (load d om m) as [x|] eqn:Ex; [|discriminate]. cbn [bind] in E2. injection E2 as <-. destruct (IH om eq_refl) as (L & _).
      destruct (loads_step d (mkObj (Some k) [] lazy0 ulog0) o om x lazy0 m (length modes) eq_refl E1 L Ex) as (A & B & _).
      rewrite app_length, Nat.add_comm. rewrite last_last. split; [exact A|exact B]. }
  destruct L as ((L1 & L2 & L3 & L4 & L5 & L6 & L7 & L8 & L9 & L10 & L11 & L12 & L13 & L14 & L15 & L16 & L17 & L18 & L19 & L20 & L21 & L22 & L23 & L24 & L25) & Ld).
  repeat (split; [first [assumption|repeat (split; [assumption|]); assumption]|]). exact L25.
Qed.
(** ... and they all succeed. *)
Theorem C36_succeeds : forall d k lazy o n, open_key d k lazy = Ok o -> exists o', foldM (load d) (repeat lazy n) o = Ok o'.
Proof.
  intros d k lazy o n E. unfold open_key in E. destruct (_ <? _); [discriminate|]. pose proof (load_pk _ _ _ _ E) as P. cbn [o_pk] in P.
  assert (G : forall x, o_pk x = Some k -> exists o', foldM (load d) (repeat lazy n) x = Ok o'); [|auto].
  induction n as [|n IH]; intros x Px; [now exists x|]. cbn [repeat foldM].
  destruct (load_succeeds d _ x o lazy E Px) as (x' & Ex). rewrite Ex. cbn [bind]. apply IH. rewrite (load_pk _ _ _ _ Ex). exact Px.
Qed.
(** So a second load in the same mode leaves the object as it is exactly if the log has no formats, messages, dropouts,
    parameter changes and appended parts. *)
Theorem C36_exact : forall d k lazy o o', open_key d k lazy = Ok o -> load d o lazy = Ok o' ->
  o' = o <-> u_changed (o_log o) = [] /\ u_logged (o_log o) = [] /\ u_dropouts (o_log o) = [] /\ u_offsets (o_log o) = [] /\
             u_tagged (o_log o) = [] /\ u_formats (o_log o) = [].
Proof.
  intros d k lazy o o' E1 E2.
  destruct (C36_load_partial _ _ _ _ _ _ E1 E2) as (A1 & A2 & A3 & A4 & A5 & A6 & A7 & A8 & A9 & A10 & A11 & A12 & A13 & A14 & A15 & A16). specialize (A16 eq_refl).
  destruct (C36_lists_refuted _ _ _ _ _ _ E1 E2) as (B1 & B2 & B3 & B4).
  unfold open_key in E1. destruct (_ <? _); [discriminate|].
  destruct (load_again_grouped d (mkObj (Some k) [] lazy ulog0) o o' lazy lazy eq_refl E1 E2) as (C1 & C2 & C3 & C4 & C5 & C6 & C7 & C8 & C9 & C10).
  split.
  - intros E. subst o'. repeat split; try (apply double_nil; assumption).
    + destruct (u_tagged (o_log o)) as [|[t l] r]; [reflexivity|]. exfalso. cbn [map fst snd] in C7. injection C7 as C7 _. apply double_nil in C7. inversion C8. contradiction.
    + destruct (u_formats (o_log o)) as [|[t l] r]; [reflexivity|]. exfalso. cbn [map fst snd] in C9. injection C9 as C9 _. apply (f_equal mf_fields) in C9. cbn [twice_format mf_fields] in C9.
      apply double_nil in C9. inversion C10. contradiction.
  - intros (L1 & L2 & L3 & L4 & L5 & L6). rewrite L1 in B1. rewrite L2 in B2. rewrite L3 in B3. rewrite L4 in B4. rewrite L5 in C7. rewrite L6 in C9. cbn [map app] in *.
    destruct o as [pk sh lz [a1 a2 a3 a4 a5 a6 a7 a8 a9 a10 a11 a12 a13 a14 a15 a16 a17 a18 a19 a20 a21 a22 a23 a24]].
    destruct o' as [pk' sh' lz' [b1 b2 b3 b4 b5 b6 b7 b8 b9 b10 b11 b12 b13 b14 b15 b16 b17 b18 b19 b20 b21 b22 b23 b24]].
    cbn [o_pk o_sha o_lazy o_log u_corrupt u_start u_last u_info u_infot u_multi u_multit u_params u_defaults u_changed u_formats u_logged u_tagged u_dropouts u_data u_subs u_filtered u_missing u_version u_compat u_incompat u_offsets u_has_sync u_sync_cnt] in *. subst. reflexivity.
Qed.
Example C36_ex_exact : exists d o1 o2 o1' o2', open_key d 1 true = Ok o1 /\ load d o1 true = Ok o1' /\ o1' = o1 /\ u_params (o_log o1) <> [] /\
  open_key d 2 false = Ok o2 /\ load d o2 false = Ok o2' /\ o2' <> o2.
Proof.
  pose (u := set_params [(lit "P", VInt 5)] ulog0). pose (v := set_logged [mkLog 54 1001 (lit "hello")] ulog0).
  pose (d := snd (save no_fault false (mkObj None (lit "b") false v) (snd (save no_fault false (mkObj None (lit "a") false u) d5)))).
  exists d. eexists. eexists. eexists. eexists. split; [vm_compute; reflexivity|]. split; [vm_compute; reflexivity|]. split; [reflexivity|]. split; [discriminate|].
  split; [vm_compute; reflexivity|]. split; [vm_compute; reflexivity|]. discriminate.
Qed.

Definition all_again := (@C32_key, @C32_delete_after, @C36_grouped, @C36_many, @C36_succeeds, @C36_exact).
Print Assumptions all_again.
