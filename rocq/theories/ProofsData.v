(** From the buffers of a section to its datasets. *)
From Coq Require Import Permutation Sorted.
From Verif Require Import Base Dict Utf8 PyStr PyFloat Struct PySort ModelTypes ModelRead Spec SpecSection
  ProofsRead ProofsInv ProofsTrace ProofsChange ProofsSection.
Ltac Zify.zify_post_hook ::= Z.div_mod_to_equations.

Lemma rows_concat n rs : 0 < n -> Forall (fun r : bytes => lenZ r = n) rs ->
  forall fuel, (length (concat rs) <= fuel)%nat -> rows fuel n (concat rs) = rs.
Proof.
  intros Hn. induction 1 as [|r rs Hr Hrs IH]; intros fuel Hf.
  - destruct fuel; reflexivity.
  - cbn [concat] in *. rewrite app_length in Hf.
    assert (Hl : (0 < length r)%nat) by (unfold lenZ in Hr; lia).
    destruct fuel as [|fuel]; [lia|]. cbn [rows].
    destruct (r ++ concat rs) as [|x l] eqn:E.
    { destruct r; [simpl in Hl; lia|discriminate]. }
    rewrite <- E. rewrite takeZ_app_exact, dropZ_app_exact by auto. f_equal. apply IH. lia.
Qed.

Lemma concat_len n (rs : list bytes) : Forall (fun r => lenZ r = n) rs -> lenZ (concat rs) = n * lenZ rs.
Proof.
  induction 1 as [|r rs Hr Hrs IH]; [cbn; lia|]. cbn [concat]. rewrite lenZ_app, lenZ_cons, IH, Hr. lia.
Qed.

Lemma columns_length off dt rs : length (columns off dt rs) = length dt.
Proof. revert off; induction dt as [|[n t] dt IH]; intros off; cbn; auto. Qed.

Lemma columns_nth dt rs : forall off i nc, nth_error (columns off dt rs) i = Some nc ->
  exists nt, nth_error dt i = Some nt /\ fst nc = fst nt /\ c_type (snd nc) = snd nt /\
    c_raw (snd nc) = map (fun row => let o := off + itemsize (firstn i dt) in
                      le_dec (slice o (o + Z.of_nat (np_size (snd nt))) row)) rs.
Proof.
  induction dt as [|[n t] dt IH]; intros off [|i] nc H; try discriminate.
  - cbn [columns nth_error] in H. apply Some_inj in H. subst nc. exists (n, t). cbn [nth_error fst snd c_type c_raw firstn].
    repeat split. apply map_ext. intros row. cbv zeta. unfold itemsize. cbn [fold_right]. now rewrite Z.add_0_r.
  - cbn [columns nth_error] in H. apply IH in H as (nt & H1 & H2 & H3 & H4). exists nt. repeat split; auto.
    rewrite H4. apply map_ext. intros row. cbv zeta. cbn [firstn].
    change (itemsize ((n, t) :: firstn i dt)) with (Z.of_nat (np_size t) + itemsize (firstn i dt)).
    now rewrite Z.add_assoc.
Qed.

Lemma dataset_of_holds s rs : Forall (fun r => lenZ r = itemsize (sb_dtype s)) rs -> concat rs <> [] ->
  exists ds, dataset_of (set_buf (concat rs) s) = Ok ds /\ holds s rs ds.
Proof.
  intros Hrs Hne. set (n := itemsize (sb_dtype s)) in *. pose proof (itemsize_nonneg (sb_dtype s)) as Hn. fold n in Hn.
  pose proof (concat_len n rs Hrs) as Hl.
  assert (Hpos : 0 < n).
  { destruct (Z.eq_dec n 0) as [E|]; [|lia]. exfalso. apply Hne. apply lenZ_0_nil. rewrite Hl, E. lia. }
  unfold dataset_of. cbn [sb_buf set_buf sb_dtype]. fold n.
  replace (n =? 0) with false by lia.
  assert (Hm : lenZ (concat rs) mod n = 0) by (rewrite Hl, Z.mul_comm; apply Z.mod_mul; lia).
  rewrite Hm. cbn [orb negb Z.eqb]. rewrite rows_concat by auto.
  eexists. split; [reflexivity|].
  unfold holds. cbn [ds_multi ds_id ds_name ds_fields ds_tsidx ds_data]. repeat split; auto.
  - apply columns_length.
  - intros i nc H. apply columns_nth in H as (nt & H1 & H2 & H3 & H4). exists nt. repeat split; auto.
Qed.

Lemma mapM_Forall2 {A B} (f : A -> res B) l : (forall x, In x l -> exists y, f x = Ok y) ->
  exists ys, mapM f l = Ok ys /\ Forall2 (fun x y => f x = Ok y) l ys.
Proof.
  induction l as [|x l IH]; intros H.
  - exists []. auto.
  - destruct (H x) as [y Hy]; [now left|]. destruct IH as (ys & H1 & H2); [firstorder|].
    exists (y :: ys). cbn. rewrite Hy, H1. auto.
Qed.

Lemma Forall2_in_r {A B} (R : A -> B -> Prop) l l' y : Forall2 R l l' -> In y l' -> exists x, In x l /\ R x y.
Proof. induction 1; intros []; [subst; eauto with datatypes|]. destruct IHForall2 as (a & ? & ?); eauto with datatypes. Qed.
Lemma Forall2_in_l {A B} (R : A -> B -> Prop) l l' x : Forall2 R l l' -> In x l -> exists y, In y l' /\ R x y.
Proof. induction 1; intros []; [subst; eauto with datatypes|]. destruct IHForall2 as (a & ? & ?); eauto with datatypes. Qed.

Lemma In_zget {V} (d : dict Z V) k v : NoDup (dkeys d) -> In (k, v) d -> zget k d = Some v.
Proof. apply (In_dget _ Zeqb_spec). Qed.

Lemma finalize_sec cf evs u0 u : sec_inv cf u0 evs u ->
  exists new, new_data cf (u_formats u0) evs new /\
    finalize u = Ok (set_data (ssort ds_leb (u_data u ++ new)) (set_subs [] u)).
Proof.
  intros [H1 H2 H3 _ _ _].
  set (l := filter (fun s => negb (Nat.eqb (length (sb_buf s)) 0)) (rev (map snd (u_subs u)))).
  assert (Hin : forall x, In x l <-> exists id, In (id, x) (u_subs u) /\ sb_buf x <> []).
  { intros x. unfold l. rewrite filter_In, <- in_rev, in_map_iff. split.
    - intros [([id y] & Hy & Hx) Hb]. cbn in Hy. subst y. exists id. split; auto.
      intros E. rewrite E in Hb. discriminate.
    - intros (id & Hx & Hb). split; [exists (id, x); auto|]. destruct (sb_buf x); [congruence|reflexivity]. }
  assert (Hsub : forall id x, In (id, x) (u_subs u) -> exists s rs, subscription cf (u_formats u0) evs id = Some (s, rs) /\
     x = set_buf (concat rs) s).
  { intros id x Hx. apply In_zget in Hx; [|exact H3]. rewrite H2 in Hx.
    destruct (subscription cf (u_formats u0) evs id) as [[s rs]|]; [|discriminate]. cbn in Hx. exists s, rs. split; auto. congruence. }
  destruct (mapM_Forall2 dataset_of l) as (new & Hm & Hall).
  { intros x Hx. apply Hin in Hx as (id & Hx & Hb). apply Hsub in Hx as (s & rs & Hs & ->).
    destruct (subscription_ok _ _ _ _ _ _ Hs) as (_ & _ & _ & _ & Hr). cbn in Hb.
    destruct (dataset_of_holds s rs Hr Hb) as (ds & Hd & _). eauto. }
  assert (Hid : Forall2 (fun x ds => sb_id x = ds_id ds) l new).
  { clear -Hall. induction Hall as [|x ds l' n' Hx Hl IH]; constructor; auto.
    unfold dataset_of in Hx. destruct (_ || _); [discriminate|]. injection Hx as <-. reflexivity. }
  exists new. split.
  - split; [|split].
    + (* ids distinct *)
      assert (E : map ds_id new = map sb_id l).
      { clear -Hid. induction Hid; cbn; congruence. }
      rewrite E. unfold l. clear -H2 H3.
      assert (HF : Forall (fun kv => sb_id (snd kv) = fst kv) (u_subs u)).
      { apply Forall_forall. intros [k x] Hx. cbn. apply In_zget in Hx; auto. rewrite H2 in Hx.
        destruct (subscription cf (u_formats u0) evs k) as [[s rs]|] eqn:Es; [|discriminate].
        cbn in Hx. assert (x = set_buf (concat rs) s) as -> by congruence.
        apply subscription_ok in Es. cbn. tauto. }
      assert (Hnd : NoDup (map sb_id (rev (map snd (u_subs u))))).
      { rewrite map_rev. apply NoDup_rev. replace (map sb_id (map snd (u_subs u))) with (dkeys (u_subs u)); auto.
        unfold dkeys. clear -HF. induction HF as [|[k x] d Hx Hd IH]; cbn; [auto|]. cbn in Hx. congruence. }
      revert Hnd. generalize (rev (map snd (u_subs u))). clear. intros l.
      induction l as [|x l IH]; cbn; intros H; [constructor|]. inversion H as [|? ? Ha Hb]; subst.
      destruct (negb _); auto. cbn. constructor; auto. intros Hx. apply Ha. clear -Hx.
      apply in_map_iff in Hx as (y & E & Hy). apply filter_In in Hy as [Hy _]. apply in_map_iff. eauto.
    + intros ds Hds. destruct (Forall2_in_r _ _ _ _ Hall Hds) as (x & Hx & Hd).
      apply Hin in Hx as (id & Hx & Hb). apply Hsub in Hx as (s & rs & Hs & ->). cbn in Hb.
      destruct (subscription_ok _ _ _ _ _ _ Hs) as (_ & Hi & _ & _ & Hr).
      destruct (dataset_of_holds s rs Hr Hb) as (ds' & Hd' & Hh).
      assert (ds' = ds) as -> by congruence. exists s, rs. split; [|auto].
      destruct Hh as (_ & E & _). rewrite E, Hi. exact Hs.
    + intros id s rs Hs Hb. pose proof (H2 id) as Hz. rewrite Hs in Hz. cbn in Hz.
      assert (Hx : In (set_buf (concat rs) s) l).
      { apply Hin. exists id. split; [|exact Hb]. exact (dget_In _ Zeqb_spec _ _ _ Hz). }
      destruct (Forall2_in_l _ _ _ _ Hall Hx) as (ds & Hds & Hd).
      destruct (subscription_ok _ _ _ _ _ _ Hs) as (_ & Hi & _ & _ & Hr).
      destruct (dataset_of_holds s rs Hr Hb) as (ds' & Hd' & Hh).
      assert (ds' = ds) as -> by congruence. exists ds. split; [exact Hds|]. split; [|exact Hh].
      destruct Hh as (_ & E & _). now rewrite E, Hi.
  - unfold finalize. fold l. rewrite Hm. reflexivity.
Qed.
