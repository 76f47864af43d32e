(** The accessors of a loaded log: list_value_changes, version info. *)
From Coq Require Import Permutation Sorted.
From Verif Require Import Base Dict Utf8 PyStr PyFloat Struct PySort ModelTypes ModelRead ModelApi.
Ltac Zify.zify_post_hook ::= Z.div_mod_to_equations.

(** ** C26 *)
(** Number [i] of the samples is new: the first one or different from the one before. *)
Definition is_new (t : nptype) (l : list (Z * Z)) (i : nat) : bool :=
  match i with
  | O => true
  | S j => match nth_error l j, nth_error l i with
           | Some p, Some q => negb (np_eqb t (snd p) (snd q))
           | _, _ => false
           end
  end.
Definition new_samples (t : nptype) (l : list (Z * Z)) : list (Z * Z) :=
  flat_map (fun i => match nth_error l i with Some p => [p] | None => [] end)
           (filter (is_new t l) (seq 0 (length l))).

Lemma changes_from_spec t r : forall prev,
  changes_from t prev r =
  flat_map (fun i => match nth_error r i with Some q => [q] | None => [] end)
    (filter (fun i => match nth_error (prev :: map snd r) i, nth_error (map snd r) i with
                      | Some x, Some y => negb (np_eqb t x y) | _, _ => false end) (seq 0 (length r))).
Proof.
  induction r as [|[ts x] r IH]; intros prev; [reflexivity|].
  cbn [changes_from map length seq filter nth_error snd].
  rewrite (IH x). rewrite <- seq_shift.
  assert (E : forall n s, flat_map (fun i => match nth_error ((ts, x) :: r) i with Some q => [q] | None => [] end)
     (filter (fun i => match nth_error (prev :: x :: map snd r) i, nth_error (x :: map snd r) i with
                      | Some x, Some y => negb (np_eqb t x y) | _, _ => false end) (map S (seq s n))) =
    flat_map (fun i => match nth_error r i with Some q => [q] | None => [] end)
    (filter (fun i => match nth_error (x :: map snd r) i, nth_error (map snd r) i with
                      | Some x, Some y => negb (np_eqb t x y) | _, _ => false end) (seq s n))).
  { induction n as [|n IHn]; intros s; [reflexivity|]. cbn [seq map filter]. cbn [nth_error].
    destruct (match nth_error (x :: map snd r) s with
      | Some x0 => match nth_error (map snd r) s with Some y => negb (np_eqb t x0 y) | None => false end
      | None => false end); [cbn [flat_map nth_error]; f_equal; apply IHn|apply IHn]. }
  destruct (np_eqb t prev x); cbn [negb app flat_map nth_error]; [symmetry; apply E|f_equal; symmetry; apply E].
Qed.
Lemma changes_new t p r : p :: changes_from t (snd p) r = new_samples t (p :: r).
Proof.
  unfold new_samples. cbn [length seq filter is_new flat_map nth_error]. cbn [app]. f_equal.
  rewrite (changes_from_spec t r (snd p)). rewrite <- seq_shift.
  generalize (length r) as n, 0%nat as s. induction n as [|n IHn]; intros s; [reflexivity|].
  cbn [seq map filter]. cbn [is_new nth_error].
  assert (E : match nth_error (snd p :: map snd r) s, nth_error (map snd r) s with
      | Some x, Some y => negb (np_eqb t x y) | _, _ => false end =
      match nth_error (p :: r) s, nth_error r s with
      | Some p0, Some q => negb (np_eqb t (snd p0) (snd q)) | _, _ => false end).
  { change (snd p :: map snd r) with (map snd (p :: r)). rewrite !nth_error_map.
    destruct (nth_error (p :: r) s), (nth_error r s); reflexivity. }
  rewrite E. destruct (match nth_error (p :: r) s, nth_error r s with
      | Some p0, Some q => negb (np_eqb t (snd p0) (snd q)) | _, _ => false end);
    [cbn [flat_map nth_error]; f_equal; apply IHn|apply IHn].
Qed.


Lemma f64_eqb_trans a b c : f64_eqb a b = true -> f64_eqb b c = true -> f64_eqb a c = true.
Proof.
  unfold f64_eqb. destruct (f64_is_nan a), (f64_is_nan b), (f64_is_nan c); cbn [orb]; try discriminate.
  unfold f64_is_zero. lia.
Qed.
Lemma f64_eqb_sym a b : f64_eqb a b = f64_eqb b a.
Proof. unfold f64_eqb. destruct (f64_is_nan a), (f64_is_nan b); cbn [orb]; try reflexivity. unfold f64_is_zero. lia. Qed.
Lemma np_eqb_cases t : (forall x y, np_eqb t x y = (x =? y)) \/ exists g, forall x y, np_eqb t x y = f64_eqb (g x) (g y).
Proof.
  destruct t as [n sg|n]; [left; reflexivity|right].
  do 4 (destruct n as [|n]; [exists (fun x => x); reflexivity|]).
  destruct n as [|n]; [exists widen; reflexivity|]. exists (fun x => x). reflexivity.
Qed.
Lemma np_eqb_trans t x y z : np_eqb t x y = true -> np_eqb t y z = true -> np_eqb t x z = true.
Proof.
  destruct (np_eqb_cases t) as [E|[g E]]; rewrite !E; [lia|apply f64_eqb_trans].
Qed.
(** Looking values up in the change list gives back the series: for every sample [i] the last
    listed position [j <= i] holds an equal value (or is that very sample). *)
Lemma lookup_new t l i p : nth_error l i = Some p ->
  exists j q, (j <= i)%nat /\ nth_error l j = Some q /\ is_new t l j = true /\
    (forall k, (j < k <= i)%nat -> is_new t l k = false) /\
    (j = i \/ np_eqb t (snd q) (snd p) = true).
Proof.
  revert p. induction i as [|i IH]; intros p Hp.
  - exists 0%nat, p. repeat split; auto. intros k Hk. lia.
  - destruct (is_new t l (S i)) eqn:En.
    + exists (S i), p. repeat split; auto. intros k Hk. lia.
    + assert (Hl : (i < length l)%nat).
      { assert (H : nth_error l (S i) <> None) by congruence. apply nth_error_Some in H. lia. }
      destruct (nth_error l i) as [p'|] eqn:Ep; [|apply nth_error_None in Ep; lia].
      destruct (IH p' eq_refl) as (j & q & Hj & Hq & Hn & Hk & He).
      exists j, q. repeat split; auto.
      * intros k Hk'. destruct (Nat.eq_dec k (S i)) as [->|]; [auto|]. apply Hk. lia.
      * right. cbn [is_new] in En. rewrite Ep, Hp in En. apply negb_false_iff in En.
        destruct He as [->|He]; [congruence|]. eapply np_eqb_trans; eauto.
Qed.

(** ** C27 *)
Lemma byte_at z n : 0 <= n -> Z.land (Z.shiftr z n) 255 = z / 2 ^ n mod 256.
Proof.
  intros Hn. rewrite Z.shiftr_div_pow2 by lia. change 255 with (Z.ones 8).
  rewrite Z.land_ones by lia. reflexivity.
Qed.
Lemma version_bytes u key z : sget key (u_info u) = Some (VInt z) ->
  get_version_info u key =
  Ok (Some (z / 2 ^ 24 mod 256, z / 2 ^ 16 mod 256, z / 2 ^ 8 mod 256, z mod 256)).
Proof.
  intros H. unfold get_version_info. rewrite H. cbn [shift_of bind].
  rewrite !byte_at by lia. change 255 with (Z.ones 8). rewrite (Z.land_ones z 8) by lia. reflexivity.
Qed.
