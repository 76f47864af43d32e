(** Python's [sorted]/[list.sort] with a key: a stable sort.  Timsort is modelled by
    a stable insertion sort (core.py 393, 414, 420, 1136): for a total preorder the stable
    sorted permutation of a list is unique ([ssort_unique]). *)
From Verif Require Import Base.
From Coq Require Import Permutation Sorted.

Section Sort.
  Context {A : Type} (leb : A -> A -> bool).

  (** One step of the stable sort (core.py 393, 414, 420, 1136) *)
  Fixpoint insert (x : A) (l : list A) : list A :=
    match l with
    | [] => [x]
    | y :: r => if leb x y then x :: l else y :: insert x r
    end.
  (** [sorted(l, key=...)] (core.py 393, 414, 420, 1136) *)
  Fixpoint ssort (l : list A) : list A :=
    match l with [] => [] | x :: r => insert x (ssort r) end.

  Hypothesis leb_total : forall a b, leb a b = true \/ leb b a = true.
  Hypothesis leb_trans : forall a b c, leb a b = true -> leb b c = true -> leb a c = true.

  (** Sorted by the key (core.py 393, 414, 420, 1136) *)
  Definition sorted (l : list A) : Prop := StronglySorted (fun a b => leb a b = true) l.

  Lemma leb_refl a : leb a a = true.
  Proof. destruct (leb_total a a); auto. Qed.

  Lemma insert_perm x l : Permutation (x :: l) (insert x l).
  Proof.
    induction l as [|y r IH]; simpl; [constructor; constructor|].
    destruct (leb x y); [reflexivity|]. rewrite perm_swap. now constructor.
  Qed.

  Lemma ssort_perm l : Permutation l (ssort l).
  Proof.
    induction l as [|x r IH]; simpl; [constructor|]. rewrite <- insert_perm. now constructor.
  Qed.

  Lemma In_insert x y l : In y (insert x l) <-> y = x \/ In y l.
  Proof.
    split; intros H.
    - apply (Permutation_in y (Permutation_sym (insert_perm x l))) in H.
      destruct H; auto.
    - apply (Permutation_in y (insert_perm x l)). destruct H; [left; auto|right; auto].
  Qed.

  Lemma insert_sorted x l : sorted l -> sorted (insert x l).
  Proof.
    induction 1 as [|y r Hr IH Hy]; simpl.
    - repeat constructor.
    - destruct (leb x y) eqn:E.
      + constructor; [constructor; auto|]. constructor; auto.
        eapply Forall_impl; [|exact Hy]. simpl. intros a Ha. eapply leb_trans; eauto.
      + constructor; auto. apply Forall_forall. intros z Hz. apply In_insert in Hz as [->|Hz].
        * destruct (leb_total x y); congruence.
        * rewrite Forall_forall in Hy. auto.
  Qed.

  Lemma ssort_sorted l : sorted (ssort l).
  Proof. induction l; simpl; [constructor|]. now apply insert_sorted. Qed.

  Lemma insert_le x l : Forall (fun y => leb x y = true) l -> insert x l = x :: l.
  Proof. destruct 1 as [|y r H]; simpl; [reflexivity|]. now rewrite H. Qed.

  Lemma ssort_id l : sorted l -> ssort l = l.
  Proof.
    induction 1 as [|x r Hr IH Hx]; simpl; [reflexivity|]. rewrite IH. now apply insert_le.
  Qed.

  Lemma ssort_idem l : ssort (ssort l) = ssort l.
  Proof. apply ssort_id, ssort_sorted. Qed.

  (** stability: the elements equivalent to any given one keep their order
      (Equal keys (core.py 393, 414, 420, 1136)) *)
  Definition equivb a b := leb a b && leb b a.

  Lemma filter_insert_in a x l : sorted l -> equivb a x = true ->
    filter (equivb a) (insert x l) = x :: filter (equivb a) l.
  Proof.
    intros Hs Hx. induction Hs as [|y r Hr IH Hy]; simpl; [now rewrite Hx|].
    destruct (leb x y) eqn:E; simpl; rewrite ?Hx; [reflexivity|].
    rewrite IH. destruct (equivb a y) eqn:Ey; [|reflexivity].
    exfalso. unfold equivb in *. apply andb_true_iff in Hx as [_ Hx], Ey as [Ey _].
    rewrite (leb_trans x a y) in E; congruence.
  Qed.

  Lemma filter_insert_out a x l : equivb a x = false ->
    filter (equivb a) (insert x l) = filter (equivb a) l.
  Proof.
    intros Hx. induction l as [|y r IH]; simpl; [now rewrite Hx|].
    destruct (leb x y); simpl; rewrite ?Hx; [reflexivity|]. now rewrite IH.
  Qed.

  Lemma ssort_stable a l : filter (equivb a) (ssort l) = filter (equivb a) l.
  Proof.
    induction l as [|x r IH]; simpl; [reflexivity|].
    destruct (equivb a x) eqn:E.
    - rewrite filter_insert_in; auto using ssort_sorted. now rewrite IH.
    - rewrite filter_insert_out; auto.
  Qed.

  Lemma equivb_refl a : equivb a a = true.
  Proof. unfold equivb. now rewrite leb_refl. Qed.

  (** a list is determined by being sorted and by its equivalence classes *)
  Lemma sorted_unique l1 : forall l2, sorted l1 -> sorted l2 ->
    (forall a, filter (equivb a) l1 = filter (equivb a) l2) -> l1 = l2.
  Proof.
    induction l1 as [|x r IH]; intros l2 H1 H2 Hf.
    - destruct l2 as [|y s]; [reflexivity|]. specialize (Hf y). simpl in Hf.
      rewrite equivb_refl in Hf. discriminate.
    - destruct l2 as [|y s].
      { specialize (Hf x). simpl in Hf. rewrite equivb_refl in Hf. discriminate. }
      assert (Hxy : equivb x y = true).
      { inversion H1 as [|? ? Hr Hx]; inversion H2 as [|? ? Hs Hy]; subst.
        assert (In x (y :: s)).
        { specialize (Hf x). simpl filter at 1 in Hf. rewrite equivb_refl in Hf.
          assert (In x (filter (equivb x) (y :: s))) by (rewrite <- Hf; now left).
          apply filter_In in H. tauto. }
        assert (In y (x :: r)).
        { specialize (Hf y). symmetry in Hf. simpl filter at 1 in Hf. rewrite equivb_refl in Hf.
          assert (In y (filter (equivb y) (x :: r))) by (rewrite <- Hf; now left).
          apply filter_In in H0. tauto. }
        rewrite Forall_forall in Hx, Hy. unfold equivb. apply andb_true_iff. split.
        - destruct H0 as [->|H0]; [apply leb_refl | now apply Hx].
        - destruct H as [->|H]; [apply leb_refl | now apply Hy]. }
      assert (x = y).
      { specialize (Hf x). simpl in Hf. rewrite equivb_refl, Hxy in Hf. congruence. }
      subst y. f_equal. inversion H1; inversion H2; subst. apply IH; auto.
      intros a. specialize (Hf a). simpl in Hf. destruct (equivb a x); congruence.
  Qed.

  Lemma ssort_unique l l' : sorted l' ->
    (forall a, filter (equivb a) l' = filter (equivb a) l) -> l' = ssort l.
  Proof.
    intros Hs Hf. apply sorted_unique; auto using ssort_sorted.
    intros a. now rewrite ssort_stable.
  Qed.
End Sort.

Lemma ssort_map {A B} (leA : A -> A -> bool) (leB : B -> B -> bool) (f : A -> B) l :
  (forall a b, leB (f a) (f b) = leA a b) ->
  ssort leB (map f l) = map f (ssort leA l).
Proof.
  intros H. induction l as [|x r IH]; simpl; [reflexivity|]. rewrite IH.
  generalize (ssort leA r). intros l. induction l as [|y s IHl]; simpl; [reflexivity|].
  rewrite H. destruct (leA x y); simpl; congruence.
Qed.
