(** Python [dict] as an insertion-ordered association list (CPython >= 3.7):
    assigning an existing key keeps its position, a new key goes to the end,
    [popitem] removes the last entry. *)
From Verif Require Import Base.

Section Dict.
  Context {K V : Type} (eqb : K -> K -> bool).

  (** The dicts of core.py 112-125 *)
  Definition dict := list (K * V).

  (** [d.get(k)], [d[k]] (core.py 176, 771) *)
  Fixpoint dget (k : K) (d : dict) : option V :=
    match d with
    | [] => None
    | (k', v) :: r => if eqb k k' then Some v else dget k r
    end.

  (** [d[k] = v] (core.py 915) *)
  Fixpoint dset (k : K) (v : V) (d : dict) : dict :=
    match d with
    | [] => [(k, v)]
    | (k', v') :: r => if eqb k k' then (k', v) :: r else (k', v') :: dset k v r
    end.

  (** [k in d] (core.py 842, 1167) *)
  Definition dmem (k : K) (d : dict) : bool :=
    match dget k d with Some _ => true | None => false end.

  (** [d.keys()] in insertion order (core.py 289, 317) *)
  Definition dkeys (d : dict) : list K := map fst d.
End Dict.
Arguments dict : clear implicits.

Section DictLemmas.
  Context {K V : Type} (eqb : K -> K -> bool).
  Hypothesis eqb_spec : forall a b, reflect (a = b) (eqb a b).

  Lemma eqb_refl' k : eqb k k = true.
  Proof. destruct (eqb_spec k k); congruence. Qed.

  Lemma dget_dset_eq k v (d : dict K V) : dget eqb k (dset eqb k v d) = Some v.
  Proof.
    induction d as [|[k' v'] d IH]; simpl.
    - now rewrite eqb_refl'.
    - destruct (eqb_spec k k') as [->|n]; simpl.
      + now rewrite eqb_refl'.
      + destruct (eqb_spec k k'); [congruence|]. exact IH.
  Qed.

  Lemma dget_dset_neq k k2 v (d : dict K V) : k2 <> k -> dget eqb k2 (dset eqb k v d) = dget eqb k2 d.
  Proof.
    intros N. induction d as [|[k' v'] d IH]; simpl.
    - destruct (eqb_spec k2 k); congruence.
    - destruct (eqb_spec k k') as [->|n]; simpl.
      + destruct (eqb_spec k2 k'); congruence.
      + destruct (eqb_spec k2 k'); [reflexivity | exact IH].
  Qed.

  Lemma dget_In k v (d : dict K V) : dget eqb k d = Some v -> In (k, v) d.
  Proof.
    induction d as [|[k' v'] d IH]; simpl; [discriminate|].
    destruct (eqb_spec k k') as [->|n]; [intros H; injection H as ->; auto | auto].
  Qed.

  Lemma dget_None k (d : dict K V) : dget eqb k d = None <-> ~ In k (dkeys d).
  Proof.
    induction d as [|[k' v'] d IH]; simpl; [tauto|].
    destruct (eqb_spec k k') as [->|n].
    - split; [discriminate | intros H; exfalso; apply H; auto].
    - rewrite IH. intuition congruence.
  Qed.

  Lemma dget_Some_key k (d : dict K V) : In k (dkeys d) -> exists v, dget eqb k d = Some v.
  Proof.
    intros H. destruct (dget eqb k d) eqn:E; [eauto|].
    apply dget_None in E. contradiction.
  Qed.

  Lemma In_dget k v (d : dict K V) : NoDup (dkeys d) -> In (k, v) d -> dget eqb k d = Some v.
  Proof.
    induction d as [|[k' v'] d IH]; simpl; [tauto|].
    intros HN. inversion HN as [|? ? Hn HN']; subst. intros [H|H].
    - injection H as -> ->. now rewrite eqb_refl'.
    - destruct (eqb_spec k k') as [->|n]; [|auto].
      exfalso. apply Hn. apply in_map_iff. now exists (k', v).
  Qed.

  Lemma dkeys_dset k v (d : dict K V) :
    dkeys (dset eqb k v d) = if dmem eqb k d then dkeys d else dkeys d ++ [k].
  Proof.
    unfold dmem. induction d as [|[k' v'] d IH]; simpl; [reflexivity|].
    destruct (eqb_spec k k') as [->|n]; simpl; [reflexivity|].
    rewrite IH. destruct (dget eqb k d); reflexivity.
  Qed.

  Lemma NoDup_dset k v (d : dict K V) : NoDup (dkeys d) -> NoDup (dkeys (dset eqb k v d)).
  Proof.
    intros H. rewrite dkeys_dset. unfold dmem. destruct (dget eqb k d) eqn:E; [exact H|].
    apply dget_None in E.
    apply (NoDup_Add (a := k) (l := dkeys d)); [|auto].
    pose proof (Add_app k (dkeys d) []) as HA. rewrite app_nil_r in HA. exact HA.
  Qed.

  Lemma dset_new k v (d : dict K V) : ~ In k (dkeys d) -> dset eqb k v d = d ++ [(k, v)].
  Proof.
    induction d as [|[k' v'] d IH]; simpl; [reflexivity|]. intros H.
    destruct (eqb_spec k k') as [->|n]; [tauto|]. rewrite IH by tauto. reflexivity.
  Qed.

  Lemma dset_same k v (d : dict K V) : dget eqb k d = Some v -> dset eqb k v d = d.
  Proof.
    induction d as [|[k' v'] d IH]; simpl; [discriminate|].
    destruct (eqb_spec k k') as [->|n]; [intros H; congruence|]. intros H. now rewrite IH.
  Qed.

  Lemma dget_app k (d1 d2 : dict K V) :
    dget eqb k (d1 ++ d2) = match dget eqb k d1 with Some v => Some v | None => dget eqb k d2 end.
  Proof.
    induction d1 as [|[k' v'] d1 IH]; simpl; [reflexivity|]. destruct (eqb k k'); auto.
  Qed.

  Lemma dset_app_r k v (d1 d2 : dict K V) :
    ~ In k (dkeys d1) -> dset eqb k v (d1 ++ d2) = d1 ++ dset eqb k v d2.
  Proof.
    induction d1 as [|[k' v'] d1 IH]; simpl; [reflexivity|]. intros H.
    destruct (eqb_spec k k') as [->|n]; [tauto|]. rewrite IH by tauto. reflexivity.
  Qed.

  (** Writing the entries of a dict with distinct keys into an empty dict rebuilds it. *)
  Lemma fold_dset_id (d acc : dict K V) :
    NoDup (dkeys (acc ++ d)) ->
    fold_left (fun a kv => dset eqb (fst kv) (snd kv) a) d acc = acc ++ d.
  Proof.
    revert acc; induction d as [|[k v] d IH]; intros acc H; simpl.
    - now rewrite app_nil_r.
    - rewrite dset_new.
      + rewrite IH; rewrite <- app_assoc; [reflexivity|]. exact H.
      + unfold dkeys in *. rewrite map_app in H. simpl in H.
        apply NoDup_remove_2 in H. rewrite in_app_iff in H. tauto.
  Qed.

  Lemma dset_In k v k0 v0 (d : dict K V) :
    In (k0, v0) (dset eqb k v d) -> (k0 = k /\ v0 = v) \/ In (k0, v0) d.
  Proof.
    induction d as [|[k' v'] d IH]; simpl.
    - intros [H|[]]. injection H as <- <-. auto.
    - destruct (eqb_spec k k') as [->|n]; simpl; intros [H|H]; try injection H as <- <-; auto.
      destruct (IH H); auto.
  Qed.
End DictLemmas.

(** The two key types used by the code. *)
Notation sget := (dget str_eqb).
Notation sset := (dset str_eqb).
Notation smem := (dmem str_eqb).
Notation zget := (dget Z.eqb).
Notation zset := (dset Z.eqb).
Notation zmem := (dmem Z.eqb).

Lemma Zeqb_spec a b : reflect (a = b) (a =? b).
Proof. apply Z.eqb_spec. Qed.
