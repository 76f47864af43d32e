(** Default parameters (core.py 829-838): where a parameter-default message lands. *)
From Verif Require Import Base Dict Utf8 PyStr PyFloat Struct PySort ModelTypes ModelRead Spec SpecSection SpecMsg SpecLog
  ProofsSection ProofsWhole.

(** the default types a bit field is stored under, in the order of the loop *)
Fixpoint land_types (fuel : nat) (bits : Z) : list Z :=
  match fuel with
  | O => []
  | S f => if bits =? 0 then []
           else let d := Z.land bits (Z.lnot bits + 1) in (d - 1) :: land_types f (Z.lxor bits d)
  end.
Definition bit_numbers : list Z := [0; 1; 2; 3; 4; 5; 6; 7].

Lemma add_default_fold f : forall bits key v d, add_default_bits f bits key v d =
  fold_left (fun d t => set_default key v t d) (land_types f bits) d.
Proof.
  induction f as [|f IH]; intros bits key v d; cbn [add_default_bits land_types]; [reflexivity|].
  destruct (bits =? 0); [reflexivity|]. cbn [fold_left]. apply IH.
Qed.
Lemma land_types_all : forallb (fun b => str_eqb (land_types 9 b)
  (map (fun i => 2 ^ i - 1) (filter (Z.testbit b) bit_numbers))) (map Z.of_nat (seq 0 256)) = true.
Proof. vm_compute. reflexivity. Qed.
Lemma land_types_ok b : 0 <= b < 256 -> land_types 9 b = map (fun i => 2 ^ i - 1) (filter (Z.testbit b) bit_numbers).
Proof.
  intros H. pose proof (proj1 (forallb_forall _ _) land_types_all) as E. apply str_eqb_eq, E.
  apply in_map_iff. exists (Z.to_nat b). split; [lia|]. apply in_seq. lia.
Qed.

Lemma default_value_set key v t d t' k : default_value t' k (set_default key v t d) =
  if (t' =? t) && str_eqb k key then Some v else default_value t' k d.
Proof.
  unfold default_value, set_default. cbv zeta.
  assert (Hg : exists m, zget t (if zmem t d then d else zset t [] d) = Some m /\
    (forall k, sget k m = match zget t d with Some m' => sget k m' | None => None end)).
  { destruct (zget t d) as [m|] eqn:E.
    - exists m. assert (Ez : zmem t d = true) by (unfold dmem; rewrite E; reflexivity).
      rewrite Ez. auto.
    - assert (Ez : zmem t d = false) by (unfold dmem; rewrite E; reflexivity).
      rewrite Ez. exists []. split; [|reflexivity]. rewrite zget_zset, Z.eqb_refl. reflexivity. }
  destruct Hg as (m & Hm & Hk). rewrite Hm. rewrite zget_zset.
  destruct (Z.eqb_spec t' t) as [->|Hne]; cbn [andb].
  - rewrite sget_sset. destruct (str_eqb k key); auto.
  - destruct (zmem t d) eqn:E; auto. rewrite zget_zset. destruct (Z.eqb_spec t' t); [congruence|auto].
Qed.
Lemma default_value_fold key v l : forall d t k, default_value t k (fold_left (fun d t => set_default key v t d) l d) =
  if existsb (Z.eqb t) l && str_eqb k key then Some v else default_value t k d.
Proof.
  induction l as [|x l IH]; intros d t k; cbn [fold_left existsb]; [reflexivity|].
  rewrite IH, default_value_set. destruct (str_eqb k key); rewrite ?Bool.andb_false_r, ?Bool.andb_true_r; auto.
  destruct (t =? x), (existsb (Z.eqb t) l); reflexivity.
Qed.

(** The exact law: bit [i] of the message stores under default type [2^i - 1]. *)
Definition lands (bits t : Z) : bool := existsb (fun i => Z.testbit bits i && (t =? 2 ^ i - 1)) bit_numbers.
Theorem default_law bits key v d t k : 0 <= bits < 256 ->
  default_value t k (add_default_bits 9 bits key v d) =
  if lands bits t && str_eqb k key then Some v else default_value t k d.
Proof.
  intros H. rewrite add_default_fold, default_value_fold, land_types_ok by exact H.
  replace (existsb (Z.eqb t) (map (fun i => 2 ^ i - 1) (filter (Z.testbit bits) bit_numbers))) with (lands bits t); [reflexivity|].
  unfold lands. induction bit_numbers as [|i l IH]; cbn [existsb filter map]; [reflexivity|].
  rewrite IH. destruct (Z.testbit bits i); reflexivity.
Qed.
(** For the documented default types 0 (system) and 1 (configuration) this is the bit number. *)
Lemma lands_01 bits t : 0 <= bits < 4 -> t = 0 \/ t = 1 -> lands bits t = Z.testbit bits t.
Proof.
  intros Hb Ht. assert (Hb' : bits = 0 \/ bits = 1 \/ bits = 2 \/ bits = 3) by lia.
  destruct Hb' as [-> | [-> | [-> | ->]]]; destruct Ht as [-> | ->]; reflexivity.
Qed.

(** all messages: the last one that covers the type and has the key wins *)
Lemma defaults_law l : Forall (fun bm => 0 <= fst bm < 256) l -> forall d t k,
  default_value t k (fold_left ins_pdef l d) =
  match find (fun bm : Z * infomsg => str_eqb k (im_key (snd bm)) && lands (fst bm) t) (rev l) with
  | Some bm => Some (im_value (snd bm))
  | None => default_value t k d
  end.
Proof.
  intros Hl d t k. induction l as [|bm l IH] using rev_ind; [reflexivity|].
  apply Forall_app in Hl as [Hl Hb]. inversion Hb; subst. rewrite fold_left_app, rev_unit. cbn [fold_left find].
  unfold ins_pdef at 1. rewrite default_law by assumption. rewrite IH by exact Hl.
  rewrite Bool.andb_comm. destruct (_ && _); reflexivity.
Qed.
