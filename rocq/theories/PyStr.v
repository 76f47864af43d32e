(** Python [str]/[bytes] methods used by the code, on [list Z].
    core.py: split 584,625,627,641; find 644,649,989; startswith 359,362,587,766;
    int 650; '%d'/str 382,777; slicing 650-651; sort keys 1136. *)
From Verif Require Import Base.
Ltac Zify.zify_post_hook ::= Z.div_mod_to_equations.

(** [s.startswith(p)] (core.py 359, 362, 587, 766) *)
Fixpoint starts_with (p s : str) : bool :=
  match p, s with
  | [], _ => true
  | a :: p', b :: s' => (a =? b) && starts_with p' s'
  | _, [] => false
  end.

(** [s.split(c)] for a one character separator: never empty. (core.py 584, 625, 627, 641) *)
Fixpoint split1 (c : Z) (s : str) : list str :=
  match s with
  | [] => [[]]
  | x :: r =>
    if x =? c then [] :: split1 c r
    else match split1 c r with
         | h :: t => (x :: h) :: t
         | [] => [[x]]
         end
  end.

(** [s.find(c)], -1 when absent. *)
Fixpoint find_char (c : Z) (s : str) : Z :=
  match s with
  | [] => -1
  | x :: r => if x =? c then 0 else let i := find_char c r in if i <? 0 then -1 else i + 1
  end.

(** [s.find(p)] for a substring, -1 when absent. *)
Fixpoint find_sub (p s : str) : Z :=
  if starts_with p s then 0
  else match s with
       | [] => -1
       | _ :: r => let i := find_sub p r in if i <? 0 then -1 else i + 1
       end.

(** [s[a:b]] with Python's treatment of negative bounds. (core.py 650-651) *)
Definition py_slice (a b : Z) (s : str) : str :=
  let n := lenZ s in
  let norm x := if x <? 0 then Z.max 0 (x + n) else Z.min x n in
  slice (norm a) (norm b) s.

(** [l[i]] for a non-negative constant index. (core.py 584-587, 625-641) *)
Definition py_nth {A} (l : list A) (i : nat) : res A :=
  match nth_error l i with Some x => Ok x | None => Err IndexError end.

(** [int(s)] in base 10.  Simplifications: non-ASCII digits and white space are
    rejected ([ValueError]) while CPython accepts some of them, and CPython's limit on
    the number of digits is not modelled. *)
Definition is_ws (c : Z) : bool := ((9 <=? c) && (c <=? 13)) || (c =? 32).
(** Decimal digit, for [int] (core.py 650) *)
Definition is_digit (c : Z) : bool := (48 <=? c) && (c <=? 57).

(** White space skipped by [int] on the left (core.py 650) *)
Fixpoint lstrip (s : str) : str :=
  match s with
  | c :: r => if is_ws c then lstrip r else s
  | [] => []
  end.
(** White space skipped by [int] on both sides (core.py 650) *)
Definition strip (s : str) : str := rev (lstrip (rev (lstrip s))).

(** digits with single underscores between digits; [d] = a digit was just read (core.py 650) *)
Fixpoint int_digits (acc : Z) (d : bool) (s : str) : res Z :=
  match s with
  | [] => if d then Ok acc else Err ValueError
  | c :: r =>
    if is_digit c then int_digits (acc * 10 + (c - 48)) true r
    else if (c =? 95) && d then int_digits acc false r
    else Err ValueError
  end.

(** [int(s)] of a string (core.py 650) *)
Definition py_int (s : str) : res Z :=
  match strip s with
  | 45 :: r => let* v := int_digits 0 false r in Ok (- v)
  | 43 :: r => int_digits 0 false r
  | t => int_digits 0 false t
  end.

(** [str(n)] / ['%d' % n]. (core.py 382, 777) *)
Fixpoint dec_digits (fuel : nat) (n : Z) (acc : str) : str :=
  match fuel with
  | O => acc
  | S f => let acc' := (48 + n mod 10) :: acc in
           if n / 10 =? 0 then acc' else dec_digits f (n / 10) acc'
  end.
(** [str(n)] for n >= 0 (core.py 382, 777) *)
Definition str_of_nonneg (n : Z) : str := dec_digits (S (Z.to_nat (Z.log2 n))) n [].
(** [str(n)], [%d] (core.py 382, 777) *)
Definition str_of_Z (n : Z) : str :=
  if n <? 0 then 45 :: str_of_nonneg (- n) else str_of_nonneg n.

(** Lexicographic comparison of strings by code point. (core.py 1136) *)
Fixpoint str_cmp (a b : str) : comparison :=
  match a, b with
  | [], [] => Eq
  | [], _ => Lt
  | _, [] => Gt
  | x :: a', y :: b' => match x ?= y with Eq => str_cmp a' b' | c => c end
  end.
(** [<=] on strings, for sorting (core.py 1136) *)
Definition str_leb (a b : str) : bool :=
  match str_cmp a b with Gt => false | _ => true end.
(** [<] on strings, for sorting (core.py 1136) *)
Definition str_ltb (a b : str) : bool :=
  match str_cmp a b with Lt => true | _ => false end.

(** [sub in s] for strings. (core.py 1074-1075 with a str as filter) *)
Definition str_in (p s : str) : bool := 0 <=? find_sub p s.

(* ------------------------------------------------------------------ *)

Lemma starts_with_iff p s : starts_with p s = true <-> exists r, s = p ++ r.
Proof.
  revert s; induction p as [|a p IH]; intros s; simpl.
  - split; eauto.
  - destruct s as [|b s].
    + split; [discriminate | intros [r Hr]; discriminate].
    + rewrite andb_true_iff, IH, Z.eqb_eq. split.
      * intros (-> & r & ->). eauto.
      * intros [r E]. injection E as -> ->. eauto.
Qed.

Lemma starts_with_app p r : starts_with p (p ++ r) = true.
Proof. apply starts_with_iff; eauto. Qed.

Lemma split1_nonempty c s : split1 c s <> [].
Proof. destruct s as [|x r]; simpl; [discriminate|]. destruct (x =? c); [discriminate|].
       destruct (split1 c r); discriminate. Qed.

Lemma split1_nosep c s : ~ In c s -> split1 c s = [s].
Proof.
  induction s as [|x r IH]; intros H; [reflexivity|]. simpl.
  destruct (Z.eqb_spec x c) as [->|Hx]; [exfalso; apply H; now left|].
  rewrite IH; [reflexivity|]. intros Hc; apply H; now right.
Qed.

Lemma split1_app c s t : ~ In c s -> split1 c (s ++ c :: t) = s :: split1 c t.
Proof.
  induction s as [|x r IH]; intros H; simpl.
  - now rewrite Z.eqb_refl.
  - destruct (Z.eqb_spec x c) as [->|Hx]; [exfalso; apply H; now left|].
    rewrite IH; [reflexivity|]. intros Hc; apply H; now right.
Qed.

Lemma find_char_none c s : ~ In c s -> find_char c s = -1.
Proof.
  induction s as [|x r IH]; intros H; [reflexivity|]. simpl.
  destruct (Z.eqb_spec x c) as [->|Hx]; [exfalso; apply H; now left|].
  rewrite IH; [reflexivity|]. intros Hc; apply H; now right.
Qed.

Lemma find_char_app c s t : ~ In c s -> find_char c (s ++ c :: t) = lenZ s.
Proof.
  induction s as [|x r IH]; intros H; simpl.
  - now rewrite Z.eqb_refl.
  - destruct (Z.eqb_spec x c) as [->|Hx]; [exfalso; apply H; now left|].
    rewrite IH by (intros Hc; apply H; now right).
    unfold lenZ. simpl length. destruct (Z.ltb_spec (Z.of_nat (length r)) 0); lia.
Qed.

Lemma find_sub_ge p s : -1 <= find_sub p s.
Proof.
  induction s as [|x r IH]; simpl; destruct (starts_with p _); try lia.
  destruct (Z.ltb_spec (find_sub p r) 0); lia.
Qed.

(** [find_sub] returns the first occurrence. *)
Lemma find_sub_spec p s i : find_sub p s = i -> 0 <= i ->
  (exists a b, s = a ++ p ++ b /\ lenZ a = i) /\
  (forall a b, s = a ++ p ++ b -> i <= lenZ a).
Proof.
  revert i; induction s as [|x r IH]; intros i; cbn [find_sub].
  - destruct (starts_with p []) eqn:E; [|lia]. intros <- _. split.
    + apply starts_with_iff in E as [t E]. exists [], t. now split.
    + intros; unfold lenZ; lia.
  - destruct (starts_with p (x :: r)) eqn:E.
    + intros <- _. split.
      * apply starts_with_iff in E as [t E]. exists [], t. now split.
      * intros; unfold lenZ; lia.
    + cbn zeta. destruct (Z.ltb_spec (find_sub p r) 0); [lia|]. intros <- _.
      destruct (IH _ eq_refl H) as [(a & b & E1 & E2) Hm]. split.
      * exists (x :: a), b. split; [simpl; congruence|]. unfold lenZ in *. simpl length; lia.
      * intros a' b' E3. destruct a' as [|y a'].
        { exfalso. simpl in E3. rewrite E3, starts_with_app in E. discriminate. }
        simpl in E3. injection E3 as _ E3. specialize (Hm _ _ E3). unfold lenZ in *; simpl length; lia.
Qed.

Lemma find_sub_none p s : find_sub p s < 0 -> forall a b, s <> a ++ p ++ b.
Proof.
  induction s as [|x r IH]; cbn [find_sub]; intros H a b E.
  - destruct a; [|discriminate]. simpl in E.
    assert (E1 : starts_with p [] = true) by (apply starts_with_iff; eauto).
    rewrite E1 in H. lia.
  - destruct (starts_with p (x :: r)) eqn:E1; [lia|].
    destruct a as [|y a].
    + simpl in E. rewrite E, starts_with_app in E1. discriminate.
    + simpl in E. injection E as _ E. cbn zeta in H.
      destruct (Z.ltb_spec (find_sub p r) 0); [|lia]. eapply IH; eauto.
Qed.

Lemma find_sub_found p a b : 0 <= find_sub p (a ++ p ++ b).
Proof.
  destruct (Z.le_gt_cases 0 (find_sub p (a ++ p ++ b))); auto.
  exfalso. eapply find_sub_none; eauto. 
Qed.

(* decimal *)
Lemma int_digits_app acc d s t v :
  Forall (fun c => is_digit c = true) s -> s <> [] ->
  int_digits acc d s = Ok v -> int_digits acc d (s ++ t) = int_digits v true t.
Proof.
  intros Hs. revert acc d v; induction Hs as [|c s Hc Hs IH]; intros acc d v Hne H; [easy|].
  cbn [app int_digits] in *. rewrite Hc in *. destruct s as [|c' s'].
  - cbn [app int_digits] in *. congruence.
  - apply IH; [discriminate | exact H].
Qed.

(** The number that decimal digits stand for (core.py 650) *)
Definition dec_val (s : str) : Z := fold_left (fun a c => a * 10 + (c - 48)) s 0.

Lemma int_digits_val s acc : Forall (fun c => is_digit c = true) s -> 
  forall d, (s <> [] \/ d = true) ->
  int_digits acc d s = Ok (fold_left (fun a c => a * 10 + (c - 48)) s acc).
Proof.
  intros H; revert acc; induction H as [|c s Hc Hs IH]; intros acc d Hd; simpl.
  - destruct Hd as [|Hd]; [easy|]. now rewrite Hd.
  - rewrite Hc. apply IH. now right.
Qed.

Lemma dec_digits_spec fuel : forall n acc, 0 <= n < 2 ^ Z.of_nat fuel -> 
  exists ds, dec_digits fuel n acc = ds ++ acc /\
    Forall (fun c => is_digit c = true) ds /\ dec_val ds = n /\ ((0 < fuel)%nat -> ds <> []).
Proof.
  induction fuel as [|f IH]; intros n acc Hn.
  - exists []. simpl in *. repeat split; auto; try constructor; try lia.
    change (dec_val []) with 0. lia.
  - cbn [dec_digits]. cbn zeta. set (c := 48 + n mod 10).
    assert (Hc : is_digit c = true) by (unfold is_digit, c; lia).
    destruct (Z.eqb_spec (n / 10) 0) as [E|E].
    + exists [c]. repeat split; auto.
      { unfold dec_val, c; cbn [fold_left]; lia. }
      { discriminate. }
    + destruct (IH (n / 10) (c :: acc)) as (ds & H1 & H2 & H3 & H4).
      { rewrite Nat2Z.inj_succ, Z.pow_succ_r in Hn by lia. lia. }
      exists (ds ++ [c]). rewrite H1, <- app_assoc. repeat split; auto.
      * apply Forall_app; auto.
      * unfold dec_val in *. rewrite fold_left_app, H3. cbn [fold_left]. unfold c. lia.
      * intros _ H. destruct ds; discriminate.
Qed.

Lemma str_of_nonneg_spec n : 0 <= n -> 
  Forall (fun c => is_digit c = true) (str_of_nonneg n) /\ str_of_nonneg n <> [] /\
  dec_val (str_of_nonneg n) = n.
Proof.
  intros Hn. unfold str_of_nonneg.
  destruct (dec_digits_spec (S (Z.to_nat (Z.log2 n))) n []) as (ds & H1 & H2 & H3 & H4).
  { split; [lia|]. rewrite Nat2Z.inj_succ, Z2Nat.id by apply Z.log2_nonneg.
    destruct (Z.eq_dec n 0) as [->|]; [reflexivity|]. apply Z.log2_spec. lia. }
  rewrite H1, app_nil_r. repeat split; auto. apply H4. lia.
Qed.

Lemma lstrip_digits s : Forall (fun c => is_digit c = true) s -> lstrip s = s.
Proof.
  intros [|c r Hc Hr]; [reflexivity|]. simpl.
  replace (is_ws c) with false; [reflexivity|]. unfold is_ws, is_digit in *. lia.
Qed.

Lemma strip_digits s : Forall (fun c => is_digit c = true) s -> strip s = s.
Proof.
  intros H. unfold strip. rewrite (lstrip_digits _ H).
  rewrite lstrip_digits; [apply rev_involutive|]. now apply Forall_rev.
Qed.

Lemma py_int_str_of_nonneg n : 0 <= n -> py_int (str_of_nonneg n) = Ok n.
Proof.
  intros Hn. destruct (str_of_nonneg_spec n Hn) as (H1 & H2 & H3). unfold py_int.
  rewrite (strip_digits _ H1). destruct (str_of_nonneg n) as [|c r] eqn:E; [easy|].
  inversion H1; subst.
  assert (Hd : 48 <= c <= 57) by (unfold is_digit in *; lia).
  replace (match c with 45 => _ | 43 => _ | _ => _ end)
    with (int_digits 0 false (c :: r)).
  2:{ destruct c as [|p|p]; try lia. 
      do 6 (destruct p as [p|p|]; try reflexivity; try lia). }
  rewrite int_digits_val; [unfold dec_val in *; congruence | assumption | left; discriminate].
Qed.

Lemma str_of_Z_nonneg n : 0 <= n -> str_of_Z n = str_of_nonneg n.
Proof. intros. unfold str_of_Z. destruct (Z.ltb_spec n 0); [lia|reflexivity]. Qed.

Lemma str_of_nonneg_inj a b : 0 <= a -> 0 <= b -> str_of_nonneg a = str_of_nonneg b -> a = b.
Proof.
  intros Ha Hb E. pose proof (py_int_str_of_nonneg a Ha). pose proof (py_int_str_of_nonneg b Hb).
  rewrite E in H. congruence.
Qed.

Lemma str_of_nonneg_digits n c : 0 <= n -> In c (str_of_nonneg n) -> 48 <= c <= 57.
Proof.
  intros Hn Hc. destruct (str_of_nonneg_spec n Hn) as (H & _ & _).
  rewrite Forall_forall in H. specialize (H _ Hc). unfold is_digit in H. lia.
Qed.

(* comparison *)
Lemma str_cmp_refl a : str_cmp a a = Eq.
Proof. induction a; simpl; [reflexivity|]. now rewrite Z.compare_refl. Qed.

Lemma str_cmp_eq a b : str_cmp a b = Eq <-> a = b.
Proof.
  split; [|intros ->; apply str_cmp_refl].
  revert b; induction a as [|x a IH]; intros [|y b]; simpl; try easy.
  destruct (Z.compare_spec x y); try easy. subst. intros H. f_equal. auto.
Qed.

Lemma str_cmp_antisym a b : str_cmp b a = CompOpp (str_cmp a b).
Proof.
  revert b; induction a as [|x a IH]; intros [|y b]; simpl; try easy.
  rewrite (Z.compare_antisym x y). destruct (x ?= y); simpl; auto.
Qed.

Lemma str_cmp_lt_trans a b c : str_cmp a b = Lt -> str_cmp b c = Lt -> str_cmp a c = Lt.
Proof.
  revert b c; induction a as [|x a IH]; intros [|y b] [|z c]; simpl; try easy.
  destruct (Z.compare_spec x y), (Z.compare_spec y z); try easy; subst; intros H1 H2.
  - rewrite Z.compare_refl. eauto.
  - destruct (Z.compare_spec y z); try lia; auto.
  - destruct (Z.compare_spec x z); try lia; auto.
  - destruct (Z.compare_spec x z); try lia; auto.
Qed.

Lemma str_leb_refl a : str_leb a a = true.
Proof. unfold str_leb. now rewrite str_cmp_refl. Qed.

Lemma str_leb_total a b : str_leb a b = true \/ str_leb b a = true.
Proof.
  unfold str_leb. rewrite (str_cmp_antisym a b). destruct (str_cmp a b); simpl; auto.
Qed.

Lemma str_leb_trans a b c : str_leb a b = true -> str_leb b c = true -> str_leb a c = true.
Proof.
  unfold str_leb. destruct (str_cmp a b) eqn:E1; try easy; destruct (str_cmp b c) eqn:E2; try easy; intros _ _.
  - apply str_cmp_eq in E1, E2. subst. now rewrite str_cmp_refl.
  - apply str_cmp_eq in E1. subst. now rewrite E2.
  - apply str_cmp_eq in E2. subst. now rewrite E1.
  - now rewrite (str_cmp_lt_trans _ _ _ E1 E2).
Qed.

Lemma str_leb_antisym a b : str_leb a b = true -> str_leb b a = true -> a = b.
Proof.
  unfold str_leb. rewrite (str_cmp_antisym a b). destruct (str_cmp a b) eqn:E; simpl; try easy.
  intros _ _. now apply str_cmp_eq.
Qed.
