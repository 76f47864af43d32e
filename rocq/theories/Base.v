(** Python runtime pieces shared by the whole model: exceptions as values,
    byte strings / strings as [list Z], slices.

    Simplification (applies everywhere): a Python [bytes] object is a [list Z]
    whose elements are meant to be in 0..255 ([bytes_ok]); a Python [str] is the
    [list Z] of its code points. *)
From Coq Require Import String Ascii.
From Coq Require Export ZArith List Bool Lia.
From Coq Require Export ZifyBool ZifyNat.
Export ListNotations.
Export Coq.Strings.String.StringSyntax.
Open Scope Z_scope.

(** Python bytes, e.g. what a file handle returns (core.py 885, 900, 904) *)
Definition bytes := list Z.
(** Python str as code points (core.py 82-93) *)
Definition str := list Z.

(** ASCII literal -> code points (only used for constants of the code).
    (literals of the code such as the keys of core.py 50-61) *)
Fixpoint lit (s : string) : str :=
  match s with
  | EmptyString => []
  | String c r => Z.of_N (N_of_ascii c) :: lit r
  end.
Arguments lit _%string_scope.

(** The exceptions that the modelled code can raise.  [UnicodeDecodeError] and
    [UnicodeEncodeError] are subclasses of [ValueError] in Python;
    [StructError] is [struct.error].  [Unmodelled] marks a path whose Python
    behaviour is outside the model (never produced on the paths theorems speak of).
    (e.g. core.py 343, 887, 889, 944, 947) *)
Inductive exn :=
| StructError | IndexError | KeyError | ValueError | TypeError
| UnicodeDecodeError | UnicodeEncodeError | NotImplementedError | RecursionError
| OverflowError | OSError | AttributeError | AssertionError
| FileExistsError | FileNotFoundError | IntegrityError | OperationalError
| Unmodelled.

(** Equality of exceptions, for [except] clauses (core.py 230, 961, 1121, 1126) *)
Definition exn_eqb (a b : exn) : bool :=
  match a, b with
  | StructError, StructError | IndexError, IndexError | KeyError, KeyError
  | ValueError, ValueError | TypeError, TypeError
  | UnicodeDecodeError, UnicodeDecodeError | UnicodeEncodeError, UnicodeEncodeError
  | NotImplementedError, NotImplementedError | RecursionError, RecursionError
  | OverflowError, OverflowError | OSError, OSError | AttributeError, AttributeError
  | AssertionError, AssertionError | FileExistsError, FileExistsError
  | FileNotFoundError, FileNotFoundError | IntegrityError, IntegrityError
  | OperationalError, OperationalError | Unmodelled, Unmodelled => true
  | _, _ => false
  end.

Lemma exn_eqb_eq a b : exn_eqb a b = true <-> a = b.
Proof. split; [destruct a, b; simpl; congruence | intros ->; destruct b; reflexivity]. Qed.

(** A Python computation: a value or an exception (core.py 847-882) *)
Inductive res (A : Type) := Ok (a : A) | Err (e : exn).
Arguments Ok {A} a.
Arguments Err {A} e.

(** Sequencing: an exception ends the function unless caught (core.py 847-882) *)
Definition bind {A B} (r : res A) (k : A -> res B) : res B :=
  match r with Ok a => k a | Err e => Err e end.
Notation "'let*' x ':=' r 'in' k" := (bind r (fun x => k))
  (at level 200, x pattern, r at level 100, k at level 200, right associativity).

(** A pure function after a computation (core.py 847-882) *)
Definition rmap {A B} (f : A -> B) (r : res A) : res B :=
  match r with Ok a => Ok (f a) | Err e => Err e end.

(** Left-to-right evaluation of a Python [for] loop building a list. (e.g. core.py 627-631) *)
Fixpoint mapM {A B} (f : A -> res B) (l : list A) : res (list B) :=
  match l with
  | [] => Ok []
  | x :: r => let* y := f x in let* ys := mapM f r in Ok (y :: ys)
  end.

(** A [for] loop threading a state, stopping at the first exception. (e.g. core.py 389-402) *)
Fixpoint foldM {A S} (f : S -> A -> res S) (l : list A) (s : S) : res S :=
  match l with
  | [] => Ok s
  | x :: r => let* s' := f s x in foldM f r s'
  end.

(** ** Lengths and slices *)

(** [len] (core.py 387, 886) *)
Definition lenZ {A} (l : list A) : Z := Z.of_nat (length l).

(** [takeZ n l] is Python [l[:n]] for [n >= 0]; computed without unary numbers. *)
Fixpoint takeZ {A} (n : Z) (l : list A) : list A :=
  match l with
  | [] => []
  | x :: r => if n <=? 0 then [] else x :: takeZ (n - 1) r
  end.

(** [dropZ n l] is Python [l[n:]] for [n >= 0]. *)
Fixpoint dropZ {A} (n : Z) (l : list A) : list A :=
  match l with
  | [] => []
  | x :: r => if n <=? 0 then l else dropZ (n - 1) r
  end.

(** Python [l[a:b]] for [0 <= a]; empty when [b <= a]. *)
Definition slice {A} (a b : Z) (l : list A) : list A := takeZ (b - a) (dropZ a l).

(** A byte (core.py 885, 900, 904) *)
Definition byte_ok (b : Z) : Prop := 0 <= b < 256.
(** A bytes object (core.py 885, 900, 904) *)
Definition bytes_ok (l : bytes) : Prop := Forall byte_ok l.

(** [==] on str and bytes (core.py 888) *)
Fixpoint str_eqb (a b : list Z) : bool :=
  match a, b with
  | [], [] => true
  | x :: a', y :: b' => (x =? y) && str_eqb a' b'
  | _, _ => false
  end.

Lemma str_eqb_eq a b : str_eqb a b = true <-> a = b.
Proof.
  revert b; induction a as [|x a IH]; intros [|y b]; simpl; split; try congruence.
  - intros H. apply andb_true_iff in H as [H1 H2].
    apply Z.eqb_eq in H1. apply IH in H2. congruence.
  - intros H. injection H as -> ->. rewrite Z.eqb_refl. apply IH. reflexivity.
Qed.

Lemma str_eqb_spec a b : reflect (a = b) (str_eqb a b).
Proof. apply iff_reflect. symmetry. apply str_eqb_eq. Qed.

Lemma str_eqb_refl a : str_eqb a a = true.
Proof. apply str_eqb_eq. reflexivity. Qed.

Lemma str_eqb_neq a b : a <> b -> str_eqb a b = false.
Proof. intros H. destruct (str_eqb_spec a b); congruence. Qed.

Lemma takeZ_firstn {A} n (l : list A) : takeZ n l = firstn (Z.to_nat n) l.
Proof.
  revert n; induction l as [|x l IH]; intros n; simpl.
  - now rewrite firstn_nil.
  - destruct (Z.leb_spec n 0).
    + replace (Z.to_nat n) with 0%nat by lia. reflexivity.
    + replace (Z.to_nat n) with (S (Z.to_nat (n - 1))) by lia. simpl. now rewrite IH.
Qed.

Lemma dropZ_skipn {A} n (l : list A) : dropZ n l = skipn (Z.to_nat n) l.
Proof.
  revert n; induction l as [|x l IH]; intros n; simpl.
  - now rewrite skipn_nil.
  - destruct (Z.leb_spec n 0).
    + replace (Z.to_nat n) with 0%nat by lia. reflexivity.
    + replace (Z.to_nat n) with (S (Z.to_nat (n - 1))) by lia. simpl. now rewrite IH.
Qed.

Lemma lenZ_nonneg {A} (l : list A) : 0 <= lenZ l.
Proof. unfold lenZ; lia. Qed.
Lemma lenZ_nil {A} : lenZ (@nil A) = 0.
Proof. reflexivity. Qed.
Lemma lenZ_cons {A} (x : A) l : lenZ (x :: l) = 1 + lenZ l.
Proof. unfold lenZ; simpl length; lia. Qed.
Lemma lenZ_app {A} (a b : list A) : lenZ (a ++ b) = lenZ a + lenZ b.
Proof. unfold lenZ; rewrite app_length; lia. Qed.
Lemma lenZ_map {A B} (f : A -> B) l : lenZ (map f l) = lenZ l.
Proof. unfold lenZ; now rewrite map_length. Qed.
Lemma lenZ_0_nil {A} (l : list A) : lenZ l = 0 -> l = [].
Proof. destruct l; [reflexivity | rewrite lenZ_cons; pose proof (lenZ_nonneg l); lia]. Qed.

Lemma lenZ_takeZ {A} n (l : list A) : 0 <= n -> lenZ (takeZ n l) = Z.min n (lenZ l).
Proof. intros H. unfold lenZ. rewrite takeZ_firstn, firstn_length. lia. Qed.

Lemma lenZ_takeZ_le {A} n (l : list A) : lenZ (takeZ n l) <= lenZ l.
Proof. unfold lenZ. rewrite takeZ_firstn, firstn_length. lia. Qed.

Lemma lenZ_dropZ {A} n (l : list A) : 0 <= n -> lenZ (dropZ n l) = Z.max 0 (lenZ l - n).
Proof. intros H. unfold lenZ. rewrite dropZ_skipn, skipn_length. lia. Qed.

Lemma takeZ_app_exact {A} n (a b : list A) : n = lenZ a -> takeZ n (a ++ b) = a.
Proof.
  intros ->. rewrite takeZ_firstn. unfold lenZ. rewrite Nat2Z.id.
  rewrite firstn_app, firstn_all, Nat.sub_diag. simpl. now rewrite app_nil_r.
Qed.

Lemma dropZ_app_exact {A} n (a b : list A) : n = lenZ a -> dropZ n (a ++ b) = b.
Proof.
  intros ->. rewrite dropZ_skipn. unfold lenZ. rewrite Nat2Z.id.
  rewrite skipn_app, skipn_all, Nat.sub_diag. reflexivity.
Qed.

Lemma takeZ_all {A} n (l : list A) : lenZ l <= n -> takeZ n l = l.
Proof. intros H. rewrite takeZ_firstn. apply firstn_all2. unfold lenZ in H. lia. Qed.

Lemma takeZ_nonpos {A} n (l : list A) : n <= 0 -> takeZ n l = [].
Proof. intros H. destruct l; simpl; [reflexivity|]. destruct (Z.leb_spec n 0); [reflexivity|lia]. Qed.

Lemma dropZ_all {A} n (l : list A) : lenZ l <= n -> dropZ n l = [].
Proof. intros H. rewrite dropZ_skipn. apply skipn_all2. unfold lenZ in H. lia. Qed.

Lemma dropZ_nonpos {A} n (l : list A) : n <= 0 -> dropZ n l = l.
Proof. intros H. destruct l; simpl; [reflexivity|]. destruct (Z.leb_spec n 0); [reflexivity|lia]. Qed.

Lemma skipn_skipn' {A} m n (l : list A) : skipn m (skipn n l) = skipn (n + m) l.
Proof.
  revert l; induction n as [|n IH]; intros l; simpl; [reflexivity|].
  destruct l; [now rewrite skipn_nil | apply IH].
Qed.

Lemma dropZ_dropZ {A} m n (l : list A) :
  0 <= m -> 0 <= n -> dropZ m (dropZ n l) = dropZ (n + m) l.
Proof.
  intros Hm Hn. rewrite !dropZ_skipn, skipn_skipn'. f_equal. lia.
Qed.

Lemma takeZ_dropZ_app {A} n (l : list A) : takeZ n l ++ dropZ n l = l.
Proof. rewrite takeZ_firstn, dropZ_skipn. apply firstn_skipn. Qed.

Lemma dropZ_app_le {A} n (a b : list A) : n <= lenZ a -> dropZ n (a ++ b) = dropZ n a ++ b.
Proof.
  intros H. rewrite !dropZ_skipn, skipn_app. unfold lenZ in H.
  replace (Z.to_nat n - length a)%nat with 0%nat by lia. reflexivity.
Qed.

Lemma dropZ_app_ge {A} n (a b : list A) : lenZ a <= n -> dropZ n (a ++ b) = dropZ (n - lenZ a) b.
Proof.
  intros H. rewrite !dropZ_skipn, skipn_app. unfold lenZ in *.
  rewrite (skipn_all2 a) by lia. simpl. f_equal. lia.
Qed.

Lemma takeZ_app_le {A} n (a b : list A) : n <= lenZ a -> takeZ n (a ++ b) = takeZ n a.
Proof.
  intros H. rewrite !takeZ_firstn, firstn_app. unfold lenZ in H.
  replace (Z.to_nat n - length a)%nat with 0%nat by lia. simpl. apply app_nil_r.
Qed.

Lemma takeZ_app_ge {A} n (a b : list A) :
  lenZ a <= n -> takeZ n (a ++ b) = a ++ takeZ (n - lenZ a) b.
Proof.
  intros H. rewrite !takeZ_firstn, firstn_app. unfold lenZ in *.
  rewrite (firstn_all2 a) by lia. do 2 f_equal. lia.
Qed.

Lemma Forall_takeZ {A} (P : A -> Prop) n l : Forall P l -> Forall P (takeZ n l).
Proof.
  intros H; revert n; induction H as [|x l Hx Hl IH]; intros n; simpl; [constructor|].
  destruct (n <=? 0); constructor; auto.
Qed.
Lemma Forall_dropZ {A} (P : A -> Prop) n l : Forall P l -> Forall P (dropZ n l).
Proof.
  intros H; revert n; induction H as [|x l Hx Hl IH]; intros n; simpl; [constructor|].
  destruct (n <=? 0); auto.
Qed.
Lemma Forall_slice {A} (P : A -> Prop) a b l : Forall P l -> Forall P (slice a b l).
Proof. intros H. unfold slice. apply Forall_takeZ, Forall_dropZ, H. Qed.

Lemma slice_app_mid {A} (a b c : list A) n m :
  n = lenZ a -> m = lenZ a + lenZ b -> slice n m (a ++ b ++ c) = b.
Proof.
  intros -> ->. unfold slice. rewrite dropZ_app_exact by reflexivity.
  apply takeZ_app_exact. lia.
Qed.

Lemma lenZ_slice {A} a b (l : list A) :
  0 <= a <= b -> b <= lenZ l -> lenZ (slice a b l) = b - a.
Proof.
  intros H1 H2. unfold slice. rewrite lenZ_takeZ by lia. rewrite lenZ_dropZ by lia. lia.
Qed.

(** ** Monad lemmas *)
Lemma bind_Ok {A B} (r : res A) (k : A -> res B) b :
  bind r k = Ok b -> exists a, r = Ok a /\ k a = Ok b.
Proof. destruct r as [a|e]; simpl; [eauto | discriminate]. Qed.

Lemma mapM_Ok_length {A B} (f : A -> res B) l l' : mapM f l = Ok l' -> length l' = length l.
Proof.
  revert l'; induction l as [|x l IH]; simpl; intros l' H.
  - injection H as <-. reflexivity.
  - apply bind_Ok in H as (y & Hy & H). apply bind_Ok in H as (ys & Hys & H).
    injection H as <-. simpl. f_equal. apply IH, Hys.
Qed.

Lemma mapM_app {A B} (f : A -> res B) l1 l2 :
  mapM f (l1 ++ l2) = (let* a := mapM f l1 in let* b := mapM f l2 in Ok (a ++ b)).
Proof.
  induction l1 as [|x l1 IH]; simpl.
  - destruct (mapM f l2); reflexivity.
  - destruct (f x); simpl; [|reflexivity]. rewrite IH.
    destruct (mapM f l1); simpl; [|reflexivity]. destruct (mapM f l2); reflexivity.
Qed.

Lemma mapM_all_Ok {A B} (f : A -> res B) (g : A -> B) l :
  (forall x, In x l -> f x = Ok (g x)) -> mapM f l = Ok (map g l).
Proof.
  induction l as [|x l IH]; simpl; intros H; [reflexivity|].
  rewrite (H x) by auto. simpl. rewrite IH by auto. reflexivity.
Qed.

Lemma foldM_app {A S} (f : S -> A -> res S) l1 l2 s :
  foldM f (l1 ++ l2) s = (let* s' := foldM f l1 s in foldM f l2 s').
Proof.
  revert s; induction l1 as [|x l1 IH]; simpl; intros s; [reflexivity|].
  destruct (f s x); simpl; auto.
Qed.
