(** The grammars of the texts in a log, and the functions that read them. *)
From Verif Require Import Base Dict PyStr Utf8 Struct ModelTypes ModelRead SpecTools ProofsInv ProofsMsg ProofsWindow SpecText.

(** ** int() *)
Lemma is_digit_iff c : is_digit c = true <-> digit c.
Proof. unfold is_digit, digit. lia. Qed.
Lemma is_ws_iff c : is_ws c = true <-> 9 <= c <= 13 \/ c = 32.
Proof. unfold is_ws. lia. Qed.
Lemma int_digits_fwd s v : digits s v -> forall r, int_digits 0 false (s ++ r) = int_digits v true r.
Proof.
  induction 1 as [c Hc|s v c H IH Hc|s v c H IH Hc]; intros r.
  - cbn [app int_digits]. rewrite (proj2 (is_digit_iff c) Hc). reflexivity.
  - rewrite <- app_assoc, IH. cbn [app int_digits]. rewrite (proj2 (is_digit_iff c) Hc). reflexivity.
  - rewrite <- app_assoc, IH. cbn [app int_digits]. change (is_digit 95) with false. cbn [Z.eqb andb Pos.eqb]. rewrite (proj2 (is_digit_iff c) Hc). reflexivity.
Qed.
Lemma int_digits_bwd r : forall v,
  (forall p acc, digits p acc -> int_digits acc true r = Ok v -> digits (p ++ r) v) /\
  (forall p acc, digits p acc -> int_digits acc false r = Ok v -> digits (p ++ 95 :: r) v) /\
  (int_digits 0 false r = Ok v -> digits r v).
Proof.
  induction r as [|c r IH]; intros v; cbn [int_digits].
  - split; [|split; [intros; discriminate|discriminate]]. intros p acc D E. injection E as <-. rewrite app_nil_r. exact D.
  - destruct (IH v) as (A & B & C). destruct (is_digit c) eqn:Hc.
    + apply is_digit_iff in Hc. split; [|split].
      * intros p acc D E. replace (p ++ c :: r) with ((p ++ [c]) ++ r) by (rewrite <- app_assoc; reflexivity). apply (A _ (acc * 10 + (c - 48))); [constructor; assumption|exact E].
      * intros p acc D E. replace (p ++ 95 :: c :: r) with ((p ++ [95; c]) ++ r) by (rewrite <- app_assoc; reflexivity). apply (A _ (acc * 10 + (c - 48))); [apply dg_under; assumption|exact E].
      * intros E. apply (A [c] (c - 48)); [constructor; assumption|]. exact E.
    + rewrite !andb_false_r, andb_true_r. split; [|split; [intros; discriminate|discriminate]].
      intros p acc D E. destruct (Z.eqb_spec c 95) as [->|]; [|discriminate]. apply (B _ acc); assumption.
Qed.
Lemma digits_iff s v : int_digits 0 false s = Ok v <-> digits s v.
Proof.
  split; [apply int_digits_bwd|]. intros D. pose proof (int_digits_fwd s v D []) as E. rewrite app_nil_r in E. exact E.
Qed.
Lemma digits_ends s v : digits s v -> (exists c r, s = c :: r /\ digit c) /\ (exists c r, s = r ++ [c] /\ digit c).
Proof.
  induction 1 as [c Hc|s v c H [(a & r & E & Ha) _] Hc|s v c H [(a & r & E & Ha) _] Hc].
  - split; [exists c, []|exists c, []]; split; auto.
  - split; [exists a, (r ++ [c]); rewrite E|exists c, s]; split; auto.
  - split; [exists a, (r ++ [95; c]); rewrite E|exists c, (s ++ [95]); rewrite <- app_assoc]; split; auto.
Qed.
Lemma lstrip_blank a s : blank a -> lstrip (a ++ s) = lstrip s.
Proof. induction 1 as [|c a Hc _ IH]; [reflexivity|]. cbn [app lstrip]. rewrite (proj2 (is_ws_iff c) Hc). exact IH. Qed.
Lemma lstrip_split s : exists a, s = a ++ lstrip s /\ blank a.
Proof.
  induction s as [|c s (a & E & B)]; [exists []; split; [reflexivity|constructor]|]. cbn [lstrip]. destruct (is_ws c) eqn:Hc.
  - exists (c :: a). cbn [app]. rewrite <- E. split; [reflexivity|]. constructor; [apply is_ws_iff; exact Hc|exact B].
  - exists []. split; [reflexivity|constructor].
Qed.
Lemma strip_split s : exists a b, s = a ++ strip s ++ b /\ blank a /\ blank b.
Proof.
  destruct (lstrip_split s) as (a & E & B). destruct (lstrip_split (rev (lstrip s))) as (b & E' & B'). exists a, (rev b). unfold strip. split; [|split; [exact B|]].
  - rewrite <- rev_app_distr, <- E', rev_involutive. exact E.
  - apply Forall_forall. intros c Hc. apply in_rev in Hc. unfold blank in B'. rewrite Forall_forall in B'. apply B'. exact Hc.
Qed.
Lemma strip_blank a s b x y t u : blank a -> blank b -> s = x :: t -> s = u ++ [y] -> is_ws x = false -> is_ws y = false -> strip (a ++ s ++ b) = s.
Proof.
  intros A B E1 E2 X Y. unfold strip. rewrite lstrip_blank by exact A.
  assert (E : lstrip (s ++ b) = s ++ b) by (rewrite E1; cbn [app lstrip]; rewrite X; reflexivity).
  rewrite E, rev_app_distr, lstrip_blank by (apply Forall_rev; exact B).
  assert (E' : lstrip (rev s) = rev s) by (rewrite E2, rev_app_distr; cbn [rev app lstrip]; rewrite Y; reflexivity).
  rewrite E'. apply rev_involutive.
Qed.
Lemma digit_not_ws c : digit c -> is_ws c = false.
Proof. unfold digit, is_ws. lia. Qed.
Lemma py_int_iff s v : py_int s = Ok v <-> decimal s v.
Proof.
  split.
  - destruct (strip_split s) as (a & b & E & A & B). unfold py_int. intros H. rewrite E.
    destruct (strip s) as [|c r] eqn:Es; [discriminate|].
    destruct (Z.eq_dec c 45) as [->|N1]; [|destruct (Z.eq_dec c 43) as [->|N2]].
    + destruct (int_digits 0 false r) as [w|] eqn:D; [|discriminate]. injection H as <-. apply digits_iff in D. cbn [app]. apply dc_minus; assumption.
    + apply digits_iff in H. cbn [app]. apply dc_plus; assumption.
    + assert (H' : int_digits 0 false (c :: r) = Ok v) by (clear E Es; destruct c as [|p|p]; try exact H; do 7 (destruct p as [p|p|]; try exact H; try congruence)). apply digits_iff in H'. apply dc_plain; assumption.
  - intros D. destruct D as [a b s v A B D|a b s v A B D|a b s v A B D]; destruct (digits_ends s v D) as ((x & r & E1 & X) & (y & u & E2 & Y)).
    + unfold py_int. rewrite (strip_blank a s b x y r u A B E1 E2 (digit_not_ws _ X) (digit_not_ws _ Y)). 
      assert (I : int_digits 0 false s = Ok v) by (apply digits_iff; exact D). rewrite E1 in *. unfold digit in X.
      destruct x as [|p|p]; try exact I. do 7 (destruct p as [p|p|]; try exact I; try lia).
    + unfold py_int. change (a ++ 43 :: s ++ b) with (a ++ (43 :: s) ++ b).
      rewrite (strip_blank a (43 :: s) b 43 y s (43 :: u) A B eq_refl); [apply digits_iff; exact D|rewrite E2; reflexivity|reflexivity|apply digit_not_ws; exact Y].
    + unfold py_int. change (a ++ 45 :: s ++ b) with (a ++ (45 :: s) ++ b).
      rewrite (strip_blank a (45 :: s) b 45 y s (45 :: u) A B eq_refl); [rewrite (proj2 (digits_iff s v) D); reflexivity|rewrite E2; reflexivity|reflexivity|apply digit_not_ws; exact Y].
Qed.

(** ** split and find *)
Lemma first_char c (s : str) : ~ In c s \/ exists a b, s = a ++ c :: b /\ ~ In c a.
Proof.
  induction s as [|x s IH]; [left; intros []|]. destruct (Z.eq_dec x c) as [->|N].
  - right. exists [], s. split; [reflexivity|intros []].
  - destruct IH as [H|(a & b & -> & H)].
    + left. intros [E|E]; [exact (N E)|exact (H E)].
    + right. exists (x :: a), b. split; [reflexivity|]. intros [E|E]; [exact (N E)|exact (H E)].
Qed.
(** the first two pieces *)
Lemma split_two c s : (~ In c s /\ py_nth (split1 c s) 1 = Err IndexError) \/
  exists a b t, s = a ++ c :: b ++ t /\ ~ In c a /\ ~ In c b /\ ignored c t /\ py_nth (split1 c s) 0 = Ok a /\ py_nth (split1 c s) 1 = Ok b.
Proof.
  destruct (first_char c s) as [H|(a & r & -> & H)].
  - left. split; [exact H|]. rewrite split1_nosep by exact H. reflexivity.
  - right. rewrite split1_app by exact H. destruct (first_char c r) as [H2|(b & t & -> & H2)].
    + exists a, r, []. rewrite app_nil_r. repeat split; auto; [left; reflexivity|]. rewrite split1_nosep by exact H2. reflexivity.
    + exists a, b, (c :: t). repeat split; auto; [right; exists t; reflexivity|]. rewrite split1_app by exact H2. reflexivity.
Qed.
Lemma split_two_eq c a b t : ~ In c a -> ~ In c b -> ignored c t -> py_nth (split1 c (a ++ c :: b ++ t)) 0 = Ok a /\ py_nth (split1 c (a ++ c :: b ++ t)) 1 = Ok b.
Proof.
  intros A B [->|(r & ->)]; rewrite split1_app by exact A.
  - rewrite app_nil_r, split1_nosep by exact B. split; reflexivity.
  - rewrite split1_app by exact B. split; reflexivity.
Qed.
Lemma separated_split c s : s = separated [c] (split1 c s) /\ Forall (fun p => ~ In c p) (split1 c s).
Proof.
  remember (length s) as n eqn:En. revert s En. induction n as [n IH] using lt_wf_ind. intros s ->. destruct (first_char c s) as [H|(a & r & -> & H)].
  - rewrite split1_nosep by exact H. cbn. rewrite app_nil_r. split; [reflexivity|constructor; [exact H|constructor]].
  - rewrite split1_app by exact H. destruct (IH (length r)) with (s := r) as (E & F); [rewrite app_length; cbn; lia|reflexivity|].
    split; [|constructor; assumption]. destruct (split1 c r) as [|y l] eqn:Es; [destruct (split1_nonempty c r Es)|]. rewrite E at 1. reflexivity.
Qed.
Lemma py_slice_last a s c : py_slice (lenZ a + 1) (-1) (a ++ 91 :: s ++ [c]) = s.
Proof.
  unfold py_slice. pose proof (lenZ_nonneg a). pose proof (lenZ_nonneg s). assert (L : lenZ (a ++ 91 :: s ++ [c]) = lenZ a + lenZ s + 2) by (rewrite lenZ_app, lenZ_cons, lenZ_app; change (lenZ [c]) with 1; lia).
  rewrite L. destruct (Z.ltb_spec (lenZ a + 1) 0); [lia|]. change (-1 <? 0) with true. cbv iota. rewrite Z.min_l, Z.max_r by lia.
  replace (a ++ 91 :: s ++ [c]) with ((a ++ [91]) ++ s ++ [c]) by (rewrite <- app_assoc; reflexivity). apply slice_app_mid; rewrite lenZ_app; change (lenZ [91]) with 1; lia.
Qed.

(** ** fields *)
Lemma extract_type_iff s f : extract_type s = Ok f <-> field_def s f.
Proof.
  split.
  - unfold extract_type. cbv zeta. destruct (split_two 32 s) as [(H & E)|(ty & name & t & -> & Ht & Hn & Hi & E0 & E1)].
    { rewrite E. destruct (py_nth (split1 32 s) 0); discriminate. }
    rewrite E0. cbn [bind]. rewrite E1. cbn [bind]. destruct (first_char 91 ty) as [H|(a & r & -> & H)].
    + rewrite find_char_none by exact H. cbn [Z.eqb]. intros E. injection E as <-. constructor; assumption.
    + rewrite find_char_app by exact H. pose proof (lenZ_nonneg a). destruct (Z.eqb_spec (lenZ a) (-1)); [lia|].
      intros E. apply bind_Ok in E. destruct E as (n0 & E & Ef). injection Ef as <-. rewrite py_slice_0. rewrite <- app_assoc. cbn [app].
      apply py_int_iff in E. destruct (first_char 93 (a ++ 91 :: r)) as [N|(x & y & Exy & Nx)].
      * rewrite find_char_none in E by exact N. destruct r as [|c r _] using rev_ind.
        { exfalso. unfold py_slice in E. rewrite lenZ_app in E. change (lenZ [91]) with 1 in E. change (-1 <? 0) with true in E. cbv iota in E.
          destruct (Z.ltb_spec (lenZ a + 1) 0); [lia|]. unfold slice in E. rewrite takeZ_nonpos in E by lia. apply py_int_iff in E. discriminate. }
        rewrite py_slice_last in E. rewrite <- app_assoc. cbn [app]. apply fd_open; try assumption; rewrite in_app_iff in *; cbn [In] in *; intuition.
      * rewrite Exy in E. rewrite find_char_app in E by exact Nx. 
        assert (G : exists q, x = a ++ 91 :: q /\ r = q ++ 93 :: y).
        { apply app_eq_app in Exy. destruct Exy as (l & [(Ea & El)|(Ex & El)]).
          - exfalso. assert (lenZ x <= lenZ a) by (rewrite Ea, lenZ_app; pose proof (lenZ_nonneg l); lia). unfold py_slice in E.
            destruct (Z.ltb_spec (lenZ a + 1) 0); [lia|]. destruct (Z.ltb_spec (lenZ x) 0); [pose proof (lenZ_nonneg x); lia|]. pose proof (lenZ_nonneg y).
            rewrite lenZ_app, lenZ_cons in E. unfold slice in E. rewrite takeZ_nonpos in E by lia. apply py_int_iff in E. discriminate.
          - destruct l as [|z l]; [discriminate|]. cbn [app] in El. injection El as <- El. exists l. split; [exact Ex|exact El]. }
        destruct G as (q & -> & ->). rewrite <- app_assoc in E. cbn [app] in E.
        change (py_slice (lenZ a + 1) (lenZ (a ++ [91] ++ q)) (a ++ [91] ++ q ++ 93 :: y)) with (py_slice (lenZ a + 1) (lenZ (a ++ 91 :: q)) (a ++ 91 :: q ++ 93 :: y)) in E.
        pose proof (py_slice_mid a q (93 :: y)) as P. cbn [app] in P. rewrite P in E. rewrite <- !app_assoc. cbn [app].
        apply fd_array; try assumption.
        -- rewrite in_app_iff in *. cbn [In] in *. intuition.
        -- rewrite !in_app_iff in *. cbn [In] in *. rewrite in_app_iff in *. cbn [In] in *. intuition.
  - intros H. destruct H as [ty name t H1 H2 H3 H4|ty size n junk name t H1 H2 H3 H4 H5 H6|ty size n c name t H1 H2 H3 H4 H5 H6]; unfold extract_type; cbv zeta.
    + destruct (split_two_eq 32 ty name t H1 H3 H4) as (-> & ->). cbn [bind]. rewrite find_char_none by exact H2. reflexivity.
    + assert (N : ~ In 32 (ty ++ 91 :: size ++ 93 :: junk)) by (rewrite !in_app_iff in *; cbn [In]; rewrite in_app_iff; cbn [In]; intuition discriminate).
      replace (ty ++ 91 :: size ++ 93 :: junk ++ 32 :: name ++ t) with ((ty ++ 91 :: size ++ 93 :: junk) ++ 32 :: name ++ t) by (rewrite <- !app_assoc; cbn [app]; rewrite <- app_assoc; reflexivity).
      destruct (split_two_eq 32 _ name t N H5 H6) as (-> & ->). cbn [bind]. rewrite find_char_app by exact H1. pose proof (lenZ_nonneg ty). destruct (Z.eqb_spec (lenZ ty) (-1)); [lia|].
      assert (N2 : ~ In 93 (ty ++ 91 :: size)) by (rewrite !in_app_iff in *; cbn [In]; intuition discriminate).
      replace (ty ++ 91 :: size ++ 93 :: junk) with ((ty ++ 91 :: size) ++ 93 :: junk) by (rewrite <- app_assoc; reflexivity).
      rewrite find_char_app by exact N2. rewrite <- app_assoc. cbn [app]. pose proof (py_slice_mid ty size (93 :: junk)) as P. cbn [app] in P. rewrite P.
      rewrite (proj2 (py_int_iff _ _) H4). cbn [bind]. rewrite py_slice_0. reflexivity.
    + assert (N : ~ In 32 (ty ++ 91 :: size ++ [c])) by (rewrite !in_app_iff in *; cbn [In] in *; rewrite in_app_iff; cbn [In]; intuition discriminate).
      replace (ty ++ 91 :: size ++ c :: 32 :: name ++ t) with ((ty ++ 91 :: size ++ [c]) ++ 32 :: name ++ t) by (rewrite <- !app_assoc; cbn [app]; rewrite <- app_assoc; reflexivity).
      destruct (split_two_eq 32 _ name t N H5 H6) as (-> & ->). cbn [bind]. rewrite find_char_app by exact H1. pose proof (lenZ_nonneg ty). destruct (Z.eqb_spec (lenZ ty) (-1)); [lia|].
      rewrite find_char_none by (rewrite !in_app_iff in *; cbn [In] in *; rewrite in_app_iff; cbn [In]; intuition discriminate).
      rewrite py_slice_last, (proj2 (py_int_iff _ _) H4). cbn [bind]. rewrite py_slice_0. reflexivity.
Qed.

(** ** formats *)
Lemma mapM_iff {A B} (f : A -> res B) (R : A -> B -> Prop) l m : (forall x y, f x = Ok y <-> R x y) -> (mapM f l = Ok m <-> Forall2 R l m).
Proof.
  intros H. revert m. induction l as [|x l IH]; intros m; cbn [mapM].
  - split; [intros E; injection E as <-; constructor|]. intros F. inversion F. reflexivity.
  - split.
    + intros E. apply bind_Ok in E. destruct E as (y & Ey & E). apply bind_Ok in E. destruct E as (l' & El & E). injection E as <-. constructor; [apply H; exact Ey|apply IH; exact El].
    + intros F. inversion F; subst. match goal with G : R x ?y |- _ => apply H in G; rewrite G end. cbn [bind]. match goal with G : Forall2 R l _ |- _ => apply IH in G; rewrite G end. reflexivity.
Qed.
Lemma format_iff ign data f : parse_format ign data = Ok f <-> exists s, utf8_decode ign data = Ok s /\ format_def s f.
Proof.
  unfold parse_format, parse_string. split.
  - intros E. apply bind_Ok in E. destruct E as (s & Es & E). exists s. split; [exact Es|]. cbv zeta in E.
    destruct (split_two 58 s) as [(H & E')|(name & body & t & -> & Hn & Hb & Hi & E0 & E1)].
    { rewrite E' in E. destruct (py_nth (split1 58 s) 0); discriminate. }
    rewrite E0 in E. cbn [bind] in E. rewrite E1 in E. cbn [bind] in E. apply bind_Ok in E. destruct E as (fields & Ef & E). injection E as <-. cbn [mf_name mf_fields] in *.
    destruct (separated_split 59 body) as (Eb & Fb). exists (split1 59 body), t. cbn [mf_name mf_fields]. rewrite <- Eb. split; [reflexivity|]. split; [exact Hi|].
    split; [apply split1_nonempty|]. split; [exact Hn|]. split; [|apply (mapM_iff _ _ _ _ extract_type_iff); exact Ef].
    apply Forall_forall. intros p Hp. rewrite Forall_forall in Fb. split; [|apply Fb; exact Hp]. intros H58. apply Hb. rewrite Eb.
    clear -Hp H58. induction (split1 59 body) as [|q l IH]; [destruct Hp|]. cbn [separated]. apply in_or_app. destruct Hp as [->|Hp]; [left; exact H58|right].
    apply in_concat. exists ([59] ++ p). split; [apply in_map_iff; exists p; split; [reflexivity|exact Hp]|right; exact H58].
  - intros (s & Es & parts & t & -> & Hi & Np & Hn & Fp & Ff). rewrite Es. cbn [bind].
    assert (Hb : ~ In 58 (separated [59] parts)).
    { intros H. apply separated_In in H. destruct H as [[H|[]]|(p & Hp & H)]; [discriminate|]. rewrite Forall_forall in Fp. apply (proj1 (Fp p Hp)). exact H. }
    destruct (split_two_eq 58 (mf_name f) (separated [59] parts) t Hn Hb Hi) as (-> & ->). cbn [bind]. rewrite split_separated.
    + rewrite (proj2 (mapM_iff _ _ _ _ extract_type_iff) Ff). cbn [bind]. destruct f. reflexivity.
    + exact Np.
    + eapply Forall_impl; [|exact Fp]. intros p (_ & H). exact H.
Qed.

(** ** info messages *)
Lemma slice_1 (k : Z) (rest : bytes) x : slice 1 (1 + k) (x :: rest) = firstn (Z.to_nat k) rest.
Proof. unfold slice. change (dropZ 1 (x :: rest)) with (dropZ 0 rest). rewrite dropZ_nonpos by lia. rewrite takeZ_firstn. f_equal. lia. Qed.
Lemma drop_1 (k : Z) (rest : bytes) x : 0 <= k -> dropZ (1 + k) (x :: rest) = skipn (Z.to_nat k) rest.
Proof. intros H. rewrite dropZ_skipn. replace (Z.to_nat (1 + k)) with (S (Z.to_nat k)) by lia. reflexivity. Qed.
Lemma info_value_iff ign ty key b m : ((if starts_with (lit "char[") ty then let* s := parse_string ign b in Ok (mkInfo ty key (VStr s))
  else match ctype_of ty with Some c => let* v := unpack_val c b in Ok (mkInfo ty key v) | None => Ok (mkInfo ty key (VBytes b)) end) = Ok m) <->
  im_type m = ty /\ im_key m = key /\ info_value ign ty b (im_value m).
Proof.
  unfold parse_string, info_value. destruct (starts_with (lit "char[") ty) eqn:S.
  - apply starts_with_iff in S. destruct S as (r & S). split.
    + intros E. apply bind_Ok in E. destruct E as (s & Es & E). injection E as <-. split; [reflexivity|]. split; [reflexivity|]. left. exists r, s. repeat split; assumption.
    + intros (E1 & E2 & [(r' & s & _ & Es & E3)|[(c & N & _)|(N & _)]]); [|destruct (N r S)|destruct (N r S)]. rewrite Es. cbn [bind]. destruct m. cbn in *. subst. reflexivity.
  - assert (N : forall r, ty <> lit "char[" ++ r) by (intros r ->; rewrite starts_with_app in S; discriminate). destruct (ctype_of ty) as [c|] eqn:C.
    + split.
      * intros E. apply bind_Ok in E. destruct E as (v & Ev & E). injection E as <-. split; [reflexivity|]. split; [reflexivity|]. right. left. exists c. repeat split; assumption.
      * intros (E1 & E2 & [(r' & s & T & _)|[(c' & _ & C' & V)|(_ & C' & _)]]); [destruct (N _ T)| |discriminate]. injection C' as <-. rewrite V. cbn [bind]. destruct m. cbn in *. subst. reflexivity.
    + split.
      * intros E. injection E as <-. split; [reflexivity|]. split; [reflexivity|]. right. right. repeat split; assumption.
      * intros (E1 & E2 & [(r' & s & T & _)|[(c' & _ & C' & V)|(_ & C' & V)]]); [destruct (N _ T)|discriminate|]. destruct m. cbn in *. subst. reflexivity.
Qed.
Lemma info_iff ign data m : bytes_ok data -> (parse_info ign data = Ok m <-> info_def ign data m).
Proof.
  intros Hb. unfold parse_info. destruct data as [|k rest].
  { split; [discriminate|]. intros (k & rest & text & t & E & _). discriminate. }
  assert (Hk : 0 <= k < 256) by (inversion Hb; assumption). assert (U : unpack_u 1 (slice 0 1 (k :: rest)) = Ok k) by (unfold slice; rewrite dropZ_nonpos, takeZ_firstn by lia; change (Z.to_nat (1 - 0)) with 1%nat; cbn [firstn]; unfold unpack_u; cbn [length Nat.eqb]; f_equal; cbn [le_dec]; lia). rewrite U. cbn [bind].
  rewrite slice_1, drop_1 by lia. split.
  - intros E. apply bind_Ok in E. destruct E as (text & Et & E). cbv zeta in E. destruct (split_two 32 text) as [(H & E')|(ty & key & t & -> & Ht & Hy & Hi & E0 & E1)].
    { rewrite E' in E. destruct (py_nth (split1 32 text) 0); discriminate. }
    rewrite E0 in E. cbn [bind] in E. rewrite E1 in E. cbn [bind] in E. apply info_value_iff in E. destruct E as (<- & <- & V).
    exists k, rest, (im_type m ++ 32 :: im_key m ++ t), t. repeat split; assumption.
  - intros (k' & rest' & text & t & E & Et & -> & Ht & Hy & Hi & V). injection E as <- <-. unfold parse_string at 1. rewrite Et. cbn [bind]. cbv zeta.
    destruct (split_two_eq 32 _ _ t Ht Hy Hi) as (-> & ->). cbn [bind]. apply info_value_iff. repeat split. exact V.
Qed.

(** ** refusals *)
Definition text_errs : list exn := [UnicodeDecodeError; IndexError; ValueError].
Lemma format_errs ign data : errs text_errs (parse_format ign data).
Proof.
  assert (D : forall a d s, errs text_errs (int_digits a d s)).
  { intros a d s. revert a d. induction s as [|c s IH]; intros a d; cbn [int_digits]; [destruct d; simpl; auto|]. destruct (is_digit c); auto. destruct ((c =? 95) && d); simpl; auto. }
  assert (J : forall s, errs text_errs (py_int s)).
  { intros s. unfold py_int. repeat match goal with
    | |- errs _ (match ?x with _ => _ end) => destruct x
    | |- errs _ (bind _ _) => apply errs_bind; [|intros; exact I]
    | |- _ => apply D
    end. }
  assert (P : forall A (l : list A) i, errs text_errs (py_nth l i)) by (intros A l i; unfold py_nth; destruct (nth_error l i); simpl; auto).
  unfold parse_format. apply errs_bind.
  { pose proof (utf8_decode_err_aux (length data) ign data (le_n _)) as H. unfold parse_string. destruct (utf8_decode ign data); [exact I|]. simpl in *. tauto. }
  intros s _. cbv zeta. apply errs_bind; [apply P|]. intros name _. apply errs_bind; [apply P|]. intros rest _. apply errs_bind; [|intros; exact I].
  apply errs_mapM. intros x. unfold extract_type. cbv zeta. apply errs_bind; [apply P|]. intros ty _. apply errs_bind; [apply P|]. intros nm _.
  destruct (_ =? -1); [exact I|]. apply errs_bind; [apply J|]. intros; exact I.
Qed.
