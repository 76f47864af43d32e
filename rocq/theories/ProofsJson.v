(** Proofs about the JSON copy of the values. *)
From Verif Require Import Base Dict PyStr PyFloat Struct ModelTypes ModelTools ModelJson SpecJson.
From Coq Require Import Lia ZifyBool ZifyNat.

(** ** Decimal texts *)
Lemma dec_digits_head fuel : forall n acc, 0 < n < 2 ^ Z.of_nat fuel -> exists d r, dec_digits fuel n acc = d :: r /\ 49 <= d <= 57.
Proof.
  induction fuel as [|f IH]; intros n acc Hn; [cbn in Hn; lia|]. cbn [dec_digits]. destruct (Z.eqb_spec (n / 10) 0) as [E|E].
  - exists (48 + n mod 10), acc. split; [reflexivity|]. apply Z.div_small_iff in E; [|lia]. destruct E as [E|E]; [|lia]. rewrite Z.mod_small by lia. lia.
  - apply IH. rewrite Nat2Z.inj_succ, Z.pow_succ_r in Hn by lia. pose proof (Z.div_pos n 10 ltac:(lia) ltac:(lia)).
    split; [lia|]. apply Z.div_lt_upper_bound; lia.
Qed.
Lemma nonneg_head n : 0 < n -> exists d r, str_of_nonneg n = d :: r /\ 49 <= d <= 57.
Proof.
  intros H. apply dec_digits_head. split; [lia|]. rewrite Nat2Z.inj_succ, Z2Nat.id by apply Z.log2_nonneg.
  pose proof (Z.log2_spec n H). lia.
Qed.
Lemma nonneg_int n : 0 <= n -> str_of_nonneg n = lit "0" \/ exists d r, str_of_nonneg n = d :: r /\ 49 <= d <= 57 /\ digits r.
Proof.
  intros H. destruct (Z.eq_dec n 0) as [->|N]; [left; reflexivity|right]. destruct (nonneg_head n ltac:(lia)) as (d & r & E & Hd).
  exists d, r. split; [exact E|]. split; [exact Hd|]. apply Forall_forall. intros c Hc. apply (str_of_nonneg_digits n); [exact H|]. rewrite E. now right.
Qed.
Lemma int_number z : json_number (str_of_Z z).
Proof.
  unfold json_number, str_of_Z. destruct (Z.ltb_spec z 0).
  - exists (lit "-"), (str_of_nonneg (- z)), [], []. rewrite !app_nil_r. repeat split; auto. apply nonneg_int. lia.
  - exists [], (str_of_nonneg z), [], []. rewrite !app_nil_r. repeat split; auto. apply nonneg_int. lia.
Qed.
Lemma int_chars z c : In c (str_of_Z z) -> c = 45 \/ 48 <= c <= 57.
Proof.
  unfold str_of_Z. destruct (Z.ltb_spec z 0); [intros [<-|H1]; [now left|]|intros H1]; right; eapply str_of_nonneg_digits; try exact H1; lia.
Qed.
Lemma int_inj a b : str_of_Z a = str_of_Z b -> a = b.
Proof.
  unfold str_of_Z. destruct (Z.ltb_spec a 0), (Z.ltb_spec b 0); intros E.
  - injection E as E. apply str_of_nonneg_inj in E; lia.
  - exfalso. assert (In 45 (str_of_nonneg b)) by (rewrite <- E; now left). apply str_of_nonneg_digits in H1; lia.
  - exfalso. assert (In 45 (str_of_nonneg a)) by (rewrite E; now left). apply str_of_nonneg_digits in H1; lia.
  - apply str_of_nonneg_inj in E; lia.
Qed.
Lemma number_chars t c : json_number t -> In c t -> 48 <= c <= 57 \/ In c (lit "+-.eE").
Proof.
  assert (D : forall s, digits s -> In c s -> 48 <= c <= 57) by (intros s H; apply (proj1 (Forall_forall _ _) H)).
  intros (m & i & f & e & -> & Hm & Hi & Hf & He) Hc. rewrite !in_app_iff in Hc. destruct Hc as [Hc|[Hc|[Hc|Hc]]].
  - destruct Hm as [->| ->]; [destruct Hc|]. right. destruct Hc as [<-|[]]. cbn. tauto.
  - left. destruct Hi as [->|(d & r & -> & Hd & Hr)]. cbn in Hc; lia. destruct Hc as [<-|Hc]; [lia|]. apply (D r); auto.
  - destruct Hf as [->|(r & -> & _ & Hr)]; [destruct Hc|]. destruct Hc as [<-|Hc]; [right; cbn; tauto|]. left. apply (D r); auto.
  - destruct He as [->|(x & s & r & -> & Hx & Hs & _ & Hr)]; [destruct Hc|]. rewrite !in_app_iff in Hc. destruct Hc as [[<-|[]]|[Hc|Hc]].
    + right. cbn. destruct Hx; subst; tauto.
    + right. destruct Hs as [->|[->| ->]]; [destruct Hc| |]; destruct Hc as [<-|[]]; cbn; tauto.
    + left. apply (D r); auto.
Qed.

(** ** str.replace *)
Lemma replace_skip p r a : forall s, replace_from p r (length a) (a ++ s) = replace_from p r 0 s.
Proof. induction a as [|c a IH]; intros s; [destruct s; reflexivity|]. cbn. apply IH. Qed.
Lemma replace_hit p r s : p <> [] -> py_replace p r (p ++ s) = r ++ py_replace p r s.
Proof.
  intros Hp. destruct p as [|c p]; [congruence|]. unfold py_replace. cbn [app replace_from].
  change (c :: p ++ s) with ((c :: p) ++ s). rewrite starts_with_app. cbn [length]. rewrite Nat.sub_succ, Nat.sub_0_r, replace_skip. reflexivity.
Qed.
Lemma replace_miss c p r d s : c <> d -> py_replace (c :: p) r (d :: s) = d :: py_replace (c :: p) r s.
Proof. intros H. unfold py_replace. cbn [replace_from starts_with]. destruct (Z.eqb_spec c d); [contradiction|]. reflexivity. Qed.
Lemma replace_miss2 c e p r d s : c = d -> (forall x t, s = x :: t -> e <> x) ->
  py_replace (c :: e :: p) r (d :: s) = d :: py_replace (c :: e :: p) r s.
Proof.
  intros <- H. unfold py_replace. cbn [replace_from starts_with]. rewrite Z.eqb_refl. destruct s as [|x t]; [reflexivity|].
  destruct (Z.eqb_spec e x) as [E|E]; [destruct (H x t eq_refl E)|]. reflexivity.
Qed.
Lemma replace_plain c p r a s : ~ In c a -> py_replace (c :: p) r (a ++ s) = a ++ py_replace (c :: p) r s.
Proof.
  induction a as [|d a IH]; intros H; [reflexivity|]. cbn [app]. rewrite replace_miss by (intros ->; apply H; now left).
  rewrite IH by (intros X; apply H; now right). reflexivity.
Qed.
Lemma replace_one a b s : py_replace [a] [b] s = map (fun c => if a =? c then b else c) s.
Proof.
  unfold py_replace. induction s as [|c s IH]; [reflexivity|]. cbn [replace_from starts_with map]. rewrite andb_true_r.
  destruct (Z.eqb_spec a c); cbn [length Nat.sub app]; rewrite IH; reflexivity.
Qed.

(** ** The text of a dict, with the quote and the texts of the values left open *)
Definition object_text (q : Z) (F : value -> str) (d : dict str value) : str :=
  123 :: join (lit ", ") (map (fun kv => q :: fst kv ++ q :: lit ": " ++ F (snd kv)) d) ++ [125].
Lemma dict_object frepr d : dict_str frepr d = object_text 39 (py_repr frepr) d.
Proof. reflexivity. Qed.

Definition stops (s : str) : Prop := exists c t, s = c :: t /\ (c = 44 \/ c = 125).
Lemma join_more sep x y l : join sep (x :: y :: l) = x ++ sep ++ join sep (y :: l).
Proof. reflexivity. Qed.
Lemma replace_object c p r q F F' d : ~ In c (q :: lit "{}: ,") ->
  Forall (fun kv => ~ In c (fst kv)) d ->
  Forall (fun kv => forall s, stops s -> py_replace (c :: p) r (F (snd kv) ++ s) = F' (snd kv) ++ py_replace (c :: p) r s) d ->
  py_replace (c :: p) r (object_text q F d) = object_text q F' d.
Proof.
  intros Hc. unfold object_text. intros Hk Hv. rewrite replace_miss by (intros ->; apply Hc; cbn; tauto). f_equal.
  assert (E : py_replace (c :: p) r [125] = [125]) by (rewrite replace_miss by (intros ->; apply Hc; cbn; tauto); reflexivity).
  assert (I : forall kv s, ~ In c (fst kv) -> (forall s, stops s -> py_replace (c :: p) r (F (snd kv) ++ s) = F' (snd kv) ++ py_replace (c :: p) r s) ->
    stops s -> py_replace (c :: p) r ((q :: fst kv ++ q :: lit ": " ++ F (snd kv)) ++ s) = (q :: fst kv ++ q :: lit ": " ++ F' (snd kv)) ++ py_replace (c :: p) r s).
  { intros kv s H1 H2 Hs. cbn [app]. rewrite replace_miss by (intros ->; apply Hc; cbn; tauto). f_equal.
    rewrite <- !app_assoc. rewrite replace_plain by exact H1. f_equal. cbn [app].
    rewrite replace_miss by (intros ->; apply Hc; cbn; tauto). f_equal. rewrite <- !app_assoc.
    rewrite replace_plain. 2: { intros X. apply Hc. cbn in *. tauto. }
    rewrite H2 by exact Hs. reflexivity. }
  destruct d as [|kv d]; [exact E|]. inversion Hk as [|? ? K1 K2]; subst. inversion Hv as [|? ? V1 V2]; subst. clear Hk Hv.
  revert kv K1 V1. induction d as [|kv' d IH]; intros kv K1 V1.
  - cbn [map join]. rewrite I; [now rewrite E|exact K1|exact V1|]. exists 125, []. auto.
  - change (map ?f (?a :: ?b :: ?l)) with (f a :: f b :: map f l). rewrite !join_more. rewrite <- !app_assoc.
    inversion K2 as [|? ? K3 K4]; subst. inversion V2 as [|? ? V3 V4]; subst.
    rewrite I; [|exact K1|exact V1|eexists 44, _; split; [reflexivity|now left]]. f_equal.
    rewrite replace_plain. 2: { intros X. apply Hc. cbn in *. tauto. }
    f_equal. apply (IH K4 V4 kv' K3 V3).
Qed.
Lemma map_join f sep l : map f (join sep l) = join (map f sep) (map (map f) l).
Proof.
  induction l as [|x l IH]; [reflexivity|]. destruct l as [|y l]; [reflexivity|]. rewrite join_more, !map_app, IH. reflexivity.
Qed.
Lemma map_same (f : Z -> Z) s : (forall c, In c s -> f c = c) -> map f s = s.
Proof. intros H. rewrite <- (map_id s) at 2. apply map_ext_in. exact H. Qed.
Lemma quotes_object F d : Forall (fun kv => ~ In 39 (fst kv) /\ ~ In 39 (F (snd kv))) d ->
  py_replace [39] [34] (object_text 39 F d) = object_text 34 F d.
Proof.
  intros H. rewrite replace_one. unfold object_text. cbn [map]. rewrite map_app, map_join. cbn [map]. f_equal. f_equal. f_equal.
  rewrite map_map. apply map_ext_in. intros kv Hkv. rewrite Forall_forall in H. destruct (H kv Hkv) as (H1 & H2).
  cbn [map]. f_equal. rewrite map_app. cbn [map]. f_equal; [|f_equal].
  - apply map_same. intros c Hc. destruct (Z.eqb_spec 39 c); [subst; contradiction|reflexivity].
  - rewrite map_app. f_equal. apply map_same. intros c Hc. destruct (Z.eqb_spec 39 c); [subst; contradiction|reflexivity].
Qed.

(** ** The three replacements *)
Lemma key_chars k : (forall c, In c k -> c = 45 \/ 48 <= c <= 57) -> json_chars k.
Proof.
  induction k as [|c k IH]; intros H; [constructor|]. pose proof (H c (or_introl eq_refl)).
  apply chars_plain; try lia. apply IH. intros x Hx. apply H. now right.
Qed.
Lemma blank1 : blank [32].
Proof. repeat constructor. Qed.
Lemma blank0 : blank [].
Proof. constructor. Qed.
Section Text.
  Variable frepr : Z -> str.
  Hypothesis frepr_number : forall b, finite b -> json_number (frepr b).
  Definition plain (v : value) : Prop := match v with VInt _ | VFloat _ => True | _ => False end.
  (** the text of a value in the end *)
  Definition final (v : value) : str :=
    match v with
    | VInt z => str_of_Z z
    | VFloat b =>
      if f64_is_nan b then lit "null"
      else if b =? 9218868437227405312 then lit "null"
      else if b =? 18442240474082181120 then lit "-null"
      else frepr b
    | _ => []
    end.
  Definition middle (v : value) : str :=
    match v with VFloat b => if f64_is_nan b then lit "null" else py_repr frepr v | _ => py_repr frepr v end.
  Lemma frepr_plain b c : f64_is_nan b = false -> (b =? 9218868437227405312) = false -> (b =? 18442240474082181120) = false ->
    c <> 45 -> ~ In c (lit "+-.eE") -> ~ 48 <= c <= 57 -> ~ In c (frepr b).
  Proof.
    intros H1 H2 H3 H5 H6 H7 Hin. apply Z.eqb_neq in H2, H3. destruct (number_chars (frepr b) c) as [X|X]; auto. apply frepr_number. repeat split; auto.
  Qed.
  Lemma final_text d : Forall (fun kv => plain (snd kv) /\ forall c, In c (fst kv) -> c = 45 \/ 48 <= c <= 57) d ->
    py_replace [39] [34] (py_replace (lit "inf") (lit "null") (py_replace (lit "nan") (lit "null") (dict_str frepr d))) = object_text 34 final d.
  Proof.
    intros H. rewrite dict_object. change (lit "nan") with [110; 97; 110]. change (lit "inf") with [105; 110; 102].
    rewrite (replace_object 110 [97; 110] (lit "null") 39 (py_repr frepr) middle).
    2: { cbn. lia. }
    2: { eapply Forall_impl; [|exact H]. intros kv (_ & Hk) X. specialize (Hk _ X). lia. }
    2: { eapply Forall_impl; [|exact H]. intros kv (Hp & _) s Hs. destruct (snd kv) as [z|b|b|x|x]; cbn [plain] in Hp; try contradiction; cbn [py_repr middle].
         - apply replace_plain. intros X. apply int_chars in X. lia.
         - destruct (f64_is_nan b) eqn:Q1; [apply (replace_hit [110; 97; 110]); discriminate|].
           destruct (b =? 9218868437227405312) eqn:Q2.
           + change (lit "inf" ++ ?x) with (105 :: 110 :: 102 :: x). rewrite replace_miss by lia.
             rewrite replace_miss2; [|reflexivity|intros x t [= <- _]; lia]. rewrite replace_miss by lia. reflexivity.
           + destruct (b =? 18442240474082181120) eqn:Q3.
             * change (lit "-inf" ++ ?x) with (45 :: 105 :: 110 :: 102 :: x). rewrite !replace_miss by lia.
               rewrite replace_miss2; [|reflexivity|intros x t [= <- _]; lia]. rewrite replace_miss by lia. reflexivity.
             * apply replace_plain. apply frepr_plain; auto; cbn; lia. }
    rewrite (replace_object 105 [110; 102] (lit "null") 39 middle final).
    2: { cbn. lia. }
    2: { eapply Forall_impl; [|exact H]. intros kv (_ & Hk) X. specialize (Hk _ X). lia. }
    2: { eapply Forall_impl; [|exact H]. intros kv (Hp & _) s Hs. destruct (snd kv) as [z|b|b|x|x]; cbn [plain] in Hp; try contradiction; cbn [py_repr middle final].
         - apply replace_plain. intros X. apply int_chars in X. lia.
         - destruct (f64_is_nan b) eqn:Q1; [apply replace_plain; cbn; lia|].
           destruct (b =? 9218868437227405312) eqn:Q2; [apply (replace_hit [105; 110; 102]); discriminate|].
           destruct (b =? 18442240474082181120) eqn:Q3.
           + change (lit "-inf" ++ ?x) with (45 :: [105; 110; 102] ++ x). rewrite replace_miss by lia. rewrite replace_hit by discriminate. reflexivity.
           + apply replace_plain. apply frepr_plain; auto; cbn; lia. }
    apply quotes_object. eapply Forall_impl; [|exact H]. intros kv (Hp & Hk). split; [intros X; specialize (Hk _ X); lia|].
    destruct (snd kv) as [z|b|b|x|x]; cbn [plain] in Hp; try contradiction; cbn [final].
    - intros X. apply int_chars in X. lia.
    - destruct (f64_is_nan b) eqn:Q1; [cbn; lia|]. destruct (b =? 9218868437227405312) eqn:Q2; [cbn; lia|].
      destruct (b =? 18442240474082181120) eqn:Q3; [cbn; lia|]. apply frepr_plain; auto; cbn; lia.
  Qed.

  (** ** It is JSON if there is no minus infinity *)
  Definition tree (v : value) : jtree :=
    match v with
    | VInt z => JNum (str_of_Z z)
    | VFloat b => if f64_is_nan b then JNull else if b =? 9218868437227405312 then JNull else JNum (frepr b)
    | _ => JNull
    end.
  Lemma final_json v : plain v -> v <> VFloat minus_infinity -> json (final v) (tree v).
  Proof.
    intros Hp Hn. destruct v as [z|b|b|x|x]; cbn [plain final tree] in *; try contradiction.
    - apply json_num. apply int_number.
    - destruct (f64_is_nan b) eqn:Q1; [apply json_null|]. destruct (Z.eqb_spec b 9218868437227405312) as [Q2|Q2]; [apply json_null|].
      destruct (Z.eqb_spec b 18442240474082181120) as [Q3|Q3]; [destruct Hn; subst; reflexivity|]. apply json_num. apply frepr_number. repeat split; auto.
  Qed.
  Lemma copied_tree v : plain v -> v <> VFloat minus_infinity -> copied frepr v (tree v).
  Proof.
    intros Hp Hn. destruct v as [z|b|b|x|x]; cbn [plain copied tree] in *; try contradiction; [reflexivity|].
    destruct (f64_is_nan b) eqn:Q1; [split; [intros (F & _); congruence|reflexivity]|].
    destruct (Z.eqb_spec b 9218868437227405312) as [Q2|Q2]; [split; [intros (_ & F & _); destruct (F Q2)|reflexivity]|].
    split; [reflexivity|]. intros F. exfalso. apply F. repeat split; auto. intros ->. now apply Hn.
  Qed.
  Definition fits (kv : str * value) : Prop :=
    (forall c, In c (fst kv) -> c = 45 \/ 48 <= c <= 57) /\ plain (snd kv) /\ snd kv <> VFloat minus_infinity.
  Lemma members w kv d : blank w -> Forall fits (kv :: d) ->
    json_members (w ++ join (lit ", ") (map (fun kv => 34 :: fst kv ++ 34 :: lit ": " ++ final (snd kv)) (kv :: d)))
      (map (fun kv => (fst kv, tree (snd kv))) (kv :: d)).
  Proof.
    revert w kv. induction d as [|kv' d IH]; intros w kv Hw Hf; inversion Hf as [|? ? (F1 & F2 & F3) F4]; subst.
    - pose proof (members_last w (fst kv) [] [32] (final (snd kv)) [] (tree (snd kv)) Hw (key_chars _ F1) blank0 blank1 (final_json _ F2 F3) blank0) as M.
      rewrite app_nil_r in M. exact M.
    - pose proof (members_more w (fst kv) [] [32] (final (snd kv)) [] (tree (snd kv))
        ([32] ++ join (lit ", ") (map (fun kv => 34 :: fst kv ++ 34 :: lit ": " ++ final (snd kv)) (kv' :: d)))
        (map (fun kv => (fst kv, tree (snd kv))) (kv' :: d)) Hw (key_chars _ F1) blank0 blank1 (final_json _ F2 F3) blank0 (IH [32] kv' blank1 F4)) as M.
      change (map ?f (kv :: kv' :: d)) with (f kv :: map f (kv' :: d)) at 1. change (join ?s (?x :: map ?f (kv' :: d))) with (x ++ s ++ join s (map f (kv' :: d))).
      cbv beta. match goal with |- json_members ?a _ => match type of M with json_members ?b _ => replace a with b; [exact M|] end end.
      f_equal. cbn [app]. rewrite <- !app_assoc. cbn [app]. rewrite <- !app_assoc. reflexivity.
  Qed.
  Lemma object_json d : Forall fits d -> json (object_text 34 final d) (JObj (map (fun kv => (fst kv, tree (snd kv))) d)).
  Proof.
    intros H. destruct d as [|kv d]; [exact (json_obj0 [] blank0)|]. unfold object_text. apply json_obj. exact (members [] kv d blank0 H).
  Qed.
End Text.

(** ** In a JSON text a minus outside of the strings is followed by a digit *)
Inductive sc := Out | Minus | Inside | Escape.
Definition sc_step (s : sc) (c : Z) : option sc :=
  match s with
  | Minus => if (48 <=? c) && (c <=? 57) then Some Out else None
  | Out => Some (if c =? 34 then Inside else if c =? 45 then Minus else Out)
  | Inside => Some (if c =? 34 then Out else if c =? 92 then Escape else Inside)
  | Escape => Some Inside
  end.
Fixpoint sc_run (s : sc) (t : str) : option sc :=
  match t with [] => Some s | c :: r => match sc_step s c with Some s' => sc_run s' r | None => None end end.
Lemma sc_app s a b : sc_run s (a ++ b) = match sc_run s a with Some s' => sc_run s' b | None => None end.
Proof. revert s. induction a as [|c a IH]; intros s; [reflexivity|]. cbn. destruct (sc_step s c); auto. Qed.
Lemma sc_cut a b : sc_run Out a = Some Out -> sc_run Out (a ++ b) = sc_run Out b.
Proof. intros H. now rewrite sc_app, H. Qed.
Lemma sc_out t : (forall c, In c t -> c <> 34 /\ c <> 45) -> sc_run Out t = Some Out.
Proof.
  induction t as [|c t IH]; intros H; [reflexivity|]. destruct (H c (or_introl eq_refl)). cbn.
  destruct (Z.eqb_spec c 34); [lia|]. destruct (Z.eqb_spec c 45); [lia|]. apply IH. intros x Hx. apply H. now right.
Qed.
Lemma sc_blank w : blank w -> sc_run Out w = Some Out.
Proof. intros H. apply sc_out. intros c Hc. apply (proj1 (Forall_forall _ _) H) in Hc. lia. Qed.
Lemma sc_digits s : digits s -> sc_run Out s = Some Out.
Proof. intros H. apply sc_out. intros c Hc. apply (proj1 (Forall_forall _ _) H) in Hc. lia. Qed.
Lemma sc_signed m r : (m = [] \/ m = lit "+" \/ m = lit "-") -> r <> [] -> digits r -> sc_run Out (m ++ r) = Some Out.
Proof.
  intros Hm Hr Hd. destruct Hm as [->|[->| ->]].
  - apply sc_digits; exact Hd.
  - cbn. apply sc_digits; exact Hd.
  - destruct r as [|d r]; [congruence|]. inversion Hd as [|? ? D1 D2]; subst. cbn. destruct (Z.leb_spec 48 d); [|lia]. destruct (Z.leb_spec d 57); [|lia].
    apply sc_digits; exact D2.
Qed.
Lemma sc_number t : json_number t -> sc_run Out t = Some Out.
Proof.
  intros (m & i & f & e & -> & Hm & Hi & Hf & He). rewrite app_assoc, sc_app. rewrite sc_signed.
  2: { tauto. }
  2: { destruct Hi as [->|(d & r & -> & _)]; discriminate. }
  2: { destruct Hi as [->|(d & r & -> & Hd & Hr)]; [constructor; [cbn; lia|constructor]|constructor; [lia|exact Hr]]. }
  rewrite sc_app. replace (sc_run Out f) with (Some Out).
  - destruct He as [->|(c & s & r & -> & Hc & Hs & Hr & Hd)]; [reflexivity|]. rewrite sc_app.
    replace (sc_run Out [c]) with (Some Out) by (destruct Hc; subst; reflexivity). apply sc_signed; tauto.
  - destruct Hf as [->|(r & -> & _ & Hd)]; [reflexivity|]. cbn. symmetry. apply sc_digits; exact Hd.
Qed.
Lemma sc_chars s : json_chars s -> sc_run Inside s = Some Inside.
Proof.
  induction 1 as [|c s H1 H2 H3 Hs IH|c s H1 Hs IH|a b c d s H1 Hs IH]; [reflexivity| | |].
  - cbn. destruct (Z.eqb_spec c 34); [lia|]. destruct (Z.eqb_spec c 92); [lia|]. exact IH.
  - cbn. exact IH.
  - assert (P : forall x, (48 <= x <= 57 \/ 65 <= x <= 70 \/ 97 <= x <= 102) -> sc_step Inside x = Some Inside).
    { intros x Hx. cbn. destruct (Z.eqb_spec x 34); [lia|]. destruct (Z.eqb_spec x 92); [lia|]. reflexivity. }
    inversion H1 as [|? ? A1 A2]; subst. inversion A2 as [|? ? B1 B2]; subst. inversion B2 as [|? ? C1 C2]; subst. inversion C2 as [|? ? D1 _]; subst.
    cbn [sc_run]. change (sc_step Inside 92) with (Some Escape). cbv iota. change (sc_step Escape 117) with (Some Inside). cbv iota.
    rewrite (P a A1), (P b B1), (P c C1), (P d D1). exact IH.
Qed.
Lemma sc_string s : json_chars s -> forall r, sc_run Out (34 :: s ++ 34 :: r) = sc_run Out r.
Proof. intros H r. cbn. rewrite sc_app, sc_chars by exact H. reflexivity. Qed.
Scheme json_mut := Minimality for json Sort Prop
  with items_mut := Minimality for json_items Sort Prop
  with members_mut := Minimality for json_members Sort Prop.
Lemma sc_json t v : json t v -> sc_run Out t = Some Out.
Proof.
  apply (json_mut (fun t _ => sc_run Out t = Some Out) (fun t _ => sc_run Out t = Some Out) (fun t _ => sc_run Out t = Some Out)); try reflexivity.
  - intros s. apply sc_number.
  - intros s H. apply (sc_string s H []).
  - intros w H. cbn. rewrite sc_app, sc_blank by exact H. reflexivity.
  - intros s l _ H. cbn. rewrite sc_app, H. reflexivity.
  - intros w H. cbn. rewrite sc_app, sc_blank by exact H. reflexivity.
  - intros s l _ H. cbn. rewrite sc_app, H. reflexivity.
  - intros w1 s w2 x H1 _ H2 H3. rewrite !sc_cut by auto using sc_blank. apply sc_blank. exact H3.
  - intros w1 s w2 x r l H1 _ H2 H3 _ H4. rewrite !sc_cut by auto using sc_blank. exact H4.
  - intros w1 k w2 w3 s w4 x H1 H2 H3 H4 _ H5 H6. rewrite sc_cut by auto using sc_blank. rewrite sc_string by exact H2.
    rewrite sc_cut by auto using sc_blank. change (58 :: ?r) with ([58] ++ r). rewrite !sc_cut by auto using sc_blank. apply sc_blank; exact H6.
  - intros w1 k w2 w3 s w4 x r l H1 H2 H3 H4 _ H5 H6 _ H7. rewrite sc_cut by auto using sc_blank. rewrite sc_string by exact H2.
    rewrite sc_cut by auto using sc_blank. change (58 :: ?r) with ([58] ++ r). rewrite !sc_cut by auto using sc_blank. exact H7.
Qed.
Lemma sc_document t v : json_document t v -> sc_run Out t = Some Out.
Proof.
  intros (w1 & x & w2 & -> & H1 & H2 & H). rewrite sc_cut by auto using sc_blank. rewrite sc_cut by exact (sc_json _ _ H). apply sc_blank; exact H2.
Qed.
Section Refused.
  Variable frepr : Z -> str.
  Hypothesis frepr_number : forall b, finite b -> json_number (frepr b).
  Lemma sc_item w kv r : sc_run Out w = Some Out -> (forall c, In c (fst kv) -> c = 45 \/ 48 <= c <= 57) -> plain (snd kv) ->
    sc_run Out (w ++ (34 :: fst kv ++ 34 :: lit ": " ++ final frepr (snd kv)) ++ r) =
    if match snd kv with VFloat b => b =? minus_infinity | _ => false end then None else sc_run Out r.
  Proof.
    intros Hw Hk Hp. rewrite sc_app, Hw. cbn [app]. rewrite <- app_assoc. cbn [app]. rewrite sc_string by (apply key_chars; exact Hk).
    change ((lit ": " ++ ?x) ++ ?y) with (58 :: 32 :: (x ++ y)). cbn [sc_run sc_step Z.eqb Pos.eqb]. rewrite sc_app.
    destruct (snd kv) as [z|b|b|x|x] eqn:E; cbn [plain] in Hp; try contradiction.
    - rewrite (sc_json _ _ (final_json frepr frepr_number (VInt z) I ltac:(discriminate))). reflexivity.
    - destruct (Z.eqb_spec b minus_infinity) as [->|N]; [reflexivity|].
      rewrite (sc_json _ _ (final_json frepr frepr_number (VFloat b) I ltac:(congruence))). reflexivity.
  Qed.
  Lemma sc_object d : Forall (fun kv => plain (snd kv) /\ forall c, In c (fst kv) -> c = 45 \/ 48 <= c <= 57) d ->
    sc_run Out (object_text 34 (final frepr) d) <> None -> Forall (fun kv => snd kv <> VFloat minus_infinity) d.
  Proof.
    intros H. unfold object_text. cbn [sc_run sc_step Z.eqb Pos.eqb]. destruct d as [|kv d]; [constructor|].
    assert (G : forall w, sc_run Out w = Some Out ->
      sc_run Out (w ++ join (lit ", ") (map (fun kv => 34 :: fst kv ++ 34 :: lit ": " ++ final frepr (snd kv)) (kv :: d)) ++ [125]) <> None ->
      Forall (fun kv => snd kv <> VFloat minus_infinity) (kv :: d)).
    { revert kv H. induction d as [|kv' d IH]; intros kv H w Hw Hs; inversion H as [|? ? (P & K) H']; subst.
      - cbn [map join] in Hs. rewrite sc_item in Hs by auto. constructor; [|constructor]. intros E. rewrite E in Hs. cbn in Hs. apply Hs. reflexivity.
      - cbn [map] in Hs. rewrite join_more, <- app_assoc in Hs. rewrite sc_item in Hs by auto.
        destruct (match snd kv with VFloat b => b =? minus_infinity | _ => false end) eqn:Q; [congruence|]. constructor.
        + intros E. rewrite E in Q. rewrite Z.eqb_refl in Q. discriminate.
        + apply (IH kv' H' (lit ", ") eq_refl). rewrite <- app_assoc in Hs. exact Hs. }
    intros Hs. apply (G [] eq_refl Hs).
  Qed.
End Refused.

(** ** The dict of the values *)
Lemma firsts_In l x : In x (firsts l) <-> In x l.
Proof.
  induction l as [|y l IH]; [reflexivity|]. cbn [firsts In]. rewrite filter_In, IH. destruct (Z.eqb_spec x y); cbn; intuition congruence.
Qed.
Lemma firsts_snoc l x : firsts (l ++ [x]) = if existsb (Z.eqb x) l then firsts l else firsts l ++ [x].
Proof.
  induction l as [|y l IH]; [reflexivity|]. cbn [app firsts existsb]. rewrite IH. destruct (Z.eqb_spec x y) as [->|N]; cbn [orb].
  - destruct (existsb (Z.eqb y) l); [reflexivity|]. rewrite filter_app. cbn. rewrite Z.eqb_refl. cbn. now rewrite app_nil_r.
  - destruct (existsb (Z.eqb x) l); [reflexivity|]. rewrite filter_app. cbn. destruct (Z.eqb_spec x y); [contradiction|]. reflexivity.
Qed.
Lemma last_at_snoc s t v t' v' : last_at (s ++ [(t, v)]) t' v' <-> (t' = t /\ v' = v) \/ (t' <> t /\ last_at s t' v').
Proof.
  split.
  - intros (a & b & E & Hn). destruct b as [|x b] using rev_ind.
    + apply app_inj_tail in E. destruct E as (_ & [= -> ->]). now left.
    + clear IHb. change (a ++ (t', v') :: b ++ [x]) with (a ++ ((t', v') :: b) ++ [x]) in E. rewrite app_assoc in E.
      apply app_inj_tail in E. destruct E as (-> & <-). right. rewrite map_app, in_app_iff in Hn. cbn in Hn. split; [intros ->; tauto|].
      exists a, b. tauto.
  - intros [(-> & ->)|(N & a & b & -> & Hn)].
    + exists s, []. auto.
    + exists a, (b ++ [(t, v)]). split; [now rewrite <- app_assoc|]. rewrite map_app, in_app_iff. cbn. intuition congruence.
Qed.
Lemma Forall2_imp {A B} (P Q : A -> B -> Prop) l m : (forall a b, In a l -> P a b -> Q a b) -> Forall2 P l m -> Forall2 Q l m.
Proof. intros H F. induction F; constructor; auto. apply H; auto. now left. apply IHF. intros u v Hu. apply H. now right. Qed.
(** a dict filled from samples, the keys being made from the times by an injective function *)
Lemma filled {K V} (eqb : K -> K -> bool) (eqb_spec : forall a b, reflect (a = b) (eqb a b)) (key : Z -> K) (inj : forall a b, key a = key b -> a = b)
  (s : list (Z * V)) :
  let d := fold_left (fun a kv => dset eqb (fst kv) (snd kv) a) (map (fun tv => (key (fst tv), snd tv)) s) [] in
  Forall2 (fun t kv => fst kv = key t /\ exists a b, s = a ++ (t, snd kv) :: b /\ ~ In t (map fst b)) (firsts (map fst s)) d.
Proof.
  cbv zeta. induction s as [|[t v] s IH] using rev_ind; [constructor|].
  rewrite !map_app. cbn [map fst snd]. rewrite fold_left_app. cbn [fold_left fst snd]. rewrite firsts_snoc.
  set (d := fold_left _ _ _) in *. clearbody d.
  assert (Keep : forall t' (v' : V), t' <> t -> (exists a b, s = a ++ (t', v') :: b /\ ~ In t' (map fst b)) ->
    exists a b, s ++ [(t, v)] = a ++ (t', v') :: b /\ ~ In t' (map fst b)).
  { intros t' v' N (a & b & -> & Hn). exists a, (b ++ [(t, v)]). split; [now rewrite <- app_assoc|]. rewrite map_app, in_app_iff. cbn. intuition congruence. }
  assert (New : exists a b, s ++ [(t, v)] = a ++ (t, v) :: b /\ ~ In t (map fst b)) by (exists s, []; auto).
  assert (Abs : forall ks d', ~ In t ks -> Forall2 (fun t' kv => fst kv = key t' /\ exists a b, s = a ++ (t', snd kv) :: b /\ ~ In t' (map fst b)) ks d' ->
     Forall2 (fun t' kv => fst kv = key t' /\ exists a b, s ++ [(t, v)] = a ++ (t', snd kv) :: b /\ ~ In t' (map fst b)) ks d').
  { intros ks d' Hn. apply Forall2_imp. intros t' kv Ht (E & X). split; [exact E|]. apply Keep; [intros ->; contradiction|exact X]. }
  destruct (existsb (Z.eqb t) (map fst s)) eqn:Ex.
  - apply existsb_exists in Ex. destruct Ex as (t0 & Ht & E0). apply Z.eqb_eq in E0. subst t0. apply firsts_In in Ht.
    assert (ND : NoDup (firsts (map fst s))).
    { generalize (map fst s). induction l as [|y l IHl]; constructor; [rewrite filter_In; rewrite Z.eqb_refl; cbn; intuition discriminate|]. apply NoDup_filter; exact IHl. }
    revert Ht ND. induction IH as [|t' [k' v'] ks d' (E & X) F IH]; intros Ht ND; [destruct Ht|]. cbn [fst snd] in E, X. inversion ND; subst.
    cbn [dset]. destruct (eqb_spec (key t) (key t')) as [Q|Q].
    + apply inj in Q. subst t'. constructor; [cbn; split; [reflexivity|exact New]|]. apply Abs; assumption.
    + constructor; [cbn; split; [reflexivity|]|].
      * apply Keep; [intros ->; congruence|exact X].
      * apply IH; [|assumption]. destruct Ht as [->|Ht]; [congruence|exact Ht].
  - assert (Hn : ~ In t (firsts (map fst s))).
    { rewrite firsts_In. intros Hi. assert (existsb (Z.eqb t) (map fst s) = true) by (apply existsb_exists; exists t; split; [exact Hi|apply Z.eqb_refl]). congruence. }
    rewrite (dset_new eqb eqb_spec).
    + apply Forall2_app; [apply Abs; assumption|]. constructor; [|constructor]. cbn. split; [reflexivity|exact New].
    + unfold dkeys. rewrite in_map_iff. intros (kv & E & Hkv). clear Abs New Keep Ex.
      induction IH as [|t' kv' ks d' (E' & X) F IH]; [destruct Hkv|]. destruct Hkv as [->|Hkv].
      * apply Hn. left. apply inj. congruence.
      * apply IH; [|exact Hkv]. intros Hi. apply Hn. now right.
Qed.

(** ** A JSON text has one reading *)
Definition wsb (c : Z) : Prop := c = 32 \/ c = 9 \/ c = 10 \/ c = 13.
Lemma blank_split w1 w2 c s d s' : blank w1 -> blank w2 -> ~ wsb c -> ~ wsb d -> w1 ++ c :: s = w2 ++ d :: s' -> w1 = w2 /\ c = d /\ s = s'.
Proof.
  intros H1. revert w2. induction H1 as [|x w1 Hx H1 IH]; intros w2 H2 Hc Hd E.
  - destruct H2 as [|y w2 Hy H2]; [injection E as -> ->; auto|]. injection E as -> _. contradiction.
  - destruct H2 as [|y w2 Hy H2]; [injection E as -> _; contradiction|]. injection E as -> E. destruct (IH w2 H2 Hc Hd E) as (-> & -> & ->). auto.
Qed.
Lemma chars_split k k' r r' : json_chars k -> json_chars k' -> k ++ 34 :: r = k' ++ 34 :: r' -> k = k' /\ r = r'.
Proof.
  intros H. revert k'. induction H as [|c s H1 H2 H3 Hs IH|c s H1 Hs IH|a b c d s H1 Hs IH]; intros k' H' E;
    destruct H' as [|c' s' H1' H2' H3' Hs'|c' s' H1' Hs'|a' b' c' d' s' H1' Hs']; cbn [app] in E; try discriminate E.
  - injection E as ->. auto.
  - injection E as <- _. congruence.
  - injection E as -> _. congruence.
  - injection E as -> E. destruct (IH _ Hs' E) as (-> & ->). auto.
  - injection E as -> _. congruence.
  - injection E as -> _. congruence.
  - injection E as <- _. congruence.
  - injection E as -> E. destruct (IH _ Hs' E) as (-> & ->). auto.
  - injection E as -> _. cbn in H1. lia.
  - injection E as <- _. congruence.
  - injection E as <- _. cbn in H1'. lia.
  - injection E as -> -> -> -> E. destruct (IH _ Hs' E) as (-> & ->). auto.
Qed.
Definition ends (r : str) : Prop := forall c s, r = c :: s -> wsb c \/ c = 44 \/ c = 93 \/ c = 125.
Definition numc (c : Z) : Prop := 48 <= c <= 57 \/ In c (lit "+-.eE").
Lemma run_split t t' r r' : Forall numc t -> Forall numc t' -> ends r -> ends r' -> t ++ r = t' ++ r' -> t = t' /\ r = r'.
Proof.
  intros H. revert t'. induction H as [|c t Hc H IH]; intros t' H' Hr Hr' E; destruct H' as [|c' t' Hc' H']; cbn [app] in E.
  - auto.
  - subst r. destruct (Hr _ _ eq_refl) as [X|X]; unfold numc, wsb in *; cbn in Hc'; lia.
  - subst r'. destruct (Hr' _ _ eq_refl) as [X|X]; unfold numc, wsb in *; cbn in Hc; lia.
  - injection E as -> E. destruct (IH t' H' Hr Hr' E) as (-> & ->). auto.
Qed.
Lemma number_all t : json_number t -> Forall numc t.
Proof. intros H. apply Forall_forall. intros c Hc. exact (number_chars t c H Hc). Qed.
Lemma number_head t : json_number t -> exists c s, t = c :: s /\ (c = 45 \/ 48 <= c <= 57).
Proof.
  intros (m & i & f & e & -> & Hm & Hi & _ & _). destruct Hm as [->| ->]; [|eexists 45, _; split; [reflexivity|now left]].
  destruct Hi as [->|(d & r & -> & Hd & _)]; [eexists 48, _; split; [reflexivity|lia]|eexists d, _; split; [reflexivity|lia]].
Qed.
Definition headc (c : Z) : Prop := In c [110; 116; 102; 34; 91; 123; 45] \/ 48 <= c <= 57.
Lemma json_head t v : json t v -> exists c s, t = c :: s /\ headc c.
Proof.
  unfold headc. intros H. destruct H as [| | |t H| | | | |]; try (eexists _, _; split; [reflexivity|cbn; tauto]).
  destruct (number_head t H) as (c & s & -> & Hc). exists c, s. split; [reflexivity|]. cbn. lia.
Qed.
Lemma headc_ws c : headc c -> ~ wsb c /\ c <> 93 /\ c <> 125 /\ c <> 44.
Proof. unfold headc, wsb. cbn. lia. Qed.
Lemma items_head t l : json_items t l -> exists w c s, blank w /\ headc c /\ t = w ++ c :: s.
Proof.
  intros H. destruct H as [w1 t w2 v H1 H2 H3|w1 t w2 v r l H1 H2 H3 _]; destruct (json_head t v H2) as (c & s & -> & Hc); exists w1, c; cbn [app]; eauto.
Qed.
Lemma members_head t l : json_members t l -> exists w s, blank w /\ t = w ++ 34 :: s.
Proof. intros H. destruct H; eauto. Qed.
Lemma ends_blank w c r : blank w -> c = 44 \/ c = 93 \/ c = 125 -> ends (w ++ c :: r).
Proof. intros Hw Hc x s E. destruct Hw as [|y w Hy Hw]; cbn in E; injection E as <- _; [tauto|]. left. exact Hy. Qed.
Lemma sep_ws c : c = 44 \/ c = 93 \/ c = 125 -> ~ wsb c.
Proof. unfold wsb. lia. Qed.

Definition PJ (t : str) (v : jtree) : Prop := forall t' v' r r', json t' v' -> t ++ r = t' ++ r' -> ends r -> ends r' -> t = t' /\ v = v' /\ r = r'.
Definition PI (t : str) (l : list jtree) : Prop := forall t' l' r r', json_items t' l' -> t ++ 93 :: r = t' ++ 93 :: r' -> t = t' /\ l = l' /\ r = r'.
Definition PM (t : str) (l : list (str * jtree)) : Prop := forall t' l' r r', json_members t' l' -> t ++ 125 :: r = t' ++ 125 :: r' -> t = t' /\ l = l' /\ r = r'.
Lemma item_split w1 t w2 v x r w1' t' w2' v' x' r' : PJ t v -> json t v -> json t' v' -> blank w1 -> blank w2 -> blank w1' -> blank w2' ->
  (x = 44 \/ x = 93 \/ x = 125) -> (x' = 44 \/ x' = 93 \/ x' = 125) ->
  w1 ++ t ++ w2 ++ x :: r = w1' ++ t' ++ w2' ++ x' :: r' -> w1 = w1' /\ t = t' /\ v = v' /\ w2 = w2' /\ x = x' /\ r = r'.
Proof.
  intros HP Ht Ht' H1 H2 H1' H2' Hx Hx' E.
  destruct (json_head t v Ht) as (c & s & Et & Hc). destruct (json_head t' v' Ht') as (c' & s' & Et' & Hc').
  assert (X : w1 = w1' /\ c = c' /\ s ++ w2 ++ x :: r = s' ++ w2' ++ x' :: r').
  { apply blank_split; auto; try (apply headc_ws; assumption). rewrite Et, Et' in E. exact E. }
  destruct X as (-> & _ & _). apply app_inv_head in E.
  destruct (HP t' v' _ _ Ht' E) as (-> & -> & E2); [apply ends_blank; auto|apply ends_blank; auto|].
  destruct (blank_split w2 w2' x r x' r') as (-> & -> & ->); auto using sep_ws. repeat split; auto.
Qed.
Lemma json_split : forall t v, json t v -> PJ t v.
Proof.
  assert (HH : forall t v, json t v -> json t v /\ PJ t v); [|intros t v H; apply (HH t v H)].
  apply (json_mut (fun t v => json t v /\ PJ t v) PI PM).
  1-9: intros; (split; [constructor; assumption|]).
  - intros t' v' r r' H E Hr Hr'. destruct H as [| | |t' H| | | | |]; try discriminate E; [apply app_inv_head in E; auto|].
    destruct (number_head t' H) as (c & s & -> & Hc). injection E as <- _. lia.
  - intros t' v' r r' H E Hr Hr'. destruct H as [| | |t' H| | | | |]; try discriminate E; [apply app_inv_head in E; auto|].
    destruct (number_head t' H) as (c & s & -> & Hc). injection E as <- _. lia.
  - intros t' v' r r' H E Hr Hr'. destruct H as [| | |t' H| | | | |]; try discriminate E; [apply app_inv_head in E; auto|].
    destruct (number_head t' H) as (c & s & -> & Hc). injection E as <- _. lia.
  - intros t' v' r r' H' E Hr Hr'. destruct (number_head t H) as (c & s & Et & Hc).
    destruct H' as [| | |t' H'| | | | |]; try (exfalso; rewrite Et in E; injection E as -> _; lia).
    destruct (run_split t t' r r') as (-> & ->); auto using number_all.
  - intros t' v' r r' H' E Hr Hr'.
    destruct H' as [| | |t' H'|s' H'| | | |]; try discriminate E; [destruct (number_head t' H') as (c & x & -> & Hc); injection E as <- _; lia|].
    cbn [app] in E. rewrite <- !app_assoc in E. injection E as E. destruct (chars_split s s' r r') as (-> & ->); auto.
  - intros t' v' r r' H' E Hr Hr'.
    destruct H' as [| | |t' H'| |w' H'|t' l' H'| |]; try discriminate E; [destruct (number_head t' H') as (c & x & -> & Hc); injection E as <- _; lia| |].
    + cbn [app] in E. rewrite <- !app_assoc in E. injection E as E. destruct (blank_split w w' 93 r 93 r') as (-> & _ & ->); auto using sep_ws.
    + exfalso. cbn [app] in E. rewrite <- !app_assoc in E. injection E as E. destruct (items_head _ _ H') as (w1 & c & s & Hw & Hc & ->).
      rewrite <- app_assoc in E. pose proof (headc_ws c Hc). destruct (blank_split w w1 93 r c (s ++ [93] ++ r')) as (_ & X & _); auto using sep_ws; intuition.
  - intros t' v' r r' H' E Hr Hr'.
    destruct H' as [| | |t' H'| |w' H'|t' l' H'| |]; try discriminate E; [destruct (number_head t' H') as (c & x & -> & Hc); injection E as <- _; lia| |].
    + exfalso. cbn [app] in E. rewrite <- !app_assoc in E. injection E as E. destruct (items_head _ _ H) as (w1 & c & s & Hw & Hc & ->).
      rewrite <- app_assoc in E. pose proof (headc_ws c Hc). destruct (blank_split w1 w' c (s ++ [93] ++ r) 93 r') as (_ & X & _); auto using sep_ws; intuition.
    + cbn [app] in E. rewrite <- !app_assoc in E. injection E as E. destruct (H0 t' l' r r' H' E) as (-> & -> & ->). auto.
  - intros t' v' r r' H' E Hr Hr'.
    destruct H' as [| | |t' H'| | | |w' H'|t' l' H']; try discriminate E; [destruct (number_head t' H') as (c & x & -> & Hc); injection E as <- _; lia| |].
    + cbn [app] in E. rewrite <- !app_assoc in E. injection E as E. destruct (blank_split w w' 125 r 125 r') as (-> & _ & ->); auto using sep_ws.
    + exfalso. cbn [app] in E. rewrite <- !app_assoc in E. injection E as E. destruct (members_head _ _ H') as (w1 & s & Hw & ->).
      rewrite <- app_assoc in E. destruct (blank_split w w1 125 r 34 (s ++ [125] ++ r')) as (_ & X & _); auto using sep_ws; unfold wsb in *; lia.
  - intros t' v' r r' H' E Hr Hr'.
    destruct H' as [| | |t' H'| | | |w' H'|t' l' H']; try discriminate E; [destruct (number_head t' H') as (c & x & -> & Hc); injection E as <- _; lia| |].
    + exfalso. cbn [app] in E. rewrite <- !app_assoc in E. injection E as E. destruct (members_head _ _ H) as (w1 & s & Hw & ->).
      rewrite <- app_assoc in E. destruct (blank_split w1 w' 34 (s ++ [125] ++ r) 125 r') as (_ & X & _); auto using sep_ws; unfold wsb in *; lia.
    + cbn [app] in E. rewrite <- !app_assoc in E. injection E as E. destruct (H0 t' l' r r' H' E) as (-> & -> & ->). auto.
  - intros w1 t w2 v H1 _ (Ht & HP) H2 t' l' r r' H' E. destruct H' as [w1' t' w2' v' H1' Ht' H2'|w1' t' w2' v' rr l H1' Ht' H2' Hi']; rewrite <- ?app_assoc in E; cbn [app] in E; rewrite <- ?app_assoc in E.
    + destruct (item_split w1 t w2 v 93 r w1' t' w2' v' 93 r') as (-> & -> & -> & -> & _ & ->); auto.
    + destruct (item_split w1 t w2 v 93 r w1' t' w2' v' 44 (rr ++ 93 :: r')) as (_ & _ & _ & _ & X & _); auto. lia.
  - intros w1 t w2 v q l H1 _ (Ht & HP) H2 _ HI t' l' r r' H' E. destruct H' as [w1' t' w2' v' H1' Ht' H2'|w1' t' w2' v' rr l' H1' Ht' H2' Hi']; rewrite <- ?app_assoc in E; cbn [app] in E; rewrite <- ?app_assoc in E.
    + destruct (item_split w1 t w2 v 44 (q ++ 93 :: r) w1' t' w2' v' 93 r') as (_ & _ & _ & _ & X & _); auto. lia.
    + destruct (item_split w1 t w2 v 44 (q ++ 93 :: r) w1' t' w2' v' 44 (rr ++ 93 :: r')) as (-> & -> & -> & -> & _ & E2); auto.
      destruct (HI rr l' r r' Hi' E2) as (-> & -> & ->). auto.
  - intros w1 k w2 w3 t w4 v H1 Hk H2 H3 _ (Ht & HP) H4 t' l' r r' H' E.
    destruct H' as [w1' k' w2' w3' t' w4' v' H1' Hk' H2' H3' Ht' H4'|w1' k' w2' w3' t' w4' v' rr l H1' Hk' H2' H3' Ht' H4' Hi'];
      repeat (rewrite <- ?app_assoc in E; cbn [app] in E);
      (apply blank_split in E; [|assumption|assumption|unfold wsb; lia|unfold wsb; lia]); destruct E as (-> & _ & E);
      (apply chars_split in E; [|assumption|assumption]); destruct E as (-> & E);
      (apply blank_split in E; [|assumption|assumption|unfold wsb; lia|unfold wsb; lia]); destruct E as (-> & _ & E).
    + destruct (item_split w3 t w4 v 125 r w3' t' w4' v' 125 r') as (-> & -> & -> & -> & _ & ->); auto.
    + destruct (item_split w3 t w4 v 125 r w3' t' w4' v' 44 (rr ++ 125 :: r')) as (_ & _ & _ & _ & X & _); auto. lia.
  - intros w1 k w2 w3 t w4 v q l H1 Hk H2 H3 _ (Ht & HP) H4 _ HI t' l' r r' H' E.
    destruct H' as [w1' k' w2' w3' t' w4' v' H1' Hk' H2' H3' Ht' H4'|w1' k' w2' w3' t' w4' v' rr l' H1' Hk' H2' H3' Ht' H4' Hi'];
      repeat (rewrite <- ?app_assoc in E; cbn [app] in E);
      (apply blank_split in E; [|assumption|assumption|unfold wsb; lia|unfold wsb; lia]); destruct E as (-> & _ & E);
      (apply chars_split in E; [|assumption|assumption]); destruct E as (-> & E);
      (apply blank_split in E; [|assumption|assumption|unfold wsb; lia|unfold wsb; lia]); destruct E as (-> & _ & E).
    + destruct (item_split w3 t w4 v 44 (q ++ 125 :: r) w3' t' w4' v' 125 r') as (_ & _ & _ & _ & X & _); auto. lia.
    + destruct (item_split w3 t w4 v 44 (q ++ 125 :: r) w3' t' w4' v' 44 (rr ++ 125 :: r')) as (-> & -> & -> & -> & _ & E2); auto.
      destruct (HI rr l' r r' Hi' E2) as (-> & -> & ->). auto.
Qed.
Lemma document_unique t v v' : json_document t v -> json_document t v' -> v = v'.
Proof.
  intros (w1 & x & w2 & -> & H1 & H2 & H) (w1' & x' & w2' & E & H1' & H2' & H').
  assert (Z0 : w1 = w1').
  { destruct (json_head x v H) as (c & s & -> & Hc). destruct (json_head x' v' H') as (c' & s' & -> & Hc'). cbn [app] in E.
    apply blank_split in E; auto; [apply E|apply headc_ws; exact Hc|apply headc_ws; exact Hc']. }
  subst w1'. apply app_inv_head in E.
  assert (En : forall w, blank w -> ends w) by (intros w Hw c s ->; inversion Hw; left; assumption).
  apply (json_split x v H x' v' w2 w2' H' E); auto.
Qed.

(** ** The whole *)
Lemma tolist_plain c : Forall plain (tolist c).
Proof.
  apply Forall_forall. intros v Hv. apply in_map_iff in Hv. destruct Hv as (x & <- & _). unfold np_elem. destruct (c_type c) as [n sg|n]; [exact I|].
  do 5 (destruct n as [|n]; try exact I).
Qed.
Lemma combine_map {A B C} (f : A -> C) (l : list A) (m : list B) : combine (map f l) m = map (fun x => (f (fst x), snd x)) (combine l m).
Proof. revert m. induction l as [|a l IH]; intros m; [reflexivity|]. destruct m as [|b m]; [reflexivity|]. cbn. now rewrite IH. Qed.
Lemma values_dict_law frepr ts c times : tolist ts = map VInt times ->
  Forall2 (fun t kv => fst kv = str_of_Z t /\ last_at (combine times (tolist c)) t (snd kv)) (firsts (map fst (combine times (tolist c)))) (values_dict frepr ts c).
Proof.
  intros E. unfold values_dict. rewrite E, map_map. cbn [py_repr]. change (map (fun x => str_of_Z x) times) with (map str_of_Z times). rewrite combine_map.
  apply (filled str_eqb str_eqb_spec str_of_Z int_inj).
Qed.
Lemma last_at_In s t v : last_at s t v -> In (t, v) s.
Proof. intros (a & b & -> & _). apply in_elt. Qed.
Lemma last_at_unique s t v v' : last_at s t v -> last_at s t v' -> v = v'.
Proof.
  induction s as [|[t0 v0] s IH] using rev_ind; [intros (a & b & E & _); destruct a; discriminate|].
  rewrite !last_at_snoc. intuition congruence.
Qed.
Lemma last_at_first s t v : last_at s t v -> In t (firsts (map fst s)).
Proof. intros H. apply firsts_In. apply in_map_iff. exists (t, v). split; [reflexivity|]. now apply last_at_In. Qed.
Lemma F2_in_l {A B} (P : A -> B -> Prop) l m a : Forall2 P l m -> In a l -> exists b, In b m /\ P a b.
Proof. induction 1; intros []; [subst; eexists; split; [now left|assumption]|]. destruct IHForall2 as (b & Hb & Pb); auto. exists b. split; [now right|assumption]. Qed.
Lemma F2_in_r {A B} (P : A -> B -> Prop) l m b : Forall2 P l m -> In b m -> exists a, In a l /\ P a b.
Proof. induction 1; intros []; [subst; eexists; split; [now left|assumption]|]. destruct IHForall2 as (a & Ha & Pa); auto. exists a. split; [now right|assumption]. Qed.
Lemma values_dict_fits frepr ts c times : tolist ts = map VInt times ->
  Forall (fun kv => plain (snd kv) /\ forall ch, In ch (fst kv) -> ch = 45 \/ 48 <= ch <= 57) (values_dict frepr ts c).
Proof.
  intros E. apply Forall_forall. intros kv Hkv. destruct (F2_in_r _ _ _ _ (values_dict_law frepr ts c times E) Hkv) as (t & _ & E1 & L).
  split; [|intros ch Hc; exact (int_chars t ch (eq_ind _ (fun s => In ch s) Hc _ E1))]. apply last_at_In, in_combine_r in L. exact (proj1 (Forall_forall _ _) (tolist_plain c) _ L).
Qed.
