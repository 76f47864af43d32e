(** Proofs about ulog2ros2bag. *)
From Verif Require Import Base Dict PyStr PyFloat Struct ModelTypes ModelApi ModelTools ModelBag SpecBag ProofsWindow.
Ltac Zify.zify_post_hook ::= Z.div_mod_to_equations.

(** ** Camel case *)
Lemma title_app s : forall b t, title b (s ++ 95 :: t) = title b s ++ 95 :: title false t.
Proof. induction s as [|c s IH]; intros b t; [reflexivity|]. cbn [app title]. rewrite !IH. destruct (_ && _); [reflexivity|]. destruct (_ && _); reflexivity. Qed.
Lemma camel_pieces s : concat (map (title false) (split1 95 s)) = filter (fun c => negb (c =? 95)) (title false s).
Proof.
  remember (length s) as n eqn:En. revert s En. induction n as [n IH] using lt_wf_ind. intros s ->.
  assert (N : forall s b, ~ In 95 s -> filter (fun c => negb (c =? 95)) (title b s) = title b s).
  { clear. induction s as [|c s IH]; intros b H; [reflexivity|]. assert (c <> 95) by (intros ->; apply H; left; reflexivity).
    assert (H' : ~ In 95 s) by (intros X; apply H; right; exact X). cbn [title].
    destruct ((97 <=? c) && (c <=? 122)) eqn:A; [|destruct ((65 <=? c) && (c <=? 90)) eqn:B]; cbn [filter]; rewrite IH by exact H'.
    - destruct (Z.eqb_spec (if b then c else c - 32) 95); [destruct b; lia|reflexivity].
    - destruct (Z.eqb_spec (if b then c + 32 else c) 95); [destruct b; lia|reflexivity].
    - destruct (Z.eqb_spec c 95); [lia|reflexivity]. }
  destruct (in_dec Z.eq_dec 95 s) as [I|I].
  - apply in_split in I. assert (G : exists a t, s = a ++ 95 :: t /\ ~ In 95 a).
    { clear -I. destruct I as (a & t & ->). induction a as [|c a (a' & t' & E & H)]; [exists [], t; split; [reflexivity|intros []]|].
      destruct (Z.eq_dec c 95) as [->|N]; [exists [], (a ++ 95 :: t); split; [reflexivity|intros []]|]. exists (c :: a'), t'. cbn [app]. rewrite E. split; [reflexivity|]. intros [X|X]; [exact (N X)|exact (H X)]. }
    destruct G as (a & t & -> & H). rewrite split1_app by exact H. cbn [map concat]. rewrite title_app, filter_app, (N a false H). cbn [filter]. cbn [Z.eqb Pos.eqb negb].
    f_equal. apply (IH (length t)); [rewrite app_length; cbn; lia|reflexivity].
  - rewrite split1_nosep by exact I. cbn [map concat]. rewrite app_nil_r. symmetry. apply N. exact I.
Qed.
Lemma camel_title s : camel s = filter (fun c => negb (c =? 95)) (title false s).
Proof.
  unfold camel.
  assert (G : forall r p, concat (map (fun i => let c := nth i (p ++ r) 95 in
      if c =? 95 then [] else [if Nat.eqb i 0 then upper c else if letter (nth (i - 1) (p ++ r) 95) then lower c else upper c]) (seq (length p) (length r)))
    = filter (fun c => negb (c =? 95)) (title (match rev p with [] => false | c :: _ => letter c end) r)).
  { induction r as [|c r IH]; intros p; [reflexivity|]. cbn [length seq map concat]. specialize (IH (p ++ [c])). rewrite <- app_assoc in IH. cbn [app] in IH.
    rewrite app_length in IH. cbn [length] in IH. rewrite Nat.add_1_r in IH. rewrite rev_app_distr in IH. cbn [rev app] in IH. rewrite IH. clear IH.
    rewrite app_nth2 by lia. rewrite Nat.sub_diag. cbn [nth].
    assert (E : (if Nat.eqb (length p) 0 then upper c else if letter (nth (length p - 1) (p ++ c :: r) 95) then lower c else upper c) =
                if match rev p with [] => false | c :: _ => letter c end then lower c else upper c).
    { destruct p as [|x p _] using rev_ind; [reflexivity|]. rewrite rev_app_distr, app_length. cbn [rev app length]. rewrite Nat.add_1_r. cbn [Nat.eqb]. 
      replace (S (length p) - 1)%nat with (length p) by lia. rewrite <- app_assoc, app_nth2 by lia. rewrite Nat.sub_diag. reflexivity. }
    rewrite E. set (b := match rev p with [] => false | x :: _ => letter x end). cbn [title]. unfold letter at 1, upper, lower.
    destruct ((97 <=? c) && (c <=? 122)) eqn:A; [|destruct ((65 <=? c) && (c <=? 90)) eqn:B]; cbn [filter orb].
    - rewrite orb_true_r. destruct (Z.eqb_spec c 95); [lia|]. destruct ((65 <=? c) && (c <=? 90)) eqn:B; [lia|].
      destruct (Z.eqb_spec (if b then c else c - 32) 95); [destruct b; lia|]. cbn [negb]. destruct b; reflexivity.
    - destruct (Z.eqb_spec c 95); [lia|]. destruct (Z.eqb_spec (if b then c + 32 else c) 95); [destruct b; lia|]. cbn [negb]. destruct b; reflexivity.
    - destruct (c =? 95); cbn [negb app]; [reflexivity|]. destruct b; reflexivity. }
  apply (G s []).
Qed.
Lemma camel_iff ro s t : camel_case ro s t <-> t = to_camel_case ro s.
Proof.
  unfold camel_case, to_camel_case. rewrite camel_pieces, <- camel_title. destruct (forallb (fun c => c <? 128) s) eqn:E.
  - rewrite forallb_forall in E. assert (F : Forall (fun c => c < 128) s) by (apply Forall_forall; intros c Hc; specialize (E c Hc); lia). tauto.
  - assert (F : ~ Forall (fun c => c < 128) s). { intros F. rewrite Forall_forall in F. apply not_true_iff_false in E. apply E. apply forallb_forall. intros c Hc. specialize (F c Hc). lia. }
    tauto.
Qed.

(** ** Regular expressions *)
Fixpoint pm (ro : ros) (r : re) (s : str) (K : str -> Prop) : Prop :=
  match r with
  | Lit p => exists s', s = p ++ s' /\ K s'
  | Digit => exists c s', s = c :: s' /\ a_digit ro c /\ K s'
  | Word1 => exists w s', s = w ++ s' /\ word ro w /\ K s'
  | Word0 => K s \/ exists w s', s = w ++ s' /\ word ro w /\ K s'
  | End_ => at_end s /\ K s
  | Opt a => K s \/ pm ro a s K
  | Or a b => pm ro a s K \/ pm ro b s K
  | Seq a b => pm ro a s (fun s' => pm ro b s' K)
  end.
Lemma word_char_iff ro c : word_char ro c = true <-> a_word ro c.
Proof. unfold word_char, a_word, is_digit. destruct (r_word ro c); lia. Qed.
Lemma digit_char_iff ro c : digit_char ro c = true <-> a_digit ro c.
Proof. unfold digit_char, a_digit, is_digit. destruct (r_digit ro c); lia. Qed.
Lemma words_iff ro k : forall s, words ro s k = true <-> exists w s', s = w ++ s' /\ word ro w /\ k s' = true.
Proof.
  induction s as [|c s IH]; cbn [words].
  - split; [discriminate|]. intros (w & s' & E & (Hw & _) & _). symmetry in E. apply app_eq_nil in E. tauto.
  - rewrite andb_true_iff, orb_true_iff, IH, word_char_iff. split.
    + intros (Hc & [Hk|(w & s' & -> & (Hw & Hf) & Hk)]).
      * exists [c], s. repeat split; auto; try discriminate.
      * exists (c :: w), s'. repeat split; auto; try discriminate.
    + intros (w & s' & E & (Hw & Hf) & Hk). destruct w as [|x w]; [congruence|]. cbn [app] in E. injection E as <- ->.
      inversion Hf; subst. split; [assumption|]. destruct w as [|y w]; [left; exact Hk|right]. exists (y :: w), s'. repeat split; auto; discriminate.
Qed.
Lemma pm_ext ro r : forall s K K', (forall x, K x <-> K' x) -> (pm ro r s K <-> pm ro r s K').
Proof.
  induction r; intros t K K' H; cbn [pm].
  1,2,3,5: firstorder.
  - rewrite H. firstorder.
  - rewrite H, (IHr t K K' H). tauto.
  - rewrite (IHr1 t K K' H), (IHr2 t K K' H). tauto.
  - apply IHr1. intros x. apply IHr2. exact H.
Qed.
Lemma re_match_pm ro r : forall s k, re_match ro r s k = true <-> pm ro r s (fun x => k x = true).
Proof.
  induction r; intros t k; cbn [re_match pm].
  - rewrite andb_true_iff, starts_with_iff. split.
    + intros ((r & ->) & Hk). exists r. split; [reflexivity|]. rewrite skipn_app, Nat.sub_diag, skipn_all in Hk. exact Hk.
    + intros (s' & -> & Hk). split; [eauto|]. rewrite skipn_app, Nat.sub_diag, skipn_all. exact Hk.
  - destruct t as [|c t]; [split; [discriminate|intros (c & s' & E & _); discriminate]|]. rewrite andb_true_iff, digit_char_iff. split.
    + intros (A & B). exists c, t. auto.
    + intros (c' & s' & E & A & B). injection E as <- <-. auto.
  - apply words_iff.
  - rewrite orb_true_iff, words_iff. tauto.
  - unfold at_end. destruct t as [|c [|c' t]].
    + tauto.
    + rewrite andb_true_iff, Z.eqb_eq. split; [intros (-> & H); auto|]. intros ([E|E] & H); [discriminate|]. injection E as ->. auto.
    + split; [discriminate|]. intros ([E|E] & _); discriminate.
  - rewrite orb_true_iff, IHr. tauto.
  - rewrite orb_true_iff, IHr1, IHr2. tauto.
  - rewrite IHr1. apply pm_ext. intros x. apply IHr2.
Qed.
Lemma py_match_pm ro r s : py_match ro r s = true <-> pm ro r s (fun _ => True).
Proof. unfold py_match. rewrite re_match_pm. apply pm_ext. intuition. Qed.

Definition agrees (ro : ros) (a : re * str) (b : (str -> Prop) * str) : Prop :=
  snd a = snd b /\ forall n, pm ro (fst a) n (fun _ => True) <-> fst b n.
Lemma L_is (p n : str) : (exists s', n = p ++ s' /\ at_end s' /\ True) <-> is p n.
Proof. unfold is. split; intros (e & A & B); exists e; tauto. Qed.
Lemma L_starts (p n : str) : (exists s', n = p ++ s' /\ True) <-> starts p n.
Proof. unfold starts. split; [intros (e & A & B)|intros (e & A)]; exists e; tauto. Qed.
Lemma L_starts' (p n : str) (X : str -> Prop) : (exists s', n = p ++ s' /\ (True \/ X s')) <-> starts p n.
Proof. unfold starts. split; [intros (e & A & B)|intros (e & A)]; exists e; tauto. Qed.
Lemma L_ends ro (p n : str) : (exists w s', n = w ++ s' /\ word ro w /\ exists s0, s' = p ++ s0 /\ at_end s0 /\ True) <-> ends_in ro p n.
Proof.
  unfold ends_in. split.
  - intros (w & s' & -> & W & (s0 & -> & H & _)). exists w, s0. auto.
  - intros (w & e & W & H & ->). exists w, (p ++ e). split; [reflexivity|]. split; [exact W|]. exists e. auto.
Qed.
Lemma word_head ro (w r : str) : word ro w -> exists c s, a_word ro c /\ w ++ r = c :: s.
Proof. intros (H & F). destruct F as [|c w Hc F]; [congruence|]. exists c, (w ++ r). auto. Qed.
Lemma word_one ro c : a_word ro c -> word ro [c].
Proof. intros H. split; [discriminate|]. auto. Qed.
Lemma is_opt (p q : str) (s : str) : (exists s', s = p ++ s' /\ (at_end s' /\ True \/ exists s'0, s' = q ++ s'0 /\ at_end s'0 /\ True)) <->
  is p s \/ is (p ++ q) s.
Proof.
  unfold is. split.
  - intros (s' & -> & [(H & _)|(t & -> & H & _)]); [left; eauto|right]. exists t. split; [exact H|]. now rewrite <- app_assoc.
  - intros [(e & H & ->)|(e & H & ->)].
    + exists e. split; [reflexivity|]. auto.
    + exists (q ++ e). split; [now rewrite <- app_assoc|]. right. exists e. auto.
Qed.
Lemma ends_opt ro (p q : str) (n : str) :
  (exists w s', n = w ++ s' /\ word ro w /\ exists s0, s' = p ++ s0 /\ (at_end s0 /\ True \/ exists s1, s0 = q ++ s1 /\ at_end s1 /\ True)) <->
  ends_in ro p n \/ ends_in ro (p ++ q) n.
Proof.
  unfold ends_in. split.
  - intros (w & s' & -> & W & (s0 & -> & [(H & _)|(s1 & -> & H & _)])); [left|right]; exists w.
    + exists s0. auto.
    + exists s1. rewrite <- app_assoc. auto.
  - intros [(w & e & W & H & ->)|(w & e & W & H & ->)]; exists w; eexists; (split; [reflexivity|]); (split; [exact W|]).
    + exists e. auto.
    + exists (q ++ e). split; [now rewrite <- app_assoc|]. right. exists e. auto.
Qed.
Lemma is_pre (p r n : str) : (exists s', n = p ++ s' /\ is r s') <-> is (p ++ r) n.
Proof.
  unfold is. split.
  - intros (s' & -> & (e & H & ->)). exists e. split; [exact H|]. now rewrite <- app_assoc.
  - intros (e & H & ->). exists (r ++ e). split; [now rewrite <- app_assoc|eauto].
Qed.
Lemma starts_pre (p r n : str) : (exists s', n = p ++ s' /\ starts r s') <-> starts (p ++ r) n.
Proof.
  unfold starts. split.
  - intros (s' & -> & (e & ->)). exists e. now rewrite <- app_assoc.
  - intros (e & ->). exists (r ++ e). split; [now rewrite <- app_assoc|eauto].
Qed.
Lemma ex_or {A} (P Q : A -> Prop) (B : A -> Prop) : (exists a, B a /\ (P a \/ Q a)) <-> (exists a, B a /\ P a) \/ exists a, B a /\ Q a.
Proof. split; [intros (a & H & [X|X]); eauto|]. intros [(a & H & X)|(a & H & X)]; eauto. Qed.
Lemma exceptions_ok ro : Forall2 (agrees ro) EXCEPTIONS (special ro).
Proof.
  unfold EXCEPTIONS, special.
  repeat (apply Forall2_cons; [split; [reflexivity|intros n; cbn [fst seqs ors pm]]|]); [..|apply Forall2_nil].
  - split.
    + intros (s' & -> & (c & s0 & -> & D & E & _)). exists c, s0. auto.
    + intros (d & e & D & E & ->). eexists. split; [reflexivity|]. exists d, e. auto.
  - apply L_starts'.
  - apply L_starts'.
  - setoid_rewrite L_ends. setoid_rewrite L_is. reflexivity.
  - setoid_rewrite L_ends. setoid_rewrite L_is. reflexivity.
  - setoid_rewrite L_is. reflexivity.
  - apply L_starts.
  - setoid_rewrite L_starts. rewrite ex_or. setoid_rewrite starts_pre. setoid_rewrite starts_pre. reflexivity.
  - apply L_starts'.
  - apply L_is.
  - apply L_is.
  - split.
    + intros (s' & -> & (w & s0 & -> & W & _)). destruct (word_head ro w s0 W) as (c & t & Hc & ->). exists c, t. auto.
    + intros (c & r & Hc & ->). eexists. split; [reflexivity|]. exists [c], r. split; [reflexivity|]. split; [now apply word_one|exact I].
  - apply L_starts'.
  - rewrite (ends_opt ro (lit "attitude") (lit "_groundtruth")). reflexivity.
  - apply L_ends.
  - split.
    + intros (w & s' & -> & W & (s0 & -> & _)). exists w, s0. auto.
    + intros (w & r & W & ->). exists w. eexists. split; [reflexivity|]. split; [exact W|]. exists r. auto.
  - split.
    + intros (w & s' & -> & W & (s0 & -> & (w0 & s1 & -> & W0 & _))). destruct (word_head ro w0 s1 W0) as (c & t & Hc & ->). exists w, c, t. auto.
    + intros (w & c & r & W & Hc & ->). exists w. eexists. split; [reflexivity|]. split; [exact W|]. eexists. split; [reflexivity|].
      exists [c], r. split; [reflexivity|]. split; [now apply word_one|exact I].
  - setoid_rewrite is_opt. rewrite !ex_or. setoid_rewrite is_pre. rewrite <- ex_or.
    change (lit "global_position_groundtruth") with (lit "global_position" ++ lit "_groundtruth"). split.
    + intros [H|[H|[H|H]]]; [exists (lit "aux_")|exists (lit "estimator_")|exists (lit "vehicle_")|exists (lit "external_ins_")]; (split; [cbn [In]; tauto|exact H]).
    + intros (p & Hp & H). destruct Hp as [<-|[<-|[<-|[<-|[]]]]]; tauto.
  - rewrite (ends_opt ro (lit "_local_position") (lit "_groundtruth")). reflexivity.
  - apply L_ends.
  - setoid_rewrite L_is. setoid_rewrite is_pre. reflexivity.
  - apply L_starts'.
  - apply L_starts'.
  - rewrite L_is. setoid_rewrite L_is. setoid_rewrite is_pre. reflexivity.
Qed.

Lemma find_first ro n : forall E L, Forall2 (agrees ro) E L ->
  forall t, option_map snd (find (fun p => py_match ro (fst p) n) E) = Some t <-> first_of L n t.
Proof.
  intros E L H. induction H as [|[r x] [P y] E L (A & B) H IH]; intros t; cbn [find option_map fst snd] in *.
  - split; [discriminate|]. inversion 1.
  - subst y. specialize (B n). rewrite <- py_match_pm in B. destruct (py_match ro r n); cbn [option_map snd].
    + split; [intros [= <-]; apply fo_here, B; reflexivity|]. inversion 1; subst; [reflexivity|]. exfalso. tauto.
    + rewrite IH. split; [intros F; apply fo_next; [intros X; apply B in X; discriminate|exact F]|].
      intros F; inversion F; subst; [|assumption]. match goal with X : P n |- _ => apply B in X; discriminate end.
Qed.
Lemma sget_known {V} t (l : dict str V) : (exists x, sget t l = Some x) <-> In t (dkeys l).
Proof.
  split.
  - intros (x & H). apply (dget_In str_eqb str_eqb_spec) in H. apply in_map_iff. exists (t, x). auto.
  - intros H. exact (dget_Some_key str_eqb str_eqb_spec t l H).
Qed.
Lemma sget_unknown {V} t (l : dict str V) : sget t l = None <-> ~ In t (dkeys l).
Proof. exact (dget_None str_eqb str_eqb_spec t l). Qed.
Lemma calc_type ro name t : (calc_msgtype ro name = Some t /\ known ro t) <-> type_of ro name t.
Proof.
  unfold calc_msgtype, type_of. pose proof (find_first ro name _ _ (exceptions_ok ro) t) as F.
  rewrite camel_iff. assert (X : (forall c, camel_case ro name c -> ~ known ro c) <-> ~ known ro (to_camel_case ro name)).
  { split; [intros H; apply H, camel_iff; reflexivity|]. intros H c C. apply camel_iff in C as ->. exact H. }
  rewrite X. clear X. unfold known.
  destruct (sget (to_camel_case ro name) (r_types ro)) as [x|] eqn:E.
  - assert (K : In (to_camel_case ro name) (dkeys (r_types ro))) by (apply sget_known; eauto). split.
    + intros ([= <-] & H). tauto.
    + intros ([->|(N & _)] & H); [auto|tauto].
  - apply sget_unknown in E. split.
    + intros (H & K). apply F in H. tauto.
    + intros ([->|(N & H)] & K); [tauto|]. split; [now apply F|exact K].
Qed.
Lemma type_of_fun ro name t t' : type_of ro name t -> type_of ro name t' -> t = t'.
Proof. intros H H'. apply calc_type in H as (H & _), H' as (H' & _). congruence. Qed.
Lemma type_none ro name : (forall t, ~ type_of ro name t) ->
  match calc_msgtype ro name with Some t => sget t (r_types ro) = None | None => True end.
Proof.
  intros H. destruct (calc_msgtype ro name) as [t|] eqn:E; [|exact I]. apply sget_unknown. intros K. apply (H t), calc_type. auto.
Qed.

(** ** Field names *)
Lemma digits_bracket_ok ds : forall acc some r, Forall (fun c => is_digit c = true) ds -> some = true \/ ds <> [] ->
  digits_bracket some acc (ds ++ 93 :: r) = Some (fold_left (fun a c => a * 10 + (c - 48)) ds acc, r).
Proof.
  induction ds as [|c ds IH]; intros acc some r H Hs; cbn [app digits_bracket fold_left].
  - destruct Hs as [->|Hs]; [reflexivity|congruence].
  - inversion H; subst. rewrite H2. apply IH; auto.
Qed.
Lemma bracket_nat j r : digits_bracket false 0 (str_of_Z (Z.of_nat j) ++ 93 :: r) = Some (Z.of_nat j, r).
Proof.
  rewrite str_of_Z_nonneg by lia. destruct (str_of_nonneg_spec (Z.of_nat j)) as (A & B & C); [lia|].
  rewrite digits_bracket_ok by auto. unfold dec_val in C. now rewrite C.
Qed.
Lemma strip_plain b : plain b -> strip_index b = b.
Proof. induction 1 as [|c r (_ & H & _) Hr IH]; cbn [strip_index]; [reflexivity|]. destruct (Z.eqb_spec c 91); [congruence|]. now rewrite IH. Qed.
Lemma strip_elem b j : plain b -> strip_index (elem_name b j) = b.
Proof.
  unfold elem_name. change (lit "[") with [91]. change (lit "]") with [93]. intros H.
  induction H as [|c r (_ & Hc & _) Hr IH]; cbn [app strip_index] in *.
  - cbn [Z.eqb Pos.eqb]. now rewrite bracket_nat.
  - destruct (Z.eqb_spec c 91); [congruence|]. now rewrite IH.
Qed.
Lemma array_plain b : plain b -> array_match b = None.
Proof.
  induction 1 as [|c r (_ & H1 & H2) Hr IH]; cbn [array_match]; [reflexivity|]. destruct (Z.eqb_spec c 91); [congruence|].
  destruct (Z.eqb_spec c 10); [congruence|]. now rewrite IH.
Qed.
Lemma array_elem b j : plain b -> array_match (elem_name b j) = Some (b, Z.of_nat j).
Proof.
  unfold elem_name. change (lit "[") with [91]. change (lit "]") with [93]. intros H.
  induction H as [|c r (_ & H1 & H2) Hr IH]; cbn [app array_match] in *.
  - cbn [Z.eqb Pos.eqb]. now rewrite bracket_nat.
  - destruct (Z.eqb_spec c 91); [congruence|]. destruct (Z.eqb_spec c 10); [congruence|]. now rewrite IH.
Qed.
Lemma elem_name_inj b j b' j' : plain b -> plain b' -> elem_name b j = elem_name b' j' -> b = b' /\ j = j'.
Proof. intros H H' E. apply (f_equal array_match) in E. rewrite !array_elem in E by assumption. injection E as -> E. split; [reflexivity|lia]. Qed.
Lemma elem_not_plain b j : ~ plain (elem_name b j).
Proof. unfold plain, elem_name. rewrite !Forall_app. intros (_ & H & _). inversion H as [|? ? (_ & X & _)]. apply X. reflexivity. Qed.
Lemma composed_no_dot s : ~ In 46 s -> composed_name s = false.
Proof.
  induction s as [|c r IH]; intros H; cbn [composed_name]; [reflexivity|]. destruct (Z.eqb_spec c 46) as [->|]; [destruct H; now left|].
  rewrite IH by (intros X; apply H; now right). cbn. apply andb_false_r.
Qed.
Lemma composed_dot s : In 46 s -> ~ In 10 s -> composed_name s = true.
Proof.
  induction s as [|c r IH]; intros H N; cbn [composed_name]; [destruct H|]. destruct (Z.eqb_spec c 46) as [->|D]; [reflexivity|].
  destruct (Z.eqb_spec c 10) as [->|D']; [destruct N; now left|]. cbn. apply IH; [destruct H; [congruence|assumption]|]. intros X. apply N. now right.
Qed.
Lemma elem_no_dot b j : plain b -> ~ In 46 (elem_name b j).
Proof.
  intros H X. unfold elem_name in X. rewrite !in_app_iff in X. destruct X as [X|[X|[X|X]]].
  - unfold plain in H. rewrite Forall_forall in H. destruct (H _ X). congruence.
  - destruct X as [X|[]]. discriminate.
  - rewrite str_of_Z_nonneg in X by lia. apply str_of_nonneg_digits in X; lia.
  - destruct X as [X|[]]. discriminate.
Qed.

(** ** Messages *)
Definition heldw (ro : ros) (d : dataset) (names : list str) (i : nat) (ty name : str) (new : value) : value :=
  if existsb (fun x => str_eqb x name) names then
    match at_ d name i with
    | Some (t, raw) => match r_conv ro ty (ros_value ty t raw) with Ok w => w | Err _ => new end
    | None => new
    end
  else new.
Definition fillw ro d names i (f : str * (str * rosval)) : rosval :=
  match snd (snd f) with
  | RScalar v => RScalar (heldw ro d names i (fst (snd f)) (fst f) v)
  | RArray l => RArray (mapi (fun j => heldw ro d names i (fst (snd f)) (elem_name (fst f) j)) O l)
  end.
Definition messagew ro fields d names i : rosmsg := map (fun f => (fst f, fillw ro d names i f)) fields.
Lemma existsb_map {A B} (f : A -> B) p l : existsb p (map f l) = existsb (fun x => p (f x)) l.
Proof. induction l as [|x l IH]; cbn; [reflexivity|]. now rewrite IH. Qed.
Lemma mapi_ext {A B} (f g : nat -> A -> B) l : forall n, (forall j x, f j x = g j x) -> mapi f n l = mapi g n l.
Proof. induction l as [|x l IH]; intros n H; cbn; [reflexivity|]. now rewrite H, (IH (S n) H). Qed.
Lemma message_w ro fields d i : message ro fields d i = messagew ro fields d (map fd_name (ds_fields d)) i.
Proof.
  unfold message, messagew. apply map_ext. intros [n [ty rv]]. unfold fillw. cbn [fst snd]. f_equal.
  assert (E : forall a b c, held ro d i a b c = heldw ro d (map fd_name (ds_fields d)) i a b c).
  { intros a b c. unfold held, heldw. now rewrite existsb_map. }
  destruct rv; f_equal; [apply E|]. apply mapi_ext. intros j x. apply E.
Qed.
Lemma message_0 ro fields d i : messagew ro fields d [] i = new_msg fields.
Proof.
  unfold messagew, new_msg. apply map_ext. intros [n [ty rv]]. unfold fillw, heldw. cbn [fst snd existsb]. f_equal.
  destruct rv; f_equal. generalize 0%nat. induction l as [|x l IH]; intros k; cbn [mapi]; [reflexivity|]. now rewrite IH.
Qed.
Lemma sget_mapped {V W} (F : str * V -> W) k v (l : dict str V) : NoDup (dkeys l) -> In (k, v) l ->
  sget k (map (fun f => (fst f, F f)) l) = Some (F (k, v)).
Proof.
  intros N H. apply (In_dget str_eqb str_eqb_spec).
  - unfold dkeys in *. rewrite map_map. exact N.
  - apply in_map_iff. exists (k, v). auto.
Qed.
Lemma str_eqb_sym a b : str_eqb a b = str_eqb b a.
Proof. destruct (str_eqb_spec a b), (str_eqb_spec b a); congruence. Qed.
Lemma sset_mapped {V W} (F : str * V -> W) k x (l : dict str V) : NoDup (dkeys l) -> In k (dkeys l) ->
  sset k x (map (fun f => (fst f, F f)) l) = map (fun f => (fst f, if str_eqb (fst f) k then x else F f)) l.
Proof.
  induction l as [|[n v] l IH]; intros N H; [destruct H|]. cbn [map fst dset] in *. unfold dkeys in *. cbn [map fst] in *. inversion N; subst.
  rewrite (str_eqb_sym k n). destruct (str_eqb_spec n k) as [->|D].
  - f_equal. apply map_ext_in. intros [m y] Hy. cbn [fst]. destruct (str_eqb_spec m k) as [->|]; [|reflexivity].
    exfalso. apply H2. apply in_map_iff. exists (k, y). auto.
  - f_equal. apply IH; [assumption|]. destruct H; [congruence|assumption].
Qed.
Lemma set_nth_mapi {A B} (f : nat -> A -> B) w l : forall n j, (j < length l)%nat ->
  set_nth (mapi f n l) j w = mapi (fun m x => if Nat.eqb m (n + j) then w else f m x) n l.
Proof.
  induction l as [|x l IH]; intros n j H; cbn [length] in H; [lia|]. cbn [mapi]. destruct j as [|j]; cbn [set_nth].
  - rewrite Nat.add_0_r, Nat.eqb_refl. f_equal. clear. assert (forall k, (n < k)%nat -> mapi f k l = mapi (fun m x => if Nat.eqb m n then w else f m x) k l) as H; [|apply H; lia].
    induction l as [|y l IH]; intros k Hk; cbn [mapi]; [reflexivity|]. destruct (Nat.eqb_spec k n); [lia|]. f_equal. apply IH. lia.
  - destruct (Nat.eqb_spec n (n + S j)); [lia|]. f_equal. rewrite IH by lia. apply mapi_ext. intros m y. now replace (S n + j)%nat with (n + S j)%nat by lia.
Qed.
Lemma length_mapi {A B} (f : nat -> A -> B) l : forall n, length (mapi f n l) = length l.
Proof. induction l as [|x l IH]; intros n; cbn; [reflexivity|]. now rewrite IH. Qed.
Lemma ros2ify_ok fields name ty v t raw : sget name fields = Some (ty, v) -> (forall n, t = NI n true -> 0 <= raw < 256 ^ Z.of_nat n) ->
  ros2ify_value fields name t raw = Ok (ros_value ty t raw).
Proof.
  intros H R. unfold ros2ify_value, ros_value. rewrite H. destruct t as [[|[|n]] [|]|n]; try reflexivity.
  destruct (starts_with (lit "bool") ty); [|reflexivity]. specialize (R 1%nat eq_refl). do 3 f_equal.
  unfold to_signed. change (256 ^ Z.of_nat 1) with 256 in *. destruct (Z.ltb_spec raw (256 / 2)); destruct (Z.eqb_spec raw 0); lia.
Qed.
Lemma heldw_other ro d names i ty name x new : name <> x -> heldw ro d (names ++ [x]) i ty name new = heldw ro d names i ty name new.
Proof.
  intros N. unfold heldw. rewrite existsb_app. cbn [existsb]. destruct (str_eqb_spec x name); [congruence|]. now rewrite !orb_false_r.
Qed.
Lemma heldw_this ro d names i ty x new t raw w : at_ d x i = Some (t, raw) -> r_conv ro ty (ros_value ty t raw) = Ok w ->
  heldw ro d (names ++ [x]) i ty x new = w.
Proof. intros A C. unfold heldw. rewrite existsb_app. cbn [existsb]. rewrite str_eqb_refl. cbn [orb]. rewrite orb_true_r, A, C. reflexivity. Qed.
Lemma In_unique {V} k (v v' : V) (l : dict str V) : NoDup (dkeys l) -> In (k, v) l -> In (k, v') l -> v = v'.
Proof. intros N H H'. apply (In_dget str_eqb str_eqb_spec) in H, H'; auto. congruence. Qed.
Lemma at_elem d name i t raw : at_ d name i = Some (t, raw) -> elem d name i = Ok (t, raw).
Proof.
  unfold at_, elem. destruct (sget name (ds_data d)) as [c|]; [|discriminate]. unfold py_nth.
  destruct (nth_error (c_raw c) i) as [x|]; cbn; [intros [= <- <-]; reflexivity|discriminate].
Qed.
Lemma set_field_ok ro fields d i names f ty t raw w : NoDup (dkeys fields) -> Forall plain (dkeys fields) ->
  slot fields (fd_name f) ty -> at_ d (fd_name f) i = Some (t, raw) ->
  (forall n, t = NI n true -> 0 <= raw < 256 ^ Z.of_nat n) -> r_conv ro ty (ros_value ty t raw) = Ok w ->
  set_field ro fields d i (messagew ro fields d names i) f = Ok (messagew ro fields d (names ++ [fd_name f]) i).
Proof.
  intros N PL S A R C. unfold set_field. rewrite (at_elem _ _ _ _ _ A). cbn [bind fst snd].
  assert (PLk : forall k v, In (k, v) fields -> plain k).
  { intros k v H. rewrite Forall_forall in PL. apply PL. apply in_map_iff. exists (k, v). auto. }
  destruct S as [(P & v & H)|(b & j & l & P & E & H & J)].
  - rewrite (array_plain _ P). pose proof (In_dget str_eqb str_eqb_spec _ _ _ N H) as G.
    rewrite (ros2ify_ok _ _ _ _ _ _ G R). cbn [bind]. unfold messagew at 1. rewrite (sget_mapped (fillw ro d names i) _ _ _ N H), G.
    unfold fillw at 1. cbn [fst snd]. rewrite C. cbn [bind]. f_equal. unfold messagew.
    rewrite (sset_mapped (fillw ro d names i)); [|exact N|apply in_map_iff; eexists; split; [|exact H]; reflexivity].
    apply map_ext_in. intros [n [y rv]] Hn. cbn [fst]. f_equal. destruct (str_eqb_spec n (fd_name f)) as [->|D].
    + pose proof (In_unique _ _ _ _ N H Hn) as U. injection U as <- <-. unfold fillw. cbn [fst snd]. f_equal. symmetry. eapply heldw_this; eauto.
    + unfold fillw. cbn [fst snd]. destruct rv as [x|x]; f_equal.
      * symmetry. now apply heldw_other.
      * apply mapi_ext. intros k z. symmetry. apply heldw_other. intros X. apply (elem_not_plain n k). now rewrite X.
  - rewrite E, (array_elem _ _ P). rewrite E in A. pose proof (In_dget str_eqb str_eqb_spec _ _ _ N H) as G.
    rewrite (ros2ify_ok _ _ _ _ _ _ G R). cbn [bind]. unfold messagew at 1. rewrite (sget_mapped (fillw ro d names i) _ _ _ N H), G.
    unfold fillw at 1. cbn [fst snd]. unfold lenZ. rewrite length_mapi. destruct (Z.ltb_spec (Z.of_nat j) (Z.of_nat (length l))); [|lia].
    rewrite C. cbn [bind]. f_equal. unfold messagew.
    rewrite (sset_mapped (fillw ro d names i)); [|exact N|apply in_map_iff; eexists; split; [|exact H]; reflexivity].
    apply map_ext_in. intros [n [y rv]] Hn. cbn [fst]. f_equal. destruct (str_eqb_spec n b) as [->|D].
    + pose proof (In_unique _ _ _ _ N H Hn) as U. injection U as <- <-. unfold fillw. cbn [fst snd]. f_equal. rewrite Nat2Z.id, set_nth_mapi by exact J.
      apply mapi_ext. intros k z. cbn [Nat.add]. destruct (Nat.eqb_spec k j) as [->|D].
      * symmetry. eapply heldw_this; eauto.
      * symmetry. apply heldw_other. intros X. apply elem_name_inj in X as (_ & X); auto.
    + unfold fillw. cbn [fst snd]. destruct rv as [x|x]; f_equal.
      * symmetry. apply heldw_other. intros X. apply (elem_not_plain b j). rewrite <- X. eapply PLk; eauto.
      * apply mapi_ext. intros k z. symmetry. apply heldw_other. intros X. apply elem_name_inj in X as (X & _); auto. eapply PLk; eauto.
Qed.
Lemma fold_fields ro fields d i : NoDup (dkeys fields) -> Forall plain (dkeys fields) -> forall fs names,
  (forall f, In f fs -> exists ty t raw w, slot fields (fd_name f) ty /\ at_ d (fd_name f) i = Some (t, raw) /\
     (forall n, t = NI n true -> 0 <= raw < 256 ^ Z.of_nat n) /\ r_conv ro ty (ros_value ty t raw) = Ok w) ->
  foldM (set_field ro fields d i) fs (messagew ro fields d names i) = Ok (messagew ro fields d (names ++ map fd_name fs) i).
Proof.
  intros N PL. induction fs as [|f fs IH]; intros names H; cbn [foldM map].
  - now rewrite app_nil_r.
  - destruct (H f (or_introl eq_refl)) as (ty & t & raw & w & S & A & R & C).
    rewrite (set_field_ok ro fields d i names f ty t raw w N PL S A R C). cbn [bind]. rewrite IH by (intros g Hg; apply H; now right).
    now rewrite <- app_assoc.
Qed.
Lemma ros2_msg_ok ro fields d ts i : fits ro fields d ts -> (i < length ts)%nat -> ros2_msg ro fields d i = Ok (message ro fields d i).
Proof.
  intros [F1 F2 (F3 & F4) F5] Hi. unfold ros2_msg. rewrite <- (message_0 ro fields d i), fold_fields; auto.
  - now rewrite message_w.
  - intros f Hf. destruct (F5 f Hf) as (ty & S & V). destruct (V i Hi) as (t & raw & w & A & R & C). exists ty, t, raw, w. auto.
Qed.

(** ** The bag *)
Lemma nanoseconds_ok ro z : small_time ro z -> nanoseconds (r_np2 ro) (NI 8 false) z = Ok (1000 * z) /\ 0 <= 1000 * z < 2 ^ 63.
Proof.
  unfold small_time. change (2 ^ 53) with 9007199254740992. change (2 ^ 63) with 9223372036854775808. intros (A & B). unfold nanoseconds. cbn [Nat.eqb andb negb].
  destruct (r_np2 ro).
  - split; [|lia]. unfold wrap. change (256 ^ Z.of_nat 8) with 18446744073709551616. rewrite Z.mod_small by lia. f_equal. lia.
  - split; [|lia]. rewrite (rnd_exact z) by (change (2 ^ 53) with 9007199254740992; lia). rewrite rnd_exact by (change (2 ^ 53) with 9007199254740992; lia). f_equal. lia.
Qed.
Lemma write_ok ro topic fields d ts i : fits ro fields d ts -> Forall (small_time ro) ts -> (i < length ts)%nat ->
  write_sample ro topic fields d i = Ok (topic, message ro fields d i, 1000 * nth i ts 0).
Proof.
  intros F S Hi. unfold write_sample. rewrite (ros2_msg_ok _ _ _ _ _ F Hi). cbn [bind]. unfold elem. rewrite (fi_time _ _ _ _ F). cbn [c_raw c_type].
  unfold py_nth. rewrite (nth_error_nth' ts 0 Hi). cbn [bind fst snd].
  assert (Hs : small_time ro (nth i ts 0)) by (rewrite Forall_forall in S; apply S, nth_In, Hi).
  destruct (nanoseconds_ok ro _ Hs) as (E & B). rewrite E. cbn [bind]. change (2 ^ 63) with 9223372036854775808 in B.
  destruct (Z.leb_spec (- 9223372036854775808) (1000 * nth i ts 0)); [|lia]. destruct (Z.ltb_spec (1000 * nth i ts 0) 9223372036854775808); [|lia]. reflexivity.
Qed.
Lemma mapM_all {A B} (f : A -> res B) (g : A -> B) l : (forall x, In x l -> f x = Ok (g x)) -> mapM f l = Ok (map g l).
Proof. induction l as [|x l IH]; intros H; cbn [mapM map]; [reflexivity|]. rewrite (H x) by (now left). cbn [bind]. rewrite IH by (intros y Hy; apply H; now right). reflexivity. Qed.
Lemma slot_name fields n ty : slot fields n ty -> ~ In 46 n /\ exists x, sget (strip_index n) fields = Some x.
Proof.
  intros [(P & v & H)|(b & j & l & P & -> & H & J)].
  - split; [intros X; unfold plain in P; rewrite Forall_forall in P; destruct (P _ X); congruence|]. rewrite strip_plain by exact P.
    apply sget_known. apply in_map_iff. eexists. split; [|exact H]. reflexivity.
  - split; [now apply elem_no_dot|]. rewrite strip_elem by exact P. apply sget_known. apply in_map_iff. eexists. split; [|exact H]. reflexivity.
Qed.
Lemma existsb_none {A} (p : A -> bool) l : (forall x, In x l -> p x = false) -> existsb p l = false.
Proof. induction l as [|x l IH]; intros H; cbn; [reflexivity|]. rewrite (H x), IH; auto with datatypes. Qed.
Lemma bag_step ro u b d tp ms sk : contribution ro u d tp ms sk ->
  bag_topic ro u b d = Ok (mkBag (b_topics b ++ tp) (b_msgs b ++ ms) (b_skipped b ++ sk) (b_ntopics b + lenZ tp) (b_nmsgs b + lenZ ms)).
Proof.
  intros C. unfold bag_topic. destruct C as [t fields ts T G F S|why c Tc Nl L].
  - unfold len_ts. rewrite (fi_time _ _ _ _ F). cbn [c_raw bind]. apply calc_type in T as (T & K). rewrite T, G.
    rewrite existsb_none.
    2:{ intros f Hf. apply composed_no_dot. destruct (fi_slots _ _ _ _ F f Hf) as (ty & Sl & _). apply (slot_name _ _ _ Sl). }
    replace (forallb _ (ds_fields d)) with true.
    2:{ symmetry. apply forallb_forall. intros f Hf. destruct (fi_slots _ _ _ _ F f Hf) as (ty & Sl & _). destruct (slot_name _ _ _ Sl) as (_ & x & ->). reflexivity. }
    cbn [negb]. rewrite (mapM_all _ (fun i => (ros2_topic u d, message ro fields d i, 1000 * nth i ts 0))).
    + cbn [bind]. rewrite app_nil_r. do 2 f_equal. unfold lenZ. rewrite map_length, seq_length. reflexivity.
    + intros i Hi. apply in_seq in Hi. apply (write_ok _ _ _ _ _ _ F S). lia.
  - unfold len_ts. rewrite Tc. cbn [bind]. rewrite !app_nil_r, !Z.add_0_r. destruct L as [T|t f T Hf D|t fields f T G D Hf (bn & P & E & X)].
    + apply type_none in T. destruct (calc_msgtype ro (ds_name d)) as [t|]; [|reflexivity]. now rewrite T.
    + apply calc_type in T as (T & K). rewrite T. apply sget_known in K as (fields & G). rewrite G.
      replace (existsb _ (ds_fields d)) with true; [reflexivity|]. symmetry. apply existsb_exists. exists f. split; [exact Hf|].
      apply composed_dot; [exact D|]. rewrite Forall_forall in Nl. now apply Nl.
    + apply calc_type in T as (T & K). rewrite T, G. rewrite existsb_none.
      2:{ intros g Hg. apply composed_no_dot. rewrite Forall_forall in D. now apply D. }
      replace (forallb _ (ds_fields d)) with false; [reflexivity|]. symmetry. apply not_true_iff_false. rewrite forallb_forall. intros Q. specialize (Q f Hf).
      assert (Y : strip_index (fd_name f) = bn) by (destruct E as [->|(j & ->)]; [now apply strip_plain|now apply strip_elem]).
      rewrite Y in Q. apply sget_unknown in X. rewrite X in Q. discriminate.
Qed.
Lemma bag_fold ro u : forall ds l b, Forall2 (fun d c => contribution ro u d (fst (fst c)) (snd (fst c)) (snd c)) ds l ->
  foldM (bag_topic ro u) ds b = Ok (mkBag (b_topics b ++ concat (map (fun c => fst (fst c)) l)) (b_msgs b ++ concat (map (fun c => snd (fst c)) l))
    (b_skipped b ++ concat (map snd l)) (b_ntopics b + lenZ (concat (map (fun c => fst (fst c)) l))) (b_nmsgs b + lenZ (concat (map (fun c => snd (fst c)) l)))).
Proof.
  intros ds l b H. revert b. induction H as [|d [[tp ms] sk] ds l C H IH]; intros b; cbn [foldM map concat fst snd].
  - rewrite !app_nil_r, !Z.add_0_r. now destruct b.
  - cbn [fst snd] in C. rewrite (bag_step _ _ b _ _ _ _ C). cbn [bind]. rewrite IH. cbn [b_topics b_msgs b_skipped b_ntopics b_nmsgs].
    rewrite <- !app_assoc, !lenZ_app, !Z.add_assoc. reflexivity.
Qed.

(** ** Names with a number in brackets *)
Lemma bracket_past a : forall some acc y v t, digits_bracket some acc (a ++ 91 :: y) = Some (v, t) -> exists a', t = a' ++ 91 :: y.
Proof.
  induction a as [|c a IH]; intros some acc y v t H; cbn [app digits_bracket] in H.
  - discriminate.
  - destruct (is_digit c); [eapply IH, H|]. destruct ((c =? 93) && some); [|discriminate]. injection H as _ <-. eauto.
Qed.
Lemma bracket_inv s : forall some acc v t, digits_bracket some acc s = Some (v, t) ->
  exists ds, (some = true \/ ds <> []) /\ Forall (fun c => 48 <= c <= 57) ds /\ s = ds ++ 93 :: t.
Proof.
  induction s as [|c s IH]; intros some acc v t H; cbn [digits_bracket] in H; [discriminate|].
  destruct (is_digit c) eqn:E.
  - destruct (IH _ _ _ _ H) as (ds & _ & HF & ->). exists (c :: ds). split; [right; discriminate|]. split; [|reflexivity].
    constructor; [|exact HF]. unfold is_digit in E. lia.
  - destruct ((c =? 93) && some) eqn:E2; [|discriminate]. injection H as _ <-. apply andb_true_iff in E2 as [E2 ->].
    apply Z.eqb_eq in E2 as ->. exists []. split; [now left|]. split; [constructor|reflexivity].
Qed.
Lemma strip_numbered s b : numbered s b -> strip_index s = b.
Proof.
  intros (a & ds & e & Hds & HF & He & -> & ->).
  assert (Hd : Forall (fun c => is_digit c = true) ds) by (eapply Forall_impl; [|exact HF]; unfold is_digit; intros; lia).
  induction a as [|c a IH].
  - cbn [app strip_index Z.eqb Pos.eqb]. rewrite digits_bracket_ok by auto. destruct He as [->| ->]; reflexivity.
  - change ((c :: a) ++ [91] ++ ds ++ [93] ++ e) with (c :: (a ++ [91] ++ ds ++ [93] ++ e)). cbn [strip_index]. rewrite IH.
    destruct (c =? 91); [|reflexivity].
    destruct (digits_bracket false 0 (a ++ [91] ++ ds ++ [93] ++ e)) as [[v t]|] eqn:E; [|reflexivity].
    destruct (bracket_past a _ _ (ds ++ [93] ++ e) _ _ E) as (a' & ->).
    destruct ds as [|d ds]; [congruence|]. destruct a' as [|x [|y a']]; reflexivity.
Qed.
Lemma strip_other s : (forall b, ~ numbered s b) -> strip_index s = s.
Proof.
  induction s as [|c s IH]; intros H; [reflexivity|]. cbn [strip_index].
  assert (Hr : strip_index s = s).
  { apply IH. intros b (a & ds & e & H1 & H2 & H3 & -> & ->). apply (H (c :: a ++ e)). exists (c :: a), ds, e. auto. }
  rewrite Hr. destruct (Z.eqb_spec c 91) as [->|]; [|reflexivity].
  destruct (digits_bracket false 0 s) as [[v t]|] eqn:E; [|reflexivity].
  destruct (match t with [] => true | [x] => x =? 10 | _ => false end) eqn:Et; [|reflexivity]. exfalso.
  destruct (bracket_inv _ _ _ _ _ E) as (ds & [?|Hds] & HF & ->); [discriminate|].
  apply (H t). exists [], ds, t. split; [exact Hds|]. split; [exact HF|]. split; [|split; reflexivity].
  destruct t as [|x [|y t]]; [now left| |discriminate]. apply Z.eqb_eq in Et as ->. now right.
Qed.

(** ** Times *)
Lemma wrap_spec n sg z : (0 < n)%nat -> in_type n sg (wrap n sg z) /\ exists k, wrap n sg z = z + k * 256 ^ Z.of_nat n.
Proof.
  intros Hn. unfold wrap, in_type. assert (P : 0 < 256 ^ Z.of_nat n) by (apply Z.pow_pos_nonneg; lia).
  pose proof (Z.mod_pos_bound z _ P) as B. pose proof (Z.div_mod z (256 ^ Z.of_nat n) ltac:(lia)) as D.
  pose proof (pow256_even n Hn) as E.
  destruct sg; [|split; [exact B|]; exists (- (z / 256 ^ Z.of_nat n)); lia].
  pose proof (to_signed_range n _ Hn B) as R. split; [lia|]. unfold to_signed.
  destruct (_ <? _); [exists (- (z / 256 ^ Z.of_nat n))|exists (- (z / 256 ^ Z.of_nat n) - 1)]; lia.
Qed.
Lemma nanoseconds_inv np2 n sg raw t : (0 < n)%nat -> nanoseconds np2 (NI n sg) raw = Ok t -> - 2 ^ 63 <= t < 2 ^ 63 -> written_at np2 n sg raw t.
Proof.
  intros Hn H B. unfold written_at. cbv zeta. split; [exact B|]. unfold nanoseconds in H. cbv zeta in H.
  set (z := if sg then to_signed n raw else raw) in *. destruct np2.
  - destruct (Nat.eqb_spec n 1); [discriminate|]. split; [assumption|]. injection H as <-.
    replace (1000 * z) with (z * 1000) by lia. apply wrap_spec, Hn.
  - destruct (Nat.eqb n 8 && negb sg) eqn:E.
    + apply andb_true_iff in E as [_ E]. destruct sg; [discriminate|]. injection H as <-. subst z. f_equal. lia.
    + apply (f_equal (fun r => match r with Ok x => x | Err _ => 0 end)) in H. cbv beta iota in H. subst t.
      replace (1000 * z) with (z * 1000) by lia. exact (proj2 (wrap_spec 8 true (z * 1000) ltac:(lia))).
Qed.
Lemma mapM_each {A B} (f : A -> res B) (P : B -> Prop) l : forall l', mapM f l = Ok l' -> (forall x y, In x l -> f x = Ok y -> P y) -> Forall P l'.
Proof.
  induction l as [|x l IH]; cbn [mapM]; intros l' H HP; [injection H as <-; constructor|].
  destruct (f x) as [y|] eqn:E; cbn [bind] in H; [|discriminate]. destruct (mapM f l) as [ys|] eqn:E2; cbn [bind] in H; [|discriminate].
  injection H as <-. constructor; [apply (HP x); [left; reflexivity|exact E]|]. apply IH; [reflexivity|]. intros a b Ha. apply HP. now right.
Qed.
Lemma foldM_keeps {A S} (f : S -> A -> res S) (P : S -> Prop) l : (forall s x s', In x l -> P s -> f s x = Ok s' -> P s') ->
  forall s s', foldM f l s = Ok s' -> P s -> P s'.
Proof.
  induction l as [|x l IH]; intros HP s s' H Hs; cbn [foldM] in H; [injection H as <-; exact Hs|].
  destruct (f s x) as [s1|] eqn:E; cbn [bind] in H; [|discriminate].
  apply (IH (fun s x s' Hx => HP s x s' (or_intror Hx)) s1 s' H). eapply HP; [left; reflexivity|exact Hs|exact E].
Qed.
Definition timed (ro : ros) (u : ulog) (m : str * rosmsg * Z) : Prop :=
  exists d i ty raw, In d (u_data u) /\ at_ d (lit "timestamp") i = Some (ty, raw) /\ nanoseconds (r_np2 ro) ty raw = Ok (snd m) /\ - 2 ^ 63 <= snd m < 2 ^ 63.
Lemma sample_timed ro u d topic fields i m : In d (u_data u) -> write_sample ro topic fields d i = Ok m -> timed ro u m.
Proof.
  intros Hd H. unfold write_sample in H. destruct (ros2_msg ro fields d i) as [msg|]; cbn [bind] in H; [|discriminate].
  destruct (elem d (lit "timestamp") i) as [[ty raw]|] eqn:E; cbn [bind] in H; [|discriminate]. cbn [fst snd] in H.
  destruct (nanoseconds (r_np2 ro) ty raw) as [ns|] eqn:N; cbn [bind] in H; [|discriminate].
  destruct ((- 9223372036854775808 <=? ns) && (ns <? 9223372036854775808)) eqn:B; [|discriminate].
  assert (Hm : snd m = ns) by (apply (f_equal (fun r => match r with Ok x => snd x | Err _ => 0 end)) in H; symmetry; exact H).
  exists d, i, ty, raw. split; [exact Hd|]. rewrite Hm. split; [|split; [exact N|]].
  - unfold elem in E. unfold at_. destruct (sget (lit "timestamp") (ds_data d)) as [c|]; [|discriminate].
    unfold py_nth in E. destruct (nth_error (c_raw c) i); cbn [bind] in E; [|discriminate]. injection E as <- <-. reflexivity.
  - change (2 ^ 63) with 9223372036854775808. lia.
Qed.
Lemma bag_timed ro u b : convert_ros2bag ro u = Ok b -> Forall (timed ro u) (b_msgs b).
Proof.
  intros H. unfold convert_ros2bag in H. eapply (foldM_keeps _ (fun b => Forall (timed ro u) (b_msgs b))); [|exact H|constructor].
  clear b H. intros b d b' Hd Hb H. unfold bag_topic in H. destruct (len_ts d) as [n|]; cbn [bind] in H; [|discriminate].
  destruct (calc_msgtype ro (ds_name d)) as [ty|]; [|injection H as <-; exact Hb].
  destruct (sget ty (r_types ro)) as [fields|]; [|injection H as <-; exact Hb].
  destruct (existsb _ (ds_fields d)); [injection H as <-; exact Hb|].
  destruct (negb _); [injection H as <-; exact Hb|].
  destruct (mapM (write_sample ro (ros2_topic u d) fields d) (seq 0 n)) as [ms|] eqn:E; cbn [bind] in H; [|discriminate].
  injection H as <-. cbn [b_msgs]. apply Forall_app. split; [exact Hb|]. eapply mapM_each; [exact E|].
  intros i m _ Hm. eapply sample_timed; eassumption.
Qed.
