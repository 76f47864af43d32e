(** write_ulog() succeeds exactly on the logs of [SpecWritable.v]. *)
From Coq Require Import Permutation.
From Verif Require Import Base Dict Utf8 PyStr PyFloat Struct PySort ModelTypes ModelRead ModelWrite Spec SpecMsg SpecLog SpecWrite SpecLoaded SpecWritable
  ProofsFile ProofsRead ProofsCut ProofsChange ProofsMsg ProofsWrite ProofsRound ProofsLoaded.
Ltac Zify.zify_post_hook ::= idtac.

Definition fine {A} (r : res A) : Prop := exists x, r = Ok x.
Lemma fine_Ok {A} (x : A) : fine (Ok x). Proof. now exists x. Qed.
Lemma fine_bind {A B} (a : res A) (k : A -> res B) : fine (bind a k) <-> exists x, a = Ok x /\ fine (k x).
Proof.
  split.
  - intros (y & H). apply bind_Ok_inv in H as (x & Hx & H). exists x. split; [exact Hx|]. now exists y.
  - intros (x & -> & y & H). exists y. exact H.
Qed.
Lemma fine_rmap {A B} (f : A -> B) a : fine (rmap f a) <-> fine a.
Proof. destruct a; cbn [rmap]; split; intros (x & H); try discriminate; eexists; reflexivity. Qed.
Lemma fine_mapM {A B} (f : A -> res B) l : fine (mapM f l) <-> Forall (fun x => fine (f x)) l.
Proof.
  induction l as [|a l IH]; cbn [mapM].
  - split; [constructor|]. intros _. now exists [].
  - rewrite fine_bind. split.
    + intros (x & Hx & H). apply fine_bind in H as (y & Hy & _). constructor; [now exists x|]. apply IH. now exists y.
    + intros H. inversion H as [|? ? (x & Hx) Hl]; subst. apply IH in Hl as (y & Hy). exists x. split; [exact Hx|]. rewrite Hy. cbn [bind]. apply fine_Ok.
Qed.
Lemma fine_pack n z : fine (pack_u n z) <-> 0 <= z < 256 ^ Z.of_nat n.
Proof.
  unfold pack_u. destruct (_ && _) eqn:E; split; intros H; try (destruct H; discriminate); try (apply fine_Ok); lia.
Qed.
Lemma encodable_str_ok s : encodable s <-> str_ok s.
Proof.
  unfold encodable, str_ok. split; apply Forall_impl; intros c; unfold scalar_ok; lia.
Qed.
Lemma fine_utf8 s : fine (utf8_encode s) <-> encodable s.
Proof.
  rewrite encodable_str_ok. split.
  - intros (b & H). eapply utf8_encode_str_ok; eauto.
  - intros H. apply utf8_encode_Ok in H as (b & H). now exists b.
Qed.
Lemma fine_put ty d : fine (put_msg ty d) <-> message_size (lenZ d).
Proof.
  unfold message_size. split.
  - intros (b & H). apply put_msg_inv in H. tauto.
  - intros H. exists (frame ty d). now apply put_msg_ok.
Qed.
Lemma encodable_app_iff a b : encodable (a ++ b) <-> encodable a /\ encodable b.
Proof. unfold encodable. apply Forall_app. Qed.
Lemma encodable_named ty key : encodable (ty ++ [32] ++ key) <-> encodable ty /\ encodable key.
Proof.
  rewrite !encodable_app_iff. split; [tauto|]. intros (A & B). split; [exact A|]. split; [|exact B]. constructor; [lia|constructor].
Qed.
Lemma lenZ_le_enc n v : lenZ (le_enc n v) = Z.of_nat n.
Proof. unfold lenZ. now rewrite length_le_enc. Qed.
Lemma starts_inv p : forall s, starts_with p s = true -> exists r, s = p ++ r.
Proof.
  induction p as [|a p IH]; intros [|b s] H; cbn in H; try discriminate; try (exists []; reflexivity); try (eexists; reflexivity).
  apply andb_prop in H as [H1 H2]. apply Z.eqb_eq in H1. subst b. destruct (IH s H2) as (r & ->). now exists r.
Qed.
(** basic types *)
Lemma pack_fine c v d : pack_val c v = Ok d -> packable c v /\ lenZ d = Z.of_nat (ctype_size c).
Proof.
  intros H. split; [|unfold lenZ; f_equal; eapply pack_val_length; eauto].
  destruct c; cbn [pack_val packable] in *; try exact I.
  all: try (destruct v as [z|b|b|s|s]; try discriminate; unfold pack_int, pack_u in H; unfold in_type; cbn [ctype_signed ctype_size] in *; cbv zeta in *;
            repeat (match goal with b : bool |- _ => destruct b end); (destruct (_ && _) eqn:E in H; [lia|discriminate])).
  - unfold single_range, pack_f32 in *. destruct v as [z|x|b|s|s]; try discriminate; cbn [float_of].
    1,2: match type of H with match double_of_int ?z with _ => _ end = _ => destruct (double_of_int z) as [b|]; [|discriminate] end.
    all: exists b; split; [reflexivity|]; destruct (narrow b) as [r|]; [eauto|discriminate].
  - destruct v as [z|x|b|s|s]; try discriminate; cbn [float_of]; eauto.
    all: match type of H with match double_of_int ?z with _ => _ end = _ => destruct (double_of_int z) as [b|]; [eauto|discriminate] end.
  - destruct v as [z|b|b|s|[|x [|]]]; try discriminate. eauto.
Qed.
Lemma packable_fine c v : packable c v -> exists d, pack_val c v = Ok d /\ lenZ d = Z.of_nat (ctype_size c).
Proof.
  intros H. assert (F : fine (pack_val c v)).
  { destruct c; cbn [pack_val packable] in *; try apply fine_Ok.
    all: try (destruct v as [z|b|b|s|s]; try contradiction; unfold in_type in H; unfold pack_int; cbn [ctype_signed ctype_size] in *; cbv zeta;
      repeat (match goal with b : bool |- _ => destruct b end); (apply fine_pack; lia) || (match goal with |- fine (if ?b then _ else _) => replace b with true by lia end; apply fine_Ok)).
    - destruct H as (b & Hv & r & Hr). unfold pack_f32. destruct v as [z|x|y|s|s]; cbn [float_of] in Hv; try contradiction; [| |subst y]; rewrite ?Hv, Hr; apply fine_Ok.
    - destruct H as (b & Hv). destruct v as [z|x|y|s|s]; cbn [float_of] in Hv; try contradiction; rewrite ?Hv; apply fine_Ok.
    - destruct H as (b & ->). apply fine_Ok. }
  destruct F as (d & E). exists d. split; [exact E|]. eapply pack_fine; eauto.
Qed.
Lemma takes_iff ty v n : takes ty v n <-> exists d, write_value ty v = Ok d /\ lenZ d = n.
Proof.
  split.
  - intros [r s Hs|r b|c w Hp]; unfold write_value.
    + rewrite starts_lit. apply fine_utf8 in Hs as (d & E). exists d. split; [exact E|]. unfold text_size, utf8. now rewrite E.
    + rewrite char_not_uint, starts_lit. eauto.
    + replace (starts_with (lit "char[") (ctype_name c)) with false by (destruct c; reflexivity).
      rewrite starts_uint, ctype_of_name. now apply packable_fine.
  - intros (d & E & <-). unfold write_value in E. destruct (starts_with (lit "char[") ty) eqn:E1.
    + destruct v as [z|b|b|s|s]; try discriminate. destruct (starts_inv _ _ E1) as (r & ->).
      assert (Hs : encodable s) by (apply fine_utf8; now exists d). apply utf8_inv in E as [_ ->]. now constructor.
    + destruct (starts_with (lit "uint8_t[") ty) eqn:E2.
      * destruct v as [z|b|b|s|s]; try discriminate. injection E as <-. destruct (starts_inv _ _ E2) as (r & ->). constructor.
      * destruct (ctype_of ty) as [c|] eqn:Ec; [|discriminate]. apply ctype_of_Some in Ec. subst ty.
        destruct (pack_fine _ _ _ E) as (A & ->). now constructor.
Qed.
Lemma entry_fine t ty key v c : match c with Some z => u8 z | None => True end ->
  fine (let* d := info_data (ty ++ [32] ++ key) v ty c in put_msg t d) <-> entry_ok (match c with Some _ => 1 | None => 0 end) ty key v.
Proof.
  intros Hc. unfold entry_ok. change (lit " ") with [32]. split.
  - intros H. apply fine_bind in H as (d & E & H). apply fine_put in H. unfold info_data in E.
    apply bind_Ok_inv in E as (kb & Ek & E). apply bind_Ok_inv in E as (cb & Ecb & E). apply bind_Ok_inv in E as (l & El & E). apply bind_Ok_inv in E as (w & Ew & E).
    injection E as <-. assert (Hk : encodable (ty ++ [32] ++ key)) by (apply fine_utf8; now exists kb). apply utf8_inv in Ek as [_ ->].
    apply pack_u_enc in El as [El ->]. apply encodable_named in Hk as (A & B). split; [exact A|]. split; [exact B|]. unfold text_size. change (256 ^ Z.of_nat 1) with 256 in El. split; [lia|].
    exists (lenZ w). split; [apply takes_iff; eauto|]. unfold message_size in *. rewrite !lenZ_app, lenZ_le_enc in H.
    assert (lenZ cb = match c with Some _ => 1 | None => 0 end). { destruct c; [apply pack_u_enc in Ecb as [_ ->]; apply lenZ_le_enc|injection Ecb as <-; reflexivity]. } lia.
  - intros (A & B & L & n & T & S). apply takes_iff in T as (w & Ew & <-). apply fine_bind.
    assert (Hk : encodable (ty ++ [32] ++ key)) by now apply encodable_named. apply fine_utf8 in Hk as (kb & Ek).
    assert (Hc' : exists cb, (match c with Some c => pack_u 1 c | None => Ok [] end) = Ok cb /\ lenZ cb = match c with Some _ => 1 | None => 0 end).
    { destruct c as [z|]; [|now exists []]. destruct (proj2 (fine_pack 1 z) Hc) as (x & Ex). exists x. split; [exact Ex|]. apply pack_u_enc in Ex as [_ ->]. apply lenZ_le_enc. }
    destruct Hc' as (cb & Ecb & Lcb).
    assert (Hu : utf8 (ty ++ [32] ++ key) = kb) by (unfold utf8; now rewrite Ek). unfold text_size in *. rewrite Hu in *.
    destruct (proj2 (fine_pack 1 (lenZ kb))) as (l & El). { pose proof (lenZ_nonneg kb). change (256 ^ Z.of_nat 1) with 256. lia. }
    exists (cb ++ l ++ kb ++ w). split; [unfold info_data; rewrite Ek; cbn [bind]; rewrite Ecb; cbn [bind]; rewrite El; cbn [bind]; now rewrite Ew|].
    apply fine_put. unfold message_size in *. apply pack_u_enc in El as [_ ->]. rewrite !lenZ_app, lenZ_le_enc. lia.
Qed.
Lemma iff_Forall {A} (P Q : A -> Prop) l : (forall x, P x <-> Q x) -> Forall P l <-> Forall Q l.
Proof. intros H. split; apply Forall_impl; intros; now apply H. Qed.
Lemma fine_pair {A B C} (a : res A) (b : res B) (k : A -> B -> res C) : (forall x y, fine (k x y)) ->
  fine (let* x := a in let* y := b in k x y) <-> fine a /\ fine b.
Proof.
  intros K. rewrite fine_bind. split.
  - intros (x & Ex & H). apply fine_bind in H as (y & Ey & _). split; eexists; eauto.
  - intros ((x & Ex) & (y & Ey)). exists x. split; [exact Ex|]. rewrite Ey. apply K.
Qed.
(** parameters *)
Lemma text_size_app a b : encodable a -> encodable b -> text_size (a ++ b) = text_size a + text_size b.
Proof. intros A B. unfold text_size. rewrite utf8_app by (now apply encodable_str_ok). apply lenZ_app. Qed.
Lemma named_size ty key : encodable ty -> encodable key -> text_size (ty ++ lit " " ++ key) = text_size ty + 1 + text_size key.
Proof.
  intros A B. change (lit " ") with [32]. assert (C : encodable [32]) by (constructor; [lia|constructor]).
  rewrite text_size_app; [|exact A|now apply encodable_app_iff]. rewrite text_size_app by assumption. change (text_size [32]) with 1. lia.
Qed.
Lemma ascii_lit s : forallb (fun c => (0 <=? c) && (c <? 128)) s = true -> encodable s.
Proof. intros H. apply Forall_forall. intros c Hc. rewrite forallb_forall in H. specialize (H c Hc). lia. Qed.
Lemma takes_basic c v n : takes (ctype_name c) v n <-> packable c v /\ n = Z.of_nat (ctype_size c).
Proof.
  rewrite takes_iff. unfold write_value. replace (starts_with (lit "char[") (ctype_name c)) with false by (destruct c; reflexivity).
  rewrite starts_uint, ctype_of_name. split.
  - intros (d & E & <-). now apply pack_fine.
  - intros (P & ->). now apply packable_fine.
Qed.
Lemma param_entry extra c key v : extra = 0 \/ extra = 1 -> ctype_size c = 4%nat -> encodable (ctype_name c) ->
  entry_ok extra (ctype_name c) key v <-> encodable key /\ packable c v /\ text_size (ctype_name c) + 1 + text_size key < 256.
Proof.
  intros X S A. unfold entry_ok. split.
  - intros (_ & B & L & n & T & _). rewrite named_size in L by assumption. apply takes_basic in T. tauto.
  - intros (B & P & L). rewrite named_size by assumption. repeat split; try assumption. exists (Z.of_nat (ctype_size c)). rewrite takes_basic. split; [tauto|].
    unfold message_size. rewrite S. destruct X as [-> | ->]; lia.
Qed.
Lemma param_ok_iff extra key v : extra = 0 \/ extra = 1 ->
  param_ok key v <-> exists ty, (match v with VInt _ | VBool _ => ty = lit "int32_t" | VFloat _ => ty = lit "float" | _ => False end) /\ entry_ok extra ty key v.
Proof.
  intros X. unfold param_ok.
  assert (I : entry_ok extra (lit "int32_t") key v <-> encodable key /\ packable I32 v /\ text_size key < 248).
  { change (lit "int32_t") with (ctype_name I32). rewrite param_entry; [|exact X|reflexivity|apply ascii_lit; reflexivity]. change (text_size (ctype_name I32)) with 7.
    split; intros (A & B & C); repeat split; try assumption; lia. }
  assert (F : entry_ok extra (lit "float") key v <-> encodable key /\ packable F32 v /\ text_size key < 250).
  { change (lit "float") with (ctype_name F32). rewrite param_entry; [|exact X|reflexivity|apply ascii_lit; reflexivity]. change (text_size (ctype_name F32)) with 5.
    split; intros (A & B & C); repeat split; try assumption; lia. }
  change (in_type I32) with (fun z => - (256 ^ Z.of_nat 4 / 2) <= z < 256 ^ Z.of_nat 4 / 2) in I.
  split.
  - intros (A & B). destruct v as [z|b|b|s|s]; try contradiction.
    + exists (lit "int32_t"). split; [reflexivity|]. apply I. split; [exact A|]. cbn [packable]. unfold in_type. cbn [ctype_signed]. change (256 ^ Z.of_nat (ctype_size I32) / 2) with 2147483648. tauto.
    + exists (lit "int32_t"). split; [reflexivity|]. apply I. split; [exact A|]. cbn [packable]. unfold in_type. cbn [ctype_signed]. change (256 ^ Z.of_nat (ctype_size I32) / 2) with 2147483648. split; [destruct b; lia|tauto].
    + exists (lit "float"). split; [reflexivity|]. apply F. split; [exact A|]. cbn [packable]. split; [|tauto]. exists b. split; [reflexivity|tauto].
  - intros (ty & Ht & E). destruct v as [z|b|b|s|s]; try contradiction; subst ty.
    + apply I in E as (A & B & C). split; [exact A|]. cbn [packable] in B. unfold in_type in B. cbn [ctype_signed] in B. change (256 ^ Z.of_nat (ctype_size I32) / 2) with 2147483648 in B. tauto.
    + apply I in E as (A & B & C). tauto.
    + apply F in E as (A & (b' & E & R) & C). cbn [float_of] in E. subst b'. tauto.
Qed.
Lemma parameter_fine t key v : fine (let* d := parameter_data key v in put_msg t d) <-> param_ok key v.
Proof.
  rewrite (param_ok_iff 0) by auto. unfold parameter_data. split.
  - intros H. apply fine_bind in H as (d & E & H). apply bind_Ok_inv in E as (ty & Et & E). exists ty. split; [destruct v; try discriminate; injection Et as <-; reflexivity|].
    apply (entry_fine t ty key v None I). rewrite E. exact H.
  - intros (ty & Ht & E). apply (entry_fine t ty key v None I) in E. apply fine_bind in E as (d & E & H). apply fine_bind. exists d. split; [|exact H].
    destruct v; try contradiction; subst ty; exact E.
Qed.
Lemma default_fine t b key v : u8 b ->
  fine (let* x := pack_u 1 b in let* d := parameter_data key v in put_msg t (x ++ d)) <-> param_ok key v.
Proof.
  intros Hb. rewrite fine_bind. assert (P : exists x, pack_u 1 b = Ok x /\ lenZ x = 1). { destruct (proj2 (fine_pack 1 b) Hb) as (x & E). exists x. split; [exact E|]. apply pack_u_enc in E as [_ ->]. apply lenZ_le_enc. }
  destruct P as (x & Ex & Lx). split.
  - intros (x' & _ & H). apply fine_bind in H as (d & E & H). apply (parameter_fine t). rewrite E. cbn [bind]. apply fine_put in H. apply fine_put. unfold message_size in *. rewrite lenZ_app in H. pose proof (lenZ_nonneg x'). lia.
  - intros H. exists x. split; [exact Ex|]. pose proof H as H1. apply (param_ok_iff 1) in H1; [|auto]. destruct H1 as (ty & Ht & E1).
    apply (parameter_fine t) in H. apply fine_bind in H as (d & E & H). rewrite E. cbn [bind]. apply fine_put. unfold message_size. rewrite lenZ_app.
    apply (entry_fine t ty key v (Some 0)) in E1; [|unfold u8; lia]. apply fine_bind in E1 as (d1 & E1 & H1). apply fine_put in H1. unfold message_size in H1.
    unfold parameter_data in E. apply bind_Ok_inv in E as (ty' & Et & E). assert (ty' = ty) by (destruct v; try contradiction; subst ty; congruence). subst ty'.
    unfold info_data in E, E1. apply bind_Ok_inv in E as (kb & Ek & E). rewrite Ek in E1. cbn [bind] in E, E1. 
    apply bind_Ok_inv in E as (l & El & E). rewrite El in E1. apply bind_Ok_inv in E as (w & Ew & E). rewrite Ew in E1. cbn in E1. injection E as <-. injection E1 as <-.
    change (lenZ (0 :: l ++ kb ++ w)) with (lenZ ([0] ++ l ++ kb ++ w)) in H1. rewrite lenZ_app in H1. change (lenZ [0]) with 1 in H1. lia.
Qed.
(** formats *)
Lemma concat_fields fs bs : mapM write_field fs = Ok bs -> encodable (concat (map field_text fs)) /\ concat bs = utf8 (concat (map field_text fs)).
Proof.
  revert bs. induction fs as [|f fs IH]; intros bs H; cbn [mapM] in H.
  - injection H as <-. split; [constructor|reflexivity].
  - apply bind_Ok_inv in H as (b & Hb & H). apply bind_Ok_inv in H as (bs' & Hbs & H). injection H as <-. destruct (IH _ Hbs) as (A & B).
    assert (E : utf8_encode (field_text f) = Ok b).
    { destruct f as [[ty n] name]. unfold write_field, field_text in *. destruct (0 <? n).
      - rewrite <- Hb. f_equal. rewrite <- !app_assoc. reflexivity.
      - exact Hb. }
    assert (C : encodable (field_text f)) by (apply fine_utf8; now exists b). cbn [map concat]. split; [now apply encodable_app|].
    rewrite utf8_app by (now apply encodable_str_ok). apply utf8_inv in E as [_ ->]. now rewrite B.
Qed.
Lemma write_field_text f : write_field f = utf8_encode (field_text f).
Proof. destruct f as [[ty n] name]. unfold write_field, field_text. destruct (0 <? n); f_equal; rewrite <- ?app_assoc; reflexivity. Qed.
Lemma format_fine m : fine (let* n := utf8_encode (mf_name m ++ [58]) in let* fs := mapM write_field (mf_fields m) in put_msg T_FORMAT (n ++ concat fs)) <->
  encodable (format_text (mf_name m) (mf_fields m)) /\ message_size (text_size (format_text (mf_name m) (mf_fields m))).
Proof.
  unfold format_text. rewrite app_assoc. split.
  - intros H. apply fine_bind in H as (n & En & H). apply fine_bind in H as (fs & Ef & H). apply fine_put in H. destruct (concat_fields _ _ Ef) as (A & B).
    assert (C : encodable (mf_name m ++ [58])) by (apply fine_utf8; now exists n). apply utf8_inv in En as [_ ->]. split; [now apply encodable_app|].
    rewrite text_size_app by assumption. rewrite lenZ_app, B in H. exact H.
  - intros (A & H). apply encodable_app_iff in A as (A & B). pose proof A as A'. pose proof B as B'. apply fine_utf8 in A as (n & En). apply fine_bind. exists n. split; [exact En|].
    assert (F : fine (mapM write_field (mf_fields m))).
    { apply fine_mapM. apply Forall_forall. intros f Hf. rewrite write_field_text. apply fine_utf8. revert B Hf. clear. induction (mf_fields m) as [|g l IH]; intros B Hf; [destruct Hf|].
      cbn [map concat] in B. apply encodable_app_iff in B as (B1 & B2). destruct Hf as [->|Hf]; auto. }
    destruct F as (fs & Ef). apply fine_bind. exists fs. split; [exact Ef|]. apply fine_put. destruct (concat_fields _ _ Ef) as (_ & C). rewrite lenZ_app, C.
    rewrite text_size_app in H by assumption. apply utf8_inv in En as [_ ->]. exact H.
Qed.
(** lists of values *)
Lemma set_fine key ty vs : forall c, u8 c -> fine (write_set (ty ++ [32] ++ key) ty c vs) <-> Forall (entry_ok 1 ty key) vs.
Proof.
  induction vs as [|v vs IH]; intros c Hc; cbn [write_set].
  - split; [constructor|]. intros _. apply fine_Ok.
  - assert (H1 : u8 1) by (unfold u8; lia). split.
    + intros H. apply fine_bind in H as (d & Ed & H). apply fine_bind in H as (m & Em & H). apply fine_bind in H as (ms & Ems & _). constructor.
      * apply (entry_fine T_MULTI ty key v (Some c) Hc). rewrite Ed. cbn [bind]. now exists m.
      * apply (IH 1 H1). now exists ms.
    + intros H. inversion H as [|? ? A B]; subst. apply (entry_fine T_MULTI ty key v (Some c) Hc) in A. apply fine_bind in A as (d & Ed & (m & Em)).
      apply (IH 1 H1) in B as (ms & Ems). apply fine_bind. exists d. split; [exact Ed|]. rewrite Em. cbn [bind]. rewrite Ems. apply fine_Ok.
Qed.
Lemma multi_fine u : fine (write_multi u) <->
  Forall (fun kl => exists ty, sget (fst kl) (u_multit u) = Some ty /\ Forall (Forall (entry_ok 1 ty (fst kl))) (snd kl)) (u_multi u).
Proof.
  unfold write_multi. rewrite fine_rmap, fine_mapM. apply iff_Forall. intros [k ls]. cbn [fst snd]. unfold lookup. rewrite fine_bind.
  assert (K : forall ty, fine (rmap (@concat bytes) (mapM (write_set (ty ++ [32] ++ k) ty 0) ls)) <-> Forall (Forall (entry_ok 1 ty k)) ls).
  { intros ty. rewrite fine_rmap, fine_mapM. apply iff_Forall. intros vs. apply set_fine. unfold u8. lia. }
  destruct (sget k (u_multit u)) as [ty|].
  - split.
    + intros (x & E & H). injection E as <-. exists ty. split; [reflexivity|]. now apply K.
    + intros (x & E & H). injection E as <-. exists ty. split; [reflexivity|]. now apply K.
  - split; intros (x & E & _); discriminate.
Qed.
Lemma info_fine u : fine (write_info u) <-> Forall (fun kv => exists ty, sget (fst kv) (u_infot u) = Some ty /\ entry_ok 0 ty (fst kv) (snd kv)) (u_info u).
Proof.
  unfold write_info. rewrite fine_mapM. apply iff_Forall. intros [k v]. cbn [fst snd]. unfold lookup. rewrite fine_bind.
  destruct (sget k (u_infot u)) as [ty|].
  - split.
    + intros (x & E & H). injection E as <-. exists ty. split; [reflexivity|]. exact (proj1 (entry_fine T_INFO ty k v None I) H).
    + intros (x & E & H). injection E as <-. exists ty. split; [reflexivity|]. exact (proj2 (entry_fine T_INFO ty k v None I) H).
  - split; intros (x & E & _); discriminate.
Qed.
Lemma pow2_byte t : 0 <= t -> (u8 (2 ^ t) <-> t < 8).
Proof.
  intros Ht. unfold u8. change 256 with (2 ^ 8). pose proof (Z.pow_pos_nonneg 2 t ltac:(lia) Ht). split.
  - intros (_ & H1). apply (Z.pow_lt_mono_r_iff 2); lia.
  - intros H1. split; [lia|]. apply Z.pow_lt_mono_r; lia.
Qed.
Lemma defaults_fine u : fine (write_defaults u) <->
  Forall (fun td => 0 <= fst td /\ Forall (fun kv => fst td < 8 /\ param_ok (fst kv) (snd kv)) (snd td)) (u_defaults u).
Proof.
  unfold write_defaults. rewrite fine_rmap, fine_mapM. apply iff_Forall. intros [t d]. cbn [fst snd]. destruct (Z.ltb_spec t 0).
  - split; [intros (x & E); discriminate|lia].
  - rewrite fine_mapM. split.
    + intros F. split; [lia|]. eapply Forall_impl; [|exact F]. cbv beta. intros kv Hk. assert (B : u8 (2 ^ t)). { apply fine_bind in Hk as (b & Eb & _). now apply pack_u_enc in Eb as [Eb _]. }
      split; [now apply pow2_byte|]. apply (default_fine T_PDEF (2 ^ t)); assumption.
    + intros (_ & F). eapply Forall_impl; [|exact F]. cbv beta. intros kv (B & P). apply default_fine; [now apply pow2_byte|exact P].
Qed.
(** header and flags *)
Lemma header_fine u : fine (write_header u) <-> u8 (u_version u) /\ u64 (u_start u).
Proof.
  unfold write_header. rewrite fine_pair by (intros; apply fine_Ok). rewrite !fine_pack. change (256 ^ Z.of_nat 1) with 256. change (256 ^ Z.of_nat 8) with 18446744073709551616. unfold u8, u64. tauto.
Qed.
Lemma pack8_fine l : fine (pack_8 l) <-> length l = 8%nat /\ Forall u8 l.
Proof.
  unfold pack_8. destruct (Nat.eqb_spec (length l) 8).
  - rewrite fine_rmap, fine_mapM. assert (K : Forall (fun x => fine (pack_u 1 x)) l <-> Forall u8 l) by (apply iff_Forall; intros x; apply fine_pack). tauto.
  - split; [intros (x & E); discriminate|lia].
Qed.
Lemma pack8_length l b : pack_8 l = Ok b -> lenZ b = 8.
Proof.
  unfold pack_8. destruct (Nat.eqb_spec (length l) 8) as [E|]; [|discriminate]. intros H. apply rmap_Ok in H as (bs & H & ->).
  do 8 (destruct l as [|? l]; [discriminate|]). destruct l; [|discriminate]. cbn [mapM] in H.
  repeat (apply bind_Ok_inv in H as (? & ?P & H)); clear E.
  repeat match goal with Q : _ = Ok _ |- _ => first [apply pack_u_enc in Q as [_ ->] | apply bind_Ok_inv in Q as (? & ? & Q) | (injection Q as <-)] end.
  reflexivity.
Qed.
Lemma land_byte x : u8 (Z.land x 254).
Proof.
  unfold u8. assert (H : 0 <= Z.land x 254) by (apply Z.land_nonneg; lia). split; [exact H|].
  change 254 with (Z.land (Z.ones 8) 254). rewrite Z.land_assoc, Z.land_ones by lia. change (2 ^ 8) with 256.
  assert (B : 0 <= x mod 256 < 256) by (apply Z.mod_pos_bound; lia). destruct (Z.eq_dec (Z.land (x mod 256) 254) 0) as [->|N]; [lia|].
  assert (P : 0 < Z.land (x mod 256) 254). { assert (0 <= Z.land (x mod 256) 254) by (apply Z.land_nonneg; lia). lia. }
  change 256 with (2 ^ 8) at 2. apply Z.log2_lt_pow2; [exact P|]. pose proof (Z.log2_land (x mod 256) 254 ltac:(lia) ltac:(lia)). change (Z.log2 254) with 7 in H0. lia.
Qed.
Lemma flags_fine u : fine (write_flags u) <->
  length (u_compat u) = 8%nat /\ Forall u8 (u_compat u) /\ length (u_incompat u) = 8%nat /\ Forall u8 (tl (u_incompat u)).
Proof.
  unfold write_flags. rewrite fine_bind. split.
  - intros (c & Ec & H). assert (C : fine (pack_8 (u_compat u))) by now exists c. apply pack8_fine in C as (C1 & C2). split; [exact C1|]. split; [exact C2|].
    destruct (u_incompat u) as [|i0 r]; [destruct H; discriminate|]. apply fine_bind in H as (i & Ei & _). assert (D : fine (pack_8 (Z.land i0 254 :: r))) by now exists i.
    apply pack8_fine in D as (D1 & D2). split; [exact D1|]. now inversion D2.
  - intros (A & B & C & D). destruct (proj2 (pack8_fine _) (conj A B)) as (c & Ec). exists c. split; [exact Ec|].
    destruct (u_incompat u) as [|i0 r]; [discriminate|]. cbn [tl] in D. destruct (proj2 (pack8_fine (Z.land i0 254 :: r))) as (i & Ei). { split; [exact C|]. constructor; [apply land_byte|exact D]. }
    rewrite Ei. cbn [bind]. apply fine_bind. exists (concat [le_enc 8 0; le_enc 8 0; le_enc 8 0]). split; [reflexivity|]. apply fine_put. unfold message_size. rewrite !lenZ_app, (pack8_length _ _ Ec), (pack8_length _ _ Ei). reflexivity.
Qed.
(** the data section *)
Lemma subs_fine u : fine (write_subscriptions u) <->
  Forall (fun ds => u8 (ds_multi ds) /\ u16 (ds_id ds) /\ encodable (ds_name ds) /\ message_size (3 + text_size (ds_name ds))) (u_data u).
Proof.
  unfold write_subscriptions. rewrite fine_mapM.
  assert (P : forall Q : dataset -> Prop, Forall Q (by_id u) <-> Forall Q (u_data u)).
  { intros Q. rewrite !Forall_forall. split; intros H x Hx; apply H; now apply by_id_In. }
  rewrite P. apply iff_Forall. intros ds. split.
  - intros H. apply fine_bind in H as (m & Em & H). apply fine_bind in H as (i & Ei & H). apply fine_bind in H as (n & En & H). apply fine_put in H.
    assert (E : encodable (ds_name ds)) by (apply fine_utf8; now exists n). apply pack_u_enc in Em as [Em ->]. apply pack_u_enc in Ei as [Ei ->]. apply utf8_inv in En as [_ ->]. split; [exact Em|]. split; [exact Ei|]. split; [exact E|].
    unfold message_size, text_size in *. rewrite !lenZ_app, !lenZ_le_enc in H. lia.
  - intros (A & B & C & D). destruct (proj2 (fine_pack 1 _) A) as (m & Em). destruct (proj2 (fine_pack 2 _) B) as (i & Ei). apply fine_utf8 in C as (n & En).
    rewrite Em. cbn [bind]. rewrite Ei. cbn [bind]. rewrite En. cbn [bind]. apply fine_put. apply pack_u_enc in Em as [_ ->]. apply pack_u_enc in Ei as [_ ->]. apply utf8_inv in En as [_ ->].
    unfold message_size, text_size in *. rewrite !lenZ_app, !lenZ_le_enc. lia.
Qed.
Lemma element_iff ds name i v : element name i ds = Ok v <-> elem_at ds name i v.
Proof.
  split; [apply element_inv|]. intros (c & raw & Hs & Hn & ->). unfold element, lookup. rewrite Hs. cbn [bind]. now rewrite Hn.
Qed.
Lemma write_elem_fine c v : fine (write_elem c v) <-> element_ok c v.
Proof.
  assert (K : forall c', fine (pack_val c' v) <-> packable c' v). { intros c'. split; [intros (d & E); eapply pack_fine; eauto|]. intros H. apply packable_fine in H as (d & E & _). now exists d. }
  destruct c; cbn [write_elem element_ok]; try apply K. split.
  - intros (d & E). destruct v as [z|b|b|s|s]; try discriminate. exists z. split; [reflexivity|]. destruct (_ && _) eqn:R in E; [|discriminate]. apply bind_Ok_inv in E as (b & Eb & E).
    cbn [utf8_encode] in Eb. destruct (scalar_ok z) eqn:S; [|discriminate]. cbn [bind] in Eb. injection Eb as <-. split; [lia|]. rewrite app_nil_r in E. unfold utf8_enc1 in E.
    destruct (z <? 128) eqn:Z1; [lia|]. destruct (z <? 2048); [discriminate|]. destruct (z <? 65536); discriminate.
  - intros (z & -> & H). replace ((0 <=? z) && (z <? 1114112)) with true by lia. rewrite (utf8_encode_ascii [z]) by (constructor; [lia|constructor]). apply fine_Ok.
Qed.
Lemma fields_size l : forall bs : list bytes, Forall2 (fun fd b => length b = ctype_size (fd_type fd)) l bs -> lenZ (concat bs) = total l.
Proof.
  induction l as [|fd l IH]; intros bs H; inversion H as [|? b ? bs' H1 H2]; subst; [reflexivity|]. cbn [concat total fold_right]. rewrite lenZ_app, (IH _ H2). unfold lenZ at 1. rewrite H1. reflexivity.
Qed.
Lemma sample_fine ds i : u16 (ds_id ds) -> fine (sample_item ds i) <->
  (exists t, elem_at ds (lit "timestamp") i (VInt t)) /\
  Forall (fun fd => exists v, elem_at ds (fd_name fd) i v /\ element_ok (fd_type fd) v) (ds_fields ds) /\ message_size (2 + total (ds_fields ds)).
Proof.
  intros Hid. assert (L : forall bs, mapM (fun fd => let* x := element (fd_name fd) i ds in write_elem (fd_type fd) x) (ds_fields ds) = Ok bs -> lenZ (concat bs) = total (ds_fields ds)).
  { intros bs Hb. apply mapM_Forall2 in Hb. apply fields_size. revert Hb. clear. intros Hb. induction Hb as [|fd b l l' E Hb IH]; constructor; [|exact IH]. apply bind_Ok_inv in E as (x & _ & E). eapply write_elem_length; eauto. }
  assert (F : fine (mapM (fun fd => let* x := element (fd_name fd) i ds in write_elem (fd_type fd) x) (ds_fields ds)) <->
    Forall (fun fd => exists v, elem_at ds (fd_name fd) i v /\ element_ok (fd_type fd) v) (ds_fields ds)).
  { rewrite fine_mapM. apply iff_Forall. intros fd. rewrite fine_bind. split; intros (v & E & H); exists v; (split; [now apply element_iff|now apply write_elem_fine]). }
  unfold sample_item. split.
  - intros H. apply fine_bind in H as (t & Et & H). apply fine_bind in H as (id & Ei & H). apply fine_bind in H as (bs & Eb & H). apply fine_bind in H as (m & Em & H).
    destruct t as [z|b|b|s|s]; try (destruct H; discriminate). split; [exists z; now apply element_iff|]. split; [apply F; now exists bs|].
    assert (P : fine (put_msg T_DATA (id ++ concat bs))) by now exists m. apply fine_put in P. apply pack_u_enc in Ei as [_ ->]. rewrite lenZ_app, lenZ_le_enc, (L _ Eb) in P. exact P.
  - intros ((t & Et) & G & S). apply F in G as (bs & Eb). apply element_iff in Et. destruct (proj2 (fine_pack 2 _) Hid) as (id & Ei). rewrite Et. cbn [bind]. rewrite Ei. cbn [bind]. rewrite Eb. cbn [bind].
    apply fine_bind. exists (frame T_DATA (id ++ concat bs)). split; [|apply fine_Ok]. apply put_msg_ok. apply pack_u_enc in Ei as [_ ->]. rewrite lenZ_app, lenZ_le_enc, (L _ Eb). exact S.
Qed.
Lemma dataset_fine ds : u16 (ds_id ds) -> fine (dataset_items ds) <->
  (exists fd r c, ds_fields ds = fd :: r /\ sget (fd_name fd) (ds_data ds) = Some c) /\
  (forall i, (i < samples_in ds)%nat -> (exists t, elem_at ds (lit "timestamp") i (VInt t)) /\
    Forall (fun fd => exists v, elem_at ds (fd_name fd) i v /\ element_ok (fd_type fd) v) (ds_fields ds) /\ message_size (2 + total (ds_fields ds))).
Proof.
  intros Hid. unfold dataset_items, samples_in. pose proof (sample_fine ds) as SF. destruct (ds_fields ds) as [|fd r].
  - split; [intros (x & E); discriminate|]. intros ((fd & r & c & E & _) & _). discriminate.
  - unfold lookup. rewrite fine_bind. destruct (sget (fd_name fd) (ds_data ds)) as [c|] eqn:Es.
    + assert (K : fine (mapM (sample_item ds) (seq 0 (length (c_raw c)))) <-> forall i, (i < length (c_raw c))%nat -> fine (sample_item ds i)).
      { rewrite fine_mapM, Forall_forall. split; intros H i Hi; apply H; [apply in_seq|apply in_seq in Hi]; lia. }
      split.
      * intros (c' & E & H). injection E as <-. split; [exists fd, r, c; auto|]. intros i Hi. apply SF; [exact Hid|]. now apply K.
      * intros (_ & H). exists c. split; [reflexivity|]. apply K. intros i Hi. apply SF; [exact Hid|]. now apply H.
    + split; [intros (c & E & _); discriminate|]. intros ((fd' & r' & c & E & E2) & _). injection E as <- <-. congruence.
Qed.
Lemma data_fine u : Forall (fun ds => u16 (ds_id ds)) (u_data u) -> fine (data_items u) <->
  Forall (fun ds => (exists fd r c, ds_fields ds = fd :: r /\ sget (fd_name fd) (ds_data ds) = Some c) /\
  (forall i, (i < samples_in ds)%nat -> (exists t, elem_at ds (lit "timestamp") i (VInt t)) /\
    Forall (fun fd => exists v, elem_at ds (fd_name fd) i v /\ element_ok (fd_type fd) v) (ds_fields ds) /\ message_size (2 + total (ds_fields ds)))) (u_data u).
Proof.
  intros Hid. unfold data_items. rewrite fine_rmap, fine_mapM. rewrite !Forall_forall in *. split.
  - intros H ds Hd. apply dataset_fine; [auto|]. apply H. now apply by_id_In.
  - intros H ds Hd. apply by_id_In in Hd. apply dataset_fine; [auto|]. now apply H.
Qed.
Lemma logged_fine u : fine (logged_items u) <-> Forall (fun m => u8 (lg_level m) /\ u64 (lg_ts m) /\ encodable (lg_msg m) /\ message_size (9 + text_size (lg_msg m))) (u_logged u).
Proof.
  unfold logged_items. rewrite fine_mapM. apply iff_Forall. intros m. split.
  - intros H. apply fine_bind in H as (l & El & H). apply fine_bind in H as (t & Et & H). apply fine_bind in H as (s & Es & H). apply fine_bind in H as (b & Eb & _).
    assert (P : fine (put_msg T_LOG (l ++ t ++ s))) by now exists b. apply fine_put in P. assert (E : encodable (lg_msg m)) by (apply fine_utf8; now exists s).
    apply pack_u_enc in El as [El ->]. apply pack_u_enc in Et as [Et ->]. apply utf8_inv in Es as [_ ->]. split; [exact El|]. split; [exact Et|]. split; [exact E|].
    unfold message_size, text_size in *. rewrite !lenZ_app, !lenZ_le_enc in P. lia.
  - intros (A & B & C & D). destruct (proj2 (fine_pack 1 _) A) as (l & El). destruct (proj2 (fine_pack 8 _) B) as (t & Et). apply fine_utf8 in C as (s & Es).
    rewrite El. cbn [bind]. rewrite Et. cbn [bind]. rewrite Es. cbn [bind]. apply fine_bind. exists (frame T_LOG (l ++ t ++ s)). split; [|apply fine_Ok]. apply put_msg_ok.
    apply pack_u_enc in El as [_ ->]. apply pack_u_enc in Et as [_ ->]. apply utf8_inv in Es as [_ ->]. unfold message_size, text_size in *. rewrite !lenZ_app, !lenZ_le_enc. lia.
Qed.
Lemma tagged_fine u : fine (tagged_items u) <-> Forall (fun tl => Forall (fun m => u8 (tg_level m) /\ u16 (tg_tag m) /\ u64 (tg_ts m) /\ encodable (tg_msg m) /\
    message_size (11 + text_size (tg_msg m))) (snd tl)) (u_tagged u).
Proof.
  unfold tagged_items. rewrite fine_rmap, fine_mapM, Forall_map. apply iff_Forall. intros [tag ms]. cbn [snd]. rewrite fine_mapM. apply iff_Forall. intros m. split.
  - intros H. apply fine_bind in H as (l & El & H). apply fine_bind in H as (g & Eg & H). apply fine_bind in H as (t & Et & H). apply fine_bind in H as (s & Es & H). apply fine_bind in H as (b & Eb & _).
    assert (P : fine (put_msg T_LOGT (l ++ g ++ t ++ s))) by now exists b. apply fine_put in P. assert (E : encodable (tg_msg m)) by (apply fine_utf8; now exists s).
    apply pack_u_enc in El as [El ->]. apply pack_u_enc in Eg as [Eg ->]. apply pack_u_enc in Et as [Et ->]. apply utf8_inv in Es as [_ ->]. split; [exact El|]. split; [exact Eg|]. split; [exact Et|]. split; [exact E|].
    unfold message_size, text_size in *. rewrite !lenZ_app, !lenZ_le_enc in P. lia.
  - intros (A & G & B & C & D). destruct (proj2 (fine_pack 1 _) A) as (l & El). destruct (proj2 (fine_pack 2 _) G) as (g & Eg). destruct (proj2 (fine_pack 8 _) B) as (t & Et). apply fine_utf8 in C as (s & Es).
    rewrite El. cbn [bind]. rewrite Eg. cbn [bind]. rewrite Et. cbn [bind]. rewrite Es. cbn [bind]. apply fine_bind. exists (frame T_LOGT (l ++ g ++ t ++ s)). split; [|apply fine_Ok]. apply put_msg_ok.
    apply pack_u_enc in El as [_ ->]. apply pack_u_enc in Eg as [_ ->]. apply pack_u_enc in Et as [_ ->]. apply utf8_inv in Es as [_ ->]. unfold message_size, text_size in *. rewrite !lenZ_app, !lenZ_le_enc. lia.
Qed.
Lemma dropouts_fine u : fine (dropout_items u) <-> Forall (fun d => u16 (dr_dur d)) (u_dropouts u).
Proof.
  unfold dropout_items. rewrite fine_mapM. apply iff_Forall. intros d. rewrite fine_bind. split.
  - intros (x & Ex & _). now apply pack_u_enc in Ex as [Ex _].
  - intros H. destruct (proj2 (fine_pack 2 _) H) as (x & Ex). exists x. split; [exact Ex|]. apply fine_bind. exists (frame T_DROP x). split; [|apply fine_Ok]. apply put_msg_ok. apply pack_u_enc in Ex as [_ ->]. reflexivity.
Qed.
Lemma changed_fine u : fine (changed_items u) <-> Forall (fun c => param_ok (snd (fst c)) (snd c)) (u_changed u).
Proof.
  unfold changed_items. rewrite fine_mapM. apply iff_Forall. intros c. rewrite <- (parameter_fine T_PARAM). rewrite !fine_bind. split.
  - intros (d & E & H). exists d. split; [exact E|]. apply fine_bind in H as (b & H & _). now exists b.
  - intros (d & E & (b & H)). exists d. split; [exact E|]. rewrite H. apply fine_Ok.
Qed.
Theorem write_fine u : fine (write u) <-> writable u.
Proof.
  split.
  - intros H. unfold write in H. apply fine_bind in H as (h & Eh & H). apply fine_bind in H as (fl & Efl & H). apply fine_bind in H as (fm & Efm & H). apply fine_bind in H as (i & Ei & H).
    apply fine_bind in H as (mu & Emu & H). apply fine_bind in H as (p & Ep & H). apply fine_bind in H as (q & Eq & H). apply fine_bind in H as (s & Es & H). apply fine_bind in H as (d & Ed & _).
    unfold write_data in Ed. apply bind_Ok_inv in Ed as (a & Ea & Ed). apply bind_Ok_inv in Ed as (b & Eb & Ed). apply bind_Ok_inv in Ed as (c & Ec & Ed). apply bind_Ok_inv in Ed as (x & Ex & Ed). apply bind_Ok_inv in Ed as (y & Ey & _).
    assert (S : Forall (fun ds => u8 (ds_multi ds) /\ u16 (ds_id ds) /\ encodable (ds_name ds) /\ message_size (3 + text_size (ds_name ds))) (u_data u)) by (apply subs_fine; now exists s).
    constructor.
    + apply header_fine. now exists h.
    + apply flags_fine. now exists fl.
    + assert (F : fine (write_formats u)) by now exists fm. unfold write_formats in F. rewrite fine_mapM, Forall_map in F. eapply Forall_impl; [|exact F]. intros nm. apply format_fine.
    + apply info_fine. now exists i.
    + apply multi_fine. now exists mu.
    + assert (F : fine (write_params u)) by now exists p. unfold write_params in F. rewrite fine_mapM in F. eapply Forall_impl; [|exact F]. intros kv. apply parameter_fine.
    + apply defaults_fine. now exists q.
    + assert (D : fine (data_items u)) by now exists a. apply data_fine in D; [|eapply Forall_impl; [|exact S]; cbv beta; tauto].
      rewrite Forall_forall in *. intros ds Hd. specialize (S ds Hd). specialize (D ds Hd). constructor; [exact S|exact (proj1 D)|exact (proj2 D)].
    + apply logged_fine. now exists b.
    + apply tagged_fine. now exists c.
    + apply dropouts_fine. now exists x.
    + apply changed_fine. now exists y.
  - intros []. apply header_fine in wr_head as (h & Eh). apply flags_fine in wr_flags as (fl & Efl). 
    assert (F : fine (write_formats u)). { unfold write_formats. rewrite fine_mapM, Forall_map. eapply Forall_impl; [|exact wr_formats]. intros nm. apply format_fine. } destruct F as (fm & Efm).
    apply info_fine in wr_info as (i & Ei). apply multi_fine in wr_multi as (mu & Emu).
    assert (F : fine (write_params u)). { unfold write_params. rewrite fine_mapM. eapply Forall_impl; [|exact wr_params]. intros kv. apply parameter_fine. } destruct F as (p & Ep).
    apply defaults_fine in wr_defaults as (q & Eq).
    assert (S : fine (write_subscriptions u)). { apply subs_fine. eapply Forall_impl; [|exact wr_data]. intros ds []. exact wd_sub. } destruct S as (s & Es).
    assert (D : fine (data_items u)). { apply data_fine; (eapply Forall_impl; [|exact wr_data]); intros ds []; [apply wd_sub|]. split; assumption. } destruct D as (a & Ea).
    apply logged_fine in wr_logged as (b & Eb). apply tagged_fine in wr_tagged as (c & Ec). apply dropouts_fine in wr_dropouts as (x & Ex). apply changed_fine in wr_changed as (y & Ey).
    unfold write. rewrite Eh. cbn [bind]. rewrite Efl. cbn [bind]. rewrite Efm. cbn [bind]. rewrite Ei. cbn [bind]. rewrite Emu. cbn [bind]. rewrite Ep. cbn [bind]. rewrite Eq. cbn [bind]. rewrite Es. cbn [bind].
    unfold write_data. rewrite Ea. cbn [bind]. rewrite Eb. cbn [bind]. rewrite Ec. cbn [bind]. rewrite Ex. cbn [bind]. rewrite Ey. cbn [bind]. apply fine_Ok.
Qed.
