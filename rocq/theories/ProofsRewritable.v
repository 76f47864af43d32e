(** Sizes of loaded logs: another invariant of the reader, and what it leaves of [writable]. *)
From Coq Require Import Permutation.
From Verif Require Import Base Dict Utf8 PyStr PyFloat Struct PySort ModelTypes ModelRead ModelWrite Spec SpecMsg SpecLog SpecWrite SpecDb SpecStorable SpecLoaded SpecWritable
  ProofsRead ProofsSync ProofsInv ProofsTrace ProofsChange ProofsData ProofsEq ProofsText ProofsDefect ProofsLoaded ProofsWrite ProofsRound ProofsWritable PropsColumns.
Ltac Zify.zify_post_hook ::= Z.div_mod_to_equations.

(** ** texts *)
Lemma enc1_size c : lenZ (utf8_enc1 c) = if c <? 128 then 1 else if c <? 2048 then 2 else if c <? 65536 then 3 else 4.
Proof. unfold utf8_enc1. repeat match goal with |- context[if ?b then _ else _] => destruct b end; reflexivity. Qed.
Lemma text_size_nonneg s : 0 <= text_size s. Proof. apply lenZ_nonneg. Qed.
Lemma text_size_cons c s : text_size (c :: s) <= lenZ (utf8_enc1 c) + text_size s.
Proof.
  unfold text_size, utf8. cbn [utf8_encode]. pose proof (lenZ_nonneg (utf8_enc1 c)) as P. destruct (scalar_ok c); cbn [bind]; [|rewrite (lenZ_nil (A:=Z)); destruct (utf8_encode s) as [x|]; [pose proof (lenZ_nonneg x)|rewrite (lenZ_nil (A:=Z))]; lia].
  destruct (utf8_encode s) as [x|]; cbn [bind]; [rewrite lenZ_app; lia|rewrite (lenZ_nil (A:=Z)); lia].
Qed.
Lemma decode_size_aux n : forall ign l s, (length l <= n)%nat -> utf8_decode ign l = Ok s -> text_size s <= lenZ l.
Proof.
  induction n as [|n IH]; intros ign l s Hl H.
  - destruct l; [|cbn in Hl; lia]. injection H as <-. unfold text_size. cbn. lia.
  - destruct l as [|b0 r]; [injection H as <-; unfold text_size; cbn; lia|]. cbn [length] in Hl. cbn [utf8_decode] in H. rewrite lenZ_cons.
    assert (Hbad : (if ign then utf8_decode ign r else Err UnicodeDecodeError) = Ok s -> text_size s <= 1 + lenZ r).
    { destruct ign; [|discriminate]. intros Hr. apply IH in Hr; [|lia]. lia. }
    destruct ((0 <=? b0) && (b0 <? 128)) eqn:E1.
    { apply bind_Ok_inv in H as (t & Ht & H). injection H as <-. apply IH in Ht; [|lia]. pose proof (text_size_cons b0 t) as S. rewrite enc1_size in S. replace (b0 <? 128) with true in S by lia. lia. }
    destruct ((194 <=? b0) && (b0 <? 224)) eqn:E2.
    { destruct r as [|b1 r1]; [exact (Hbad H)|]. destruct (is_cont b1) eqn:C1; [|exact (Hbad H)].
      apply bind_Ok_inv in H as (t & Ht & H). injection H as <-. unfold is_cont in C1. cbn [length] in Hl. apply IH in Ht; [|lia]. rewrite lenZ_cons.
      set (c := (b0 - 192) * 64 + (b1 - 128)). pose proof (text_size_cons c t) as S. rewrite enc1_size in S. replace (c <? 2048) with true in S by (unfold c; lia). destruct (c <? 128); lia. }
    destruct ((224 <=? b0) && (b0 <? 240)) eqn:E3.
    { destruct r as [|b1 [|b2 r2]]; [exact (Hbad H)|exact (Hbad H)|]. cbv zeta in H.
      destruct (_ && _ && _ && scalar_ok _) eqn:C1; [|exact (Hbad H)]. apply andb_true_iff in C1 as [C1 _]. apply andb_true_iff in C1 as [C1 _]. apply andb_true_iff in C1 as [C1 C2]. unfold is_cont in C1, C2.
      apply bind_Ok_inv in H as (t & Ht & H). injection H as <-. cbn [length] in Hl. apply IH in Ht; [|lia]. rewrite !lenZ_cons.
      set (c := (b0 - 224) * 4096 + (b1 - 128) * 64 + (b2 - 128)). pose proof (text_size_cons c t) as S. rewrite enc1_size in S. replace (c <? 65536) with true in S by (unfold c; lia). destruct (c <? 128), (c <? 2048); lia. }
    destruct ((240 <=? b0) && (b0 <? 245)) eqn:E4; [|exact (Hbad H)].
    destruct r as [|b1 [|b2 [|b3 r3]]]; [exact (Hbad H)|exact (Hbad H)|exact (Hbad H)|]. cbv zeta in H.
    destruct (_ && _ && _ && _ && scalar_ok _) eqn:C1; [|exact (Hbad H)].
    apply bind_Ok_inv in H as (t & Ht & H). injection H as <-. cbn [length] in Hl. apply IH in Ht; [|lia]. rewrite !lenZ_cons.
    match goal with |- text_size (?c :: t) <= _ => pose proof (text_size_cons c t) as S; rewrite enc1_size in S; destruct (c <? 128), (c <? 2048), (c <? 65536); lia end.
Qed.
Lemma decode_size ign d s : parse_string ign d = Ok s -> text_size s <= lenZ d.
Proof. apply decode_size_aux with (n := length d). lia. Qed.
Lemma two_size c a b t : encodable (a ++ c :: b ++ t) -> text_size (a ++ [c] ++ b) <= text_size (a ++ c :: b ++ t).
Proof.
  intros H. pose proof H as H1. apply Forall_app in H1 as [Ha H1]. inversion H1 as [|? ? Hc H2]; subst. apply Forall_app in H2 as [Hb Ht].
  replace (a ++ c :: b ++ t) with ((a ++ [c] ++ b) ++ t) by (rewrite <- !app_assoc; reflexivity).
  rewrite (text_size_app (a ++ [c] ++ b) t); [pose proof (text_size_nonneg t); lia| |exact Ht]. apply encodable_app; [exact Ha|]. apply Forall_cons; [exact Hc|exact Hb].
Qed.

(** ** information messages *)
(** what an information message of [size] bytes holds *)
Definition from_file (size : Z) (ty key : str) (v : value) : Prop :=
  encodable ty /\ encodable key /\ text_size (ty ++ lit " " ++ key) < 256 /\
  ((exists r s, ty = lit "char[" ++ r /\ v = VStr s /\ encodable s /\ 1 + text_size (ty ++ lit " " ++ key) + text_size s <= size) \/
   (exists c, ty = ctype_name c /\ packable c v /\ 1 + text_size (ty ++ lit " " ++ key) + Z.of_nat (ctype_size c) <= size) \/
   (starts_with (lit "char[") ty = false /\ ctype_of ty = None /\ exists b, v = VBytes b /\ 1 + text_size (ty ++ lit " " ++ key) + lenZ b <= size)).
Lemma unpack_packable c d v : bytes_ok d -> unpack_val c d = Ok v -> packable c v /\ lenZ d = Z.of_nat (ctype_size c).
Proof.
  intros Hd H. unfold unpack_val in H. apply bind_Ok_inv in H as (z & Hz & H). pose proof Hz as Hl. apply unpack_u_Ok in Hl as (Hl & _). apply unpack_u_range in Hz; [|exact Hd]. 
  split; [|unfold lenZ; now rewrite Hl].
  apply (f_equal (fun r => match r with Ok x => x | Err _ => VInt 0 end)) in H. cbv beta iota in H. subst v.
  destruct c; cbn [packable]; auto; try (unfold in_type; cbn [ctype_signed ctype_size] in *; unfold to_signed;
    try (change (256 ^ Z.of_nat 1) with 256 in * ); try (change (256 ^ Z.of_nat 2) with 65536 in * );
    try (change (256 ^ Z.of_nat 4) with 4294967296 in * ); try (change (256 ^ Z.of_nat 8) with 18446744073709551616 in * );
    repeat match goal with |- context[if ?b then _ else _] => destruct b eqn:? end; lia).
  - exists (widen z). split; [reflexivity|]. exists (f32_quiet z). apply narrow_widen. exact Hz.
  - exists z. reflexivity.
  - destruct d as [|b [|]]; try discriminate. eauto.
Qed.
Lemma parse_info_sized ign d m : bytes_ok d -> parse_info ign d = Ok m -> from_file (lenZ d) (im_type m) (im_key m) (im_value m).
Proof.
  intros Hd H. destruct (parse_info_clean _ _ _ Hd H) as (Et & Ek & _). unfold parse_info in H. apply bind_Ok_inv in H as (kl & Hkl & H). apply bind_Ok_inv in H as (tk & Ht & H). cbv zeta in H.
  apply bind_Ok_inv in H as (ty & Hty & H). apply bind_Ok_inv in H as (key & Hk & H).
  pose proof Hkl as Hr. apply unpack_u_range in Hr; [|now apply Forall_slice]. change (256 ^ Z.of_nat 1) with 256 in Hr.
  pose proof (unpack_long 1 0 1 d kl ltac:(lia) eq_refl Hkl) as L1.
  pose proof (decode_size _ _ _ Ht) as Sz. pose proof (decode_encodable _ _ _ Ht) as Etk.
  assert (Ls : lenZ (slice 1 (1 + kl) d) = Z.min kl (lenZ d - 1)) by (unfold slice; rewrite lenZ_takeZ, lenZ_dropZ by lia; lia).
  assert (Lr : lenZ (dropZ (1 + kl) d) = Z.max 0 (lenZ d - (1 + kl))) by (rewrite lenZ_dropZ; lia).
  assert (T : text_size (ty ++ lit " " ++ key) <= text_size tk).
  { destruct (split_two 32 tk) as [(_ & N)|(a & b & t & E & _ & _ & _ & Ea & Eb)]; [rewrite N in Hk; discriminate|].
    rewrite Ea in Hty. rewrite Eb in Hk. injection Hty as <-. injection Hk as <-. rewrite E in Etk |- *. exact (two_size 32 a b t Etk). }
  set (rest := dropZ (1 + kl) d) in *. assert (Hrest : bytes_ok rest) by (apply Forall_dropZ, Hd). clearbody rest.
  destruct (starts_with (lit "char[") ty) eqn:Es.
  - apply bind_Ok_inv in H as (s & Hs & H). injection H as <-. cbn [im_type im_key im_value] in *. split; [exact Et|]. split; [exact Ek|]. split; [lia|]. left.
    apply starts_inv in Es as (r & ->). exists r, s. split; [reflexivity|]. split; [reflexivity|]. split; [eapply decode_encodable; eauto|]. apply decode_size in Hs. lia.
  - destruct (ctype_of ty) as [c|] eqn:Ec.
    + apply bind_Ok_inv in H as (v & Hv & H). injection H as <-. cbn [im_type im_key im_value] in *. split; [exact Et|]. split; [exact Ek|]. split; [lia|]. right. left.
      apply unpack_packable in Hv as (P & L); [|exact Hrest]. exists c. split; [now apply ctype_of_Some|]. split; [exact P|]. lia.
    + injection H as <-. cbn [im_type im_key im_value] in *. split; [exact Et|]. split; [exact Ek|]. split; [lia|]. right. right. split; [exact Es|]. split; [exact Ec|]. exists rest. split; [reflexivity|]. lia.
Qed.
Lemma from_file_entry size ty key v : from_file size ty key v -> message_size size -> (entry_ok 0 ty key v <-> known_type ty).
Proof.
  intros (A & B & C & H) S. unfold message_size in *. split.
  - intros (_ & _ & _ & n & T & _). inversion T; subst; unfold known_type; eauto.
  - intros K. split; [exact A|]. split; [exact B|]. split; [exact C|]. unfold message_size. destruct H as [(r & s & -> & -> & E & L)|[(c & -> & P & L)|(N1 & N2 & b & -> & L)]].
    + exists (text_size s). split; [now constructor|lia].
    + exists (Z.of_nat (ctype_size c)). split; [now constructor|lia].
    + destruct K as [(r & ->)|[(r & ->)|(c & ->)]].
      * rewrite starts_lit in N1. discriminate.
      * exists (lenZ b). split; [constructor|lia].
      * rewrite ctype_of_name in N2. discriminate.
Qed.

(** ** the invariant *)
Record sized_sub (s : subscr) : Prop := {
  ss_name : message_size (3 + text_size (sb_name s));
  ss_dt : np_dtype (sb_fields s) = Ok (sb_dtype s);
  ss_buf : bytes_ok (sb_buf s);
  ss_total : sb_buf s = [] \/ message_size (2 + total (sb_fields s)) }.
Record sized_ds (ds : dataset) : Prop := {
  sd_name : message_size (3 + text_size (ds_name ds));
  sd_total : message_size (2 + total (ds_fields ds));
  sd_fields : ds_fields ds <> [];
  sd_cols : exists n, (0 < n)%nat /\ forall fd, In fd (ds_fields ds) -> fd_name fd <> [] ->
    exists raws, sget (fd_name fd) (ds_data ds) = Some (mkCol (np_of (fd_type fd)) raws) /\ length raws = n /\
      Forall (fun z => 0 <= z < 256 ^ Z.of_nat (ctype_size (fd_type fd))) raws;
  sd_time : forall c, sget (lit "timestamp") (ds_data ds) = Some c -> exists fd, In fd (ds_fields ds) /\ fd_name fd = lit "timestamp" }.
Record sized (u : ulog) : Prop := {
  sz_flags : length (u_compat u) = 8%nat /\ length (u_incompat u) = 8%nat;
  sz_info : forall k v, sget k (u_info u) = Some v -> exists ty n, sget k (u_infot u) = Some ty /\ message_size n /\ from_file n ty k v;
  sz_formats : Forall (fun nm => encodable (mf_name (snd nm))) (u_formats u);
  sz_subs : Forall (fun ks => sized_sub (snd ks)) (u_subs u);
  sz_data : Forall sized_ds (u_data u);
  sz_defaults : forall t m, zget t (u_defaults u) = Some m -> 0 <= t /\ m <> [];
  sz_logged : Forall (fun m => message_size (9 + text_size (lg_msg m))) (u_logged u);
  sz_tagged : Forall (fun tl => Forall (fun m => u16 (tg_tag m) /\ message_size (11 + text_size (tg_msg m))) (snd tl)) (u_tagged u) }.

Lemma total_itemsize fs dt : np_dtype fs = Ok dt -> itemsize dt = total fs.
Proof.
  unfold np_dtype. generalize 0 at 1. generalize (@nil str). revert dt. induction fs as [|fd fs IH]; intros dt seen i H; cbn [np_dtype_aux] in H; [injection H as <-; reflexivity|]. cbv zeta in H.
  match type of H with (if ?b then _ else _) = _ => destruct b; [discriminate|] end. apply bind_Ok_inv in H as (t & Ht & H). injection H as <-. apply IH in Ht.
  cbn [itemsize total fold_right snd] in *. fold (itemsize t). fold (total fs). rewrite Ht, np_size_of. reflexivity.
Qed.
Lemma parse_add_sized cf fmts d s : bytes_ok d -> message_size (lenZ d) -> parse_add cf fmts d = Ok s -> sized_sub s.
Proof.
  intros Hd Hl H. unfold parse_add in H. apply bind_Ok_inv in H as (mu & H1 & H). apply bind_Ok_inv in H as (id & H2 & H). apply bind_Ok_inv in H as (nm & H3 & H).
  apply bind_Ok_inv in H as (st & H4 & H). cbv zeta in H. apply bind_Ok_inv in H as (dt & H5 & H). injection H as <-. pose proof (unpack_long 2 1 3 d id ltac:(lia) eq_refl H2) as L. apply decode_size in H3. rewrite lenZ_dropZ in H3 by lia.
  unfold message_size in *. split; cbn [sb_name sb_fields sb_dtype sb_buf]; unfold message_size; auto; [lia|constructor].
Qed.
Lemma rows_ok fuel n b : bytes_ok b -> Forall bytes_ok (rows fuel n b).
Proof.
  revert b. induction fuel as [|k IH]; intros b H; cbn [rows]; [constructor|]. destruct b as [|x b]; [constructor|]. constructor; [now apply Forall_takeZ|]. apply IH. now apply Forall_dropZ.
Qed.
Lemma le_dec_slice a n row : bytes_ok row -> 0 <= le_dec (slice a (a + Z.of_nat n) row) < 256 ^ Z.of_nat n.
Proof.
  intros H. assert (B : bytes_ok (slice a (a + Z.of_nat n) row)) by now apply Forall_slice. pose proof (le_dec_range _ B) as R.
  assert (L : (length (slice a (a + Z.of_nat n) row) <= n)%nat). { unfold slice. rewrite takeZ_firstn, firstn_length. lia. }
  split; [lia|]. eapply Z.lt_le_trans; [apply R|]. apply Z.pow_le_mono_r; lia.
Qed.
Lemma dataset_of_sized s d : sized_sub s -> clean_sub s -> sb_buf s <> [] -> dataset_of s = Ok d -> sized_ds d.
Proof.
  intros [N D B T] C Hb H. pose proof (dataset_of_keys s d H) as K. unfold dataset_of in H. cbv zeta in H. destruct ((_ =? 0) || _) eqn:E0; [discriminate|]. injection H as <-. cbn [ds_data] in K.
  assert (ND : NoDup (map fst (sb_dtype s))) by exact (proj1 (np_dtype_aux_NoDup _ _ _ _ D)).
  destruct (np_dtype_nth _ 0 [] _ D) as (L & Hn). destruct T as [T|T]; [contradiction|].
  set (rs := rows _ _ _) in *. assert (Br : Forall bytes_ok rs) by now apply rows_ok.
  assert (Hrs : (0 < length rs)%nat). { unfold rs. destruct (sb_buf s) as [|x b]; [contradiction|]. cbn [length rows]. lia. }
  split; cbn [ds_name ds_fields ds_data]; auto.
  - intros E. rewrite E in D. cbn in D. injection D as D. rewrite <- D in E0. cbn in E0. discriminate.
  - exists (length rs). split; [exact Hrs|]. intros fd Hf Hne. apply In_nth_error in Hf as (i & Hi). pose proof (Hn i fd Hi) as Hd.
    destruct (nth_error (columns 0 (sb_dtype s) rs) i) as [[n [t raw]]|] eqn:En.
    + destruct (columns_nth _ _ _ _ _ En) as (nt & E1 & E2 & E3 & E4). rewrite Hd in E1. injection E1 as <-. cbn [fst snd c_type c_raw] in *. subst n t.
      unfold column_name in En. destruct (str_eqb_spec (fd_name fd) []) as [Z|_]; [contradiction|].
      exists raw. split; [|split; [subst raw; now rewrite map_length|]].
      * apply nth_error_In in En. apply (In_dget str_eqb str_eqb_spec); [|exact En]. exact (eq_ind_r (fun l => NoDup l) ND K).
      * subst raw. rewrite Forall_map. eapply Forall_impl; [|exact Br]. cbv beta zeta. intros row Hr. rewrite np_size_of. now apply le_dec_slice.
    + apply nth_error_None in En. rewrite columns_length in En. assert (nth_error (sb_fields s) i <> None) by congruence. apply nth_error_Some in H. lia.
  - intros c Hc. apply (dget_In str_eqb str_eqb_spec) in Hc. apply (in_map fst) in Hc. cbn [fst] in Hc. apply (eq_ind _ (fun l => In (lit "timestamp") l) Hc) in K. clear Hc. rename K into Hc. apply in_map_iff in Hc as ([n t] & E & Hc). cbn [fst] in E. subst n.
    apply In_nth_error in Hc as (i & Hi). destruct (nth_error (sb_fields s) i) as [fd|] eqn:Ef.
    + rewrite (Hn i fd Ef) in Hi. injection Hi as E _. unfold column_name in E. destruct (str_eqb_spec (fd_name fd) []); [exfalso; discriminate E|]. exists fd. split; [eapply nth_error_In; eauto|exact E].
    + apply nth_error_None in Ef. assert (nth_error (sb_dtype s) i <> None) by congruence. apply nth_error_Some in H. lia.
Qed.
Lemma sized_add_info n m u : message_size n -> from_file n (im_type m) (im_key m) (im_value m) -> sized u -> sized (add_info m u).
Proof.
  intros Hn Hm []. constructor; usimp; auto. intros k v H. destruct (str_eqb_spec k (im_key m)) as [->|Ne].
  - rewrite (dget_dset_eq str_eqb str_eqb_spec) in H. injection H as <-. exists (im_type m), n. split; [apply (dget_dset_eq str_eqb str_eqb_spec)|auto].
  - rewrite (dget_dset_neq str_eqb str_eqb_spec) in H by exact Ne. destruct (sz_info0 k v H) as (ty & n' & A & B). exists ty, n'. split; [rewrite (dget_dset_neq str_eqb str_eqb_spec) by exact Ne; exact A|exact B].
Qed.
Lemma sized_add_multi c m u u' : sized u -> add_info_multi c m u = Ok u' -> sized u'.
Proof.
  intros Hc H. unfold add_info_multi in H. destruct (sget (im_key m) (u_multi u)) as [l|].
  - destruct (negb _); [apply bind_Ok_inv in H as (l' & _ & H)|]; injection H as <-; destruct Hc; constructor; usimp; auto.
  - injection H as <-. destruct Hc. constructor; usimp; auto.
Qed.
Lemma low_bit_pos b : 0 <= b < 256 -> b <> 0 -> 0 <= Z.land b (Z.lnot b + 1) - 1.
Proof.
  intros H N.
  assert (T : forallb (fun n => let b := Z.of_nat n in let d := Z.land b (Z.lnot b + 1) in (b =? 0) || (0 <=? d - 1)) (seq 0 256) = true) by (vm_compute; reflexivity).
  rewrite forallb_forall in T. specialize (T (Z.to_nat b) ltac:(apply in_seq; lia)). cbv zeta in T. rewrite Z2Nat.id in T by lia. lia.
Qed.
Lemma add_bits_sized fuel : forall bits key v (d : dict Z (dict str value)), 0 <= bits < 256 ->
  (forall t m, zget t d = Some m -> 0 <= t /\ m <> []) -> forall t m, zget t (add_default_bits fuel bits key v d) = Some m -> 0 <= t /\ m <> [].
Proof.
  induction fuel as [|n IH]; intros bits key v d Hb H; cbn [add_default_bits]; [exact H|]. destruct (Z.eqb_spec bits 0) as [|N]; [exact H|]. cbv zeta.
  destruct (low_bit bits Hb) as (_ & L2). pose proof (low_bit_pos bits Hb N) as L1. apply IH; [exact L2|]. unfold set_default. cbv zeta. set (t := Z.land _ _ - 1) in *.
  assert (Hs : forall (m : dict str value) k x, sset k x m <> []) by (intros m k x; destruct m as [|[a b] m]; cbn; [discriminate|]; destruct (str_eqb k a); discriminate).
  intros t' m' H'. destruct (zget t (if zmem t d then d else zset t [] d)) as [m|] eqn:E.
  - destruct (Z.eq_dec t' t) as [->|Nt].
    + rewrite (dget_dset_eq Z.eqb Zeqb_spec) in H'. injection H' as <-. split; [exact L1|apply Hs].
    + rewrite (dget_dset_neq Z.eqb Zeqb_spec) in H' by exact Nt. destruct (zmem t d); [now apply H|]. rewrite (dget_dset_neq Z.eqb Zeqb_spec) in H' by exact Nt. now apply H.
  - destruct (zmem t d); [now apply H|]. rewrite (dget_dset_eq Z.eqb Zeqb_spec) in E. discriminate.
Qed.
Lemma parse_flags_sized d c i o : parse_flags d = Ok (c, i, o) -> length c = 8%nat /\ length i = 8%nat.
Proof.
  intros H. unfold parse_flags in H. apply bind_Ok_inv in H as (c' & Hc & H). apply bind_Ok_inv in H as (i' & Hi & H). apply bind_Ok_inv in H as (o' & Ho & H).
  injection H as <- <- <-. unfold unpack_bytes8 in *. destruct (Nat.eqb_spec (length (slice 0 8 d)) 8); [|discriminate]. destruct (Nat.eqb_spec (length (slice 8 16 d)) 8); [|discriminate]. injection Hc as <-. injection Hi as <-. auto.
Qed.
Lemma multi_payload ign d c m : bytes_ok d -> parse_info_multi ign d = Ok (c, m) -> exists d', bytes_ok d' /\ parse_info ign d' = Ok m /\ lenZ d' <= lenZ d.
Proof.
  intros Hd H. unfold parse_info_multi in H. apply bind_Ok_inv in H as (c' & _ & H). apply bind_Ok_inv in H as (m' & Hm & E). injection E as <- <-. exists (dropZ 1 d). split; [now apply Forall_dropZ|]. split; [exact Hm|]. rewrite lenZ_dropZ by lia. pose proof (lenZ_nonneg d). lia.
Qed.
Lemma sized_pdef ign d b m u : bytes_ok d -> parse_pdef ign d = Ok (b, m) -> sized u -> sized (add_param_default b m u).
Proof.
  intros Hd H []. unfold parse_pdef in H. apply bind_Ok_inv in H as (b' & Hb & H). apply bind_Ok_inv in H as (m' & _ & E). injection E as <- <-. apply unpack_u_range in Hb; [|now apply Forall_slice].
  constructor; usimp; auto. now apply add_bits_sized.
Qed.
Lemma def_effect_sized cf ty d u u' : bytes_ok d -> message_size (lenZ d) -> sized u -> def_effect cf ty d u = Some (Ok u') -> sized u'.
Proof.
  intros Hd Hl Hc H. unfold def_effect in H. cbv zeta in H.
  destruct (ty =? T_INFO). { injection H as H. apply bind_Ok_inv in H as (m & Hm & H). injection H as <-. eapply sized_add_info; [exact Hl| |exact Hc]. eapply parse_info_sized; eauto. }
  destruct (ty =? T_MULTI). { injection H as H. apply bind_Ok_inv in H as (cm & _ & H). eapply sized_add_multi; eauto. }
  destruct (ty =? T_FORMAT). { injection H as H. apply bind_Ok_inv in H as (m & Hm & H). injection H as <-. destruct (parse_format_clean _ _ _ Hm) as (A & _). destruct Hc. constructor; usimp; auto. apply (Forall_dset_key _ str_eqb_spec); auto. }
  destruct (ty =? T_PARAM). { injection H as H. apply bind_Ok_inv in H as (m & Hm & H). injection H as <-. destruct Hc. constructor; usimp; auto. }
  destruct (ty =? T_PDEF). { injection H as H. apply bind_Ok_inv in H as ([b m] & Hm & H). injection H as <-. cbn [fst snd]. eapply sized_pdef; eauto. }
  destruct (ty =? T_FLAGS); [|discriminate].
  injection H as H. apply bind_Ok_inv in H as ([[c i] o] & Hp & H). destruct (negb _); [discriminate|]. destruct (existsb _ _); [discriminate|]. injection H as <-.
  apply parse_flags_sized in Hp. destruct Hc. constructor; usimp; auto.
Qed.
Lemma sized_corrupt b u : sized u -> sized (set_corrupt b u).
Proof. intros []. constructor; usimp; auto. Qed.
Lemma sized_sync b u : sized u -> sized (set_has_sync b u).
Proof. intros []. constructor; usimp; auto. Qed.
Lemma data_msg_sized d u u' e : bytes_ok d -> message_size (lenZ d) -> sized u -> data_msg d u = (u', e) -> sized u'.
Proof.
  intros Hd Hl Hc H. unfold data_msg in H. destruct (unpack_u 2 _) as [id|e1] eqn:E0; [|injection H as <- <-; exact Hc].
  destruct (zget id (u_subs u)) as [s|] eqn:E1.
  - cbv zeta in H. destruct (_ || _) eqn:Eb; [injection H as <- <-; now apply sized_corrupt|].
    set (d' := if itemsize (sb_dtype s) <? lenZ d - 2 then takeZ (2 + itemsize (sb_dtype s)) d else d) in *.
    assert (Hd' : bytes_ok d') by (unfold d'; destruct (itemsize (sb_dtype s) <? lenZ d - 2); [now apply Forall_takeZ|exact Hd]).
    set (u1 := set_subs _ u) in *.
    assert (H1 : sized u1).
    { apply (dget_In Z.eqb Zeqb_spec) in E1. destruct Hc. unfold u1. constructor; usimp; auto. apply (Forall_dset_key _ Zeqb_spec); [|exact sz_subs0].
      rewrite Forall_forall in sz_subs0. destruct (sz_subs0 _ E1). cbn [snd] in *. split; cbn [set_buf sb_name sb_fields sb_dtype sb_buf]; auto.
      - apply Forall_app. split; [exact ss_buf0|]. now apply Forall_dropZ.
      - right. apply total_itemsize in ss_dt0. rewrite ss_dt0 in Eb. unfold message_size in *. lia. }
    destruct (unpack_u 8 _) as [ts|] eqn:Et; injection H as <- <-; [|exact H1].
    destruct (u_last u <? ts); [|exact H1]. clearbody u1. destruct H1. constructor; usimp; auto.
  - destruct (existsb _ _); injection H as <- <-; [exact Hc|]. apply sized_corrupt. destruct Hc. constructor; usimp; auto.
Qed.
Lemma data_effect_sized cf ty d u u' e : bytes_ok d -> message_size (lenZ d) -> sized u -> data_effect cf ty d u = Some (u', e) -> sized u'.
Proof.
  intros Hd Hl Hc H. unfold data_effect in H. cbv zeta in H.
  assert (Heff : forall r, Some (eff_of u r) = Some (u', e) -> (forall v, r = Ok v -> sized v) -> sized u').
  { intros r E Hr. injection E as E. unfold eff_of in E. destruct r as [v|]; injection E as <- <-; auto. }
  destruct (ty =? T_INFO). { apply (Heff _ H). intros v Hv. apply bind_Ok_inv in Hv as (m & Hm & Hv). injection Hv as <-. eapply sized_add_info; [exact Hl| |exact Hc]. eapply parse_info_sized; eauto. }
  destruct (ty =? T_MULTI). { apply (Heff _ H). intros v Hv. apply bind_Ok_inv in Hv as (cm & _ & Hv). eapply sized_add_multi; eauto. }
  destruct (ty =? T_PARAM). { apply (Heff _ H). intros v Hv. apply bind_Ok_inv in Hv as (m & Hm & Hv). injection Hv as <-. destruct Hc. constructor; usimp; auto. }
  destruct (ty =? T_PDEF). { apply (Heff _ H). intros v Hv. apply bind_Ok_inv in Hv as ([b m] & Hm & Hv). injection Hv as <-. cbn [fst snd]. eapply sized_pdef; eauto. }
  destruct (ty =? T_ADD).
  { apply (Heff _ H). intros v Hv. apply bind_Ok_inv in Hv as (s & Hs & Hv). apply parse_add_sized in Hs; [|exact Hd|exact Hl].
    destruct Hc. destruct (cf_filter cf (sb_name s)); injection Hv as <-; constructor; usimp; auto. apply (Forall_dset_key _ Zeqb_spec); auto. }
  destruct (ty =? T_LOG).
  { apply (Heff _ H). intros v Hv. apply bind_Ok_inv in Hv as (m & Hm & Hv). injection Hv as <-. unfold parse_logging in Hm.
    apply bind_Ok_inv in Hm as (l & Hl' & Hm). apply bind_Ok_inv in Hm as (t & Ht & Hm). apply bind_Ok_inv in Hm as (s & Hs & Hm). injection Hm as <-.
    pose proof (unpack_long 8 1 9 d t ltac:(lia) eq_refl Ht) as L. apply decode_size in Hs. rewrite lenZ_dropZ in Hs by lia.
    destruct Hc. constructor; usimp; auto. apply Forall_app. split; [exact sz_logged0|]. constructor; [|constructor]. cbn [lg_msg]. unfold message_size in *. lia. }
  destruct (ty =? T_LOGT).
  { apply (Heff _ H). intros v Hv. apply bind_Ok_inv in Hv as (m & Hm & Hv). injection Hv as <-. unfold parse_tagged in Hm.
    apply bind_Ok_inv in Hm as (l & Hl' & Hm). apply bind_Ok_inv in Hm as (g & Hg & Hm). apply bind_Ok_inv in Hm as (t & Ht & Hm). apply bind_Ok_inv in Hm as (s & Hs & Hm). injection Hm as <-.
    pose proof (unpack_long 8 3 11 d t ltac:(lia) eq_refl Ht) as L. apply unpack_u_range in Hg; [|now apply Forall_slice]. apply decode_size in Hs. rewrite lenZ_dropZ in Hs by lia.
    cbn [tg_tag]. assert (Q : u16 g /\ message_size (11 + text_size s)) by (split; [exact Hg|unfold message_size in *; lia]).
    destruct Hc. constructor; usimp; auto. destruct (zget g (u_tagged u)) as [old|] eqn:E.
    - apply (dget_In Z.eqb Zeqb_spec) in E. apply (Forall_dset_key _ Zeqb_spec); [|exact sz_tagged0]. cbn [fst snd]. rewrite Forall_forall in sz_tagged0.
      apply Forall_app. split; [exact (sz_tagged0 _ E)|]. constructor; [exact Q|constructor].
    - apply (Forall_dset_key _ Zeqb_spec); [|exact sz_tagged0]. cbn [fst snd]. constructor; [exact Q|constructor]. }
  destruct (ty =? T_DATA). { injection H as H. eapply data_msg_sized; eauto. }
  destruct (ty =? T_DROP). { apply (Heff _ H). intros v Hv. apply bind_Ok_inv in Hv as (m & Hm & Hv). injection Hv as <-. destruct Hc. constructor; usimp; auto. }
  destruct (ty =? T_SYNC); [|discriminate]. injection H as <- <-. destruct Hc. constructor; usimp; auto.
Qed.
Lemma finalize_sized u u' : sized u -> clean u -> finalize u = Ok u' -> sized u'.
Proof.
  intros Hc Hk H. apply finalize_inv in H as (ds & Hm & ->). destruct Hc. constructor; usimp; auto.
  apply Forall_forall. intros d Hd. apply (Permutation_in _ (Permutation_sym (ssort_perm _ _))) in Hd.
  apply in_app_or in Hd as [Hd|Hd]; [rewrite Forall_forall in sz_data0; auto|].
  destruct (mapM_In _ _ _ Hm _ Hd) as (s & Hs & E). apply filter_In in Hs as [Hs Hb]. apply in_rev in Hs. apply in_map_iff in Hs as (kv & <- & Hs).
  rewrite Forall_forall in sz_subs0. pose proof (cl_subs _ Hk) as Cs. rewrite Forall_forall in Cs. eapply dataset_of_sized; [exact (sz_subs0 _ Hs)|exact (Cs _ Hs)| |exact E].
  intros Z. rewrite Z in Hb. discriminate.
Qed.
Lemma rd_size f pos s0 s1 : bytes_ok [s0; s1] -> message_size (lenZ (rd f pos (le_dec [s0; s1]))).
Proof.
  intros H. pose proof (le_dec_range _ H) as R. cbn [length] in R. change (256 ^ Z.of_nat 2) with 65536 in R. unfold message_size, rd. rewrite lenZ_takeZ by lia. lia.
Qed.
Lemma rd_head f pos s0 s1 ty : bytes_ok f -> rd f pos 3 = [s0; s1; ty] -> bytes_ok [s0; s1].
Proof. intros Hf E. assert (H : bytes_ok (rd f pos 3)) by (apply Forall_takeZ, Forall_dropZ, Hf). rewrite E in H. inversion H as [|? ? A B]; subst. inversion B as [|? ? C D]; subst. apply Forall_cons; [exact A|]. apply Forall_cons; [exact C|constructor]. Qed.
Lemma def_step_sized cf f pos u : bytes_ok f -> sized u -> match def_step cf f pos u with DNext _ u' | DStop _ u' => sized u' | DRaise _ => True end.
Proof.
  intros Hf Hc. unfold def_step. cbv zeta. destruct (rd f pos 3) as [|s0 [|s1 [|ty [|]]]] eqn:Eh; try exact I; try exact Hc.
  assert (Hd : bytes_ok (rd f (pos + 3) (le_dec [s0; s1]))) by (apply Forall_takeZ, Forall_dropZ, Hf).
  pose proof (rd_size f (pos + 3) _ _ (rd_head _ _ _ _ _ Hf Eh)) as Hl.
  destruct (def_effect cf ty _ u) as [[u'|e]|] eqn:Ee.
  - eapply def_effect_sized; [exact Hd|exact Hl|exact Hc|exact Ee].
  - destruct e; try exact I. now apply sized_corrupt.
  - destruct (_ || _ || _); [destruct (seek_rel _ _ _); [exact Hc|exact I]|].
    destruct (packet_corrupt _ _); [|exact Hc]. destruct (seek_rel _ _ _); [now apply sized_corrupt|exact I].
Qed.
Lemma data_step_sized fuel cf until f pos cfp u : bytes_ok f -> sized u -> match data_step fuel cf until f pos cfp u with SNext _ _ u' | SStop u' => sized u' | _ => True end.
Proof.
  intros Hf Hc. unfold data_step. cbv zeta. destruct (rd f pos 3) as [|s0 [|s1 [|ty [|]]]] eqn:Eh; try exact Hc.
  destruct (_ <? _); [exact Hc|]. destruct (_ <? _); [exact Hc|].
  assert (Hd : bytes_ok (rd f (pos + 3) (le_dec [s0; s1]))) by (apply Forall_takeZ, Forall_dropZ, Hf).
  pose proof (rd_size f (pos + 3) _ _ (rd_head _ _ _ _ _ Hf Eh)) as Hl.
  destruct (data_effect cf ty _ u) as [[u' e]|] eqn:Ee.
  - apply data_effect_sized in Ee; [|exact Hd|exact Hl|exact Hc]. destruct e as [[]|]; try exact I; auto. now apply sized_corrupt.
  - destruct (packet_corrupt _ _).
    + destruct (u_has_sync _); [|now apply sized_corrupt].
      unfold find_sync. destruct (find_sync_loop _ _ _) as [[q|]|]; [| |exact I].
      * now apply sized_corrupt, sized_corrupt.
      * now apply sized_sync, sized_corrupt.
    + destruct (u_has_sync u); [|exact Hc]. unfold find_sync_last. cbv zeta.
      destruct (_ <? 8); [exact Hc|]. destruct (0 <=? _); [now apply sized_corrupt|exact Hc].
Qed.
Lemma readings_sized cf f u u' : bytes_ok f -> readings cf f u u' -> clean u -> sized u -> clean u' /\ sized u'.
Proof.
  intros Hf H Hk Hc. induction H as [|u1 u2 H1 IH H2]; [auto|]. destruct IH as (K & IH). destruct H2 as [pos p H|fuel until pos cfp p c H|H].
  - pose proof (def_step_clean cf f pos _ Hf K) as Ks. pose proof (def_step_sized cf f pos _ Hf IH) as Hs. destruct H as [H|H]; rewrite H in Hs, Ks; auto.
  - pose proof (data_step_clean fuel cf until f pos cfp _ Hf K) as Ks. pose proof (data_step_sized fuel cf until f pos cfp _ Hf IH) as Hs. destruct H as [H|H]; rewrite H in Hs, Ks; auto.
  - split; [eapply finalize_clean; eauto|eapply finalize_sized; eauto].
Qed.
Theorem loaded_sized cf f u : bytes_ok f -> produces cf f (Ok u) -> clean u /\ sized u.
Proof.
  intros Hf H. destruct (load_readings cf f u H) as (v & t & Eh & Hr). eapply readings_sized; [exact Hf|exact Hr| |].
  - unfold read_header in Eh. cbv zeta in Eh. destruct (negb _) in Eh; [discriminate|]. destruct (negb _) in Eh; [discriminate|].
    apply bind_Ok_inv in Eh as (v' & Hv & Eh). apply bind_Ok_inv in Eh as (t' & Ht & Eh). injection Eh as -> ->.
    apply unpack_u_range in Hv; [|apply Forall_slice, Forall_takeZ, Forall_dropZ, Hf]. apply unpack_u_range in Ht; [|apply Forall_dropZ, Forall_takeZ, Forall_dropZ, Hf].
    unfold after_header. constructor; usimp; cbn; try constructor; try (split; [lia|]); repeat constructor; try lia.
  - unfold after_header. constructor; usimp; cbn; auto; discriminate.
Qed.

(** ** what is left *)
Lemma np_elem_ok c raw : 0 <= raw < 256 ^ Z.of_nat (ctype_size c) -> element_ok c (np_elem (np_of c) raw) <->
  (c = CChar -> forall z, np_elem (np_of c) raw = VInt z -> 0 <= z).
Proof.
  intros Hr. destruct c; cbn [element_ok packable np_of np_elem ctype_signed ctype_size] in *;
    try (split; [intros _ E; discriminate|intros _]; unfold in_type; cbn [ctype_signed ctype_size] in *; unfold to_signed;
    try (change (256 ^ Z.of_nat 1) with 256 in * ); try (change (256 ^ Z.of_nat 2) with 65536 in * );
    try (change (256 ^ Z.of_nat 4) with 4294967296 in * ); try (change (256 ^ Z.of_nat 8) with 18446744073709551616 in * );
    repeat match goal with |- context[if ?b then _ else _] => destruct b eqn:? end; solve [lia | auto | eauto | eexists; reflexivity]).
  - split; [intros _ E; discriminate|]. intros _. exists (widen raw). split; [reflexivity|]. exists (f32_quiet raw). apply narrow_widen. exact Hr.
  - split.
    + intros (z & E & Hz) _ z' E'. rewrite E in E'. injection E' as <-. lia.
    + intros H. specialize (H eq_refl _ eq_refl). exists (to_signed 1 raw). split; [reflexivity|]. split; [exact H|]. unfold to_signed in *. change (256 ^ Z.of_nat 1) with 256 in *. destruct (raw <? 256 / 2) eqn:?; lia.
Qed.
Lemma dataset_rewritable ds : clean_ds ds -> sized_ds ds -> (forall i v, elem_at ds (lit "timestamp") i v -> exists t, v = VInt t) ->
  (writable_dataset ds <-> rewritable_dataset ds).
Proof.
  intros C [N T F (n & Hn & Hc) Ht] Hi. destruct (ds_fields ds) as [|fd0 fr] eqn:Ef; [contradiction|]. 
  assert (S0 : fd_name fd0 <> [] -> samples_in ds = n).
  { intros Hne. unfold samples_in. rewrite Ef. destruct (Hc fd0 (or_introl eq_refl) Hne) as (raws & E & L & _). rewrite E. exact L. }
  pose proof (cd_cols _ C) as Cc. rewrite Forall_forall in Cc. split.
  - intros [W1 W2 W3]. destruct W2 as (fd & r & c & E & Ec). rewrite Ef in E. injection E as <- <-.
    assert (Hne : fd_name fd0 <> []). { apply Cc; [rewrite Ef; now left|]. now exists c. }
    specialize (S0 Hne). assert (Hpos : (0 < samples_in ds)%nat) by lia. destruct (W3 0%nat Hpos) as ((t & col & raw & Et & _) & Wf & _). split.
    + destruct (Ht _ Et) as (fd & Hfd & En). exists fd. rewrite Ef. auto.
    + rewrite Forall_forall in *. intros fd Hfd. apply Cc; [exact Hfd|]. destruct (Wf fd Hfd) as (v & (col' & raw' & E' & _) & _). now exists col'.
    + intros fd i z Hfd Hty He. assert (Hi' : (i < samples_in ds)%nat).
      { rewrite S0. destruct He as (col' & raw' & E' & En & _). destruct (Hc fd) as (raws & E2 & L & _); [now rewrite <- Ef|apply Cc; [exact Hfd|now exists col']|]. rewrite E2 in E'. injection E' as <-. cbn [c_raw] in En. rewrite <- L. apply nth_error_Some. congruence. }
      destruct (W3 i Hi') as (_ & Wi & _). rewrite Forall_forall in Wi. destruct (Wi fd Hfd) as (v & Hv & Ho). rewrite Hty in Ho. cbn [element_ok] in Ho. destruct Ho as (z' & -> & Hz').
      destruct He as (c1 & r1 & A1 & B1 & D1). destruct Hv as (c2 & r2 & A2 & B2 & D2). rewrite A1 in A2. injection A2 as <-. rewrite B1 in B2. injection B2 as <-. rewrite <- D1 in D2. injection D2 as ->. lia.
  - intros [(fdt & Hft & Ent) R2 R3]. rewrite Forall_forall in R2.
    assert (Hne : fd_name fd0 <> []) by (apply R2; rewrite Ef; now left). specialize (S0 Hne). split.
    + split; [exact (cd_multi _ C)|]. split; [exact (cd_id _ C)|]. split; [exact (cd_name _ C)|exact N].
    + destruct (Hc fd0 (or_introl eq_refl) Hne) as (raws & E & _). exists fd0, fr, (mkCol (np_of (fd_type fd0)) raws). auto.
    + intros i Hl. rewrite S0 in Hl. split; [|split; [|rewrite Ef; exact T]].
      * destruct (Hc fdt) as (raws & E & L & _); [now rewrite <- Ef|apply R2; exact Hft|]. rewrite Ent in E. destruct (nth_error raws i) as [raw|] eqn:En; [|apply nth_error_None in En; lia].
        assert (He : elem_at ds (lit "timestamp") i (np_elem (np_of (fd_type fdt)) raw)) by (exists (mkCol (np_of (fd_type fdt)) raws), raw; auto).
        destruct (Hi _ _ He) as (t & Et). exists t. rewrite <- Et. exact He.
      * apply Forall_forall. intros fd Hfd. destruct (Hc fd) as (raws & E & L & R); [now rewrite <- Ef|apply R2; exact Hfd|]. destruct (nth_error raws i) as [raw|] eqn:En; [|apply nth_error_None in En; lia].
        assert (He : elem_at ds (fd_name fd) i (np_elem (np_of (fd_type fd)) raw)) by (exists (mkCol (np_of (fd_type fd)) raws), raw; auto).
        exists (np_elem (np_of (fd_type fd)) raw). split; [exact He|]. apply np_elem_ok.
        -- rewrite Forall_forall in R. apply R. eapply nth_error_In; eauto.
        -- intros Hty z Ez. rewrite Ez in He. eapply R3; eauto.
Qed.
Lemma format_text_encodable name fs : encodable name -> Forall (fun f => encodable (fst (fst f)) /\ encodable (snd f)) fs -> encodable (format_text name fs).
Proof.
  intros Hn Hf. unfold format_text. apply encodable_app; [exact Hn|]. apply Forall_cons; [lia|]. induction Hf as [|[[ty n] nm] fs (A & B) Hf IH]; [constructor|]. cbn [map concat fst snd] in *. apply encodable_app; [|exact IH].
  unfold field_text. apply encodable_app; [exact A|]. apply encodable_app.
  - destruct (0 <? n); [|constructor]. apply Forall_cons; [lia|]. apply encodable_app; [apply encodable_str_of_Z|]. apply Forall_cons; [lia|constructor].
  - apply Forall_cons; [lia|]. apply encodable_app; [exact B|]. apply Forall_cons; [lia|constructor].
Qed.
Lemma iff_Forall_in {A} (P Q : A -> Prop) l : (forall x, In x l -> P x <-> Q x) -> Forall P l <-> Forall Q l.
Proof. intros H. rewrite !Forall_forall. split; intros K x Hx; apply (H x Hx); auto. Qed.
Theorem loaded_writable cf f u : bytes_ok f -> produces cf f (Ok u) -> covered u -> (writable u <-> rewritable u).
Proof.
  intros Hf Hp CT. destruct (loaded_sized cf f u Hf Hp) as (K & Z). pose proof (loaded_wf cf f u Hp) as W. unfold covered in CT.
  assert (D : Forall writable_dataset (u_data u) <-> Forall rewritable_dataset (u_data u)).
  { pose proof (cl_data _ K) as A. pose proof (sz_data _ Z) as B. rewrite !Forall_forall in *. split; intros H ds Hd; apply (dataset_rewritable ds (A ds Hd) (B ds Hd) (CT ds Hd)); auto. }
  assert (I : Forall (fun kv => exists ty, sget (fst kv) (u_infot u) = Some ty /\ entry_ok 0 ty (fst kv) (snd kv)) (u_info u) <->
              Forall (fun kv => forall ty, sget (fst kv) (u_infot u) = Some ty -> known_type ty) (u_info u)).
  { apply iff_Forall_in. intros [k v] Hin. cbn [fst snd]. apply (In_dget str_eqb str_eqb_spec) in Hin; [|apply W]. destruct (sz_info _ Z k v Hin) as (ty & n & E & S & M).
    pose proof (from_file_entry _ _ _ _ M S) as Q. split.
    - intros (ty' & E' & H) ty2 E2. rewrite E2 in E'. injection E' as <-. rewrite E in E2. injection E2 as <-. now apply Q.
    - intros H. exists ty. split; [exact E|]. apply Q. now apply H. }
  split.
  - intros []. constructor; auto.
    + eapply Forall_impl; [|exact wr_formats]. cbv beta. tauto.
    + now apply I.
    + eapply Forall_impl; [|exact wr_multi]. cbv beta. intros kl (ty & E & H) ty' E'. rewrite E in E'. injection E' as <-. exact H.
    + rewrite Forall_forall in *. intros [t m] Hin. destruct (wr_defaults _ Hin) as (_ & H). cbn [fst snd] in *. apply (In_dget Z.eqb Zeqb_spec) in Hin; [|apply W]. destruct (sz_defaults _ Z t m Hin) as (_ & Hm).
      split; [|eapply Forall_impl; [|exact H]; cbv beta; tauto]. destruct m as [|kv m]; [contradiction|]. inversion H; subst. tauto.
    + now apply D.
  - intros []. constructor; auto.
    + destruct (cl_head _ K) as (A & B & C & _). split; [exact A|]. unfold u64. change (2 ^ 64) with 18446744073709551616 in C. lia.
    + destruct (cl_head _ K) as (_ & _ & _ & _ & A & B). destruct (sz_flags _ Z) as (L1 & L2). split; [exact L1|]. split; [exact A|]. split; [exact L2|]. destruct (u_incompat u) as [|i0 r]; [constructor|]. now inversion B.
    + pose proof (cl_formats _ K) as A. unfold clean_formats in A. rewrite Forall_forall in *. intros nm Hin. split; [|now apply rw_formats].
      destruct (A nm Hin) as (A1 & A2). apply format_text_encodable; [|exact A2]. pose proof (sz_formats _ Z) as B. rewrite Forall_forall in B. now apply B.
    + now apply I.
    + pose proof (cl_multi _ K) as A. rewrite Forall_forall in *. intros kl Hin. destruct (A kl Hin) as (_ & (ty & E) & _). exists ty. split; [exact E|]. now apply rw_multi.
    + rewrite Forall_forall in *. intros [t m] Hin. destruct (rw_defaults _ Hin) as (L & H). cbn [fst snd] in *. apply (In_dget Z.eqb Zeqb_spec) in Hin; [|apply W]. destruct (sz_defaults _ Z t m Hin) as (Hm & _).
      split; [exact Hm|]. eapply Forall_impl; [|exact H]. cbv beta. tauto.
    + now apply D.
    + pose proof (cl_logged _ K) as A. pose proof (sz_logged _ Z) as B. rewrite Forall_forall in *. intros m Hm. destruct (A m Hm) as (A1 & A2 & A3). split; [exact A1|]. split; [exact A2|]. split; [exact A3|]. now apply B.
    + pose proof (cl_tagged _ K) as A. pose proof (sz_tagged _ Z) as B. rewrite Forall_forall in *. intros tl Ht. destruct (A tl Ht) as (_ & A1). specialize (B tl Ht). rewrite Forall_forall in *. intros m Hm.
      destruct (A1 m Hm) as (X1 & X2 & X3). destruct (B m Hm) as (Y1 & Y2). repeat split; auto; apply X1 || apply X2 || apply Y1.
    + eapply Forall_impl; [|exact (cl_drop _ K)]. cbv beta. intros d (_ & H). exact H.
Qed.
