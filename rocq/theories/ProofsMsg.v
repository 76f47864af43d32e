(** The reader's parsing functions decode every well-formed message to its contents. *)
From Verif Require Import Base Dict Utf8 PyStr PyFloat Struct ModelTypes ModelRead Spec SpecMsg.
Ltac Zify.zify_post_hook ::= Z.div_mod_to_equations.

Lemma utf8_ok s : str_ok s -> utf8_encode s = Ok (utf8 s).
Proof. intros H. apply utf8_encode_Ok in H as [b E]. unfold utf8. now rewrite E. Qed.
Lemma utf8_bytes_ok s : bytes_ok (utf8 s).
Proof.
  unfold utf8. destruct (utf8_encode s) eqn:E; [|constructor]. eapply utf8_encode_bytes_ok; eauto.
Qed.
Lemma parse_utf8 ign s : str_ok s -> parse_string ign (utf8 s) = Ok s.
Proof. intros H. apply utf8_decode_encode. now apply utf8_ok. Qed.

Lemma ctype_of_None s : (forall c, s <> ctype_name c) -> ctype_of s = None.
Proof.
  intros H. destruct (ctype_of s) as [c|] eqn:E; [|reflexivity].
  apply ctype_of_Some in E. now destruct (H c).
Qed.
Lemma starts_char c : starts_with (lit "char[") (ctype_name c) = false.
Proof. now destruct c. Qed.

(** the value part of parse_info *)
Definition value_of (ign : bool) (ty : str) (rest : bytes) : res value :=
  if starts_with (lit "char[") ty then let* s := parse_string ign rest in Ok (VStr s)
  else match ctype_of ty with Some c => unpack_val c rest | None => Ok (VBytes rest) end.

Lemma unpack_u_bytes n d : length d = n -> unpack_u n d = Ok (le_dec d).
Proof. intros <-. unfold unpack_u. now rewrite Nat.eqb_refl. Qed.

Lemma typed_value ign ty raw v : typed ty raw v -> value_of ign ty raw = Ok v.
Proof.
  unfold value_of. intros H. destruct H as [rest s Hs|c z Hc Hz|c z Hc Hz|b Hb|b Hb|b Hb|b|ty raw H1 H2].
  - rewrite starts_with_app. rewrite parse_utf8 by auto. reflexivity.
  - rewrite starts_char, ctype_of_name. unfold unpack_val. rewrite unpack_u_enc by auto.
    destruct Hc as [<-|[<-|[<-|[<-|[]]]]]; reflexivity.
  - rewrite starts_char, ctype_of_name. unfold unpack_val.
    pose proof (pow256_pos (ctype_size c)) as Hp. pose proof (pow256_even (ctype_size c) (ctype_size_pos c)) as He.
    rewrite unpack_u_enc by (apply Z.mod_pos_bound; lia).
    assert (E : to_signed (ctype_size c) (z mod 256 ^ Z.of_nat (ctype_size c)) = z).
    { unfold to_signed. set (N := 256 ^ Z.of_nat (ctype_size c)) in *. clearbody N.
      destruct (Z.ltb_spec (z mod N) (N / 2)).
      - rewrite Z.mod_small; auto. split; [|lia].
        destruct (Z.le_gt_cases 0 z); [auto|]. exfalso.
        assert (z mod N = z + N) by (symmetry; apply Z.mod_unique with (-1); lia). lia.
      - destruct (Z.le_gt_cases 0 z).
        + rewrite Z.mod_small in * by lia. lia.
        + assert (z mod N = z + N) by (symmetry; apply Z.mod_unique with (-1); lia). lia. }
    destruct Hc as [<-|[<-|[<-|[<-|[]]]]]; cbn [bind ctype_signed]; now rewrite E.
  - change (lit "float") with (ctype_name F32). rewrite starts_char, ctype_of_name. unfold unpack_val.
    change (ctype_size F32) with 4%nat. rewrite unpack_u_enc by (cbn; lia). reflexivity.
  - change (lit "double") with (ctype_name F64). rewrite starts_char, ctype_of_name. unfold unpack_val.
    change (ctype_size F64) with 8%nat. rewrite unpack_u_enc by (cbn; lia). reflexivity.
  - change (lit "bool") with (ctype_name CBool). rewrite starts_char, ctype_of_name. unfold unpack_val.
    rewrite unpack_u_bytes by reflexivity. cbn [bind le_dec]. now rewrite Z.mul_0_r, Z.add_0_r.
  - change (lit "char") with (ctype_name CChar). rewrite starts_char, ctype_of_name. unfold unpack_val.
    rewrite unpack_u_bytes by reflexivity. reflexivity.
  - rewrite ctype_of_None by auto.
    destruct (starts_with (lit "char[") ty) eqn:E; [|reflexivity].
    apply starts_with_iff in E as [r ->]. now destruct (H2 r).
Qed.

(** a value has at most one type reading *)
Lemma typed_fun ty raw v w : typed ty raw v -> typed ty raw w -> v = w.
Proof. intros H K. apply (typed_value false) in H, K. congruence. Qed.

Lemma word_notin seps s c : word seps s -> In c seps -> ~ In c s.
Proof. intros [_ H] Hc Hs. rewrite Forall_forall in H. exact (H c Hs Hc). Qed.

Lemma kv_text ty key : word [32] ty -> word [32] key -> split1 32 (ty ++ [32] ++ key) = [ty; key].
Proof.
  intros H1 H2. cbn [app]. rewrite split1_app by (eapply word_notin; [eauto|cbn; auto]).
  rewrite split1_nosep; [reflexivity|]. eapply word_notin; [eauto|cbn; auto].
Qed.
Lemma str_ok_kv ty key : word [32] ty -> word [32] key -> str_ok (ty ++ [32] ++ key).
Proof.
  intros [H1 _] [H2 _]. unfold str_ok in *. rewrite !Forall_app. repeat split; auto.
Qed.

Lemma parse_info_wire ign ty key raw v : kv_ok ty key raw -> typed ty raw v ->
  parse_info ign (kv_bytes ty key raw) = Ok (mkInfo ty key v).
Proof.
  intros (Ht & Hk & Hl & Hr & _) Hv. unfold parse_info, kv_bytes.
  set (k := utf8 (ty ++ [32] ++ key)) in *.
  assert (Hk0 := lenZ_nonneg k).
  change (slice 0 1 ([lenZ k] ++ k ++ raw)) with (takeZ 1 ([lenZ k] ++ k ++ raw)).
  rewrite (takeZ_app_exact 1 [lenZ k]) by reflexivity.
  replace (unpack_u 1 [lenZ k]) with (Ok (lenZ k)) by (unfold unpack_u; cbn; f_equal; lia).
  cbn [bind].
  rewrite (slice_app_mid [lenZ k] k raw) by (cbn; lia).
  replace (parse_string ign k) with (Ok (ty ++ [32] ++ key)) by (symmetry; apply parse_utf8; now apply str_ok_kv).
  cbn [bind].
  rewrite kv_text by auto. cbn [py_nth nth_error bind].
  replace (dropZ (1 + lenZ k) ([lenZ k] ++ k ++ raw)) with raw.
  2:{ symmetry. rewrite app_assoc. apply dropZ_app_exact. rewrite lenZ_app. reflexivity. }
  pose proof (typed_value ign _ _ _ Hv) as E. unfold value_of in E.
  destruct (starts_with (lit "char[") ty).
  - destruct (parse_string ign raw); cbn [bind] in *; [|discriminate]. congruence.
  - destruct (ctype_of ty); [rewrite E; reflexivity|]. congruence.
Qed.

Lemma parse_multi_wire ign c ty key raw v : u8 c -> kv_ok ty key raw -> typed ty raw v ->
  parse_info_multi ign ([c] ++ kv_bytes ty key raw) = Ok (c, mkInfo ty key v).
Proof.
  intros Hc H Hv. unfold parse_info_multi.
  change (slice 0 1 ([c] ++ kv_bytes ty key raw)) with (takeZ 1 ([c] ++ kv_bytes ty key raw)).
  rewrite (takeZ_app_exact 1 [c]), (dropZ_app_exact 1 [c]) by reflexivity.
  replace (unpack_u 1 [c]) with (Ok c) by (unfold unpack_u; cbn; f_equal; lia).
  cbn [bind]. rewrite (parse_info_wire ign _ _ _ _ H Hv). reflexivity.
Qed.
Lemma parse_pdef_wire ign c ty key raw v : u8 c -> kv_ok ty key raw -> typed ty raw v ->
  parse_pdef ign ([c] ++ kv_bytes ty key raw) = Ok (c, mkInfo ty key v).
Proof. exact (parse_multi_wire ign c ty key raw v). Qed.

Lemma slice_0 {A} n (l : list A) : slice 0 n l = takeZ n l.
Proof. unfold slice. rewrite dropZ_nonpos by lia. f_equal. lia. Qed.
Lemma le8_enc t : u64 t -> unpack_u 8 (le_enc 8 t) = Ok t.
Proof. intros H. apply unpack_u_enc. exact H. Qed.
Lemma le2_enc t : u16 t -> unpack_u 2 (le_enc 2 t) = Ok t.
Proof. intros H. apply unpack_u_enc. exact H. Qed.
Lemma lenZ_le n z : lenZ (le_enc n z) = Z.of_nat n.
Proof. unfold lenZ. now rewrite length_le_enc. Qed.
Lemma unpack1 c : unpack_u 1 [c] = Ok c.
Proof. unfold unpack_u. cbn. f_equal. lia. Qed.

Lemma parse_logging_wire ign l t s : u64 t -> str_ok s ->
  parse_logging ign ([l] ++ le_enc 8 t ++ utf8 s) = Ok (mkLog l t s).
Proof.
  intros Ht Hs. unfold parse_logging.
  replace (slice 0 1 ([l] ++ le_enc 8 t ++ utf8 s)) with [l] by reflexivity.
  rewrite (slice_app_mid [l] (le_enc 8 t) (utf8 s)) by (rewrite ?lenZ_le; cbn; lia).
  replace (dropZ 9 ([l] ++ le_enc 8 t ++ utf8 s)) with (utf8 s).
  2:{ symmetry. rewrite app_assoc. apply dropZ_app_exact. rewrite lenZ_app, lenZ_le. reflexivity. }
  rewrite unpack1, le8_enc by auto. cbn [bind]. now rewrite parse_utf8.
Qed.
Lemma parse_tagged_wire ign l g t s : u16 g -> u64 t -> str_ok s ->
  parse_tagged ign ([l] ++ le_enc 2 g ++ le_enc 8 t ++ utf8 s) = Ok (mkTag l g t s).
Proof.
  intros Hg Ht Hs. unfold parse_tagged.
  replace (slice 0 1 ([l] ++ le_enc 2 g ++ le_enc 8 t ++ utf8 s)) with [l] by reflexivity.
  rewrite (slice_app_mid [l] (le_enc 2 g) (le_enc 8 t ++ utf8 s)) by (rewrite ?lenZ_le; cbn; lia).
  replace ([l] ++ le_enc 2 g ++ le_enc 8 t ++ utf8 s) with (([l] ++ le_enc 2 g) ++ le_enc 8 t ++ utf8 s)
    by now rewrite <- app_assoc.
  rewrite (slice_app_mid ([l] ++ le_enc 2 g) (le_enc 8 t) (utf8 s)) by (rewrite ?lenZ_app, ?lenZ_le; cbn; lia).
  replace (dropZ 11 (([l] ++ le_enc 2 g) ++ le_enc 8 t ++ utf8 s)) with (utf8 s).
  2:{ symmetry. rewrite app_assoc. apply dropZ_app_exact. rewrite !lenZ_app, !lenZ_le. reflexivity. }
  rewrite unpack1, le2_enc, le8_enc by auto. cbn [bind]. now rewrite parse_utf8.
Qed.
Lemma parse_dropout_wire d t : u16 d -> parse_dropout (le_enc 2 d) t = Ok (mkDrop d t).
Proof. intros H. unfold parse_dropout. now rewrite le2_enc. Qed.

(** trailing zero offsets are dropped *)
Definition offsets_of (o1 o2 o3 : Z) : list Z :=
  if o3 =? 0 then if o2 =? 0 then if o1 =? 0 then [] else [o1] else [o1; o2] else [o1; o2; o3].
Lemma strip_offsets o1 o2 o3 : strip_trailing_zeros [o1; o2; o3] = offsets_of o1 o2 o3.
Proof.
  unfold strip_trailing_zeros, offsets_of. cbn [rev app].
  destruct o3; cbn; try reflexivity. destruct o2; cbn; try reflexivity. destruct o1; reflexivity.
Qed.

Lemma parse_flags_wire c i o1 o2 o3 : lenZ c = 8 -> lenZ i = 8 -> u64 o1 -> u64 o2 -> u64 o3 ->
  parse_flags (c ++ i ++ le_enc 8 o1 ++ le_enc 8 o2 ++ le_enc 8 o3) = Ok (c, i, offsets_of o1 o2 o3).
Proof.
  intros Hc Hi H1 H2 H3. unfold parse_flags.
  set (o := le_enc 8 o1 ++ le_enc 8 o2 ++ le_enc 8 o3).
  assert (Ho : lenZ o = 24) by (unfold o; rewrite !lenZ_app, !lenZ_le; reflexivity).
  rewrite slice_0.
  rewrite (takeZ_app_exact 8 c) by auto.
  rewrite (slice_app_mid c i o) by lia.
  replace (slice 16 40 (c ++ i ++ o)) with o.
  2:{ symmetry. rewrite <- (app_nil_r (c ++ i ++ o)), <- !app_assoc, (app_assoc c i).
      apply slice_app_mid; rewrite ?lenZ_app; lia. }
  assert (E : forall l : bytes, lenZ l = 8 -> unpack_bytes8 l = Ok l).
  { intros l Hl. unfold unpack_bytes8. replace (Nat.eqb (length l) 8) with true; [reflexivity|].
    symmetry. apply Nat.eqb_eq. unfold lenZ in Hl. lia. }
  rewrite !E by auto. cbn [bind].
  unfold unpack_u64x3. replace (Nat.eqb (length o) 24) with true.
  2:{ symmetry. apply Nat.eqb_eq. unfold lenZ in Ho. lia. }
  cbn [bind]. rewrite <- strip_offsets. do 4 f_equal.
  - rewrite slice_0. unfold o. rewrite takeZ_app_exact by (now rewrite lenZ_le).
    apply le_dec_enc. exact H1.
  - f_equal; [|f_equal].
    + unfold o. rewrite (slice_app_mid (le_enc 8 o1) (le_enc 8 o2)) by (rewrite ?lenZ_le; reflexivity).
      apply le_dec_enc. exact H2.
    + unfold o. rewrite <- (app_nil_r (le_enc 8 o3)), app_assoc.
      rewrite (slice_app_mid (le_enc 8 o1 ++ le_enc 8 o2) (le_enc 8 o3)) by (rewrite ?lenZ_app, ?lenZ_le; reflexivity).
      apply le_dec_enc. exact H3.
Qed.

(** ** Formats *)
Lemma notin_app {A} (x : A) a b : ~ In x a -> ~ In x b -> ~ In x (a ++ b).
Proof. rewrite in_app_iff. tauto. Qed.

Lemma size_digits n c : 0 <= n -> In c (str_of_Z n) -> 48 <= c <= 57.
Proof. intros H Hc. rewrite str_of_Z_nonneg in Hc by auto. eapply str_of_nonneg_digits; eauto. Qed.

Lemma py_slice_0 a b : py_slice 0 (lenZ a) (a ++ b) = a.
Proof.
  unfold py_slice. rewrite lenZ_app. pose proof (lenZ_nonneg a). pose proof (lenZ_nonneg b).
  cbn [Z.ltb Z.compare]. rewrite Z.min_l by lia. destruct (Z.ltb_spec (lenZ a) 0); [lia|].
  rewrite Z.min_l by lia. rewrite slice_0. now apply takeZ_app_exact.
Qed.
Lemma py_slice_mid a b c : py_slice (lenZ a + 1) (lenZ (a ++ [91] ++ b)) (a ++ [91] ++ b ++ c) = b.
Proof.
  unfold py_slice. rewrite !lenZ_app. pose proof (lenZ_nonneg a). pose proof (lenZ_nonneg b).
  pose proof (lenZ_nonneg c). change (lenZ [91]) with 1.
  destruct (Z.ltb_spec (lenZ a + 1) 0); [lia|]. destruct (Z.ltb_spec (lenZ a + (1 + lenZ b)) 0); [lia|].
  rewrite !Z.min_l by lia. rewrite app_assoc. apply slice_app_mid; rewrite lenZ_app; change (lenZ [91]) with 1; lia.
Qed.

Definition field_body (f : str * Z * str) : str :=
  let '(ty, n, name) := f in ty ++ (if 0 <? n then [91] ++ str_of_Z n ++ [93] else []) ++ [32] ++ name.
Lemma field_text_body f : field_text f = field_body f ++ [59].
Proof. destruct f as [[ty n] name]. cbn [field_text field_body]. now rewrite <- !app_assoc. Qed.

Lemma body_nosep f c : field_ok f -> c = 58 \/ c = 59 -> ~ In c (field_body f).
Proof.
  destruct f as [[ty n] name]. intros (Ht & Hn & Hm) Hc. cbn [field_body].
  repeat apply notin_app.
  - eapply word_notin; [exact Ht|cbn; destruct Hc; subst; auto].
  - destruct (0 <? n); [|auto]. repeat apply notin_app.
    + cbn. lia.
    + intros H. apply size_digits in H; lia.
    + cbn. lia.
  - cbn. lia.
  - eapply word_notin; [exact Hm|cbn; destruct Hc; subst; auto].
Qed.

Lemma extract_type_wire f : field_ok f -> extract_type (field_body f) = Ok f.
Proof.
  destruct f as [[ty n] name]. intros (Ht & Hn & Hm). unfold extract_type. cbn [field_body].
  assert (H32 : ~ In 32 ty) by (eapply word_notin; [exact Ht|cbn; auto]).
  assert (H91 : ~ In 91 ty) by (eapply word_notin; [exact Ht|cbn; auto]).
  assert (M32 : ~ In 32 name) by (eapply word_notin; [exact Hm|cbn; auto]).
  destruct (Z.ltb_spec 0 n) as [Hp|Hp].
  - set (sz := str_of_Z n). rewrite app_assoc.
    assert (S32 : ~ In 32 (ty ++ [91] ++ sz ++ [93])).
    { repeat apply notin_app; auto; cbn; try lia. intros H. apply size_digits in H; lia. }
    change ([32] ++ name) with (32 :: name). rewrite split1_app by auto. rewrite split1_nosep by auto.
    cbn [py_nth nth_error bind].
    replace (find_char 91 (ty ++ [91] ++ sz ++ [93])) with (lenZ ty) by (symmetry; now apply find_char_app).
    replace (lenZ ty =? -1) with false by (pose proof (lenZ_nonneg ty); lia).
    assert (H93 : ~ In 93 (ty ++ [91] ++ sz)).
    { repeat apply notin_app; cbn; try lia.
      - eapply word_notin; [exact Ht|cbn; tauto].
      - intros H. apply size_digits in H; lia. }
    replace (find_char 93 (ty ++ [91] ++ sz ++ [93])) with (lenZ (ty ++ [91] ++ sz)).
    2:{ symmetry. replace (ty ++ [91] ++ sz ++ [93]) with ((ty ++ [91] ++ sz) ++ 93 :: []) by now rewrite <- !app_assoc.
        now apply find_char_app. }
    rewrite py_slice_mid, py_slice_0. unfold sz. rewrite str_of_Z_nonneg, py_int_str_of_nonneg by lia. reflexivity.
  - cbn [app]. rewrite split1_app by auto. rewrite split1_nosep by auto. cbn [py_nth nth_error bind].
    rewrite (find_char_none 91 ty) by auto. cbn [Z.eqb]. replace n with 0 by lia. reflexivity.
Qed.

Lemma split_fields fs : Forall field_ok fs ->
  split1 59 (concat (map field_text fs)) = map field_body fs ++ [[]].
Proof.
  induction 1 as [|f fs Hf Hs IH]; [reflexivity|]. cbn [map concat].
  rewrite field_text_body, <- app_assoc. cbn [app]. rewrite split1_app by (apply body_nosep; auto).
  now rewrite IH.
Qed.
Lemma fields_nocolon fs : Forall field_ok fs -> ~ In 58 (concat (map field_text fs)).
Proof.
  induction 1 as [|f fs Hf Hs IH]; [intros []|]. cbn [map concat]. rewrite field_text_body.
  repeat apply notin_app; auto.
  - apply body_nosep; auto.
  - cbn. lia.
Qed.

Lemma str_ok_app a b : str_ok a -> str_ok b -> str_ok (a ++ b).
Proof. intros. unfold str_ok. now apply Forall_app. Qed.
Lemma digits_ok n : 0 <= n -> str_ok (str_of_Z n).
Proof.
  intros H. apply Forall_forall. intros c Hc. apply size_digits in Hc; auto. unfold scalar_ok. lia.
Qed.
Lemma format_text_ok name fs : word [58] name -> Forall field_ok fs -> str_ok (format_text name fs).
Proof.
  intros [Hn _] Hf. unfold format_text. apply str_ok_app; auto. apply str_ok_app; [repeat constructor|].
  induction Hf as [|[[ty n] nm] fs (H1 & H2 & H3) Hs IH]; [constructor|]. cbn [map concat field_text].
  repeat apply str_ok_app; auto; try apply H1; try apply H3; try (repeat constructor; fail).
  destruct (0 <? n); [|constructor]. repeat apply str_ok_app; try (repeat constructor; fail). now apply digits_ok.
Qed.

Lemma parse_format_wire ign name fs : word [58] name -> Forall field_ok fs ->
  parse_format ign (utf8 (format_text name fs)) = Ok (mkFmt name fs).
Proof.
  intros Hn Hf. unfold parse_format. rewrite parse_utf8 by (now apply format_text_ok). cbn [bind].
  unfold format_text. cbn [app]. rewrite split1_app by (eapply word_notin; [exact Hn|cbn; auto]).
  rewrite split1_nosep by (now apply fields_nocolon). cbn [py_nth nth_error bind].
  rewrite split_fields, filter_app by auto. cbn [filter length Nat.eqb negb]. rewrite app_nil_r.
  assert (E : filter (fun t : str => negb (Nat.eqb (length t) 0)) (map field_body fs) = map field_body fs).
  { clear. induction fs as [|[[ty n] nm] fs IH]; [reflexivity|]. cbn [map filter]. rewrite IH.
    replace (negb _) with true; [reflexivity|]. symmetry. apply negb_true_iff, Nat.eqb_neq.
    cbn [field_body]. rewrite !app_length. cbn [length]. lia. }
  assert (K : mapM extract_type (map field_body fs) = Ok fs).
  2:{ etransitivity; [|exact (f_equal (fun r => let* x := r in Ok (mkFmt name x)) K)].
      exact (f_equal (fun l => let* x := mapM extract_type l in Ok (mkFmt name x)) E). }
  clear E. induction Hf as [|f fs H1 H2 IH]; [reflexivity|]. cbn [map mapM].
  rewrite extract_type_wire by auto. cbn [bind]. now rewrite IH.
Qed.
