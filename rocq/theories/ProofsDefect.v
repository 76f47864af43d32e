(** Which messages end the data section, and that nothing behind them matters. *)
From Verif Require Import Base Dict PyStr Utf8 Struct ModelTypes ModelRead Spec SpecTools SpecText SpecSection SpecDefect
  ProofsInv ProofsText ProofsCut ProofsSection ProofsWhole.

(** ** No struct.error *)
Definition ns {A} (r : res A) : Prop := r <> Err StructError.
Lemma ns_Ok {A} (a : A) : ns (Ok a).
Proof. discriminate. Qed.
Lemma ns_bind {A B} (r : res A) (k : A -> res B) : ns r -> (forall a, r = Ok a -> ns (k a)) -> ns (bind r k).
Proof. destruct r as [a|e]; intros H K; cbn [bind]; [now apply K|]. intros [= ->]. now apply H. Qed.
Lemma ns_errs {A} L (r : res A) : errs L r -> ~ In StructError L -> ns r.
Proof. destruct r; cbn [errs]; intros H K; [discriminate|]. intros [= ->]. now apply K. Qed.
Lemma ns_string ign d : ns (parse_string ign d).
Proof.
  apply (ns_errs [UnicodeDecodeError]); [apply (utf8_decode_err_aux (length d)); auto|]. intros [H|[]]; discriminate.
Qed.
Lemma ns_nth {A} (l : list A) i : ns (py_nth l i).
Proof. unfold py_nth. destruct (nth_error l i); discriminate. Qed.
Lemma ns_foldM {A S} (f : S -> A -> res S) l : (forall s x, ns (f s x)) -> forall s, ns (foldM f l s).
Proof. intros H. induction l; cbn [foldM]; intros s; [discriminate|]. apply ns_bind; auto. Qed.
Lemma ns_nested depth fmts : forall prefix tn st, ns (parse_nested depth fmts prefix tn st).
Proof.
  induction depth as [|d IH]; intros; cbn [parse_nested]; [discriminate|].
  destruct (sget tn fmts) as [fmt|]; [|discriminate].
  apply ns_foldM. intros s [[t a] n]. destruct (ctype_of t); [discriminate|].
  destruct (0 <? a); [|apply IH]. apply ns_foldM. intros; apply IH.
Qed.
Lemma ns_np_dtype l : ns (np_dtype l).
Proof.
  unfold np_dtype. generalize 0, (@nil str). induction l as [|fd l IH]; intros i seen; cbn [np_dtype_aux]; [discriminate|].
  cbv zeta. match goal with |- ns (if ?b then _ else _) => destruct b end; [discriminate|]. apply ns_bind; [apply IH|discriminate].
Qed.
Lemma ns_append_last l x : ns (append_last l x).
Proof.
  induction l as [|g l IH]; cbn [append_last]; [discriminate|]. destruct l; [discriminate|]. apply ns_bind; [apply IH|discriminate].
Qed.
Lemma ns_info_multi c m u : ns (add_info_multi c m u).
Proof.
  unfold add_info_multi. destruct (sget _ _); [|discriminate]. destruct (negb _); [|discriminate].
  apply ns_bind; [apply ns_append_last|discriminate].
Qed.

(** the errors of the first step and those of the rest *)
Lemma struct_bind {A B} (r : res A) (k : A -> res B) : bind r k = Err StructError <->
  r = Err StructError \/ exists a, r = Ok a /\ k a = Err StructError.
Proof.
  destruct r as [a|e]; cbn [bind]; split.
  - intros H. right. eauto.
  - intros [H|(b & [= <-] & H)]; [discriminate|exact H].
  - intros H. left. congruence.
  - intros [H|(b & H & _)]; congruence.
Qed.
Lemma struct_unpack n d : unpack_u n d = Err StructError <-> length d <> n.
Proof. unfold unpack_u. destruct (Nat.eqb_spec (length d) n); split; intros; try discriminate; tauto. Qed.
Lemma struct_val c d : unpack_val c d = Err StructError <-> length d <> ctype_size c.
Proof.
  unfold unpack_val. rewrite struct_bind, struct_unpack. split; [|now left]. intros [H|(a & _ & H)]; [exact H|discriminate].
Qed.
Lemma length_slice {A} a n (l : list A) : (length (slice (Z.of_nat a) (Z.of_nat (a + n)) l) = Nat.min n (length l - a))%nat.
Proof.
  unfold slice. rewrite takeZ_firstn, dropZ_skipn. rewrite firstn_length, skipn_length. lia.
Qed.

(** ** Payloads *)
Lemma number_sizes_iff ty n : In (ty, n) number_sizes <-> exists c, ctype_of ty = Some c /\ ctype_size c = n.
Proof.
  split.
  - intros H. repeat (destruct H as [H|H]; [injection H as <- <-; eexists; split; reflexivity|]). destruct H.
  - intros (c & H & <-). apply ctype_of_Some in H. subst ty. destruct c; cbn; tauto.
Qed.
Lemma number_not_text ty c : ctype_of ty = Some c -> starts_with (lit "char[") ty = false.
Proof. intros H. apply ctype_of_Some in H. subst ty. destruct c; reflexivity. Qed.

Lemma unpack_first k (rest : bytes) : unpack_u 1 (slice 0 1 (k :: rest)) = Ok k.
Proof.
  unfold slice. rewrite dropZ_nonpos, takeZ_firstn by lia. change (Z.to_nat (1 - 0)) with 1%nat. cbn [firstn].
  unfold unpack_u. cbn [length Nat.eqb]. f_equal. cbn [le_dec]. lia.
Qed.
Lemma info_struct ign p : bytes_ok p -> (parse_info ign p = Err StructError <-> bad_value ign p).
Proof.
  intros Hb. destruct p as [|k rest].
  { split; [intros _; constructor|reflexivity]. }
  assert (Hk : 0 <= k) by (inversion Hb; unfold byte_ok in *; lia).
  unfold parse_info. rewrite unpack_first. cbn [bind].
  rewrite slice_1, (drop_1 k rest k Hk). split.
  - intros H. apply struct_bind in H as [H|(text & Et & H)]; [now apply ns_string in H|]. cbv zeta in H.
    destruct (split_two 32 text) as [(_ & E1)|(ty & key & t & -> & Ht & Hy & Hi & E0 & E1)].
    { rewrite E1 in H. apply struct_bind in H as [H|(a & _ & H)]; [now apply ns_nth in H|discriminate]. }
    rewrite E0 in H. cbn [bind] in H. rewrite E1 in H. cbn [bind] in H.
    destruct (starts_with (lit "char[") ty).
    { apply struct_bind in H as [H|(a & _ & H)]; [now apply ns_string in H|discriminate]. }
    destruct (ctype_of ty) as [c|] eqn:Ec; [|discriminate].
    apply struct_bind in H as [H|(a & _ & H)]; [|discriminate]. apply struct_val in H.
    apply (bv_size ign k rest ty (key ++ t) (ctype_size c)); auto. apply number_sizes_iff. eauto.
  - intros H. inversion H as [|k' rest' ty r n Et Hty Hn Hl]; subst. unfold parse_string at 1. rewrite Et. cbn [bind]. cbv zeta.
    destruct (split_two 32 (ty ++ 32 :: r)) as [(Hno & _)|(ty' & key & t & E & Ht & Hy & Hi & E0 & E1)].
    { exfalso. apply Hno. apply in_or_app. right. now left. }
    assert (ty' = ty).
    { clear - E Hty Ht. revert ty' E Ht. induction ty as [|a ty IH]; intros [|b ty'] E Ht; auto.
      - injection E as E1 _. exfalso. apply Ht. now left.
      - injection E as E1 _. exfalso. apply Hty. now left.
      - injection E as -> E2. f_equal. apply IH; auto; intros K; [apply Hty|apply Ht]; now right. }
    subst ty'. rewrite E0. cbn [bind]. rewrite E1. cbn [bind]. apply number_sizes_iff in Hn as (c & Ec & <-).
    rewrite (number_not_text ty c Ec), Ec. apply struct_bind. left. now apply struct_val.
Qed.

Lemma first_byte_struct {X} (r : bytes -> res X) p (k : Z -> X -> res (Z * X)) :
  (forall a b, ns (k a b)) ->
  ((let* b := unpack_u 1 (slice 0 1 p) in let* m := r (dropZ 1 p) in k b m) = Err StructError <->
   p = [] \/ exists b q, p = b :: q /\ r q = Err StructError).
Proof.
  intros Hk. destruct p as [|b q]; [split; [now left|reflexivity]|].
  rewrite unpack_first. cbn [bind].
  replace (dropZ 1 (b :: q)) with q by (rewrite dropZ_skipn; reflexivity). rewrite struct_bind. split.
  - intros [H|(a & _ & H)]; [|now apply Hk in H]. right. eauto.
  - intros [H|(b' & q' & [= <- <-] & H)]; [discriminate|]. now left.
Qed.
Lemma multi_struct ign p : bytes_ok p -> (parse_info_multi ign p = Err StructError <->
  p = [] \/ exists b q, p = b :: q /\ bad_value ign q).
Proof.
  intros Hb. unfold parse_info_multi. rewrite (first_byte_struct (parse_info ign) p (fun c m => Ok (c, m))) by discriminate.
  split; (intros [H|(b & q & -> & H)]; [now left|right; exists b, q; split; auto]);
    (eapply info_struct; [|exact H]); now inversion Hb.
Qed.
Lemma pdef_struct ign p : bytes_ok p -> (parse_pdef ign p = Err StructError <->
  p = [] \/ exists b q, p = b :: q /\ bad_value ign q).
Proof. exact (multi_struct ign p). Qed.

Lemma slice_short {A} a b (l : list A) : 0 <= a <= b -> (length (slice a b l) <> Z.to_nat (b - a) <-> lenZ l < b /\ a < b).
Proof.
  intros H. replace a with (Z.of_nat (Z.to_nat a)) at 1 by lia.
  replace b with (Z.of_nat (Z.to_nat a + Z.to_nat (b - a))) at 1 by lia.
  rewrite length_slice. unfold lenZ. lia.
Qed.
Lemma unpack_short n a b (l : bytes) : 0 <= a < b -> n = Z.to_nat (b - a) -> (unpack_u n (slice a b l) = Err StructError <-> lenZ l < b).
Proof. intros H ->. rewrite struct_unpack, slice_short by lia. lia. Qed.
Lemma unpack_long n a b (l : bytes) x : 0 <= a < b -> n = Z.to_nat (b - a) -> unpack_u n (slice a b l) = Ok x -> b <= lenZ l.
Proof. intros H Hn E. destruct (Z_lt_le_dec (lenZ l) b) as [K|K]; [|exact K]. apply (unpack_short n a b l H Hn) in K. congruence. Qed.

Lemma logging_struct ign p : parse_logging ign p = Err StructError <-> (length p < 9)%nat.
Proof.
  unfold parse_logging. rewrite struct_bind. rewrite (unpack_short 1 0 1) by (reflexivity || lia). split.
  - intros [H|(a & _ & H)]; [unfold lenZ in H; lia|].
    apply struct_bind in H as [H|(b & _ & H)]; [apply (unpack_short 8 1 9) in H; [unfold lenZ in H; lia|lia|reflexivity]|].
    apply struct_bind in H as [H|(c & _ & H)]; [now apply ns_string in H|discriminate].
  - intros H. destruct (unpack_u 1 (slice 0 1 p)) as [a|e] eqn:E.
    + right. exists a. split; auto. apply struct_bind. left. apply (unpack_short 8 1 9); [lia|reflexivity|]. unfold lenZ. lia.
    + left. apply unpack_u_Err in E as (-> & E). apply (slice_short 0 1) in E; lia.
Qed.
Lemma tagged_struct ign p : parse_tagged ign p = Err StructError <-> (length p < 11)%nat.
Proof.
  unfold parse_tagged. split.
  - intros H. apply struct_bind in H as [H|(a & _ & H)]; [apply (unpack_short 1 0 1) in H; [unfold lenZ in H; lia|lia|reflexivity]|].
    apply struct_bind in H as [H|(b & _ & H)]; [apply (unpack_short 2 1 3) in H; [unfold lenZ in H; lia|lia|reflexivity]|].
    apply struct_bind in H as [H|(c & _ & H)]; [apply (unpack_short 8 3 11) in H; [unfold lenZ in H; lia|lia|reflexivity]|].
    apply struct_bind in H as [H|(d & _ & H)]; [now apply ns_string in H|discriminate].
  - intros H. apply struct_bind. destruct (unpack_u 1 (slice 0 1 p)) as [a|e] eqn:E; [|left; apply unpack_u_Err in E as (-> & _); reflexivity].
    right. exists a. split; auto. apply struct_bind. destruct (unpack_u 2 (slice 1 3 p)) as [b|e] eqn:E2; [|left; apply unpack_u_Err in E2 as (-> & _); reflexivity].
    right. exists b. split; auto. apply struct_bind. left. apply (unpack_short 8 3 11); [lia|reflexivity|]. unfold lenZ. lia.
Qed.
Lemma add_struct cf fmts p : parse_add cf fmts p = Err StructError <-> (length p < 3)%nat.
Proof.
  unfold parse_add. split.
  - intros H. apply struct_bind in H as [H|(a & _ & H)]; [apply (unpack_short 1 0 1) in H; [unfold lenZ in H; lia|lia|reflexivity]|].
    apply struct_bind in H as [H|(b & _ & H)]; [apply (unpack_short 2 1 3) in H; [unfold lenZ in H; lia|lia|reflexivity]|].
    exfalso. revert H. apply ns_bind; [apply ns_string|]. intros nm _. apply ns_bind; [apply ns_nested|]. intros st _. cbv zeta.
    apply ns_bind; [apply ns_np_dtype|discriminate].
  - intros H. apply struct_bind. destruct (unpack_u 1 (slice 0 1 p)) as [a|e] eqn:E; [|left; apply unpack_u_Err in E as (-> & _); reflexivity].
    right. exists a. split; auto. apply struct_bind. left. apply (unpack_short 2 1 3); [lia|reflexivity|]. unfold lenZ. lia.
Qed.
Lemma dropout_struct p t : parse_dropout p t = Err StructError <-> length p <> 2%nat.
Proof. unfold parse_dropout. rewrite struct_bind, struct_unpack. split; [|now left]. intros [H|(a & _ & H)]; [exact H|discriminate]. Qed.

(** ** Messages of other types than 'D' *)
Definition gives_up (cf : cfg) (m : Z * bytes) (u : ulog) : Prop :=
  exists u', data_effect cf (fst m) (snd m) u = Some (u', Some StructError).
Lemma eff_struct (r : res ulog) u u' : eff_of u r = (u', Some StructError) <-> r = Err StructError /\ u' = u.
Proof.
  destruct r; cbn [eff_of]; split.
  - discriminate.
  - intros [? _]; discriminate.
  - intros H. split; congruence.
  - intros (H & ->). congruence.
Qed.
Lemma eff_gives (r : res ulog) u : (exists u', Some (eff_of u r) = Some (u', Some StructError)) <-> r = Err StructError.
Proof.
  split.
  - intros (u' & H). apply (f_equal (fun o => match o with Some x => x | None => (u, None) end)) in H. cbv beta iota in H. now apply eff_struct in H.
  - intros H. exists u. f_equal. now apply eff_struct.
Qed.
Lemma bind_gives {A} (r : res A) (k : A -> res ulog) : (forall a, ns (k a)) -> (bind r k = Err StructError <-> r = Err StructError).
Proof. intros Hk. rewrite struct_bind. split; [|now left]. intros [H|(a & _ & H)]; [exact H|now apply Hk in H]. Qed.

Lemma defect_not_data cf fmts pre ty p u : ty <> 68 -> bytes_ok p -> (gives_up cf (ty, p) u <-> defect cf fmts pre (ty, p)).
Proof.
  intros Hd Hb. unfold gives_up, data_effect, T_INFO, T_MULTI, T_PARAM, T_PDEF, T_ADD, T_LOG, T_LOGT, T_DATA, T_DROP, T_SYNC. cbn [fst snd]. cbv zeta.
  unfold defect.
  destruct (Z.eqb_spec ty 73) as [->|N1]; [rewrite eff_gives, bind_gives, info_struct by (discriminate || exact Hb); split; [tauto|intros [(_ & H)|H]; [exact H|lia]]|].
  destruct (Z.eqb_spec ty 77) as [->|N2]; [rewrite eff_gives, bind_gives, multi_struct by (exact Hb || (intros; apply ns_info_multi)); split; [tauto|intros [(H & _)|[(_ & H)|H]]; [lia|exact H|lia]]|].
  destruct (Z.eqb_spec ty 80) as [->|N3]; [rewrite eff_gives, bind_gives, info_struct by (discriminate || exact Hb); split; [tauto|intros [(_ & H)|H]; [exact H|lia]]|].
  destruct (Z.eqb_spec ty 81) as [->|N4]; [rewrite eff_gives, bind_gives, pdef_struct by (discriminate || exact Hb); split; [tauto|intros [(H & _)|[(_ & H)|H]]; [lia|exact H|lia]]|].
  destruct (Z.eqb_spec ty 65) as [->|N5]; [rewrite eff_gives, bind_gives, add_struct by discriminate; lia|].
  destruct (Z.eqb_spec ty 76) as [->|N6]; [rewrite eff_gives, bind_gives, logging_struct by discriminate; lia|].
  destruct (Z.eqb_spec ty 67) as [->|N7]; [rewrite eff_gives, bind_gives, tagged_struct by discriminate; lia|].
  destruct (Z.eqb_spec ty 68) as [->|_]; [lia|].
  destruct (Z.eqb_spec ty 79) as [->|N9]; [rewrite eff_gives, bind_gives, dropout_struct by discriminate; lia|].
  assert (X : forall P Q : Prop, ~ P -> ~ Q -> (P <-> Q)) by tauto. apply X.
  - destruct (ty =? 83); intros (u' & H); discriminate.
  - lia.
Qed.

(** ** 'D' *)
Lemma stamp_none s p : fits s p = true -> 0 <= sb_tsoff s -> (stamp s p = None <-> itemsize (sb_dtype s) < sb_tsoff s + 8).
Proof.
  intros Hf Ho. pose proof (fits_record s p Hf) as Hr. unfold stamp. cbv zeta. rewrite Hr.
  destruct (Z.leb_spec (sb_tsoff s + 8) (itemsize (sb_dtype s))); split; intros; try discriminate; auto; lia.
Qed.

Theorem stops_defect cf fmts pre m : bytes_ok (snd m) -> (stops cf fmts pre m <-> defect cf fmts pre m).
Proof.
  destruct m as [ty p]. cbn [snd]. intros Hb. destruct (Z.eq_dec ty 68) as [->|N].
  - unfold stops, defect. cbn [fst snd]. transitivity (no_stamp cf fmts pre p); [|split; [tauto|intros [(H & _)|[(H & _)|[(H & _)|[(H & _)|[(H & _)|[(H & _)|(_ & H)]]]]]]; (exact H || lia)]].
    unfold no_stamp. split.
    + intros [(H & _)|(_ & [H|(id & s & rs & Hi & Hs & Hf & Ht)])]; [lia| |].
      * left. destruct p as [|a [|b r]]; cbn [length]; try lia. discriminate.
      * right. destruct p as [|lo [|hi r]]; try discriminate. injection Hi as <-.
        exists lo, hi, r, s, rs. split; auto. split; [exact Hs|].
        assert (Ho : 0 <= sb_tsoff s) by (eapply subscription_ok; eauto).
        apply (stamp_none s _ Hf Ho) in Ht. unfold fits in Hf. rewrite !lenZ_cons in Hf. lia.
    + intros [H|(lo & hi & r & s & rs & -> & Hs & Hf & Ht)]; right; split; auto.
      * left. destruct p as [|a [|b r]]; auto. cbn [length] in H. lia.
      * right. exists (lo + 256 * hi), s, rs. split; auto. split; auto.
        assert (Hf' : fits s (lo :: hi :: r) = true) by (unfold fits; rewrite !lenZ_cons; lia).
        split; auto. apply stamp_none; auto. eapply subscription_ok; eauto.
  - rewrite <- (defect_not_data cf fmts pre ty p ulog0 N Hb). unfold stops, malformed. cbn [fst snd]. split.
    + intros [(_ & u & u' & H)|(H & _)]; [|lia].
      apply (defect_not_data cf fmts pre ty p ulog0 N Hb). apply (defect_not_data cf fmts pre ty p u N Hb). exists u'. exact H.
    + intros (u' & H). left. split; auto. exists ulog0, u'. exact H.
Qed.

(** ** The section ends at a defect *)
Lemma stops_run cf pre m u u2 : u_subs u = [] -> bytes_ok (snd m) -> run_data cf pre u = RDone u2 ->
  stops cf (u_formats u) (msgs pre) m -> exists u3, data_effect cf (fst m) (snd m) u2 = Some (u3, Some StructError).
Proof.
  intros Hs Hb Hr Hst. destruct m as [ty p]. cbn [fst snd] in *. destruct (Z.eq_dec ty 68) as [->|N].
  - rewrite <- run_data_events in Hr.
    pose proof (finishes_sec cf (msgs pre) u u2 Hs (fin_done _ _ _ _ Hr)) as [_ Hsub _ _ _ _].
    change (exists u3, Some (data_msg p u2) = Some (u3, Some StructError)).
    pose proof (data_msg_spec p u2) as Hsp.
    destruct Hst as [(H & _)|(_ & [H|(id & s & rs & Hi & Hsb & Hf & Ht)])]; cbn [fst snd] in *; [lia| |].
    + rewrite H in Hsp. rewrite Hsp. eauto.
    + rewrite Hi, Hsub, Hsb in Hsp. cbn [option_map fst snd] in Hsp.
      assert (Ho : 0 <= sb_tsoff (set_buf (concat rs) s)) by (change (0 <= sb_tsoff s); eapply subscription_ok; eauto).
      specialize (Hsp Ho). change (fits (set_buf (concat rs) s) p) with (fits s p) in Hsp.
      change (stamp (set_buf (concat rs) s) p) with (stamp s p) in Hsp. rewrite Hf in Hsp. cbv zeta in Hsp. rewrite Ht in Hsp.
      rewrite Hsp. eauto.
  - apply (stops_defect cf _ _ (ty, p) Hb) in Hst. apply (defect_not_data cf _ _ ty p u2 N Hb) in Hst. exact Hst.
Qed.
Lemma run_data_stops cf pre m post u : u_subs u = [] -> bytes_ok (snd m) -> stops cf (u_formats u) (msgs pre) m ->
  run_data cf (pre ++ m :: post) u = run_data cf (pre ++ [m]) u.
Proof.
  intros Hs Hb Hst. rewrite !run_data_app. destruct (run_data cf pre u) as [u2|u2|e] eqn:E; auto.
  destruct (stops_run cf pre m u u2 Hs Hb E Hst) as (u3 & H). destruct m as [ty p]. cbn [run_data fst snd] in *. now rewrite H.
Qed.
