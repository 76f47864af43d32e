(** Writing a log and reading it back. *)
From Coq Require Import Permutation Sorted.
From Verif Require Import Base Dict Utf8 PyStr PyFloat Struct PySort ModelTypes ModelRead ModelWrite
  Spec SpecSection SpecMsg SpecLog SpecWrite ProofsRead ProofsMsg ProofsFile ProofsInv ProofsTrace ProofsChange
  ProofsSection ProofsExpand ProofsData ProofsWhole ProofsFields ProofsLoad ProofsCut ProofsDefaults ProofsLog ProofsEq ProofsWrite.
Ltac Zify.zify_post_hook ::= Z.div_mod_to_equations.

(** ** Values *)
Lemma widen_quiet b : 0 <= b < 4294967296 -> 0 <= f32_quiet b < 4294967296 /\ widen (f32_quiet b) = widen b.
Proof.
  intros Hb. unfold f32_quiet. destruct (f32_is_snan b) eqn:E; [|auto].
  unfold f32_is_snan, f32_is_nan in E.
  assert (P : f32_exp b = 255 /\ 0 < f32_man b < 4194304) by (unfold f32_man, f32_exp in *; lia).
  assert (Q : f32_sign (b + 4194304) = f32_sign b /\ f32_exp (b + 4194304) = 255 /\ f32_man (b + 4194304) = f32_man b + 4194304).
  { unfold f32_sign, f32_exp, f32_man in *. lia. }
  split; [unfold f32_exp, f32_man in *; lia|]. unfold widen. destruct Q as (-> & -> & ->). destruct P as [-> P].
  rewrite Z.eqb_refl. replace (f32_man b =? 0) with false by lia. replace (f32_man b + 4194304 =? 0) with false by lia.
  replace (f32_man b <? 4194304) with true by lia. replace (f32_man b + 4194304 <? 4194304) with false by lia. reflexivity.
Qed.

Lemma starts_lit p s : starts_with p (p ++ s) = true.
Proof. induction p as [|c p IH]; [destruct s; reflexivity|]. cbn [starts_with app]. rewrite Z.eqb_refl. exact IH. Qed.
Lemma char_not_uint r : starts_with (lit "char[") (lit "uint8_t[" ++ r) = false.
Proof. reflexivity. Qed.
Lemma starts_uint c : starts_with (lit "uint8_t[") (ctype_name c) = false.
Proof. destruct c; reflexivity. Qed.

Lemma of_signed_mod n z : (0 < n)%nat -> - (256 ^ Z.of_nat n / 2) <= z < 256 ^ Z.of_nat n / 2 ->
  of_signed n z = z mod 256 ^ Z.of_nat n.
Proof.
  intros Hn H. unfold of_signed. pose proof (pow256_pos n) as Hp. pose proof (pow256_even n Hn) as He.
  generalize dependent (256 ^ Z.of_nat n). intros k Hk. intros. destruct (Z.ltb_spec z 0).
  - replace (z + k) with (z + 1 * k) by lia. rewrite <- (Z.mod_small (z + 1 * k) k) by lia. now rewrite Z.mod_add by lia.
  - now rewrite Z.mod_small by lia.
Qed.

Lemma write_value_typed ty raw v : type_written ty -> bytes_ok raw -> typed ty raw v ->
  exists raw', write_value ty v = Ok raw' /\ typed ty raw' v /\ lenZ raw' = lenZ raw /\ bytes_ok raw'.
Proof.
  intros Hw Hb H. destruct H.
  - exists (utf8 s). unfold write_value. rewrite starts_lit, utf8_ok by assumption. repeat split; auto. now constructor.
  - exists (le_enc (ctype_size c) z). unfold write_value. rewrite starts_char, starts_uint, ctype_of_name.
    split; [|split; [now constructor|auto]].
    assert (ctype_signed c = false) by (repeat (destruct H as [<-|H]; [reflexivity|]); destruct H).
    assert (pack_val c (VInt z) = pack_int c z) as -> by (repeat (destruct H as [<-|H]; [reflexivity|]); destruct H).
    unfold pack_int. rewrite H1. unfold pack_u. replace ((0 <=? z) && (z <? 256 ^ Z.of_nat (ctype_size c))) with true by lia. reflexivity.
  - exists (le_enc (ctype_size c) (z mod 256 ^ Z.of_nat (ctype_size c))). unfold write_value. rewrite starts_char, starts_uint, ctype_of_name.
    split; [|split; [now constructor|auto]].
    assert (ctype_signed c = true) by (repeat (destruct H as [<-|H]; [reflexivity|]); destruct H).
    assert (pack_val c (VInt z) = pack_int c z) as -> by (repeat (destruct H as [<-|H]; [reflexivity|]); destruct H).
    unfold pack_int. rewrite H1. replace ((- (256 ^ Z.of_nat (ctype_size c) / 2) <=? z) && (z <? 256 ^ Z.of_nat (ctype_size c) / 2)) with true by lia.
    rewrite of_signed_mod; auto. apply ctype_size_pos.
  - destruct (widen_quiet b H) as [H1 H2]. exists (le_enc 4 (f32_quiet b)). split.
    + change (write_value (lit "float") (VFloat (widen b))) with (match narrow (widen b) with Some r => Ok (le_enc 4 r) | None => Err OverflowError end).
      now rewrite narrow_widen.
    + split; [rewrite <- H2; now constructor|]. split; [reflexivity|apply le_enc_bytes_ok].
  - exists (le_enc 8 b). split; [reflexivity|]. split; [now constructor|]. split; [reflexivity|apply le_enc_bytes_ok].
  - destruct (Z.eqb_spec b 0) as [->|Hb0].
    + exists [0]. split; [reflexivity|]. split; [exact (ty_bool 0 H)|]. split; [reflexivity|exact Hb].
    + exists [1]. split; [reflexivity|]. split.
      * replace (VBool (negb false)) with (VBool (negb (1 =? 0))) by reflexivity. constructor. unfold byte_ok. lia.
      * split; [reflexivity|]. constructor; [unfold byte_ok; lia|constructor].
  - exists [b]. split; [reflexivity|]. split; [constructor|auto].
  - destruct Hw as [(c & ->)|[(r & ->)|(r & ->)]]; [destruct (H c eq_refl)|destruct (H0 r eq_refl)|].
    exists raw. unfold write_value. rewrite char_not_uint, starts_lit. split; [reflexivity|]. split; [now constructor|auto].
Qed.

(** an info-like message is written *)
Lemma info_data_ok ty key v c : kv_fits ty key v -> match c with Some z => u8 z | None => True end ->
  exists raw, info_data (ty ++ [32] ++ key) v ty c = Ok (match c with Some z => [z] | None => [] end ++ kv_bytes ty key raw) /\
    kv_ok ty key raw /\ typed ty raw v /\ lenZ (kv_bytes ty key raw) < 65535.
Proof.
  intros (Hw & raw & (K1 & K2 & K3 & K4 & _) & Ht & Hl) Hc.
  destruct (write_value_typed ty raw v Hw K4 Ht) as (raw' & W1 & W2 & W3 & W4).
  exists raw'. split; [|split; [|split; [exact W2|]]].
  - unfold info_data. rewrite utf8_ok by now apply str_ok_kv. cbn [bind].
    assert ((match c with Some c => pack_u 1 c | None => Ok [] end) = Ok (match c with Some z => [z] | None => [] end)) as ->.
    { destruct c as [z|]; [|reflexivity]. unfold pack_u. change (256 ^ Z.of_nat 1) with 256. unfold u8 in Hc.
      replace ((0 <=? z) && (z <? 256)) with true by lia. now rewrite le_enc_1. }
    cbn [bind]. unfold pack_u. change (256 ^ Z.of_nat 1) with 256.
    pose proof (lenZ_nonneg (utf8 (ty ++ [32] ++ key))) as Hn.
    replace ((0 <=? lenZ (utf8 (ty ++ [32] ++ key))) && (lenZ (utf8 (ty ++ [32] ++ key)) <? 256)) with true by lia.
    cbn [bind]. rewrite W1. cbn [bind]. rewrite le_enc_1 by (unfold u8; lia). reflexivity.
  - repeat split; eauto; try apply K1; try apply K2.
  - unfold kv_bytes in *. rewrite !lenZ_app, W3 in *. exact Hl.
Qed.

(** ** Messages and their decoded forms *)
Definition fr (m : msg) : bytes := frame (fst (wire m)) (snd (wire m)).
Lemma frames_fr ms : concat (map fr ms) = frames (map wire ms).
Proof. unfold frames. now rewrite map_map. Qed.
Lemma mapM_msgs {A} (f : A -> res bytes) (P : A -> msg -> Prop) l :
  (forall x, In x l -> exists m, f x = Ok (fr m) /\ P x m) ->
  exists ms, mapM f l = Ok (map fr ms) /\ Forall2 P l ms.
Proof.
  induction l as [|x l IH]; intros H; [exists []; split; [reflexivity|constructor]|].
  destruct (H x) as (m & Hm & Hp); [now left|]. destruct IH as (ms & H1 & H2); [intros; apply H; now right|].
  exists (m :: ms). cbn [mapM map]. rewrite Hm, H1. split; [reflexivity|constructor; auto].
Qed.
Lemma mapM_lists {A B} (f : A -> res (list bytes)) (e : A -> list B) (P : B -> msg -> Prop) l :
  (forall x, In x l -> exists ms, f x = Ok (map fr ms) /\ Forall2 P (e x) ms) ->
  exists ms, rmap (@concat bytes) (mapM f l) = Ok (map fr ms) /\ Forall2 P (flat_map e l) ms.
Proof.
  induction l as [|x l IH]; intros H; [exists []; split; [reflexivity|constructor]|].
  destruct (H x) as (ms & Hm & Hp); [now left|]. destruct IH as (ms' & H1 & H2); [intros; apply H; now right|].
  exists (ms ++ ms'). cbn [mapM flat_map]. rewrite Hm. destruct (mapM f l); [|discriminate]. cbn [bind rmap] in *.
  injection H1 as E. split; [|apply Forall2_app; auto]. cbn [concat]. now rewrite E, map_app.
Qed.
Lemma Forall2_map_l {A B C} (f : A -> B) (P : B -> C -> Prop) l l' :
  Forall2 (fun x y => P (f x) y) l l' -> Forall2 P (map f l) l'.
Proof. induction 1; constructor; auto. Qed.

Definition is_info (im : infomsg) (m : msg) : Prop := exists raw,
  m = MInfo (im_type im) (im_key im) raw /\ msg_ok m /\ typed (im_type im) raw (im_value im).
Definition is_param (im : infomsg) (m : msg) : Prop := exists raw,
  m = MParam (im_type im) (im_key im) raw /\ msg_ok m /\ typed (im_type im) raw (im_value im).
Definition is_multi (ci : Z * infomsg) (m : msg) : Prop := exists raw,
  m = MMulti (fst ci) (im_type (snd ci)) (im_key (snd ci)) raw /\ msg_ok m /\ typed (im_type (snd ci)) raw (im_value (snd ci)).
Definition is_pdef (bi : Z * infomsg) (m : msg) : Prop := exists raw,
  m = MDefault (fst bi) (im_type (snd bi)) (im_key (snd bi)) raw /\ msg_ok m /\ typed (im_type (snd bi)) raw (im_value (snd bi)).

Definition tname (v : value) : str := match v with VFloat _ => lit "float" | _ => lit "int32_t" end.
Definition pinfo (kv : str * value) : infomsg := mkInfo (tname (snd kv)) (fst kv) (snd kv).
Definition type_in (d : dict str str) (k : str) : str := match sget k d with Some t => t | None => [] end.
Definition info_entries (u : ulog) : list infomsg :=
  map (fun kv => mkInfo (type_in (u_infot u) (fst kv)) (fst kv) (snd kv)) (u_info u).
Definition marks (vs : list value) : list (Z * value) :=
  match vs with [] => [] | v :: r => (0, v) :: map (pair 1) r end.
Definition multi_entries (u : ulog) : list (Z * infomsg) :=
  flat_map (fun kv => flat_map (fun vs => map (fun cv => (fst cv, mkInfo (type_in (u_multit u) (fst kv)) (fst kv) (snd cv))) (marks vs)) (snd kv)) (u_multi u).
Definition default_entries (u : ulog) : list (Z * infomsg) :=
  flat_map (fun td => map (fun kv => (2 ^ fst td, pinfo kv)) (snd td)) (u_defaults u).

Lemma put_fr m d : lenZ (snd (wire m)) < 65536 -> d = snd (wire m) -> put_msg (fst (wire m)) d = Ok (fr m).
Proof. intros H ->. now apply put_msg_ok. Qed.

Lemma info_written u : fits_format u -> exists ms, write_info u = Ok (map fr ms) /\ Forall2 is_info (info_entries u) ms.
Proof.
  intros Hf. destruct (ff_info u Hf) as (_ & _ & H).
  destruct (mapM_msgs (fun kv => let* ty := lookup (fst kv) (u_infot u) in
    let* d := info_data (ty ++ [32] ++ fst kv) (snd kv) ty None in put_msg T_INFO d)
    (fun kv m => is_info (mkInfo (type_in (u_infot u) (fst kv)) (fst kv) (snd kv)) m) (u_info u)) as (ms & H1 & H2).
  { intros [k v] Hin. destruct (H k v Hin) as (ty & Ht & Hk). cbn [fst snd].
    destruct (info_data_ok ty k v None Hk I) as (raw & D1 & D2 & D3 & D4).
    unfold lookup, type_in. rewrite Ht. cbn [bind]. rewrite D1. cbn [bind app].
    exists (MInfo ty k raw). split; [apply (put_fr (MInfo ty k raw)); [cbn [wire snd]; lia|reflexivity]|].
    exists raw. split; [reflexivity|]. split; [split; [exact D2|cbn [wire snd]; lia]|exact D3]. }
  exists ms. split; [exact H1|]. unfold info_entries. now apply Forall2_map_l.
Qed.

Lemma param_data_ok name v : param_fits name v -> exists raw,
  parameter_data name v = Ok (kv_bytes (tname v) name raw) /\
  kv_ok (tname v) name raw /\ typed (tname v) raw v /\ lenZ (kv_bytes (tname v) name raw) < 65535.
Proof.
  intros [(z & -> & Hk)|(b & -> & Hk)]; destruct (info_data_ok _ _ _ None Hk I) as (raw & D1 & D2 & D3 & D4);
    exists raw; (split; [exact D1|]); auto.
Qed.
Lemma param_written l : (forall k v, In (k, v) l -> param_fits k v) ->
  exists ms, mapM (fun kv => let* d := parameter_data (fst kv) (snd kv) in put_msg T_PARAM d) l = Ok (map fr ms) /\
    Forall2 is_param (map pinfo l) ms.
Proof.
  intros H.
  destruct (mapM_msgs (fun kv => let* d := parameter_data (fst kv) (snd kv) in put_msg T_PARAM d)
    (fun kv m => is_param (pinfo kv) m) l) as (ms & H1 & H2).
  { intros [k v] Hin. destruct (param_data_ok k v (H k v Hin)) as (raw & D1 & D2 & D3 & D4). cbn [fst snd].
    rewrite D1. cbn [bind]. exists (MParam (tname v) k raw).
    split; [apply (put_fr (MParam (tname v) k raw)); [cbn [wire snd]; lia|reflexivity]|].
    exists raw. split; [reflexivity|]. split; [split; [exact D2|cbn [wire snd]; lia]|exact D3]. }
  exists ms. split; [exact H1|]. now apply Forall2_map_l.
Qed.
Lemma defaults_written u : fits_format u -> exists ms, write_defaults u = Ok (map fr ms) /\ Forall2 is_pdef (default_entries u) ms.
Proof.
  intros Hf. destruct (ff_defaults u Hf) as (_ & H). unfold write_defaults, default_entries. apply mapM_lists.
  intros [t d] Hin. destruct (H t d Hin) as (Ht & _ & _ & Hd). cbn [fst snd].
  replace (t <? 0) with false by lia.
  destruct (mapM_msgs (fun kv => let* b := pack_u 1 (2 ^ t) in let* d := parameter_data (fst kv) (snd kv) in put_msg T_PDEF (b ++ d))
    (fun kv m => is_pdef (2 ^ t, pinfo kv) m) d) as (ms & H1 & H2).
  { intros [k v] Hkv. destruct (param_data_ok k v (Hd k v Hkv)) as (raw & D1 & D2 & D3 & D4). cbn [fst snd].
    assert (Hb : u8 (2 ^ t)) by (destruct Ht as [-> | ->]; unfold u8; cbn; lia).
    assert (pack_u 1 (2 ^ t) = Ok [2 ^ t]) as -> by (destruct Ht as [-> | ->]; reflexivity).
    cbn [bind]. rewrite D1. cbn [bind]. exists (MDefault (2 ^ t) (tname v) k raw).
    assert (Hl : lenZ (snd (wire (MDefault (2 ^ t) (tname v) k raw))) < 65536).
    { cbn [wire snd]. rewrite lenZ_app. change (lenZ [2 ^ t]) with 1. lia. }
    split; [apply (put_fr (MDefault (2 ^ t) (tname v) k raw)); [exact Hl|reflexivity]|].
    exists raw. split; [reflexivity|]. split; [split; [split; [exact Hb|exact D2]|exact Hl]|exact D3]. }
  exists ms. split; [exact H1|]. now apply Forall2_map_l.
Qed.

Lemma set_written key ty vs : forall c, u8 c -> (forall v, In v vs -> kv_fits ty key v) ->
  exists ms, write_set (ty ++ [32] ++ key) ty c vs = Ok (map fr ms) /\
    Forall2 is_multi (map (fun cv => (fst cv, mkInfo ty key (snd cv))) (match vs with [] => [] | v :: r => (c, v) :: map (pair 1) r end)) ms.
Proof.
  induction vs as [|v vs IH]; intros c Hc H; [exists []; split; [reflexivity|constructor]|].
  destruct (info_data_ok ty key v (Some c) (H v (or_introl eq_refl)) Hc) as (raw & D1 & D2 & D3 & D4).
  destruct (IH 1 ltac:(unfold u8; lia)) as (ms & H1 & H2); [intros; apply H; now right|].
  exists (MMulti c ty key raw :: ms).
  assert (Hl : lenZ (snd (wire (MMulti c ty key raw))) < 65536).
  { cbn [wire snd]. rewrite lenZ_app. change (lenZ [c]) with 1. lia. }
  split.
  - cbn [write_set map]. rewrite D1. cbn [bind].
    pose proof (put_fr (MMulti c ty key raw) _ Hl eq_refl) as Hp. cbn [wire fst snd] in Hp.
    change T_MULTI with 77. rewrite Hp. cbn [bind]. rewrite H1. reflexivity.
  - cbn [map]. constructor.
    + exists raw. split; [reflexivity|]. split; [split; [split; [exact Hc|exact D2]|exact Hl]|exact D3].
    + replace (map (pair 1) vs) with (match vs with [] => [] | v :: r => (1, v) :: map (pair 1) r end) by (destruct vs; reflexivity). exact H2.
Qed.
Lemma multi_written u : fits_format u -> exists ms, write_multi u = Ok (map fr ms) /\ Forall2 is_multi (multi_entries u) ms.
Proof.
  intros Hf. destruct (ff_multi u Hf) as (_ & _ & H). unfold write_multi, multi_entries. apply mapM_lists.
  intros [k ls] Hin. destruct (H k ls Hin) as (_ & ty & Ht & Hl). cbn [fst snd]. unfold lookup, type_in. rewrite Ht. cbn [bind].
  apply mapM_lists. intros vs Hvs. apply set_written; [unfold u8; lia|]. exact (proj2 (Hl vs Hvs)).
Qed.

Lemma utf8_app a b : str_ok a -> str_ok b -> utf8 (a ++ b) = utf8 a ++ utf8 b.
Proof.
  intros Ha Hb. pose proof (utf8_ok _ (str_ok_app _ _ Ha Hb)) as H. rewrite (utf8_encode_app _ _ _ _ (utf8_ok _ Ha) (utf8_ok _ Hb)) in H. congruence.
Qed.

Lemma field_written f : field_ok f -> write_field f = Ok (utf8 (field_text f)).
Proof.
  destruct f as [[ty n] name]. intros (Ht & Hn & Hname). unfold write_field, field_text.
  destruct (Z.ltb_spec 0 n); cbn [app]; rewrite <- ?app_assoc; cbn [app]; apply utf8_ok.
  - repeat first [apply str_ok_app|apply Ht|apply Hname|apply digits_ok; lia|constructor; [reflexivity|]|constructor].
  - repeat first [apply str_ok_app|apply Ht|apply Hname|apply digits_ok; lia|constructor; [reflexivity|]|constructor].
Qed.
Lemma field_text_ok f : field_ok f -> str_ok (field_text f).
Proof. intros H. apply field_written in H. unfold write_field in H. destruct f as [[ty n] name].
  apply utf8_inv in H as [H _]. unfold field_text. destruct (0 <? n); [|exact H].
  repeat (rewrite <- ?app_assoc in *; cbn [app] in * ). exact H.
Qed.
Definition m_formats (u : ulog) : list msg := map (fun km => MFormat (mf_name (snd km)) (mf_fields (snd km))) (u_formats u).
Lemma formats_written u : fits_format u -> write_formats u = Ok (map fr (m_formats u)) /\ Forall msg_ok (m_formats u).
Proof.
  intros Hf. destruct (ff_formats u Hf) as (_ & H). split.
  - unfold write_formats, m_formats. rewrite map_map.
    rewrite (mapM_ok _ (fun m => fr (MFormat (mf_name m) (mf_fields m)))), map_map; [reflexivity|].
    intros m Hm. apply in_map_iff in Hm as ([k m'] & <- & Hin). cbn [snd]. destruct (H k m' Hin) as [_ Hok].
    destruct Hok as [[Hw Hfs] Hl].
    assert (Hn : str_ok (mf_name m' ++ [58])) by (apply str_ok_app; [apply Hw|repeat constructor]).
    rewrite utf8_ok by exact Hn. cbn [bind].
    rewrite (mapM_ok _ (fun f => utf8 (field_text f))) by (intros f Hin'; apply field_written; rewrite Forall_forall in Hfs; auto).
    cbn [bind]. apply (put_fr (MFormat (mf_name m') (mf_fields m'))); [exact Hl|]. cbn [wire snd]. unfold format_text.
    rewrite app_assoc. clear - Hn Hfs. symmetry.
    assert (E : utf8 (concat (map field_text (mf_fields m'))) = concat (map (fun f => utf8 (field_text f)) (mf_fields m')) /\ str_ok (concat (map field_text (mf_fields m')))).
    { induction Hfs as [|f fs H1 _ [IH1 IH2]]; [split; [reflexivity|constructor]|]. cbn [map concat].
      apply field_text_ok in H1. split; [rewrite utf8_app, IH1 by assumption; reflexivity|now apply str_ok_app]. }
    destruct E as [E1 E2]. rewrite utf8_app by assumption. now rewrite E1.
  - apply Forall_map, Forall_forall. intros [k m] Hin. exact (proj2 (H k m Hin)).
Qed.

(** ** Samples *)
Definition rawn (ds : dataset) (i : nat) (name : str) : Z := nth i (raws ds name) 0.
Definition rec (ds : dataset) (i : nat) : bytes :=
  concat (map (fun fd => le_enc (ctype_size (fd_type fd)) (rawn ds i (fd_name fd))) (ds_fields ds)).
Definition m_add (ds : dataset) : msg := MAdd (ds_multi ds) (ds_id ds) (ds_name ds).
Definition m_data (ds : dataset) (i : nat) : msg := MData (ds_id ds) (rec ds i).

Lemma elem_written c raw : elem_fits c raw -> write_elem c (np_elem (np_of c) raw) = Ok (le_enc (ctype_size c) raw).
Proof.
  intros [Hr Hc].
  assert (S : ctype_signed c = true -> - (256 ^ Z.of_nat (ctype_size c) / 2) <= to_signed (ctype_size c) raw < 256 ^ Z.of_nat (ctype_size c) / 2)
    by (intros _; apply to_signed_range; [apply ctype_size_pos|exact Hr]).
  assert (T : of_signed (ctype_size c) (to_signed (ctype_size c) raw) = raw) by (apply of_to_signed; [apply ctype_size_pos|exact Hr]).
  assert (PI : pack_int c (if ctype_signed c then to_signed (ctype_size c) raw else raw) = Ok (le_enc (ctype_size c) raw)).
  { unfold pack_int. destruct (ctype_signed c) eqn:E.
    - specialize (S eq_refl). rewrite T. replace (_ && _) with true by lia. reflexivity.
    - unfold pack_u. replace (_ && _) with true by lia. reflexivity. }
  destruct c; try exact PI.
  - cbn [np_of np_elem write_elem pack_val]. rewrite narrow_widen_exact; auto.
  - reflexivity.
  - cbn [np_of np_elem write_elem pack_val ctype_size] in *. f_equal.
    assert (raw = 0 \/ raw = 1) as [-> | ->] by lia; reflexivity.
  - cbn [np_of np_elem write_elem ctype_size] in *.
    assert (to_signed 1 raw = raw) as -> by (unfold to_signed; change (256 ^ Z.of_nat 1 / 2) with 128; replace (raw <? 128) with true by lia; reflexivity).
    replace ((0 <=? raw) && (raw <? 1114112)) with true by lia.
    cbn [utf8_encode]. unfold scalar_ok. replace ((0 <=? raw) && (raw <=? 1114111) && negb ((55296 <=? raw) && (raw <=? 57343))) with true by lia.
    unfold utf8_enc1. replace (raw <? 128) with true by lia. cbn [bind app pack_val]. rewrite le_enc_1 by (unfold u8; lia). reflexivity.
Qed.

Section Dataset.
  Context (fmts : dict str mformat) (ds : dataset) (Hds : dataset_fits fmts ds).
  Lemma ds_column fd i : In fd (ds_fields ds) -> (i < samples_in ds)%nat ->
    element (fd_name fd) i ds = Ok (np_elem (np_of (fd_type fd)) (rawn ds i (fd_name fd))) /\
    elem_fits (fd_type fd) (rawn ds i (fd_name fd)).
  Proof.
    intros Hin Hi. destruct (df_columns _ _ Hds) as (n & Hn & Hc).
    assert (Hs : samples_in ds = n).
    { unfold samples_in. destruct (ds_fields ds) as [|fd0 r] eqn:E; [destruct Hin|].
      destruct (Hc fd0) as (l & Hl & Hlen & _); [now left|]. now rewrite Hl. }
    destruct (Hc fd Hin) as (l & Hl & Hlen & Hfit). unfold element, lookup, rawn, raws. rewrite Hl. cbn [bind c_raw c_type].
    rewrite (nth_error_nth' l 0) by lia. split; [reflexivity|].
    rewrite Forall_forall in Hfit. apply Hfit, nth_In. lia.
  Qed.
  Lemma ds_count : exists n, (0 < n)%nat /\ samples_in ds = n /\ forall fd, In fd (ds_fields ds) -> length (raws ds (fd_name fd)) = n.
  Proof.
    destruct (df_columns _ _ Hds) as (n & Hn & Hc). exists n. split; [exact Hn|].
    assert (R : forall fd, In fd (ds_fields ds) -> length (raws ds (fd_name fd)) = n).
    { intros fd Hin. destruct (Hc fd Hin) as (l & Hl & Hlen & _). unfold raws. now rewrite Hl. }
    split; [|exact R]. unfold samples_in. pose proof (tp_stamp _ _ _ (df_topic _ _ Hds)) as Hst.
    destruct (ds_fields ds) as [|fd0 r]; [destruct Hst|].
    specialize (R fd0 (or_introl eq_refl)). unfold raws in R. destruct (sget _ _); exact R.
  Qed.
  Lemma ds_stamp : In (mkFD (lit "timestamp") U64) (ds_fields ds).
  Proof. exact (tp_stamp _ _ _ (df_topic _ _ Hds)). Qed.
  Lemma rec_total i : lenZ (rec ds i) = total (ds_fields ds).
  Proof.
    unfold rec. induction (ds_fields ds) as [|fd l IH]; [reflexivity|]. cbn [map concat].
    change (total (fd :: l)) with (size_of fd + total l). rewrite lenZ_app, IH. unfold lenZ. now rewrite length_le_enc.
  Qed.
  Lemma rec_bytes i : bytes_ok (rec ds i).
  Proof.
    unfold rec. induction (ds_fields ds) as [|fd l IH]; [constructor|]. cbn [map concat]. apply Forall_app. split; [apply le_enc_bytes_ok|exact IH].
  Qed.
  Lemma data_msg_ok i : msg_ok (m_data ds i).
  Proof.
    destruct (df_ids _ _ Hds) as (_ & H2 & _ & _ & H5). split; [split; [exact H2|apply rec_bytes]|].
    unfold m_data. cbn [wire snd]. rewrite lenZ_app, rec_total, lenZ_le. change (Z.of_nat 2) with 2. lia.
  Qed.
  Lemma add_msg_ok : msg_ok (m_add ds).
  Proof.
    destruct (df_ids _ _ Hds) as (H1 & H2 & H3 & H4 & _). split; [exact (conj H1 (conj H2 H3))|].
    change (lenZ ([ds_multi ds] ++ le_enc 2 (ds_id ds) ++ utf8 (ds_name ds)) < 65536).
    rewrite !lenZ_app, lenZ_le. change (Z.of_nat 2) with 2. change (lenZ [ds_multi ds]) with 1. lia.
  Qed.
  Lemma sample_written i : (i < samples_in ds)%nat ->
    sample_item ds i = Ok (rawn ds i (lit "timestamp"), fr (m_data ds i)).
  Proof.
    intros Hi. unfold sample_item. destruct (ds_column _ _ ds_stamp Hi) as [E1 _]. cbn [fd_name fd_type] in E1. rewrite E1.
    cbn [bind np_of np_elem ctype_size ctype_signed]. destruct (df_ids _ _ Hds) as (_ & H2 & _).
    assert (pack_u 2 (ds_id ds) = Ok (le_enc 2 (ds_id ds))) as ->.
    { unfold pack_u. change (256 ^ Z.of_nat 2) with 65536. unfold u16 in H2. now replace (_ && _) with true by lia. }
    cbn [bind].
    rewrite (mapM_ok _ (fun fd => le_enc (ctype_size (fd_type fd)) (rawn ds i (fd_name fd)))).
    2:{ intros fd Hin. destruct (ds_column fd i Hin Hi) as [E2 E3]. rewrite E2. cbn [bind]. now apply elem_written. }
    cbn [bind]. pose proof (put_fr (m_data ds i) _ (proj2 (data_msg_ok i)) eq_refl) as Hp.
    unfold m_data in Hp at 1 2. cbn [wire fst snd] in Hp. change T_DATA with 68. unfold rec in Hp. rewrite Hp. reflexivity.
  Qed.
  Lemma add_written : (let* m := pack_u 1 (ds_multi ds) in let* i := pack_u 2 (ds_id ds) in
      let* n := utf8_encode (ds_name ds) in put_msg T_ADD (m ++ i ++ n)) = Ok (fr (m_add ds)).
  Proof.
    destruct (df_ids _ _ Hds) as (H1 & H2 & H3 & H4 & _). unfold pack_u. change (256 ^ Z.of_nat 2) with 65536. change (256 ^ Z.of_nat 1) with 256.
    unfold u8, u16 in *. replace ((0 <=? ds_multi ds) && (ds_multi ds <? 256)) with true by lia.
    replace ((0 <=? ds_id ds) && (ds_id ds <? 65536)) with true by lia. cbn [bind]. rewrite utf8_ok by exact H3. cbn [bind].
    rewrite le_enc_1 by exact H1. apply (put_fr (m_add ds)); [apply add_msg_ok|reflexivity].
  Qed.
End Dataset.

(** ** The data section as a list of timed messages *)
Definition timed := (Z * msg)%type.
Definition it (p : timed) : item := (fst p, fr (snd p)).
Definition p_ds (ds : dataset) : list timed := map (fun i => (rawn ds i (lit "timestamp"), m_data ds i)) (seq 0 (samples_in ds)).
Definition p_data (u : ulog) : list timed := flat_map p_ds (by_id u).
Definition p_log (u : ulog) : list timed := map (fun m => (lg_ts m, MLog (lg_level m) (lg_ts m) (lg_msg m))) (u_logged u).
Definition t_tag (m : tagmsg) : timed := (tg_ts m, MTag (tg_level m) (tg_tag m) (tg_ts m) (tg_msg m)).
Definition p_tag (u : ulog) : list timed := map t_tag (concat (map snd (u_tagged u))).
Definition p_drop (u : ulog) : list timed := map (fun d => (dr_ts d, MDrop (dr_dur d))) (u_dropouts u).
Definition is_change (c : Z * str * value) (p : timed) : Prop :=
  fst p = fst (fst c) /\ is_param (pinfo (snd (fst c), snd c)) (snd p).

Lemma by_id_In u ds : In ds (by_id u) <-> In ds (u_data u).
Proof.
  split; intros H; [eapply Permutation_in; [apply Permutation_sym, (ssort_perm id_leb)|exact H]|eapply Permutation_in; [apply (ssort_perm id_leb)|exact H]].
Qed.
Lemma fits_ds u ds : fits_format u -> In ds (by_id u) -> dataset_fits (u_formats u) ds.
Proof. intros Hf H. apply by_id_In in H. destruct (ff_data u Hf) as (H1 & _). rewrite Forall_forall in H1. auto. Qed.
Lemma subs_written u : fits_format u -> write_subscriptions u = Ok (map fr (map m_add (by_id u))).
Proof.
  intros Hf. unfold write_subscriptions. rewrite (mapM_ok _ (fun ds => fr (m_add ds))), map_map; [reflexivity|].
  intros ds Hin. apply (add_written _ _ (fits_ds u ds Hf Hin)).
Qed.
Lemma data_written u : fits_format u -> data_items u = Ok (map it (p_data u)).
Proof.
  intros Hf. unfold data_items, p_data.
  assert (H : forall ds, In ds (by_id u) -> dataset_items ds = Ok (map it (p_ds ds))).
  { intros ds Hin. pose proof (fits_ds u ds Hf Hin) as Hd. unfold dataset_items.
    pose proof (ds_stamp _ _ Hd) as Hst. destruct (ds_fields ds) as [|fd r] eqn:E; [destruct Hst|].
    destruct (df_columns _ _ Hd) as (n & Hn & Hc). destruct (Hc fd) as (l & Hl & Hlen & _); [rewrite E; now left|].
    unfold lookup. rewrite Hl. cbn [bind c_raw].
    assert (Hs : samples_in ds = length l) by (unfold samples_in; rewrite E, Hl; reflexivity).
    unfold p_ds. rewrite map_map, Hs. apply mapM_ok. intros i Hi. apply in_seq in Hi. cbn [it fst snd].
    apply (sample_written _ _ Hd). lia. }
  rewrite (mapM_ok _ (fun ds => map it (p_ds ds)) _ H). cbn [rmap bind]. f_equal.
  rewrite <- flat_map_concat_map. induction (by_id u) as [|ds l IH]; [reflexivity|]. cbn [flat_map]. rewrite map_app. f_equal. apply IH.
  intros; apply H; now right.
Qed.
Ltac packed z := let H := fresh in assert (H : forall n, 0 <= z < 256 ^ Z.of_nat n -> pack_u n z = Ok (le_enc n z))
  by (intros; unfold pack_u; now replace (_ && _) with true by lia); rewrite H by assumption; clear H; cbn [bind].
Lemma log_written u : fits_format u -> logged_items u = Ok (map it (p_log u)).
Proof.
  intros Hf. destruct (ff_logged u Hf) as (H & _). unfold logged_items, p_log. rewrite map_map.
  apply mapM_ok. intros m Hin. rewrite Forall_forall in H. destruct (H m Hin) as [(H1 & H2 & H3) H4].
  packed (lg_level m). packed (lg_ts m). rewrite utf8_ok by exact H3. cbn [bind]. rewrite le_enc_1 by exact H1.
  pose proof (put_fr (MLog (lg_level m) (lg_ts m) (lg_msg m)) _ H4 eq_refl) as Hp. cbn [wire fst snd] in Hp.
  change T_LOG with 76. rewrite Hp. reflexivity.
Qed.
Lemma mapM_mapM {A B} (f : A -> res B) (g : A -> B) ls : (forall x, In x (concat ls) -> f x = Ok (g x)) ->
  rmap (@concat B) (mapM (mapM f) ls) = Ok (map g (concat ls)).
Proof.
  intros H. rewrite (mapM_ok _ (map g)).
  - cbn [rmap bind]. now rewrite concat_map.
  - intros l Hl. apply mapM_ok. intros x Hx. apply H. apply in_concat. eauto.
Qed.
Lemma tags_ok u m : fits_format u -> In m (concat (map snd (u_tagged u))) -> msg_ok (MTag (tg_level m) (tg_tag m) (tg_ts m) (tg_msg m)).
Proof.
  intros Hf Hin. apply in_concat in Hin as (l & Hl & Hm). apply in_map_iff in Hl as ([t l'] & <- & Htl).
  destruct (ff_tagged u Hf) as (_ & H). destruct (H t l' Htl) as (_ & _ & Hall). rewrite Forall_forall in Hall. apply Hall. exact Hm.
Qed.
Lemma tag_written u : fits_format u -> tagged_items u = Ok (map it (p_tag u)).
Proof.
  intros Hf. unfold tagged_items, p_tag. rewrite map_map.
  refine (mapM_mapM _ (fun m => it (t_tag m)) _ _). intros m Hin. destruct (tags_ok u m Hf Hin) as [(H1 & H2 & H3 & H3') H4].
  packed (tg_level m). packed (tg_tag m). packed (tg_ts m). rewrite utf8_ok by exact H3'. cbn [bind]. rewrite le_enc_1 by exact H1.
  pose proof (put_fr (MTag (tg_level m) (tg_tag m) (tg_ts m) (tg_msg m)) _ H4 eq_refl) as Hp. cbn [wire fst snd] in Hp.
  change T_LOGT with 67. rewrite Hp. reflexivity.
Qed.
Lemma drop_written u : fits_format u -> dropout_items u = Ok (map it (p_drop u)).
Proof.
  intros Hf. destruct (ff_dropouts u Hf) as (H & _). unfold dropout_items, p_drop. rewrite map_map.
  apply mapM_ok. intros d Hin. rewrite Forall_forall in H. destruct (H d Hin) as [H1 _].
  packed (dr_dur d).
  pose proof (put_fr (MDrop (dr_dur d)) (le_enc 2 (dr_dur d)) ltac:(reflexivity) eq_refl) as Hp. cbn [wire fst snd] in Hp.
  change T_DROP with 79. rewrite Hp. reflexivity.
Qed.
Lemma change_written u : fits_format u -> exists pc, changed_items u = Ok (map it pc) /\ Forall2 is_change (u_changed u) pc.
Proof.
  intros Hf. destruct (ff_changed u Hf) as (H & _). unfold changed_items.
  induction (u_changed u) as [|[[t k] v] l IH]; [exists []; split; [reflexivity|constructor]|].
  destruct IH as (pc & E1 & E2). { intros t' k' v' Hin. apply H. now right. }
  destruct (H t k v (or_introl eq_refl)) as [Hp _].
  destruct (param_data_ok k v Hp) as (raw & D1 & D2 & D3 & D4).
  exists ((t, MParam (tname v) k raw) :: pc). split.
  - cbn [mapM map fst snd]. rewrite D1. cbn [bind].
    pose proof (put_fr (MParam (tname v) k raw) (kv_bytes (tname v) k raw) ltac:(cbn [wire snd]; lia) eq_refl) as Hq. cbn [wire fst snd] in Hq.
    change T_PARAM with 80 in *. rewrite Hq. cbn [bind]. rewrite E1. reflexivity.
  - constructor; [|exact E2]. split; [reflexivity|]. exists raw. split; [reflexivity|]. split; [split; [exact D2|cbn [wire snd]; lia]|exact D3].
Qed.

Definition time_leb (a b : timed) : bool := fst a <=? fst b.
Definition p_items (u : ulog) (pc : list timed) : list timed := p_data u ++ p_log u ++ p_tag u ++ p_drop u ++ pc.
Definition sorted_items (u : ulog) (pc : list timed) : list timed := ssort time_leb (p_items u pc).
Definition m_flags (u : ulog) : msg := MFlags (u_compat u) (without_append (u_incompat u)) 0 0 0.

Lemma frames_cons_wire m ms : frames (map wire (m :: ms)) = frame (fst (wire m)) (snd (wire m)) ++ frames (map wire ms).
Proof. reflexivity. Qed.

(** the messages of the written file *)
Record written (u : ulog) (defs : list msg) (pc : list timed) (mi mm mp mq : list msg) : Prop := mkWritten {
  wr_defs : defs = m_flags u :: m_formats u ++ mi ++ mm ++ mp ++ mq;
  wr_info : Forall2 is_info (info_entries u) mi;
  wr_multi : Forall2 is_multi (multi_entries u) mm;
  wr_params : Forall2 is_param (map pinfo (u_params u)) mp;
  wr_defaults : Forall2 is_pdef (default_entries u) mq;
  wr_changed : Forall2 is_change (u_changed u) pc }.
Theorem write_ok u : fits_format u -> exists defs pc mi mm mp mq, written u defs pc mi mm mp mq /\
  write u = Ok (file_header (u_version u) (u_start u) ++ frames (map wire defs) ++
    frames (map wire (map m_add (by_id u) ++ map snd (sorted_items u pc)))).
Proof.
  intros Hf. destruct (info_written u Hf) as (mi & I1 & I2). destruct (multi_written u Hf) as (mm & M1 & M2).
  destruct (param_written (u_params u) (proj2 (ff_params u Hf))) as (mp & P1 & P2).
  destruct (defaults_written u Hf) as (mq & Q1 & Q2). destruct (change_written u Hf) as (pc & C1 & C2).
  destruct (formats_written u Hf) as [F1 _].
  exists (m_flags u :: m_formats u ++ mi ++ mm ++ mp ++ mq), pc, mi, mm, mp, mq. split; [constructor; auto|].
  unfold write. rewrite write_header_ok by exact (ff_header u Hf). cbn [bind].
  destruct (ff_flags u Hf) as (A1 & A2 & A3 & A4 & _). rewrite write_flags_ok by assumption. cbn [bind].
  rewrite F1. cbn [bind]. rewrite I1. cbn [bind]. rewrite M1. cbn [bind]. unfold write_params. rewrite P1. cbn [bind].
  rewrite Q1. cbn [bind]. rewrite subs_written by exact Hf. cbn [bind]. unfold write_data.
  rewrite data_written, log_written, tag_written, drop_written, C1 by exact Hf. cbn [bind].
  f_equal. f_equal. rewrite <- !map_app. fold (p_items u pc). rewrite (ssort_map time_leb item_leb it) by reflexivity.
  fold (sorted_items u pc).
  assert (E : map snd (map it (sorted_items u pc)) = map fr (map snd (sorted_items u pc))) by (rewrite !map_map; reflexivity).
  rewrite E, frames_cons_wire, !frames_fr, <- frames_app, <- map_app, <- (app_assoc (frame _ _)). reflexivity.
Qed.
