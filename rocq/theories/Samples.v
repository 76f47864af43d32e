(** Concrete small logs used to show that the hypotheses of the property theorems are met. *)
From Coq Require Import Permutation Sorted.
From Verif Require Import Base Dict Utf8 PyStr PyFloat Struct PySort ModelTypes ModelRead Spec SpecSection SpecMsg SpecLog.

(** The default arguments of ULog(): strict strings, no filter, a file with 2^62 as largest
    offset and Python's recursion limit. *)
Definition all_topics : str -> bool := fun _ => true.
Definition cf0 : cfg := mkCfg false all_topics false 900 (OsFile 4611686018427387904).

Definition t_fields : list (str * Z * str) :=
  [(lit "uint64_t", 0, lit "timestamp"); (lit "uint8_t", 0, lit "x"); (lit "vec", 2, lit "v");
   (lit "uint8_t", 3, lit "_padding0")].
Definition s_defs : list msg :=
  [MFlags [0;0;0;0;0;0;0;0] [0;0;0;0;0;0;0;0] 0 0 0;
   MFormat (lit "vec") [(lit "int16_t", 0, lit "a")];
   MFormat (lit "t") t_fields;
   MInfo (lit "char[3]") (lit "sys_name") (lit "PX4");
   MInfo (lit "uint32_t") (lit "ver_sw_release") [255; 3; 2; 1];
   MParam (lit "int32_t") (lit "P_A") [255; 255; 255; 255];
   MDefault 3 (lit "int32_t") (lit "P_A") [7; 0; 0; 0]].
Definition rec_t (ts x a b : Z) : bytes := le_enc 8 ts ++ [x] ++ le_enc 2 a ++ le_enc 2 b.
Definition s_data : list msg :=
  [MAdd 0 1 (lit "t"); MAdd 1 2 (lit "t");
   MData 1 (rec_t 1000 5 1 2);
   MLog 54 1001 (lit "hello");
   MMulti 0 (lit "char[1]") (lit "k") (lit "a");
   MData 2 (rec_t 1500 9 3 4);
   MDrop 20;
   MParam (lit "float") (lit "P_B") [0; 0; 128; 63];
   MMulti 1 (lit "char[1]") (lit "k") (lit "b");
   MData 1 (rec_t 2000 6 65535 2);
   MTag 54 3 2001 (lit "tag")].
Definition s_file : bytes := file_header 1 500 ++ frames (map wire s_defs) ++ frames (map wire s_data).

Definition flat_t : list fielddata :=
  [mkFD (lit "timestamp") U64; mkFD (lit "x") U8; mkFD (lit "v[0].a") I16; mkFD (lit "v[1].a") I16].
Definition pad_t : list fielddata :=
  [mkFD (lit "_padding0[0]") U8; mkFD (lit "_padding0[1]") U8; mkFD (lit "_padding0[2]") U8].

(** ** It is a well-formed log *)
Ltac ok_str := repeat constructor.
Ltac ok_word := split; [ok_str | repeat (constructor; [cbn; lia|]); constructor].
Ltac ok_bytes := cbn; repeat (constructor; [unfold byte_ok; lia|]); constructor.
Ltac ok_kv tac := split; [ok_word|split; [ok_word|split; [vm_compute; reflexivity|split; [ok_bytes|eexists; tac]]]].

Lemma s_defs_ok : Forall msg_ok s_defs.
Proof.
  assert (T1 : typed (lit "char[3]") (lit "PX4") (VStr (lit "PX4"))) by (apply (ty_text (lit "3]") (lit "PX4")); ok_str).
  assert (T2 : typed (lit "uint32_t") [255; 3; 2; 1] (VInt 16909311)).
  { apply (ty_unsigned U32 16909311); [cbn; tauto|cbn; lia]. }
  assert (T3 : typed (lit "int32_t") [255; 255; 255; 255] (VInt (-1))).
  { apply (ty_signed I32 (-1)); [cbn; tauto|cbn; lia]. }
  assert (T4 : typed (lit "int32_t") [7; 0; 0; 0] (VInt 7)).
  { apply (ty_signed I32 7); [cbn; tauto|cbn; lia]. }
  repeat (apply Forall_cons; [split; [cbn [msg_ok]|vm_compute; reflexivity]|]); [..|constructor].
  - repeat split; try reflexivity; try ok_bytes; lia.
  - split; [ok_word|]. constructor; [|constructor]. split; [ok_word|split; [lia|ok_word]].
  - split; [ok_word|]. repeat (constructor; [split; [ok_word|split; [lia|ok_word]]|]). constructor.
  - ok_kv ltac:(exact T1).
  - ok_kv ltac:(exact T2).
  - ok_kv ltac:(exact T3).
  - split; [unfold u8; lia|]. ok_kv ltac:(exact T4).
Qed.
Lemma s_data_ok : Forall msg_ok s_data.
Proof.
  assert (T1 : forall c, scalar_ok c = true -> c < 128 -> typed (lit "char[1]") [c] (VStr [c])).
  { intros c Hc Hc'. replace [c] with (utf8 [c]) at 1; [apply (ty_text (lit "1]") [c]); constructor; [exact Hc|constructor]|].
    unfold utf8. rewrite utf8_encode_ascii; [reflexivity|]. apply scalar_ok_iff in Hc. repeat constructor; lia. }
  assert (T2 : typed (lit "float") [0; 0; 128; 63] (VFloat (widen 1065353216))) by (apply (ty_float 1065353216); lia).
  repeat (apply Forall_cons; [split; [cbn [msg_ok]|vm_compute; reflexivity]|]); [..|constructor].
  - split; [unfold u8; lia|split; [unfold u16; lia|ok_str]].
  - split; [unfold u8; lia|split; [unfold u16; lia|ok_str]].
  - split; [unfold u16; lia|]. cbn. ok_bytes.
  - split; [unfold u8; lia|split; [unfold u64; lia|ok_str]].
  - split; [unfold u8; lia|]. ok_kv ltac:(apply (T1 97); [reflexivity|lia]).
  - split; [unfold u16; lia|]. cbn. ok_bytes.
  - unfold u16; lia.
  - ok_kv ltac:(exact T2).
  - split; [unfold u8; lia|]. ok_kv ltac:(apply (T1 98); [reflexivity|lia]).
  - split; [unfold u16; lia|]. cbn. ok_bytes.
  - split; [unfold u8; lia|split; [unfold u16; lia|split; [unfold u64; lia|ok_str]]].
Qed.

Lemma s_topic : topic (formats_in s_defs) (lit "t") flat_t.
Proof.
  constructor.
  - exists (mkFmt (lit "t") t_fields), (flat_t ++ pad_t). split; [reflexivity|]. split.
    + cbn [mf_fields t_fields].
      apply (ex_scalar _ [] U64); [lia|]. apply (ex_scalar _ [] U8); [lia|].
      apply (ex_nested_array _ [] (lit "vec") 2 (lit "v") _ (mkFmt (lit "vec") [(lit "int16_t", 0, lit "a")])
               [mkFD (lit "v[0].a") I16; mkFD (lit "v[1].a") I16] pad_t).
      * intros []; discriminate.
      * lia.
      * reflexivity.
      * apply (xa_cons _ (lit "v[0].") [lit "v[1]."] _ [mkFD (lit "v[0].a") I16] [mkFD (lit "v[1].a") I16]).
        -- apply (ex_scalar _ (lit "v[0].") I16 0 (lit "a")); [lia|constructor].
        -- apply (xa_cons _ (lit "v[1].") [] _ [mkFD (lit "v[1].a") I16] []).
           ++ apply (ex_scalar _ (lit "v[1].") I16 0 (lit "a")); [lia|constructor].
           ++ constructor.
      * apply (ex_array _ [] U8 3 (lit "_padding0") [] []); [lia|constructor].
    + exists pad_t. split; [reflexivity|]. split.
      * repeat constructor; [exists (lit "0[0]")|exists (lit "0[1]")|exists (lit "0[2]")]; reflexivity.
      * intros a fd E (r & Hr).
        assert (fd = mkFD (lit "v[1].a") I16) as ->.
        { change flat_t with (firstn 3 flat_t ++ [mkFD (lit "v[1].a") I16]) in E. apply app_inj_tail in E as [_ E]. now symmetry. }
        discriminate Hr.
  - split; [|cbn; intuition discriminate].
    repeat (constructor; [cbn; intuition discriminate|]). constructor.
  - now left.
Qed.

Lemma split_at {A} (l pre : list A) x post : l = pre ++ x :: post ->
  pre = firstn (length pre) l /\ nth_error l (length pre) = Some x.
Proof.
  intros ->. split.
  - rewrite firstn_app, Nat.sub_diag, firstn_all. cbn. now rewrite app_nil_r.
  - rewrite nth_error_app2 by lia. now rewrite Nat.sub_diag.
Qed.
Lemma s_consistent : consistent (formats_in s_defs) s_data.
Proof.
  split.
  - intros multi id name H. exists flat_t.
    repeat (destruct H as [H|H]; [try discriminate; injection H as <- <- <-; exact s_topic|]). destruct H.
  - intros pre id r post E. apply split_at in E as [-> E]. revert E. generalize (length pre). intros n E.
    do 11 (destruct n as [|n]; [cbn in E; first [discriminate | injection E as <- <-;
      do 3 eexists; exists flat_t; split; [vm_compute; reflexivity|split; [exact s_topic|reflexivity]]]|]).
    destruct n; discriminate.
Qed.
Lemma s_typed : typed_log s_file 1 500 s_defs s_data.
Proof.
  constructor.
  - reflexivity.
  - split; [unfold byte_ok|]; lia.
  - vm_compute. discriminate.
  - split; [exact s_defs_ok|]. repeat constructor.
  - split; [exact s_data_ok|]. repeat constructor.
  - exact I.
  - exact s_consistent.
Qed.
