(** Concrete log objects for the properties of writing. *)
From Coq Require Import Permutation Sorted.
From Verif Require Import Base Dict Utf8 PyStr PyFloat Struct PySort ModelTypes ModelRead ModelWrite
  Spec SpecSection SpecMsg SpecLog SpecWrite Samples.

(** the object loaded from [s_file] *)
Definition s_ds (multi id : Z) (ts x a b : list Z) : dataset :=
  mkDS multi id (lit "t") flat_t 0
    [(lit "timestamp", mkCol (NI 8 false) ts); (lit "x", mkCol (NI 1 false) x);
     (lit "v[0].a", mkCol (NI 2 true) a); (lit "v[1].a", mkCol (NI 2 true) b)].
Definition s_obj : ulog :=
  {| u_corrupt := false; u_start := 500; u_last := 2000;
     u_info := [(lit "sys_name", VStr (lit "PX4")); (lit "ver_sw_release", VInt 16909311)];
     u_infot := [(lit "sys_name", lit "char[3]"); (lit "ver_sw_release", lit "uint32_t")];
     u_multi := [(lit "k", [[VStr (lit "a"); VStr (lit "b")]])];
     u_multit := [(lit "k", lit "char[1]")];
     u_params := [(lit "P_A", VInt (-1))];
     u_defaults := [(0, [(lit "P_A", VInt 7)]); (1, [(lit "P_A", VInt 7)])];
     u_changed := [(1500, lit "P_B", VFloat (widen 1065353216))];
     u_formats := [(lit "vec", mkFmt (lit "vec") [(lit "int16_t", 0, lit "a")]); (lit "t", mkFmt (lit "t") t_fields)];
     u_logged := [mkLog 54 1001 (lit "hello")];
     u_tagged := [(3, [mkTag 54 3 2001 (lit "tag")])];
     u_dropouts := [mkDrop 20 1500];
     u_data := [s_ds 0 1 [1000; 2000] [5; 6] [1; 65535] [2; 2]; s_ds 1 2 [1500] [9] [3] [4]];
     u_subs := []; u_filtered := []; u_missing := []; u_version := 1;
     u_compat := [0;0;0;0;0;0;0;0]; u_incompat := [0;0;0;0;0;0;0;0]; u_offsets := [];
     u_has_sync := true; u_sync_cnt := 0 |}.
Lemma s_obj_loaded : produces cf0 s_file (Ok s_obj).
Proof. exists 30%nat. vm_compute. reflexivity. Qed.

Ltac nodup := repeat (constructor; [cbn; intuition (try discriminate; try lia)|]); constructor.
Ltac entries := repeat match goal with H : In _ (_ :: _) |- _ => destruct H as [H|H] | H : In _ [] |- _ => destruct H end.
Lemma fits_kv ty key v raw : type_written ty -> kv_ok ty key raw -> typed ty raw v -> lenZ (kv_bytes ty key raw) < 65535 -> kv_fits ty key v.
Proof. intros H1 H2 H3 H4. split; [exact H1|]. exists raw. auto. Qed.
Lemma s_ds_fits multi id ts x a b : u8 multi -> u16 id -> ts <> [] -> length x = length ts -> length a = length ts -> length b = length ts ->
  Forall (fun z => 0 <= z < 18446744073709551616) ts -> Forall (fun z => 0 <= z < 256) x ->
  Forall (fun z => 0 <= z < 65536) a -> Forall (fun z => 0 <= z < 65536) b -> StronglySorted Z.le ts ->
  dataset_fits (formats_in s_defs) (s_ds multi id ts x a b).
Proof.
  intros H1 H2 Hne Lx La Lb Ft Fx Fa Fb Hs. constructor; cbn [s_ds ds_multi ds_id ds_name ds_fields ds_tsidx ds_data].
  - split; [exact H1|]. split; [exact H2|]. split; [ok_str|]. split; vm_compute; reflexivity.
  - exact s_topic.
  - intros fmt ty n E. assert (E' : fmt = mkFmt (lit "t") t_fields) by (cut (Some fmt = Some (mkFmt (lit "t") t_fields)); [congruence|rewrite <- E; reflexivity]).
    subst fmt. intros H. cbn [mf_fields] in H. unfold t_fields in H. 
    entries; try discriminate H.
   injection H as _ E2; lia.
  - split; [lia|reflexivity].
  - reflexivity.
  - exists (length ts). split; [destruct ts; [congruence|cbn; lia]|].
    intros fd H. unfold flat_t in H. entries; subst fd; cbn [fd_name fd_type];
      (eexists; split; [reflexivity|split; [first [reflexivity|assumption]|]]); (eapply Forall_impl; [|eassumption]); intros z Hz; (split; [exact Hz|exact I]).
  - exact Hs.
Qed.
Lemma s_fits : fits_format s_obj.
Proof.
  assert (T1 : typed (lit "char[3]") (lit "PX4") (VStr (lit "PX4"))) by (apply (ty_text (lit "3]") (lit "PX4")); ok_str).
  assert (T2 : typed (lit "uint32_t") [255; 3; 2; 1] (VInt 16909311)) by (apply (ty_unsigned U32 16909311); [cbn; tauto|cbn; lia]).
  assert (T3 : typed (lit "int32_t") [255; 255; 255; 255] (VInt (-1))) by (apply (ty_signed I32 (-1)); [cbn; tauto|cbn; lia]).
  assert (T4 : typed (lit "int32_t") [7; 0; 0; 0] (VInt 7)) by (apply (ty_signed I32 7); [cbn; tauto|cbn; lia]).
  assert (T5 : typed (lit "char[1]") (lit "a") (VStr (lit "a"))) by (apply (ty_text (lit "1]") (lit "a")); ok_str).
  assert (T6 : typed (lit "char[1]") (lit "b") (VStr (lit "b"))) by (apply (ty_text (lit "1]") (lit "b")); ok_str).
  assert (T7 : typed (lit "float") [0; 0; 128; 63] (VFloat (widen 1065353216))) by (apply (ty_float 1065353216); lia).
  assert (P7 : param_fits (lit "P_A") (VInt 7)).
  { left. exists 7. split; [reflexivity|]. apply (fits_kv _ _ _ [7; 0; 0; 0]); [left; now exists I32|ok_kv ltac:(exact T4)|exact T4|vm_compute; reflexivity]. }
  constructor; cbn [s_obj u_version u_start u_last u_compat u_incompat u_formats u_info u_infot u_multi u_multit u_params u_defaults u_data u_logged u_tagged u_dropouts u_changed
    u_corrupt u_filtered u_missing u_subs u_has_sync].
  - split; [unfold byte_ok|]; lia.
  - split; [reflexivity|]. split; [ok_bytes|]. split; [reflexivity|]. split; [ok_bytes|]. split; [reflexivity|]. repeat constructor.
  - split; [nodup|]. pose proof s_defs_ok as H. rewrite Forall_forall in H.
    intros k m Hin. entries; injection Hin as <- <-; (split; [reflexivity|]); apply H; cbn; auto.
  - split; [nodup|]. split; [reflexivity|]. intros k v Hin. entries; injection Hin as <- <-; (eexists; split; [reflexivity|]).
    + apply (fits_kv _ _ _ (lit "PX4")); [right; left; now exists (lit "3]")|ok_kv ltac:(exact T1)|exact T1|vm_compute; reflexivity].
    + apply (fits_kv _ _ _ [255; 3; 2; 1]); [left; now exists U32|ok_kv ltac:(exact T2)|exact T2|vm_compute; reflexivity].
  - split; [nodup|]. split; [reflexivity|]. intros k ls Hin. entries; injection Hin as <- <-. split; [discriminate|]. eexists. split; [reflexivity|].
    intros l Hl. entries; subst l. split; [discriminate|]. intros v Hv. entries; subst v.
    + apply (fits_kv _ _ _ (lit "a")); [right; left; now exists (lit "1]")|ok_kv ltac:(exact T5)|exact T5|vm_compute; reflexivity].
    + apply (fits_kv _ _ _ (lit "b")); [right; left; now exists (lit "1]")|ok_kv ltac:(exact T6)|exact T6|vm_compute; reflexivity].
  - split; [nodup|]. intros k v Hin. entries; injection Hin as <- <-. left. exists (-1). split; [reflexivity|].
    apply (fits_kv _ _ _ [255; 255; 255; 255]); [left; now exists I32|ok_kv ltac:(exact T3)|exact T3|vm_compute; reflexivity].
  - split; [nodup|]. intros t d Hin. entries; injection Hin as <- <-; (split; [lia|split; [discriminate|split; [nodup|]]]);
      intros k v Hk; entries; injection Hk as <- <-; exact P7.
  - split; [|split; [nodup|split; [nodup|]]].
    + constructor; [|constructor; [|constructor]]; apply s_ds_fits; try (unfold u8; lia); try (unfold u16; lia); try reflexivity; try discriminate; repeat constructor; lia.
    + repeat constructor.
  - split; [|repeat constructor]. constructor; [|constructor]. pose proof s_data_ok as H. rewrite Forall_forall in H. apply H. cbn. auto 8.
  - split; [nodup|]. intros t l Hin. entries; injection Hin as <- <-. split; [discriminate|]. split; [repeat constructor|]. constructor; [|constructor]. split; [reflexivity|].
    pose proof s_data_ok as H. rewrite Forall_forall in H. apply H. cbn. auto 16.
  - split; [|repeat constructor]. constructor; [|constructor]. split; [unfold u16; cbn; lia|]. right. cbn. split; [auto|lia].
  - split; [|repeat constructor]. intros t k v Hin. entries; injection Hin as <- <- <-. split.
    + right. eexists. split; [reflexivity|].
      apply (fits_kv _ _ _ [0; 0; 128; 63]); [left; now exists F32|ok_kv ltac:(exact T7)|exact T7|vm_compute; reflexivity].
    + right. cbn. split; [auto|lia].
  - discriminate.
  - reflexivity.
  - auto.
Qed.
