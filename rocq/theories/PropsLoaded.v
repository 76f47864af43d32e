(** Property C66: every text of a loaded log can be encoded; which logs from files can be saved. *)
From Verif Require Import Base Dict Utf8 PyStr PyFloat Struct ModelTypes ModelRead ModelApi Sql Schema5 ModelDb Spec SpecDb SpecStorable SpecLoaded.
From Verif Require Import SpecMsg SpecLog ProofsChange ProofsLoaded ProofsDb ProofsHist Samples SamplesWrite PropsDb PropsStorable.

Lemma clean_encodable v : clean_value v -> encodable_value v.
Proof. destruct v; cbn; auto. Qed.
(** Whatever file was loaded, with or without the option to ignore undecodable texts: all names, keys, types and texts can be
    encoded as UTF-8 again. *)
Theorem C66_texts : forall cf f u, bytes_ok f -> produces cf f (Ok u) -> encodable_log u.
Proof.
  intros cf f u Hf H. destruct (loaded_clean cf f u Hf H). split; try assumption.
  - eapply Forall_impl; [|exact cl_data]. intros d []. split; assumption.
  - eapply Forall_impl; [|exact cl_logged]. intros m (_ & _ & A). exact A.
  - eapply Forall_impl; [|exact cl_tagged]. intros tl (_ & A). eapply Forall_impl; [|exact A]. intros m (_ & _ & B). exact B.
  - eapply Forall_impl; [|exact cl_info]. intros kv (A & B & _). split; [exact A|now apply clean_encodable].
  - eapply Forall_impl; [|exact cl_multi]. intros kl (A & _ & B). split; [exact A|]. eapply Forall_impl; [|exact B]. intros l. apply Forall_impl, clean_encodable.
  - eapply Forall_impl; [|exact cl_params]. intros kv (A & B). split; [exact A|now apply clean_encodable].
  - eapply Forall_impl; [|exact cl_defaults]. intros td (_ & A). eapply Forall_impl; [|exact A]. intros kv (B & C). split; [exact B|now apply clean_encodable].
  - eapply Forall_impl; [|exact cl_changed]. intros c (_ & A & B). split; [exact A|now apply clean_encodable].
Qed.

Lemma clean_storable v : clean_value v -> storable_value v <-> value_below63 v.
Proof.
  destruct v as [z| | |s|]; cbn; try tauto; unfold int64, below63; change (2 ^ 63) with 9223372036854775808; change (2 ^ 64) with 18446744073709551616; [lia|].
  intros H. split; [auto|intros _; now apply encodable_surrogate].
Qed.
Lemma Forall_iff {A} (P Q R : A -> Prop) l : Forall R l -> (forall x, R x -> (P x <-> Q x)) -> Forall P l <-> Forall Q l.
Proof. intros HR H. rewrite !Forall_forall in *. split; intros F x Hx; apply (H x (HR x Hx)); auto. Qed.
(** What decides whether a log from a file can be stored: its unsigned 64-bit numbers, the array sizes in its formats, fields
    without a name and repeated instances. *)
Theorem C66_storable : forall cf f u, bytes_ok f -> produces cf f (Ok u) -> storable u <-> in_range u.
Proof.
  intros cf f u Hf H. destruct (loaded_clean cf f u Hf H). destruct cl_head as (V & (S0 & SL) & L & Sy & Co & In').
  assert (T : forall types key, Forall (fun kv : str * str => encodable (fst kv) /\ encodable (snd kv)) types -> is_typed types key -> SpecStorable.typed types key).
  { intros types key Ft (ty & E). exists ty. split; [exact E|]. apply (dget_In str_eqb str_eqb_spec) in E. rewrite Forall_forall in Ft. apply encodable_surrogate. exact (proj2 (Ft _ E)). }
  assert (Bt : forall l, bytes_ok l -> no_surrogate l). { intros l. apply Forall_impl. intros b Hb. unfold byte_ok in Hb. lia. }
  assert (E63 : 2 ^ 63 = 9223372036854775808) by reflexivity. assert (E64 : 2 ^ 64 = 18446744073709551616) by reflexivity.
  split; intros X; destruct X; split; unfold int64, below63 in *; rewrite ?E63, ?E64 in *.
  all: try assumption.
  - lia.
  - destruct st_offsets as (_ & F). eapply Forall_impl; [|exact F]. cbv beta. intros x Hx. lia.
  - eapply Forall_impl; [|exact st_logged]. cbv beta. intros m Hm. lia.
  - eapply Forall_impl; [|exact st_tagged]. cbv beta. intros tl Htl. eapply Forall_impl; [|exact Htl]. cbv beta. intros m Hm. lia.
  - rewrite Forall_forall in *. intros kv Hkv. apply clean_storable; [apply cl_info; exact Hkv|apply st_info; exact Hkv].
  - rewrite Forall_forall in *. intros kl Hkl. destruct (st_multi _ Hkl) as (_ & _ & _ & F). destruct (cl_multi _ Hkl) as (_ & _ & C). rewrite Forall_forall in *. intros l Hl.
    specialize (C l Hl). destruct (F l Hl) as (_ & F'). apply (Forall_iff storable_value value_below63 clean_value l C); [exact clean_storable|exact F'].
  - rewrite Forall_forall in *. intros kv Hkv. apply clean_storable; [apply cl_params; exact Hkv|apply st_params; exact Hkv].
  - rewrite Forall_forall in *. intros td Htd. pose proof (st_defaults _ Htd) as F. destruct (cl_defaults _ Htd) as (_ & C). rewrite Forall_forall in *. intros kv Hkv.
    apply clean_storable; [apply C; exact Hkv|apply F; exact Hkv].
  - rewrite Forall_forall in *. intros c Hc. apply clean_storable; [apply cl_changed; exact Hc|apply st_changed; exact Hc].
  - eapply Forall_impl; [|exact st_formats]. intros nm (_ & F). eapply Forall_impl; [|exact F]. cbv beta. intros x (_ & B & _). exact B.
  - rewrite Forall_forall in *. intros ds Hds. destruct (st_data _ Hds) as (_ & _ & _ & _ & F). destruct (cl_data _ Hds). rewrite Forall_forall in *. intros x Hx.
    apply cd_cols; [exact Hx|]. exact (proj2 (F x Hx)).
  - lia.
  - eapply Forall_impl; [|exact st_data]. intros ds (_ & _ & _ & B & _). unfold int64 in B. rewrite E63 in B. lia.
  - eapply Forall_impl; [|exact st_multi]. cbv beta. intros kl (_ & _ & A & B). split; [exact A|]. eapply Forall_impl; [|exact B]. cbv beta. intros l (C & _). exact C.
  - repeat split; try lia; apply Bt; assumption.
  - destruct cl_offsets as (A & B). split; [lia|]. rewrite Forall_forall in *. intros x Hx. specialize (B x Hx). specialize (ir_offsets x Hx). cbv beta in *. lia.
  - rewrite Forall_forall in *. intros ds Hds. pose proof (ir_named _ Hds) as N. pose proof (ir_fields _ Hds) as I. destruct (cl_data _ Hds). unfold storable_dataset, int64. rewrite E63.
    split; [now apply encodable_surrogate|]. split; [lia|]. split; [lia|]. split; [lia|]. rewrite Forall_forall in *. intros x Hx. split; [apply encodable_surrogate; auto|]. apply cd_cols; auto.
  - eapply Forall_impl; [|exact cl_drop]. cbv beta. intros x Hx. lia.
  - rewrite Forall_forall in *. intros m Hm. destruct (cl_logged m Hm) as (A & B & C). specialize (ir_logged m Hm). cbv beta in *. repeat split; try lia. now apply encodable_surrogate.
  - rewrite Forall_forall in *. intros tl Htl. destruct (cl_tagged tl Htl) as (A & B). specialize (ir_tagged tl Htl). rewrite Forall_forall in *. intros m Hm. destruct (B m Hm) as (B1 & B2 & B3).
    specialize (ir_tagged m Hm). cbv beta in *. repeat split; try lia. now apply encodable_surrogate.
  - rewrite Forall_forall in *. intros nm Hnm. unfold clean_formats in cl_formats. rewrite Forall_forall in cl_formats. destruct (cl_formats nm Hnm) as (A & B). specialize (ir_formats nm Hnm).
    split; [now apply encodable_surrogate|]. rewrite Forall_forall in *. intros x Hx. destruct (B x Hx) as (B1 & B2). split; [now apply encodable_surrogate|]. split; [exact (ir_formats x Hx)|now apply encodable_surrogate].
  - rewrite Forall_forall in *. intros kv Hkv. destruct (cl_info kv Hkv) as (A & B & C). split; [now apply encodable_surrogate|]. split; [apply clean_storable; auto|]. apply T; [|exact C]. apply Forall_forall. assumption.
  - rewrite Forall_forall in *. intros kl Hkl. destruct (cl_multi kl Hkl) as (A & B & C). specialize (ir_multi kl Hkl). destruct (ir_lists kl Hkl) as (D & E). split; [now apply encodable_surrogate|].
    split; [apply T; [apply Forall_forall; assumption|exact B]|]. split; [exact D|]. rewrite Forall_forall in *. intros l Hl. split; [exact (E l Hl)|].
    apply (Forall_iff storable_value value_below63 clean_value l (C l Hl)); [exact clean_storable|exact (ir_multi l Hl)].
  - rewrite Forall_forall in *. intros kv Hkv. destruct (cl_params kv Hkv) as (A & B). split; [now apply encodable_surrogate|apply clean_storable; auto].
  - rewrite Forall_forall in *. intros td Htd. destruct (cl_defaults td Htd) as (A & B). specialize (ir_defaults td Htd). rewrite Forall_forall in *. intros kv Hkv. destruct (B kv Hkv) as (B1 & B2).
    split; [lia|]. split; [now apply encodable_surrogate|apply clean_storable; auto].
  - rewrite Forall_forall in *. intros c Hc. destruct (cl_changed c Hc) as (A & B & C). split; [lia|]. split; [now apply encodable_surrogate|apply clean_storable; auto].
Qed.
(** So DatabaseULog(handle, log_file=name).save() returns exactly when the log is in range and new. *)
Theorem C66_save : forall fuel H cf d f lazy o, bytes_ok f -> good d -> no_surrogate (H f) -> init_file fuel H cf d f None lazy = Some (Ok o) ->
  (exists o' d', save no_fault false o d = (Ok tt, o', d')) <-> in_range (o_log o) /\ ~ has_hash d (H f).
Proof.
  intros fuel H cf d f lazy o Hf G Hs E. destruct (C34_by_name_partial fuel H cf d f lazy o E) as (A & B & C & D). rewrite (C65_exact o d G).
  rewrite (C66_storable cf f (o_log o) Hf B), A. tauto.
Qed.
(** The log of the other examples is in range. *)
Example C66_ex : bytes_ok s_file /\ produces cf0 s_file (Ok s_obj) /\ in_range s_obj.
Proof.
  assert (B : bytes_ok s_file) by ok_bytes. split; [exact B|]. split; [exact s_obj_loaded|].
  apply (C66_storable cf0 s_file s_obj B s_obj_loaded). exact (proj1 (proj2 C65_ex)).
Qed.
(** A field without a name ("uint8_t ;") is loaded, its column is called f1, and the log cannot be saved. *)
Definition n_file : bytes := file_header 1 500 ++ frames (map wire
  [MFormat (lit "n") [(lit "uint64_t", 0, lit "timestamp"); (lit "uint8_t", 0, [])]; MAdd 0 1 (lit "n"); MData 1 (le_enc 8 1000 ++ [7])]).
Theorem C66_unnamed_refuted : exists u ds, produces cf0 n_file (Ok u) /\ u_data u = [ds] /\ map fst (ds_data ds) = [lit "timestamp"; lit "f1"] /\ ~ in_range u /\
  fst (fst (save no_fault false (mkObj None (lit "abc") true u) d5)) = Err KeyError.
Proof.
  set (l := ModelRead.load 9 cf0 n_file). assert (E : exists u, l = Some (Ok u)) by (eexists; vm_compute; reflexivity).
  destruct E as (u & E). exists u. pose proof E as E'. vm_compute in E'. injection E' as <-. eexists. split; [exists 9%nat; exact E|]. split; [reflexivity|]. split; [reflexivity|]. split; [|vm_compute; reflexivity].
  intros I. pose proof (ir_named _ I) as N. cbn in N. inversion N as [|? ? N1 _]; subst. cbn in N1. inversion N1 as [|? ? _ N2]; subst. inversion N2 as [|? ? N3 _]; subst. apply N3. reflexivity.
Qed.
Definition all_loaded := (@C66_texts, @C66_storable, @C66_save, @C66_unnamed_refuted).
Print Assumptions all_loaded.
