(** C09: loading with a list of topics; what extract_message gets from it (C41). *)
From Coq Require Import Permutation Sorted.
From Verif Require Import Base Dict Utf8 PyStr PyFloat Struct PySort ModelTypes ModelRead ModelApi Spec SpecSection SpecMsg SpecLog
  Samples SpecFilter ProofsRead ProofsChange ProofsSection ProofsProps ProofsFilter ModelTools PropsRead SpecWalk ProofsWalk.

(** The messages of every section decide: if a message id stands for one topic, and every topic has
    timestamps, the filtered load gives the chosen topics of the unfiltered one and nothing else changes. *)
Theorem C09_filter : forall keep cf f u, (forall n, cf_filter cf n = true) -> bytes_ok f -> cf_hdr cf = false -> produces cf f (Ok u) ->
  exists defs secs, trace cf f u defs secs /\
    (Forall (clean_section cf (u_formats u)) secs -> exists v, produces (with_filter keep cf) f (Ok v) /\ only_topics keep u v).
Proof.
  intros keep cf f u Hall Hb Hh Hp. destruct (load_walked cf f u Hb Hh Hp) as (defs & secs & Ht). exists defs, secs. split; [exact Ht|].
  exact (walked_filter keep cf f u defs secs Hall Hb Hh Hp (proj1 Ht)).
Qed.
(** the same for files made of whole messages, in terms of these messages *)
Theorem C09_framed : forall keep cf f v t defs data u, (forall n, cf_filter cf n = true) -> well_framed f v t defs data -> not_appended defs -> cf_hdr cf = false ->
  produces cf f (Ok u) -> clean_section cf (u_formats u) (msgs data) ->
  exists w, produces (with_filter keep cf) f (Ok w) /\ only_topics keep u w.
Proof. exact framed_filter. Qed.
Theorem C09_header_only : forall keep cf f r, cf_hdr cf = true -> produces cf f r -> produces (with_filter keep cf) f r.
Proof. exact load_filter_header. Qed.

(** a log with the topics a and b *)
Definition two_defs : list msg := [MFormat (lit "a") [(lit "uint64_t", 0, lit "timestamp"); (lit "uint8_t", 0, lit "x")]; MFormat (lit "b") [(lit "uint64_t", 0, lit "timestamp")];
  MFormat (lit "c") [(lit "uint64_t", 0, lit "timestamp"); (lit "uint8_t", 0, lit "y")]; MFormat (lit "n") [(lit "uint8_t", 0, lit "x")]].
Definition two_file (data : list msg) : bytes := file_header 1 0 ++ frames (map wire two_defs) ++ frames (map wire data).
Definition two_data : list msg := [MAdd 0 1 (lit "a"); MAdd 0 2 (lit "b"); MData 1 (le_enc 8 10 ++ [7]); MData 2 (le_enc 8 20); MLog 54 21 (lit "m"); MDrop 3].
Definition only_a (n : str) : bool := str_eqb n (lit "a").
(** topics whose records hold their timestamp *)
Lemma tsoff_timed cf fmts evs : (forall s, In s (adds cf fmts evs) -> sb_tsoff s + 8 <= itemsize (sb_dtype s)) -> samples_timed cf fmts evs.
Proof.
  intros H pre p post id s rows Ev Hi Hs F. apply subscription_add in Hs as (q & Hq & Eq).
  specialize (H s). assert (Hin : In s (adds cf fmts evs)).
  { apply in_flat_map. exists (EMsg 65 q). split; [rewrite Ev; apply in_or_app; now left|]. cbn. rewrite Eq. now left. }
  specialize (H Hin). unfold stamp. cbv zeta. rewrite (fits_record s p F). destruct (Z.leb_spec (sb_tsoff s + 8) (itemsize (sb_dtype s))); [eexists; reflexivity|lia].
Qed.
Example C09_ex : exists u, produces cf0 (two_file two_data) (Ok u) /\ map ds_name (u_data u) = [lit "a"; lit "b"] /\ u_last u = 20 /\
  clean_section cf0 (u_formats u) (msgs (map wire two_data)).
Proof.
  eexists. split; [exists 13%nat; vm_compute; reflexivity|]. split; [reflexivity|]. split; [reflexivity|].
  match goal with |- clean_section _ ?f _ => cut (one_topic_per_id (adds cf0 f (msgs (map wire two_data))) /\ (forall s, In s (adds cf0 f (msgs (map wire two_data))) -> sb_tsoff s + 8 <= itemsize (sb_dtype s))) end.
  { intros (A & B). split; [exact A|apply tsoff_timed, B]. }
  match goal with |- context [adds cf0 ?f ?e] => assert (E : map sb_id (adds cf0 f e) = [1; 2] /\ map sb_name (adds cf0 f e) = [lit "a"; lit "b"] /\
    forallb (fun s => sb_tsoff s + 8 <=? itemsize (sb_dtype s)) (adds cf0 f e) = true) by (vm_compute; auto); generalize dependent (adds cf0 f e) end.
  intros l (E1 & E2 & E3). split.
  - destruct l as [|a [|b [|]]]; try discriminate. injection E1 as A1 A2. intros x y [<-|[<-|[]]] [<-|[<-|[]]] E; try reflexivity; lia.
  - intros s Hs. rewrite forallb_forall in E3. apply E3 in Hs. lia.
Qed.
Example C09_ex_run : exists v, produces (with_filter only_a cf0) (two_file two_data) (Ok v) /\ map ds_name (u_data v) = [lit "a"] /\ u_last v = 10 /\
  u_logged v = [mkLog 54 21 (lit "m")] /\ map dr_ts (u_dropouts v) = [10].
Proof. eexists. split; [exists 13%nat; vm_compute; reflexivity|]. repeat split. Qed.
(** An id that is used again: the filtered load gives samples of the other topic to the chosen one. *)
Theorem C09_reuse_refuted : exists f u v, produces cf0 f (Ok u) /\ produces (with_filter only_a cf0) f (Ok v) /\
  filter (fun d => only_a (ds_name d)) (u_data u) = [] /\ map ds_name (u_data v) = [lit "a"].
Proof.
  exists (two_file [MAdd 0 1 (lit "a"); MAdd 0 1 (lit "c"); MData 1 (le_enc 8 10 ++ [7])]). eexists. eexists.
  split; [exists 10%nat; vm_compute; reflexivity|]. split; [exists 10%nat; vm_compute; reflexivity|]. split; reflexivity.
Qed.
(** A sample without timestamp silently ends an unfiltered load, but not one without its topic. *)
Theorem C09_untimed_refuted : exists f u v, produces cf0 f (Ok u) /\ produces (with_filter only_a cf0) f (Ok v) /\
  u_corrupt u = false /\ u_logged u = [] /\ u_logged v <> [].
Proof.
  exists (two_file [MAdd 0 1 (lit "n"); MData 1 [5]; MLog 54 21 (lit "m")]). eexists. eexists.
  split; [exists 10%nat; vm_compute; reflexivity|]. split; [exists 10%nat; vm_compute; reflexivity|]. split; [reflexivity|]. split; [reflexivity|discriminate].
Qed.

(** ** C41: the samples are those of an unfiltered load *)
Theorem C41_same_samples : forall cf f name s e v t defs data u, (forall n, cf_filter cf n = true) -> well_framed f v t defs data -> not_appended defs -> cf_hdr cf = false ->
  produces cf f (Ok u) -> clean_section cf (u_formats u) (msgs data) ->
  exists w, produces (with_filter (substring_filter name) cf) f (Ok w) /\ extract_message (Ok w) name s e = extract_message (Ok u) name s e.
Proof.
  intros cf f name s e v t defs data u Hall Hw Ha Hh Hp Hc. destruct (framed_filter (substring_filter name) cf f v t defs data u Hall Hw Ha Hh Hp Hc) as (w & Pw & O).
  exists w. split; [exact Pw|]. unfold extract_message. cbn [bind]. replace (get_dataset w name 0) with (get_dataset u name 0); [reflexivity|].
  unfold get_dataset. rewrite (on_data _ _ _ O). f_equal. induction (u_data u) as [|d l IH]; [reflexivity|]. cbn [filter].
  destruct (str_eqb_spec (ds_name d) name) as [E|N].
  - assert (K : substring_filter name (ds_name d) = true).
    { rewrite E. unfold substring_filter, str_in. rewrite Z.leb_le. pose proof (find_sub_found name [] []) as F. rewrite app_nil_r in F. exact F. }
    rewrite K. cbn [filter]. destruct (str_eqb_spec (ds_name d) name); [|contradiction]. rewrite IH. reflexivity.
  - cbn [andb]. destruct (substring_filter name (ds_name d)); [|exact IH]. cbn [filter]. destruct (str_eqb_spec (ds_name d) name); [contradiction|]. exact IH.
Qed.

Definition all_filter := (@C09_filter, @C09_framed, @C09_header_only, @C09_reuse_refuted, @C09_untimed_refuted, @C41_same_samples).
Print Assumptions all_filter.
