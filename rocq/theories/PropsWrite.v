(** Properties C22-C25: write_ulog. *)
From Coq Require Import Permutation Sorted.
From Verif Require Import Base Dict Utf8 PyStr PyFloat Struct PySort ModelTypes ModelRead ModelWrite
  Spec SpecSection SpecMsg SpecLog SpecWrite.
From Verif Require Import ProofsSync ProofsLog ProofsWrite ProofsRound ProofsCopy ProofsStable ProofsTags ProofsRewrite Samples SamplesWrite.

(** ** C22: write, then load *)
Theorem C22_round_trip : forall u, fits_format u -> exists f, write u = Ok f /\
  (lenZ f <= BIG -> exists depth, forall cf, (depth <= cf_depth cf)%nat -> cf_hdr cf = false ->
     (forall n, cf_filter cf n = true) ->
     exists u', (forall r, produces cf f r <-> r = Ok u') /\ copy_of u u').
Proof.
  intros u Hu. destruct (round_trip u Hu) as (f & Hw & H). exists f. split; [exact Hw|]. intros Hf.
  destruct (H Hf) as (depth & H'). exists depth. intros cf H1 H2 H3. destruct (H' cf H1 H2 H3) as (u' & A & B & _). eauto.
Qed.
Example C22_ex : fits_format s_obj /\ produces cf0 s_file (Ok s_obj).
Proof. exact (conj s_fits s_obj_loaded). Qed.
Example C22_ex_size : exists f, write s_obj = Ok f /\ lenZ f <= BIG.
Proof. eexists. split; [vm_compute; reflexivity|vm_compute; discriminate]. Qed.

(** ** C23: what write_ulog writes *)
(** The file is a header and complete frames.  The first message holds the flags of the object
    with the data-appended flag cleared and no offsets.  The frames of the data section are those
    of all items of the object, sorted by time, ties in the order of [all_sources]. *)
Theorem C23_well_formed : forall u f, write u = Ok f ->
  exists defs subs (by_id : list dataset) (l l' : list (Z * source * (Z * bytes))),
  f = file_header (u_version u) (u_start u) ++
      frames (wire (MFlags (u_compat u) (without_append (u_incompat u)) 0 0 0) :: defs) ++
      frames subs ++ frames (map snd l') /\
  header_fits (u_version u) (u_start u) /\ lenZ (u_compat u) = 8 /\ lenZ (u_incompat u) = 8 /\
  (exists nm nd, map fst defs = repeat 70 (length (u_formats u)) ++ repeat 73 (length (u_info u)) ++
     repeat 77 nm ++ repeat 80 (length (u_params u)) ++ repeat 81 nd) /\
  map fst subs = repeat 65 (length (u_data u)) /\
  Forall sized defs /\ Forall sized subs /\ Forall (fun p => sized (snd p)) l' /\
  sorted_from ds_id (u_data u) by_id /\
  map (fun p => snd (fst p)) l = all_sources by_id u /\
  Forall (fun p => at_time (snd (fst p)) (fst (fst p)) /\ carries (snd (fst p)) (snd p)) l /\
  sorted_from (fun p => fst (fst p)) l l'.
Proof.
  intros u f H. destruct (write_shape u f H) as (defs & subs & l & l' & Ef & Hh & F1 & F2 & _ & _ & K1 & K2 & S1 & S2 & L1 & L2 & L3).
  exists defs, subs, (by_id u), l, l'. repeat match goal with |- _ /\ _ => split end; auto; try exact (proj1 Hh); try exact (proj2 Hh).
  - destruct L3 as (L3 & _). apply (Permutation_Forall L3). eapply Forall_impl; [|exact L2]. intros p Hp. apply Hp.
  - exact (ssort_sorted_from ds_id (u_data u)).
  - eapply Forall_impl; [|exact L2]. intros p Hp. split; apply Hp.
Qed.
(** the file does not claim that data was appended *)
Theorem C23_not_appended : forall i, lenZ i = 8 -> Z.land (nth 0 (without_append i) 0) 1 = 0 /\
  (forall k, (0 < k)%nat -> nth k (without_append i) 0 = nth k i 0) /\
  forall j, 0 < j < 8 -> Z.testbit (nth 0 (without_append i) 0) j = Z.testbit (nth 0 i 0) j.
Proof.
  intros [|x i] Hi; [discriminate|]. cbn [without_append nth]. split; [|split].
  - rewrite <- Z.land_assoc. change (Z.land 254 1) with 0. apply Z.land_0_r.
  - intros [|k] Hk; [lia|]. reflexivity.
  - intros j Hj. rewrite Z.land_spec. replace (Z.testbit 254 j) with true; [apply andb_true_r|].
    assert (j = 1 \/ j = 2 \/ j = 3 \/ j = 4 \/ j = 5 \/ j = 6 \/ j = 7) as [->|[->|[->|[->|[->|[->| ->]]]]]] by lia; reflexivity.
Qed.
Example C23_ex : exists f, write s_obj = Ok f /\ lenZ f = 407.
Proof. eexists. split; vm_compute; reflexivity. Qed.

(** ** C24: writing is stable *)
(** The full claim fails for tagged messages whose tags are not listed by the time of their
    first message: messages of the same time swap places. *)
Definition c24_obj : ulog := set_tagged [(5, [mkTag 54 5 10 (lit "a")]); (3, [mkTag 54 3 5 (lit "b"); mkTag 54 3 10 (lit "c")])] s_obj.
Theorem C24_stable_refuted : exists f u f', fits_format c24_obj /\ write c24_obj = Ok f /\ produces cf0 f (Ok u) /\ write u = Ok f' /\ f <> f'.
Proof.
  do 3 eexists. split.
  { destruct s_fits. constructor; try assumption. cbn [c24_obj set_tagged u_tagged]. split; [nodup|].
    intros t l Hin. entries; injection Hin as <- <-; (split; [discriminate|]); (split; [unfold non_decreasing; cbn; repeat constructor; lia|]);
    repeat (apply Forall_cons; [split; [reflexivity|split; [split; [unfold u8; cbn; lia|split; [unfold u16; cbn; lia|split; [unfold u64; cbn; lia|ok_str]]]|vm_compute; reflexivity]]|]); apply Forall_nil. }
  split; [vm_compute; reflexivity|]. split; [exists 40%nat; vm_compute; reflexivity|]. split; [vm_compute; reflexivity|].
  vm_compute. discriminate.
Qed.
(** It holds when they are ... *)
Theorem C24_stable_partial : forall u f, fits_format u -> tags_ordered u -> write u = Ok f -> lenZ f <= BIG ->
  exists depth, forall cf, (depth <= cf_depth cf)%nat -> cf_hdr cf = false -> (forall n, cf_filter cf n = true) ->
    exists u', (forall r, produces cf f r <-> r = Ok u') /\ write u' = Ok f.
Proof. exact stable. Qed.
(** ... and always from the second time on. *)
Theorem C24_stable_second : forall u f, fits_format u -> write u = Ok f -> lenZ f <= BIG ->
  exists depth, forall cf, (depth <= cf_depth cf)%nat -> cf_hdr cf = false -> (forall n, cf_filter cf n = true) ->
    exists u1 f1, (forall r, produces cf f r <-> r = Ok u1) /\ write u1 = Ok f1 /\
    (lenZ f1 <= BIG -> exists depth1, forall cf1, (depth1 <= cf_depth cf1)%nat -> cf_hdr cf1 = false ->
       (forall n, cf_filter cf1 n = true) ->
       exists u2, (forall r, produces cf1 f1 r <-> r = Ok u2) /\ write u2 = Ok f1).
Proof. exact stable_second. Qed.
(** Exactly when the second file is the first one. *)
Theorem C24_law : forall u f, fits_format u -> write u = Ok f -> lenZ f <= BIG ->
  exists depth, forall cf, (depth <= cf_depth cf)%nat -> cf_hdr cf = false -> (forall n, cf_filter cf n = true) ->
    exists u' f', (forall r, produces cf f r <-> r = Ok u') /\ write u' = Ok f' /\ (f' = f <-> tags_agree u).
Proof. exact stable_law. Qed.
Example C24_ex_law : tags_agree s_obj /\ ~ tags_agree c24_obj.
Proof.
  split.
  - intros d1 a la d2 b lb d3 ma mb x y E. exfalso. apply (f_equal (@length _)) in E. rewrite !app_length in E. cbn [length] in E. rewrite app_length in E. cbn in E. lia.
  - intros H. specialize (H [] 5 [mkTag 54 5 10 (lit "a")] [] 3 [mkTag 54 3 5 (lit "b"); mkTag 54 3 10 (lit "c")] []
      (mkTag 54 5 10 (lit "a")) (mkTag 54 3 10 (lit "c")) _ _ eq_refl (or_introl eq_refl) (or_intror (or_introl eq_refl)) eq_refl eq_refl eq_refl).
    cbn in H. lia.
Qed.
Example C24_ex : fits_format s_obj /\ tags_ordered s_obj.
Proof. split; [exact s_fits|]. repeat constructor. Qed.

(** ** C25: sample values *)
(** a log with one topic of one field besides the timestamp, and one sample *)
Definition one_field (ty : str) (raw : bytes) : bytes :=
  file_header 1 0 ++ frames (map wire
    [MFlags [0;0;0;0;0;0;0;0] [0;0;0;0;0;0;0;0] 0 0 0;
     MFormat (lit "b") [(lit "uint64_t", 0, lit "timestamp"); (ty, 0, lit "f")]]) ++
  frames (map wire [MAdd 0 0 (lit "b"); MData 0 (le_enc 8 5 ++ raw)]).
(** The full claim fails: a bool byte 2 is written as 1, ... *)
Theorem C25_bool_refuted : exists u, produces cf0 (one_field (lit "bool") [2]) (Ok u) /\ u_corrupt u = false /\
  write u = Ok (one_field (lit "bool") [1]).
Proof. eexists. split; [exists 9%nat; vm_compute; reflexivity|]. split; vm_compute; reflexivity. Qed.
(** ... a signalling NaN is made quiet, ... *)
Theorem C25_nan_refuted : exists u, produces cf0 (one_field (lit "float") [1; 0; 128; 127]) (Ok u) /\ u_corrupt u = false /\
  write u = Ok (one_field (lit "float") [1; 0; 192; 127]).
Proof. eexists. split; [exists 9%nat; vm_compute; reflexivity|]. split; vm_compute; reflexivity. Qed.
(** ... and a char outside ASCII makes write_ulog fail. *)
Theorem C25_char_refuted : exists u, produces cf0 (one_field (lit "char") [200]) (Ok u) /\ u_corrupt u = false /\
  write u = Err ValueError.
Proof. eexists. split; [exists 9%nat; vm_compute; reflexivity|]. split; vm_compute; reflexivity. Qed.

(** When a well-formed log is loaded and written, the data messages of the written file are those
    of the loaded samples with each field written as told by [written_raw], so a sample is unchanged
    exactly if no field is a bool other than 0 and 1 or a signalling NaN. *)
Theorem C25_values_partial : forall f v t defs data, typed_log f v t defs data ->
  exists depth, forall cf, (depth <= cf_depth cf)%nat -> cf_hdr cf = false -> (forall n, cf_filter cf n = true) ->
  exists u, (forall r, produces cf f r <-> r = Ok u) /\
  forall f', write u = Ok f' -> exists front ms (ls : list (Z * bytes * bytes)),
    f' = file_header (u_version u) (u_start u) ++ frames front ++ frames ms /\
    Forall sized front /\ Forall sized ms /\ Forall (fun m => fst m <> 68) front /\
    filter (fun m : Z * bytes => fst m =? 68) ms = map (fun x => wire (MData (fst (fst x)) (snd x))) ls /\
    Permutation (map fst ls) (flat_map (fun ds => map (pair (ds_id ds)) (records (ds_id ds) data)) (u_data u)) /\
    Forall (fun x => let '(id, r, r') := x in
      exists multi name recs fields, current id data = Some (multi, name, recs) /\ In r recs /\
        topic (formats_in defs) name fields /\ rewritten fields r r' /\
        ((forall k fd, nth_error fields k = Some fd -> kept (fd_type fd) (le_dec (field_bytes fields k r))) <-> r' = r)) ls.
Proof.
  intros f v t defs data Ht. destruct (typed_loads _ _ _ _ _ Ht) as (depth & H). exists depth. intros cf H1 H2 H3.
  destruct (H cf H1 H2 H3) as (u & U1 & _ & U2). exists u. split; [exact U1|]. intros f' Hw.
  destruct Ht as [_ _ _ _ [Hd _] _ Hcon].
  destruct (samples_written _ _ _ _ _ _ Hcon Hd U2 f' Hw) as (front & ms & ls & A1 & A2 & A3 & A4 & A5 & A6 & A7).
  exists front, ms, ls. repeat (split; [assumption|]).
  apply Forall_forall. intros [[id r] r'] Hin. rewrite Forall_forall in A7. destruct (A7 _ Hin) as (multi & name & recs & fields & B1 & B2 & B3).
  cbn [fst snd] in *. exists multi, name, recs, fields. split; [exact B1|].
  assert (Hr : In r recs).
  { apply (in_map fst) in Hin. apply (Permutation_in _ A6) in Hin. apply in_flat_map in Hin as (ds & _ & Hin). apply in_map_iff in Hin as (r0 & E & Hin).
    injection E as E1 E2. cbn [fst] in *. subst r0. unfold records in Hin. rewrite E1, B1 in Hin. exact Hin. }
  split; [exact Hr|]. split; [exact B2|]. split; [exact B3|].
  pose proof (current_recs _ _ Hcon Hd data [] (eq_sym (app_nil_r _)) _ _ _ _ B1) as Hall. rewrite Forall_forall in Hall.
  destruct (Hall _ Hr) as (Hb & fields' & T1 & T2).
  assert (Hl : lenZ r = total fields) by (rewrite T2; f_equal; eapply topic_fun; eassumption).
  split; [intros Hk; apply (rewritten_kept fields); auto|]. intros ->. apply rewritten_same; auto.
Qed.
Example C25_ex : typed_log s_file 1 500 s_defs s_data.
Proof. exact s_typed. Qed.

Print Assumptions C22_round_trip.
Print Assumptions C23_well_formed.
Print Assumptions C23_not_appended.
Print Assumptions C24_stable_refuted.
Print Assumptions C24_stable_partial.
Print Assumptions C24_stable_second.
Print Assumptions C24_law.
Print Assumptions C25_bool_refuted.
Print Assumptions C25_nan_refuted.
Print Assumptions C25_char_refuted.
Print Assumptions C25_values_partial.
