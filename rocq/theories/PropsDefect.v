(** Property C21 exactly: which messages end the data section, and what they do to the log. *)
From Verif Require Import Base Dict PyStr Utf8 Struct ModelTypes ModelRead Spec SpecSection SpecMsg SpecDefect
  ProofsTrace ProofsInv ProofsCut ProofsSection ProofsWhole ProofsFields ProofsLoad ProofsProps ProofsFile ProofsDefect Samples PropsRead.

(** Exactly the listed defects end the section. *)
Theorem C21_defects : forall cf fmts pre m, bytes_ok (snd m) -> (stops cf fmts pre m <-> defect cf fmts pre m).
Proof. exact stops_defect. Qed.

Lemma shorter_framed f v t defs a b : well_framed f v t defs (a ++ b) ->
  well_framed (file_header v t ++ frames defs ++ frames a) v t defs a.
Proof.
  intros [(tl & Hf & Ht & Ht') Hh Hb Hs Hd Hdt Hst]. rewrite frames_app in Hf.
  assert (E : f = (file_header v t ++ frames defs ++ frames a) ++ frames b ++ tl) by (rewrite Hf, <- !app_assoc; reflexivity).
  split; auto.
  - exists []. split; [now rewrite app_nil_r|]. split; [|auto]. left. reflexivity.
  - rewrite E in Hb. unfold bytes_ok in *. apply Forall_app in Hb. tauto.
  - rewrite E, lenZ_app in Hs. pose proof (lenZ_nonneg (frames b ++ tl)). lia.
  - apply Forall_app in Hdt. tauto.
  - destruct a as [|m a]; [exact I|]. exact Hst.
Qed.

Lemma rev_case {A} (l : list A) : l = [] \/ exists r x, l = r ++ [x].
Proof. destruct l as [|a l] using rev_ind; [now left|right; eauto]. Qed.
Lemma data_bytes f v t defs pre m post : well_framed f v t defs (pre ++ m :: post) -> bytes_ok (snd m).
Proof.
  intros [_ _ _ _ _ Hdt _]. apply Forall_app in Hdt as (_ & H). inversion H as [|? ? ((_ & Hb & _) & _) _]. exact Hb.
Qed.
Lemma defs_state cf defs v t u1 : run_def cf defs (after_header v t) = Ok u1 ->
  u_subs u1 = [] /\ u_formats u1 = format_dict (formats (cf_ign cf) (msgs defs)).
Proof.
  intros Hd. rewrite <- run_def_msgs in Hd.
  pose proof (def_const def_rest cf (fun e a b => def_rest_same cf e a b) _ _ _ Hd) as R.
  split; [unfold def_rest in R; cbn in R; congruence|].
  exact (def_fold u_formats _ ins_fmt cf (def_formats cf) _ _ _ Hd).
Qed.

(** A message with one of the defects ends the section: nothing that follows it in the file
    has any influence on the outcome. *)
Theorem C21_law : forall cf f v t defs pre m post, well_framed f v t defs (pre ++ m :: post) -> not_appended defs ->
  cf_hdr cf = false -> defect cf (format_dict (formats (cf_ign cf) (msgs defs))) (msgs pre) m ->
  forall r, produces cf f r <-> produces cf (file_header v t ++ frames defs ++ frames (pre ++ [m])) r.
Proof.
  intros cf f v t defs pre m post Hw Ha Hh Hd r. pose proof (data_bytes _ _ _ _ _ _ _ Hw) as Hb.
  apply (stops_defect _ _ _ _ Hb) in Hd.
  assert (Hw2 : well_framed (file_header v t ++ frames defs ++ frames (pre ++ [m])) v t defs (pre ++ [m])).
  { apply (shorter_framed f v t defs (pre ++ [m]) post). rewrite <- app_assoc. exact Hw. }
  rewrite (delivery cf _ v t defs _ Hw Ha Hh), (delivery cf _ v t defs _ Hw2 Ha Hh).
  destruct (run_def cf defs (after_header v t)) as [u1|e] eqn:E; [|reflexivity].
  destruct (defs_state _ _ _ _ _ E) as (Hs & Hf). rewrite <- Hf in Hd.
  now rewrite (run_data_stops cf pre m post u1 Hs Hb Hd).
Qed.

(** Unless it is a data message, it leaves no trace itself: the log is that of the messages
    before it. *)
Theorem C21_traceless : forall cf f v t defs pre m post, well_framed f v t defs (pre ++ m :: post) -> not_appended defs ->
  cf_hdr cf = false -> defect cf (format_dict (formats (cf_ign cf) (msgs defs))) (msgs pre) m -> fst m <> 68 ->
  forall r, produces cf f r <-> produces cf (file_header v t ++ frames defs ++ frames pre) r.
Proof.
  intros cf f v t defs pre m post Hw Ha Hh Hd N r. pose proof (data_bytes _ _ _ _ _ _ _ Hw) as Hb.
  pose proof (shorter_framed f v t defs pre (m :: post) Hw) as Hw2.
  rewrite (delivery cf _ v t defs _ Hw Ha Hh), (delivery cf _ v t defs _ Hw2 Ha Hh).
  destruct (run_def cf defs (after_header v t)) as [u1|e] eqn:E; [|reflexivity].
  rewrite run_data_app. destruct (run_data cf pre u1) as [u2|u2|e]; try reflexivity.
  destruct m as [ty p]. cbn [fst snd] in N, Hb. apply (defect_not_data cf _ _ ty p u2 N Hb) in Hd as (u3 & H). cbn [fst snd] in H.
  assert (u3 = u2).
  { clear - H N. apply data_effect_shape in H.
    repeat (destruct H as [(Q & H)|H]; [first [now destruct (N Q) | symmetry in H; apply eff_struct in H; now destruct H | discriminate] |]).
    destruct H as (_ & H). discriminate. }
  subst u3. cbn [run_data]. rewrite H. reflexivity.
Qed.

(** The first message with a defect: exactly the messages up to it make up the log. *)
Theorem C21_first_partial : forall cf f v t defs pre m post u, well_framed f v t defs (pre ++ m :: post) -> not_appended defs ->
  cf_hdr cf = false -> defect cf (format_dict (formats (cf_ign cf) (msgs defs))) (msgs pre) m ->
  (forall a x b, pre = a ++ x :: b -> ~ defect cf (format_dict (formats (cf_ign cf) (msgs defs))) (msgs a) x) ->
  produces cf f (Ok u) -> read_as cf v t (msgs defs) [msgs (pre ++ [m])] u.
Proof.
  intros cf f v t defs pre m post u Hw Ha Hh Hd Hfirst Hp.
  pose proof (proj1 (C21_law cf f v t defs pre m post Hw Ha Hh Hd (Ok u)) Hp) as Hp2.
  assert (Hw2 : well_framed (file_header v t ++ frames defs ++ frames (pre ++ [m])) v t defs (pre ++ [m])).
  { apply (shorter_framed f v t defs (pre ++ [m]) post). rewrite <- app_assoc. exact Hw. }
  destruct (run_def cf defs (after_header v t)) as [u1|e] eqn:E.
  2:{ apply (delivery cf _ v t defs _ Hw2 Ha Hh) in Hp2. rewrite E in Hp2. discriminate. }
  destruct (frames_trace _ _ _ _ _ _ _ _ Hw2 Hh E (not_appended_ok _ _ _ _ _ Ha E) Hp2) as (evs & Hev & H).
  destruct Hev as [->|(a & x & b & Eab & -> & Hst)]; [exact H|].
  assert (Hx : bytes_ok (snd x)) by (rewrite Eab in Hw2; exact (data_bytes _ _ _ _ _ _ _ Hw2)).
  apply (stops_defect _ _ _ _ Hx) in Hst.
  destruct (rev_case b) as [->|(b' & y & ->)].
  - apply app_inj_tail in Eab as (<- & <-). exact H.
  - exfalso. rewrite app_comm_cons, app_assoc in Eab. apply app_inj_tail in Eab as (Eab & _). exact (Hfirst a x b' Eab Hst).
Qed.

(** *** Example: in the file of [C21_malformed_refuted] the value of "k" is one byte long
    instead of four. *)
Definition c21_bad : Z * bytes := (73, kv_bytes (lit "uint32_t") (lit "k") [1]).
Example C21_defect_ex : c21_file = hdr0 ++ frames [] ++ frames ([m_log 7] ++ c21_bad :: [m_log 8]) /\
  forall fmts, defect cf0 fmts (msgs [m_log 7]) c21_bad /\ ~ defect cf0 fmts (msgs []) (m_log 7).
Proof.
  split; [reflexivity|]. intros fmts. split.
  - left. split; [now left|]. apply (bv_size _ 10 _ (lit "uint32_t") (lit "k") 4); [reflexivity|vm_compute; intuition discriminate|cbn; tauto|discriminate].
  - cbn. lia.
Qed.
Example C21_framed_ex : well_framed c21_file 1 0 [] ([m_log 7] ++ c21_bad :: [m_log 8]).
Proof.
  split.
  - exists []. split; [reflexivity|]. split; [now left|discriminate].
  - unfold header_fits. repeat split; vm_compute; congruence.
  - apply Forall_forall. intros x Hx. vm_compute in Hx. unfold byte_ok. intuition lia.
  - vm_compute. discriminate.
  - constructor.
  - apply Forall_cons; [apply m_log_plain; unfold u64; lia|]. apply Forall_cons; [|apply Forall_cons; [apply m_log_plain; unfold u64; lia|constructor]].
    split; [|left; now left]. split; [split; vm_compute; congruence|]. split; [|vm_compute; congruence].
    apply Forall_forall. intros x Hx. vm_compute in Hx. unfold byte_ok. intuition lia.
  - cbn. tauto.
Qed.
