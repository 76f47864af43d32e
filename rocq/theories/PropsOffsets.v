(** Property C20, continued: appended offsets that lie outside the file. *)
From Verif Require Import Base Dict Utf8 PyStr PyFloat Struct PySort ModelTypes ModelRead Spec ProofsRead ProofsFields ProofsFile Samples PropsRead.

Lemma read_data_empty cf until f pos u k : dropZ pos f = [] -> read_data (S k) cf until f pos u = Some (finalize u).
Proof. intros H. unfold read_data. cbn [data_loop]. now rewrite (data_step_end _ _ _ _ _ _ _ H). Qed.
Lemma read_sections_empty cf f offs : forall pos u k, lenZ f <= pos -> Forall (fun o => lenZ f <= o) offs -> offs_fit (cf_kind cf) offs ->
  read_sections (S k) cf f offs pos u = Some (run_sections cf (map (fun _ => []) offs ++ [[]]) u).
Proof.
  induction offs as [|o offs IH]; intros pos u k Hp Ho Hf; cbn [read_sections map app run_sections run_data end_data];
    rewrite read_data_empty by (now apply dropZ_all).
  - destruct (finalize u); reflexivity.
  - inversion Ho; inversion Hf; subst. destruct (finalize u) as [w|e]; [|reflexivity]. rewrite seek_fit by assumption. now apply IH.
Qed.
(** What seek says to an offset that does not fit. *)
Definition refusal (k : filekind) (o : Z) (e : exn) : Prop :=
  match k with
  | MemFile => 2 ^ 63 <= o /\ e = OverflowError
  | OsFile m => 2 ^ 63 <= o /\ e = ValueError \/ m < o < 2 ^ 63 /\ e = OSError
  end.
Lemma seek_refused k o e : refusal k o e -> seek_abs k o = Err e.
Proof.
  unfold refusal, seek_abs. change (2 ^ 63) with 9223372036854775808.
  destruct k as [m|]; repeat match goal with |- context [?a <? ?b] => destruct (Z.ltb_spec a b) | |- context [?a <=? ?b] => destruct (Z.leb_spec a b) end;
    intros X; try (destruct X as [[X ->]|[X ->]]); try (destruct X as [X ->]); try reflexivity; lia.
Qed.

Section beyond.
Variables (cf : cfg) (f : bytes) (v t : Z) (defs data : list (Z * bytes)) (u1 : ulog) (tl : bytes).
Hypothesis Hf : f = file_header v t ++ frames defs ++ frames data ++ tl.
Hypothesis Hh : header_fits v t.
Hypothesis Hhdr : cf_hdr cf = false.
Hypothesis Hdef : Forall plain_def defs.
Hypothesis Hrun : run_def cf defs (after_header v t) = Ok u1.
Hypothesis Hst : starts_data data.
Hypothesis Hemp : data = [] -> tl = [].
Hypothesis Hpl : Forall plain_data data.
Hypothesis Htl : file_tail tl.
Hypothesis Happ : has_appended u1 = true.

Lemma beyond_pos : 0 <= 16 + lenZ (frames defs) /\ 16 + lenZ (frames defs) + lenZ (frames data) <= lenZ f.
Proof.
  pose proof (lenZ_nonneg (frames defs)). pose proof (lenZ_nonneg tl). rewrite Hf, !lenZ_app, lenZ_file_header. lia.
Qed.
Lemma beyond_load n k : (length data + S (length defs) <= n)%nat -> (n = length data + S k)%nat ->
  load n cf f = read_sections n cf f (u_offsets u1) (16 + lenZ (frames defs)) u1.
Proof.
  intros Hn Hk. unfold load, load_at. rewrite Hf at 1. rewrite read_header_ok by exact Hh. fold (after_header v t).
  change (0 + 16) with 16. rewrite (def_loop_file cf f v t defs data tl _ u1); auto; [|lia]. now rewrite Hhdr, Happ.
Qed.
Lemma beyond_refused o r e w : u_offsets u1 = o :: r -> lenZ f <= o -> refusal (cf_kind cf) o e ->
  end_data (run_data cf data u1) = Ok w -> produces cf f (Err e).
Proof.
  intros Ho Hl He Hw. exists (length data + S (length defs))%nat. rewrite (beyond_load _ (length defs)) by lia.
  destruct beyond_pos as [P1 P2]. rewrite Ho. cbn [read_sections].
  rewrite (read_data_tail cf f data tl); auto; [|rewrite Hf; apply dropZ_file|lia]. rewrite Hw, (seek_refused _ _ _ He). reflexivity.
Qed.
Lemma beyond_read o r : u_offsets u1 = o :: r -> Forall (fun x => lenZ f <= x) (o :: r) -> offs_fit (cf_kind cf) (o :: r) ->
  produces cf f (run_sections cf (data :: map (fun _ => []) (o :: r)) u1).
Proof.
  intros Ho Hl He. exists (length data + S (length defs))%nat. rewrite (beyond_load _ (length defs)) by lia.
  destruct beyond_pos as [P1 P2]. rewrite Ho. cbn [read_sections]. inversion Hl as [|? ? L1 L2]; inversion He as [|? ? E1 E2]; subst x l x0 l0.
  rewrite (read_data_tail cf f data tl); auto; [|rewrite Hf; apply dropZ_file|lia]. cbn [run_sections].
  destruct (end_data (run_data cf data u1)) as [w|e]; [|reflexivity]. rewrite (seek_fit _ _ E1).
  replace (length data + S (length defs))%nat with (S (length data + length defs)) by lia.
  rewrite read_sections_empty by assumption.
  replace (map (fun _ : Z => []) r ++ [[]]) with (map (fun _ : Z => @nil (Z * bytes)) (o :: r)); [reflexivity|].
  clear. cbn [map]. induction r as [|x r IH]; [reflexivity|]. cbn [map app]. now rewrite <- IH.
Qed.
End beyond.

Lemma finalize_again u w : finalize u = Ok w -> finalize w = Ok w.
Proof.
  unfold finalize. intros H. destruct (mapM dataset_of _) as [l|] in H; [|discriminate]. cbn [bind] in H. injection H as <-. cbn [set_data set_subs u_subs u_data map rev filter mapM bind].
  rewrite app_nil_r, ssort_idem by (first [exact ds_leb_total|exact ds_leb_trans]). reflexivity.
Qed.
Lemma sections_empty cf (l : list Z) : forall w, finalize w = Ok w -> run_sections cf (map (fun _ => []) l) w = Ok w.
Proof. induction l as [|x l IH]; intros w H; cbn [map run_sections run_data end_data]; [reflexivity|]. rewrite H. now apply IH. Qed.

(** Offsets at or beyond the end of the file that seek accepts make no difference: the log is that of the messages. *)
Theorem C20_beyond : forall cf f v t defs data tl u1,
  f = file_header v t ++ frames defs ++ frames data ++ tl -> header_fits v t -> cf_hdr cf = false ->
  Forall plain_def defs -> run_def cf defs (after_header v t) = Ok u1 ->
  starts_data data -> (data = [] -> tl = []) -> Forall plain_data data -> file_tail tl ->
  has_appended u1 = true -> u_offsets u1 <> [] -> Forall (fun o => lenZ f <= o) (u_offsets u1) -> offs_fit (cf_kind cf) (u_offsets u1) ->
  produces cf f (end_data (run_data cf data u1)).
Proof.
  intros cf f v t defs data tl u1 H1 H2 H3 H4 H5 H6 H7 H8 H9 H10 Hn Hl Hf. destruct (u_offsets u1) as [|o r] eqn:Eo; [congruence|].
  pose proof (beyond_read cf f v t defs data u1 tl H1 H2 H3 H4 H5 H6 H7 H8 H9 H10 o r Eo Hl Hf) as P.
  cbn [run_sections] in P. destruct (end_data (run_data cf data u1)) as [w|e] eqn:E; [|exact P].
  rewrite (sections_empty cf (o :: r)) in P; [exact P|]. unfold end_data in E. destruct (run_data cf data u1); [| |discriminate]; exact (finalize_again _ _ E).
Qed.
(** An offset that seek does not accept: the constructor raises, although all messages of the file were read. *)
Theorem C20_beyond_refused : forall cf f v t defs data tl u1 o r e w,
  f = file_header v t ++ frames defs ++ frames data ++ tl -> header_fits v t -> cf_hdr cf = false ->
  Forall plain_def defs -> run_def cf defs (after_header v t) = Ok u1 ->
  starts_data data -> (data = [] -> tl = []) -> Forall plain_data data -> file_tail tl ->
  has_appended u1 = true -> u_offsets u1 = o :: r -> lenZ f <= o -> refusal (cf_kind cf) o e ->
  end_data (run_data cf data u1) = Ok w -> produces cf f (Err e).
Proof.
  intros cf f v t defs data tl u1 o r e w H1 H2 H3 H4 H5 H6 H7 H8 H9 H10 Ho Hl Hr Hw. eapply beyond_refused; eauto.
Qed.
(** In memory, 2^63 - 1 is accepted and 2^63 is not. *)
Definition cf_mem : cfg := mkCfg false all_topics false 900 MemFile.
Example C20_ex_beyond : exists u, produces cf_mem (c20_file 1 9223372036854775807) (Ok u) /\ u_corrupt u = false /\ lenZ (u_data u) = 1 /\ produces cf_mem (c20_file 1 9223372036854775808) (Err OverflowError) /\ produces cf0 (c20_file 1 9223372036854775808) (Err ValueError) /\
  produces cf0 (c20_file 1 9223372036854775807) (Err OSError).
Proof.
  eexists. split; [exists 9%nat; vm_compute; reflexivity|]. split; [reflexivity|]. split; [reflexivity|].
  repeat split; exists 9%nat; vm_compute; reflexivity.
Qed.
