(** Property C76: file_corruption is set exactly for the listed reasons. *)
From Verif Require Import Base Dict PyStr Utf8 PyFloat Struct PySort ModelTypes ModelRead Spec SpecSection SpecMsg SpecLog SpecWalk SpecFlag Samples
  ProofsRead ProofsInv ProofsSection ProofsLog ProofsWalk ProofsFlag PropsRead PropsWalk.

(** The flag of a log that loads, and the message ids the reader has warned about: [defs] and [secs] are what the walk through the file meets. *)
Theorem C76_flag : forall cf f u defs secs, bytes_ok f -> cf_hdr cf = false -> produces cf f (Ok u) -> walked cf f u defs secs ->
  (u_corrupt u = true <-> (exists e, In e defs /\ def_suspicious (cf_ign cf) e) \/ in_section (suspicious cf (u_formats u)) secs) /\
  (forall id, In id (u_missing u) <-> in_section (orphan cf (u_formats u) id) secs).
Proof.
  intros cf f u defs secs Hb Hh Hp W. destruct (C70_trace cf f u Hb Hh Hp) as (defs' & secs' & _ & (u1 & Hd & Hc) & Un).
  destruct (Un defs secs W) as (-> & ->). clear Un W. rename defs' into defs, secs' into secs.
  assert (M : multi_ne (after_header (u_version u) (u_start u))) by (intros k; discriminate).
  destruct (def_flag cf defs _ _ Hd M) as (M1 & S1 & F1 & I1 & C1). cbn in S1, F1, I1.
  destruct (flag_chain cf secs u1 u Hc [] S1 M1) as (E & A & B).
  - intros id. rewrite F1. split; [intros []|intros (p & s & [] & _)].
  - rewrite E. split.
    + rewrite A, C1. cbn. intuition discriminate.
    + intros id. rewrite B, I1. cbn. tauto.
Qed.
(** There is such a walk for every log that loads (and only one). *)
Theorem C76_walk : forall cf f u, bytes_ok f -> cf_hdr cf = false -> produces cf f (Ok u) -> exists! w, walked cf f u (fst w) (snd w).
Proof.
  intros cf f u Hb Hh Hp. destruct (C70_trace cf f u Hb Hh Hp) as (defs & secs & W & _ & Un). exists (defs, secs). split; [exact W|].
  intros [d s] H. destruct (Un d s H) as (-> & ->). reflexivity.
Qed.
(** No id is warned about twice, not even in different sections. *)
Theorem C76_once : forall cf f u, bytes_ok f -> produces cf f (Ok u) -> NoDup (u_missing u).
Proof.
  intros cf f u Hb Hp. assert (M : forall v t, multi_ne (after_header v t)) by (intros v t k; discriminate).
  destruct (cf_hdr cf) eqn:Hh.
  - apply C70_law in Hp; [|exact Hb]. inversion Hp as [| |v t rest defs q d u' E Hf Ho De Hd _|v t rest defs q d u' r E Hf Ho De Hd Hn]; [subst|congruence].
    destruct (def_flag cf defs _ _ Hd (M _ _)) as (_ & _ & _ & I1 & _). rewrite I1. constructor.
  - destruct (C70_trace cf f u Hb Hh Hp) as (defs & secs & _ & (u1 & Hd & Hc) & _).
    destruct (def_flag cf defs _ _ Hd (M _ _)) as (_ & _ & _ & I1 & _). apply (missing_once cf secs u1 u Hc). rewrite I1. constructor.
Qed.
(** With parse_header_only: the definitions alone ([defs] up to [q], where the data begins). *)
Theorem C76_header_only : forall cf f u, bytes_ok f -> cf_hdr cf = true -> produces cf f (Ok u) ->
  (exists defs q d, hops cf f 16 defs q /\ definitions_end cf f q d) /\
  forall defs q d, hops cf f 16 defs q -> definitions_end cf f q d ->
    u_missing u = [] /\ (u_corrupt u = true <-> exists e, In e defs /\ def_suspicious (cf_ign cf) e).
Proof.
  intros cf f u Hb Hh Hp. apply C70_law in Hp; [|exact Hb]. inversion Hp as [| |v t rest defs q d u' E Hf Ho De Hd _|v t rest defs q d u' r E Hf Ho De Hd Hn]; [subst|congruence].
  split; [exists defs, q, d; auto|]. intros defs' q' d' Ho' De'. destruct (hops_fun _ _ _ _ _ _ Ho De _ _ _ Ho' De') as (-> & _).
  assert (M : multi_ne (after_header v t)) by (intros k; discriminate).
  destruct (def_flag cf defs _ _ Hd M) as (_ & _ & _ & I1 & C1). split; [exact I1|]. rewrite C1. cbn. intuition discriminate.
Qed.
(** A flag that is set when only the header is parsed is set when all is. *)
Theorem C76_header_first : forall cf f h u, bytes_ok f -> cf_hdr cf = false -> produces cf f (Ok u) -> produces (with_hdr true cf) f (Ok h) ->
  u_corrupt h = true -> u_corrupt u = true.
Proof.
  intros cf f h u Hb Hh Hp Hq Hc. destruct (C76_walk cf f u Hb Hh Hp) as ((defs & secs) & W & _). cbn [fst snd] in W.
  apply (proj1 (C76_flag cf f u defs secs Hb Hh Hp W)). left. destruct W as (q & d & Ho & De & _).
  destruct (C76_header_only (with_hdr true cf) f h Hb eq_refl Hq) as (_ & L).
  exact (proj1 (proj2 (L defs q d (hops_hdr true _ _ _ _ _ Ho) De)) Hc).
Qed.
(** A clean log; a sample of an id without subscription; a message without name; garbage between two messages. *)
Definition c76_orphan : bytes := hdr0 ++ frame_of (m_log 7) ++ frame_of (wire (MData 9 (rec_t 1000 5 1 2))).
Definition c76_nameless : bytes := hdr0 ++ frame_of (73, [2; 97; 98; 99]) ++ frame_of (m_log 7).
Example C76_ex :
  (exists u, produces cf0 s_file (Ok u) /\ u_corrupt u = false /\ u_missing u = []) /\
  (exists u, produces cf0 c76_orphan (Ok u) /\ u_corrupt u = true /\ u_missing u = [9]) /\
  (exists u, produces cf0 c76_nameless (Ok u) /\ u_corrupt u = true /\ u_missing u = []) /\
  (exists u, produces cf0 c70_file (Ok u) /\ u_corrupt u = true /\ u_missing u = []).
Proof. repeat split; (eexists; split; [exists 60%nat; vm_compute; reflexivity|split; reflexivity]). Qed.
Example C76_ex_reason : orphan cf0 [] 9 [] [EMsg 76 (snd (m_log 7))] (EMsg 68 (snd (wire (MData 9 (rec_t 1000 5 1 2))))) /\ def_suspicious false (EMsg 73 [2; 97; 98; 99]).
Proof.
  split.
  - eexists. split; [reflexivity|]. split; [reflexivity|]. split; [reflexivity|]. intros (p & s & [Q|[]] & _). discriminate.
  - right. exists 73, [2; 97; 98; 99]. split; [reflexivity|]. left. left. split; [auto|]. exists 2, [97; 98; 99], [97; 98]. repeat split. cbn. intuition discriminate.
Qed.
(** "t:uint8_t x;y;": the second field has no name *)
Example C76_ex_format : def_suspicious false (EMsg 70 (lit "t:uint8_t x;y;")) /\ ~ def_suspicious false (EMsg 70 (lit "t:uint8_t x;")).
Proof.
  assert (D : forall p, def_suspicious false (EMsg 70 p) <-> parse_format false p = Err IndexError).
  { intros p. rewrite format_index. unfold def_suspicious. split.
    - intros [Q|(ty & q & [= <- <-] & [[([Q|Q] & _)|([Q|Q] & _)]|(_ & Q)])]; try discriminate. exact Q.
    - intros H. right. exists 70, p. auto. }
  rewrite !D. split; [reflexivity|vm_compute; discriminate].
Qed.
(** the header shows the message without name, not the sample without subscription *)
Example C76_ex_header :
  (exists h, produces (with_hdr true cf0) c76_nameless (Ok h) /\ u_corrupt h = true) /\
  (exists h, produces (with_hdr true cf0) c76_orphan (Ok h) /\ u_corrupt h = false).
Proof. split; (eexists; split; [exists 60%nat; vm_compute; reflexivity|reflexivity]). Qed.
