(** Proofs for PropsEvents.v *)
From Verif Require Import Base Dict PyStr PyFloat Struct ModelTypes ModelApi ModelTools ModelEvents SpecEvents.

Lemma has_events_spec u : has_events u = true <-> events_in u.
Proof.
  unfold has_events, events_in. destruct (get_dataset u (lit "event") 0) as [d|]; [|split; [discriminate|intros (d & c & H & _); discriminate]].
  destruct (sget (lit "id") (ds_data d)) as [c|] eqn:E.
  - split.
    + intros H. exists d, c. split; [reflexivity|]. split; [exact E|]. intros Hc. rewrite Hc in H. discriminate.
    + intros (d' & c' & H1 & H2 & H3). injection H1 as <-. rewrite E in H2. injection H2 as <-. unfold lenZ. destruct (c_raw c); [congruence|]. cbn [length]. lia.
  - split; [discriminate|]. intros (d' & c' & H1 & H2 & _). injection H1 as <-. congruence.
Qed.
Lemma no_events_shown u r : has_events u = false -> get_logged_events r u = Ok [].
Proof.
  unfold has_events, get_logged_events. destruct (get_dataset u (lit "event") 0) as [d|]; [|reflexivity].
  destruct (sget (lit "id") (ds_data d)) as [c|]; [|reflexivity]. intros H. destruct (c_raw c); [reflexivity|]. unfold lenZ in H. cbn [length] in H. lia.
Qed.
Lemma failed_shown u e : get_logged_events (Err e) u = Ok [].
Proof.
  unfold get_logged_events. destruct (get_dataset u (lit "event") 0) as [d|]; [|reflexivity].
  destruct (sget (lit "id") (ds_data d)) as [c|]; [|reflexivity]. destruct (c_raw c); reflexivity.
Qed.
Lemma ascii_alnum_spec c : ascii_alnum c = true <-> letter_or_digit c.
Proof. unfold ascii_alnum, letter_or_digit. lia. Qed.

Section Lib.
Context {J P : Type} (lb : lib J P).
Lemma is_alnum_spec c : is_alnum lb c = true <-> (c < 128 /\ letter_or_digit c) \/ (128 <= c /\ lb_alnum lb c = true).
Proof.
  unfold is_alnum. destruct (Z.ltb_spec c 128).
  - rewrite ascii_alnum_spec. split; [left; auto|intros [[_ ?]|[? _]]; [assumption|lia]].
  - split; [right; auto|intros [[? _]|[_ ?]]; [lia|assumption]].
Qed.
Lemma hash_ok_spec h : has_length h -> exists b, hash_ok lb h = Ok b /\ (b = true <-> good_hash lb h).
Proof.
  assert (L : forall (l : list Z), (lenZ l <=? 64) && negb (lenZ l =? 0) = true <-> (1 <= length l <= 64)%nat).
  { intros l. unfold lenZ. split; intros; lia. }
  intros [[s ->]|[s ->]]; eexists; (split; [reflexivity|]); rewrite andb_true_iff, L, forallb_forall; unfold good_hash; split.
  - intros [HL HF]. left. exists s. split; [reflexivity|]. split; [exact HL|]. apply Forall_forall. intros c Hc. apply is_alnum_spec, HF, Hc.
  - intros [(s' & E & HL & HF)|(b & E & _)]; [|discriminate]. injection E as <-. split; [exact HL|]. intros c Hc. apply is_alnum_spec.
    exact (proj1 (Forall_forall _ _) HF c Hc).
  - intros [HL HF]. right. exists s. split; [reflexivity|]. split; [exact HL|]. apply Forall_forall. intros c Hc. apply ascii_alnum_spec, HF, Hc.
  - intros [(s' & E & _)|(b & E & HL & HF)]; [discriminate|]. injection E as <-. split; [exact HL|]. intros c Hc. apply ascii_alnum_spec.
    exact (proj1 (Forall_forall _ _) HF c Hc).
Qed.
Lemma good_length h : good_hash lb h -> has_length h.
Proof. intros [(s & -> & _)|(b & -> & _)]; [left|right]; eauto. Qed.
Lemma join_ok segs : join_bytes (map VBytes segs) = Ok (concat segs).
Proof.
  unfold join_bytes. enough (E : mapM (fun v => match v with VBytes b => Ok b | _ => Err TypeError end) (map VBytes segs) = Ok segs) by (rewrite E; reflexivity).
  induction segs as [|x l IH]; [reflexivity|]. cbn [map mapM bind]. rewrite IH. reflexivity.
Qed.
Lemma join_not_bytes vs v : In v vs -> (forall b, v <> VBytes b) -> exists e, join_bytes vs = Err e.
Proof.
  intros Hv Hb. unfold join_bytes. enough (E : exists e, mapM (fun v => match v with VBytes b => Ok b | _ => Err TypeError end) vs = Err e)
    by (destruct E as (e & ->); eexists; reflexivity).
  induction vs as [|x l IH]; [destruct Hv|]. cbn [mapM]. destruct Hv as [->|Hv].
  - destruct v; try (eexists; reflexivity). destruct (Hb b eq_refl).
  - destruct (IH Hv) as (e & E). destruct x; try (eexists; reflexivity). cbn [bind]. rewrite E. eexists; reflexivity.
Qed.
Lemma new_knows j p : knows lb j p -> new_parser lb j = (Ok tt, p).
Proof. intros (p0 & E & ->). unfold new_parser. rewrite E. reflexivity. Qed.
Lemma own_get cb u s data : own lb u data ->
  get_event_parser lb cb u s = (rmap Some (let* j := lb_json lb data in let '(r, p) := new_parser lb j in let* _ := r in Ok p), s).
Proof.
  intros (segs & rest & h & E1 & E2 & Hh & ->). unfold get_event_parser. rewrite E1, E2.
  destruct (hash_ok_spec h (good_length h Hh)) as (b & E & Hb). rewrite E. rewrite (proj2 Hb Hh).
  unfold own_parser. cbn [py_nth nth_error bind]. rewrite join_ok. reflexivity.
Qed.
Lemma no_own_get cb u s : no_own lb u -> get_event_parser lb cb u s = default_parser lb cb s.
Proof.
  unfold no_own, get_event_parser. intros [E|[E|(h & E & Hl & Hh)]]; rewrite E; [reflexivity| |].
  - destruct (sget _ (u_multi u)); reflexivity.
  - destruct (sget _ (u_multi u)); [|reflexivity]. destruct (hash_ok_spec h Hl) as (b & Eb & Hb). rewrite Eb.
    destruct b; [|reflexivity]. destruct (Hh (proj1 Hb eq_refl)).
Qed.
Lemma logged_get cb u s p s' : events_in u -> get_event_parser lb cb u s = (p, s') ->
  logged_events lb cb u s = (match p with Ok q => shown lb q u | Err _ => Ok [] end, s').
Proof.
  intros H E. unfold logged_events. rewrite (proj2 (has_events_spec u) H), E. f_equal. destruct p as [[q|]|e]; [reflexivity|reflexivity|apply failed_shown].
Qed.
Lemma logged_none cb u s : ~ events_in u -> logged_events lb cb u s = (Ok [], s).
Proof. intros H. unfold logged_events. destruct (has_events u) eqn:E; [destruct (H (proj1 (has_events_spec u) E))|reflexivity]. Qed.
Lemma shown_none p u : ~ events_in u -> shown lb p u = Ok [].
Proof. intros H. apply no_events_shown. destruct (has_events u) eqn:E; [destruct (H (proj1 (has_events_spec u) E))|reflexivity]. Qed.
Lemma events_dec u : events_in u \/ ~ events_in u.
Proof. destruct (has_events u) eqn:E; [left; now apply has_events_spec|right; intros H; apply has_events_spec in H; congruence]. Qed.
Lemma own_dec u : no_own lb u \/ forall cb s, exists r, get_event_parser lb cb u s = (r, s).
Proof.
  unfold no_own. destruct (sget (lit "metadata_events") (u_multi u)) as [ev|] eqn:E1; [|now left; left].
  destruct (sget (lit "metadata_events_sha256") (u_info u)) as [h|] eqn:E2; [|now left; right; left].
  destruct (hash_ok lb h) as [[|]|e] eqn:E3.
  - right. intros cb s. eexists. unfold get_event_parser. rewrite E1, E2, E3. reflexivity.
  - left. right. right. exists h. split; [reflexivity|].
    assert (Hl : has_length h) by (destruct h; try discriminate; unfold has_length; eauto).
    split; [exact Hl|]. destruct (hash_ok_spec h Hl) as (b & Eb & Hb). rewrite E3 in Eb. injection Eb as <-. intros H. apply Hb in H. discriminate.
  - right. intros cb s. eexists. unfold get_event_parser. rewrite E1, E2, E3. reflexivity.
Qed.
(** a log with a damaged or foreign metadata entry: the same parser in every state *)
Lemma own_same u : ~ no_own lb u -> forall cb cb' s s', fst (get_event_parser lb cb u s) = fst (get_event_parser lb cb' u s').
Proof.
  intros H cb cb' s s'. unfold get_event_parser, no_own in *.
  destruct (sget (lit "metadata_events") (u_multi u)) as [ev|] eqn:E1; [|destruct H; auto].
  destruct (sget (lit "metadata_events_sha256") (u_info u)) as [h|] eqn:E2; [|destruct H; auto].
  destruct (hash_ok lb h) as [[|]|e] eqn:E3; [reflexivity| |reflexivity]. destruct H. right. right. exists h. split; [reflexivity|].
  assert (Hl : has_length h) by (destruct h; try discriminate; unfold has_length; eauto).
  split; [exact Hl|]. destruct (hash_ok_spec h Hl) as (b & Eb & Hb). rewrite E3 in Eb. injection Eb as <-. intros H. apply Hb in H. discriminate.
Qed.

(** ** Histories with the default callback *)
Section History.
Variable download : nat -> res J.
Hypothesis loads : forall k j, download k = Ok j -> exists p, knows lb j p.
Definition settled (s : px P) : Prop :=
  exists k m, px_calls s = repeat false k ++ repeat true m /\
    ((m = 0%nat /\ px_default s = None /\ forall i, (i < k)%nat -> exists e, download i = Err e) \/
     (exists k' j p, k = S k' /\ (forall i, (i < k')%nat -> exists e, download i = Err e) /\ download k' = Ok j /\ knows lb j p /\ px_default s = Some p)).
Lemma settled_default s : settled s -> settled (snd (default_parser lb (default_cb download) s)).
Proof.
  intros (k & m & Ec & [(-> & En & Hf)|(k' & j & p & -> & Hf & Hj & Hp & Es)]); unfold default_parser.
  - rewrite En. unfold default_cb. rewrite Ec. cbn [repeat]. rewrite app_nil_r, repeat_length.
    destruct (download k) as [j|e] eqn:Ed; cbn [rmap].
    + destruct (loads _ _ Ed) as (p & Hp). rewrite (new_knows _ _ Hp). cbn [snd]. exists (S k), 0%nat. split.
      * cbn [px_calls repeat]. rewrite app_nil_r. symmetry. apply (repeat_cons k false).
      * right. exists k, j, p. auto.
    + cbn [snd]. exists (S k), 0%nat. split.
      * cbn [px_calls repeat]. rewrite app_nil_r. symmetry. apply (repeat_cons k false).
      * left. split; [reflexivity|]. split; [reflexivity|]. intros i Hi. destruct (Nat.eq_dec i k) as [->|]; [eauto|apply Hf; lia].
  - rewrite Es. cbn [default_cb snd]. exists (S k'), (S m). split.
    + cbn [px_calls]. rewrite Ec, <- app_assoc. f_equal. symmetry. apply (repeat_cons m true).
    + right. exists k', j, p. auto.
Qed.
Lemma settled_logged u s : settled s -> settled (snd (logged_events lb (default_cb download) u s)).
Proof.
  intros H. destruct (events_dec u) as [He|He].
  - destruct (get_event_parser lb (default_cb download) u s) as [p s'] eqn:E. rewrite (logged_get _ _ _ _ _ He E). cbn [snd].
    destruct (own_dec u) as [Hn|Hn].
    + rewrite no_own_get in E by exact Hn. pose proof (settled_default s H) as D. rewrite E in D. exact D.
    + destruct (Hn (default_cb download) s) as (r & Hr). rewrite E in Hr. injection Hr as _ ->. exact H.
  - rewrite logged_none by exact He. exact H.
Qed.
Lemma settled_logs us : forall s, settled s -> settled (snd (logs_events lb (default_cb download) us s)).
Proof.
  induction us as [|u us IH]; intros s H; cbn [logs_events]; [exact H|].
  pose proof (settled_logged u s H) as H1. destruct (logged_events lb (default_cb download) u s) as [x s1]. cbn [snd] in H1.
  pose proof (IH s1 H1) as H2. destruct (logs_events lb (default_cb download) us s1) as [xs s2]. exact H2.
Qed.
End History.

(** one and the same download every time *)
Section Constant.
Variables (download : nat -> res J) (j : J) (p : P).
Hypothesis same : forall k, download k = Ok j.
Hypothesis good : knows lb j p.
Definition clean (s : px P) : Prop := px_default s = None \/ px_default s = Some p.
Lemma clean_default s : clean s -> fst (default_parser lb (default_cb download) s) = Ok (Some p) /\ clean (snd (default_parser lb (default_cb download) s)).
Proof.
  intros [E|E]; unfold default_parser; rewrite E; cbn [default_cb].
  - unfold default_cb. rewrite same. cbn [rmap]. rewrite (new_knows _ _ good). split; [reflexivity|now right].
  - split; [reflexivity|now right].
Qed.
Lemma clean_logged u s s' : clean s -> clean s' ->
  fst (logged_events lb (default_cb download) u s) = fst (logged_events lb (default_cb download) u s') /\ clean (snd (logged_events lb (default_cb download) u s)).
Proof.
  intros H H'. destruct (events_dec u) as [He|He]; [|rewrite !logged_none by exact He; auto].
  destruct (get_event_parser lb (default_cb download) u s) as [q t] eqn:E. destruct (get_event_parser lb (default_cb download) u s') as [q' t'] eqn:E'.
  rewrite (logged_get _ _ _ _ _ He E), (logged_get _ _ _ _ _ He E'). cbn [fst snd].
  destruct (own_dec u) as [Hn|Hn].
  - rewrite no_own_get in E, E' by exact Hn. pose proof (clean_default s H) as [A B]. pose proof (clean_default s' H') as [A' B'].
    rewrite E in A, B. rewrite E' in A', B'. cbn [fst snd] in *. subst q q'. auto.
  - destruct (Hn (default_cb download) s) as (r & Hr). destruct (Hn (default_cb download) s') as (r' & Hr').
    assert (~ no_own lb u \/ no_own lb u) as [Hd|Hd].
    { unfold no_own. destruct (sget (lit "metadata_events") (u_multi u)) as [ev|] eqn:E1; [|auto].
      destruct (sget (lit "metadata_events_sha256") (u_info u)) as [h|] eqn:E2; [|auto].
      destruct (hash_ok lb h) as [b|] eqn:E3.
      - assert (Hl : has_length h) by (destruct h; try discriminate; unfold has_length; eauto).
        destruct (hash_ok_spec h Hl) as (b' & Eb & Hb). destruct b'.
        + left. intros [?|[?|(h' & Eh & _ & Hg)]]; try discriminate. injection Eh as <-. apply Hg, Hb. reflexivity.
        + right. right. right. exists h. split; [reflexivity|]. split; [exact Hl|]. intros Hg. apply Hb in Hg. discriminate.
      - left. intros [?|[?|(h' & Eh & Hl & _)]]; try discriminate. injection Eh as <-. destruct Hl as [[x ->]|[x ->]]; discriminate. }
    + pose proof (own_same u Hd (default_cb download) (default_cb download) s s') as S. rewrite E, E' in S. cbn [fst] in S. subst q'.
      rewrite E in Hr. injection Hr as _ ->. auto.
    + rewrite no_own_get in E, E' by exact Hd. pose proof (clean_default s H) as [A B]. pose proof (clean_default s' H') as [A' B'].
      rewrite E in A, B. rewrite E' in A', B'. cbn [fst snd] in *. subst q q'. auto.
Qed.
Lemma clean_logs us : forall s, clean s -> fst (logs_events lb (default_cb download) us s) = map (fun u => fst (logged_events lb (default_cb download) u px0)) us.
Proof.
  induction us as [|u us IH]; intros s H; cbn [logs_events map]; [reflexivity|].
  pose proof (clean_logged u s px0 H (or_introl eq_refl)) as [A B]. destruct (logged_events lb (default_cb download) u s) as [x s1]. cbn [fst snd] in A, B.
  specialize (IH s1 B). destruct (logs_events lb (default_cb download) us s1) as [xs s2]. cbn [fst] in *. rewrite IH, A. reflexivity.
Qed.
End Constant.
End Lib.
