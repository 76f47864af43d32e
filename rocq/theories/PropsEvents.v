(** Property C63: the event definitions with which logs are shown, over the life of one PX4Events object. *)
From Verif Require Import Base Dict PyStr PyFloat Struct ModelTypes ModelApi ModelTools ModelEvents SpecEvents ProofsEvents.

(** A log with definitions of its own is shown with them, whatever happened before and whatever the callback does, which is
    not called. *)
Theorem C63_own : forall J P (lb : lib J P) u data j p, own lb u data -> lb_json lb data = Ok j -> knows lb j p ->
  forall cb s, logged_events lb cb u s = (shown lb (Some p) u, s).
Proof.
  intros J P lb u data j p Ho Hj Hp cb s. destruct (events_dec u) as [He|He].
  - pose proof (own_get lb cb u s data Ho) as E. rewrite Hj in E. cbn [bind] in E. rewrite (new_knows lb _ _ Hp) in E. cbn [bind rmap] in E.
    rewrite (logged_get lb cb u s _ _ He E). reflexivity.
  - rewrite logged_none, shown_none by exact He. reflexivity.
Qed.
(** If they are damaged no events are shown, and the default definitions are not used instead. *)
Theorem C63_own_damaged : forall J P (lb : lib J P) u data, own lb u data -> (exists e, lb_json lb data = Err e) \/ (exists j, lb_json lb data = Ok j /\ refuses lb j) ->
  forall cb s, logged_events lb cb u s = (Ok [], s).
Proof.
  intros J P lb u data Ho Hd cb s. destruct (events_dec u) as [He|He]; [|rewrite logged_none by exact He; reflexivity].
  pose proof (own_get lb cb u s data Ho) as E. destruct Hd as [(e & Hj)|(j & Hj & e & p & Hr)]; rewrite Hj in E; cbn [bind rmap] in E.
  - rewrite (logged_get lb cb u s _ _ He E). reflexivity.
  - unfold new_parser in E. rewrite Hr in E. cbn [bind rmap] in E. rewrite (logged_get lb cb u s _ _ He E). reflexivity.
Qed.
(** The same if the hash is a number or a piece of the definitions is not bytes. *)
Theorem C63_own_malformed : forall J P (lb : lib J P) u first rest h, sget (lit "metadata_events") (u_multi u) = Some (first :: rest) ->
  sget (lit "metadata_events_sha256") (u_info u) = Some h -> ~ has_length h \/ (good_hash lb h /\ exists v, In v first /\ forall b, v <> VBytes b) ->
  forall cb s, logged_events lb cb u s = (Ok [], s).
Proof.
  intros J P lb u first rest h E1 E2 H cb s. destruct (events_dec u) as [He|He]; [|rewrite logged_none by exact He; reflexivity].
  assert (E : exists e, get_event_parser lb cb u s = (Err e, s)).
  { unfold get_event_parser. rewrite E1, E2. destruct H as [H|(Hh & v & Hv & Hb)].
    - destruct h; try (eexists; reflexivity); destruct H; unfold has_length; eauto.
    - destruct (hash_ok_spec lb h (good_length lb h Hh)) as (b & E & Hi). rewrite E, (proj2 Hi Hh).
      unfold own_parser. cbn [py_nth nth_error bind]. destruct (join_not_bytes first v Hv Hb) as (e & Ej). rewrite Ej. exists e. reflexivity. }
  destruct E as (e & E). rewrite (logged_get lb cb u s _ _ He E). reflexivity.
Qed.
(** Otherwise the callback is called once, and told whether there are default definitions already.  What it gives is used
    and kept, and if it gives nothing the ones kept before are used. *)
Theorem C63_default : forall J P (lb : lib J P) cb u s, no_own lb u -> events_in u ->
  let known := match px_default s with Some _ => true | None => false end in
  let answer := cb (length (px_calls s)) known in
  px_calls (snd (logged_events lb cb u s)) = px_calls s ++ [known] /\
  (forall e, answer = Err e -> fst (logged_events lb cb u s) = Ok [] /\ px_default (snd (logged_events lb cb u s)) = px_default s) /\
  (answer = Ok None -> fst (logged_events lb cb u s) = shown lb (px_default s) u /\ px_default (snd (logged_events lb cb u s)) = px_default s) /\
  (forall j p, answer = Ok (Some j) -> knows lb j p -> fst (logged_events lb cb u s) = shown lb (Some p) u /\ px_default (snd (logged_events lb cb u s)) = Some p) /\
  (forall j, answer = Ok (Some j) -> refuses lb j -> fst (logged_events lb cb u s) = Ok [] /\ px_default (snd (logged_events lb cb u s)) <> None).
Proof.
  intros J P lb cb u s Hn He known answer.
  destruct (get_event_parser lb cb u s) as [q s'] eqn:E. rewrite (logged_get lb cb u s _ _ He E).
  rewrite no_own_get in E by exact Hn. unfold default_parser in E. cbv zeta in E. fold known in E. fold answer in E.
  destruct answer as [[j|]|e]; cbn [fst snd].
  - unfold new_parser in E. destruct (lb_load lb j (lb_new lb)) as [r p0] eqn:El.
    assert (Ec : px_calls s' = px_calls s ++ [known]) by (destruct r; injection E as _ <-; reflexivity).
    split; [exact Ec|]. split; [discriminate|]. split; [discriminate|]. split.
    + intros j' p Ej (p1 & Hk & ->). injection Ej as <-. rewrite El in Hk. injection Hk as -> ->. injection E as <- <-. split; reflexivity.
    + intros j' Ej (e & p1 & Hk). injection Ej as <-. rewrite El in Hk. injection Hk as -> ->. injection E as <- <-. split; [reflexivity|discriminate].
  - injection E as <- <-. split; [reflexivity|]. split; [discriminate|]. split; [split; reflexivity|]. split; discriminate.
  - injection E as <- <-. split; [reflexivity|]. split; [intros; split; reflexivity|]. split; [discriminate|]. split; discriminate.
Qed.
(** Logs without events do not ask for definitions. *)
Theorem C63_no_events : forall J P (lb : lib J P) cb u s, ~ events_in u -> logged_events lb cb u s = (Ok [], s).
Proof. intros. now apply logged_none. Qed.
(** With the callback that is preset: the definitions are downloaded for the first log that needs them, and again for each
    further one until a download succeeds, but never after that. *)
Theorem C63_downloads : forall J P (lb : lib J P) download, (forall k j, download k = Ok j -> exists p, knows lb j p) ->
  forall us, let s := snd (logs_events lb (default_cb download) us px0) in
  exists k m, px_calls s = repeat false k ++ repeat true m /\
    ((m = 0%nat /\ px_default s = None /\ forall i, (i < k)%nat -> exists e, download i = Err e) \/
     (exists k' j p, k = S k' /\ (forall i, (i < k')%nat -> exists e, download i = Err e) /\ download k' = Ok j /\ knows lb j p /\ px_default s = Some p)).
Proof.
  intros J P lb download H us s. apply (settled_logs lb download H us px0). exists 0%nat, 0%nat. split; [reflexivity|]. left.
  split; [reflexivity|]. split; [reflexivity|]. intros i Hi. lia.
Qed.
(** If every download gives the same definitions, each log of a history is shown as by an object of its own. *)
Theorem C63_history_partial : forall J P (lb : lib J P) download j p, (forall k, download k = Ok j) -> knows lb j p ->
  forall us, fst (logs_events lb (default_cb download) us px0) = map (fun u => fst (logged_events lb (default_cb download) u px0)) us.
Proof. intros J P lb download j p H1 H2 us. apply (clean_logs lb download j p H1 H2). left. reflexivity. Qed.
(** The messages of a log as the command shows them: with its own definitions or with downloaded ones. *)
Theorem C63_main : forall J P (lb : lib J P) download u p,
  (exists data j, own lb u data /\ lb_json lb data = Ok j /\ knows lb j p) \/
  (no_own lb u /\ exists j, download 0%nat = Ok j /\ knows lb j p) ->
  main_messages lb download u = messages_main (Ok (Some (lb_parse lb p))) u.
Proof.
  intros J P lb download u p [(data & j & Ho & Hj & Hp)|(Hn & j & Hd & Hp)]; unfold main_messages.
  - rewrite (own_get lb _ u px0 data Ho), Hj. cbn [bind]. rewrite (new_knows lb _ _ Hp). reflexivity.
  - rewrite no_own_get by exact Hn. unfold default_parser, px0. cbn [px_default px_calls length default_cb]. rewrite Hd. cbn [rmap].
    rewrite (new_knows lb _ _ Hp). reflexivity.
Qed.
(** Without a network and without own definitions the logged messages are still shown. *)
Theorem C63_offline : forall J P (lb : lib J P) download u e, no_own lb u -> download 0%nat = Err e ->
  main_messages lb download u = messages_main (Err e) u /\ get_logged_events (Err e) u = Ok [].
Proof.
  intros J P lb download u e Hn Hd. split; [|apply failed_shown]. unfold main_messages. rewrite no_own_get by exact Hn.
  unfold default_parser, px0. cbn [px_default px_calls length default_cb]. rewrite Hd. reflexivity.
Qed.

(** ** Examples: a library whose definitions are lists of ids and texts, or damaged *)
Definition e_lib : lib (option (list (Z * str))) (list (Z * str)) :=
  mkLib _ _ [] (fun j p => match j with Some l => (Ok tt, l ++ p) | None => (Err KeyError, p) end) (fun _ p => p)
    (fun p id _ => option_map (pair (lit "default")) (zget id p))
    (fun b => match b with [0; c] => Ok (Some [(c, lit "own")]) | _ => Err ValueError end) (fun _ => false).
Definition e_data : dataset := mkDS 0 1 (lit "event") [] 0
  [(lit "timestamp", mkCol (NI 8 false) [7]); (lit "id", mkCol (NI 4 false) [5]); (lit "log_levels", mkCol (NI 1 false) [96])].
Definition e_log : ulog := set_data [e_data] ulog0.
Definition e_own : ulog := set_data [e_data] (set_multi [(lit "metadata_events", [[VBytes [0]; VBytes [5]]])] (set_info [(lit "metadata_events_sha256", VStr (lit "ab12"))] ulog0)).
Example C63_own_ex : own e_lib e_own [0; 5] /\ events_in e_own /\ knows e_lib (Some [(5, lit "own")]) [(5, lit "own")] /\
  shown e_lib (Some [(5, lit "own")]) e_own = Ok [(7, lit "INFO", lit "own")].
Proof.
  split; [|split; [|split]].
  - exists [[0]; [5]], [], (VStr (lit "ab12")). split; [reflexivity|]. split; [reflexivity|]. split; [|reflexivity].
    left. exists (lit "ab12"). split; [reflexivity|]. split; [cbn; lia|]. unfold letter_or_digit. cbn. repeat (apply Forall_cons; [left; lia|]). apply Forall_nil.
  - do 2 eexists. split; [reflexivity|]. split; [reflexivity|]. discriminate.
  - exists [(5, lit "own")]. split; reflexivity.
  - vm_compute. reflexivity.
Qed.
Example C63_history_ex : no_own e_lib e_log /\ events_in e_log /\ forall download, (forall k, download k = Ok (Some [(5, lit "text")])) ->
  logs_events e_lib (default_cb download) [e_log; e_own; e_log] px0 =
  ([Ok [(7, lit "INFO", lit "text")]; Ok [(7, lit "INFO", lit "own")]; Ok [(7, lit "INFO", lit "text")]], mkPx (Some [(5, lit "text")]) [false; true]).
Proof.
  split; [now left|]. split; [do 2 eexists; split; [reflexivity|]; split; [reflexivity|]; discriminate|].
  intros download H. cbn [logs_events]. unfold logged_events at 1. change (has_events e_log) with true. cbv iota.
  rewrite no_own_get by now left. unfold default_parser, px0, default_cb. cbn [px_default px_calls length]. rewrite H. vm_compute. reflexivity.
Qed.
Example C63_downloads_ex : forall k j, (fun k => if Nat.eqb k 0 then Err OSError else Ok (Some [(5, lit "text")])) k = Ok j -> exists p, knows e_lib j p.
Proof. intros [|k] j H; [discriminate|]. cbn in H. injection H as <-. exists [(5, lit "text")], [(5, lit "text")]. split; reflexivity. Qed.
(** Finding: definitions that cannot be loaded leave an empty parser behind, which passes for the default definitions from
    then on: the next logs are shown with unknown events although the definitions could be had now. *)
Theorem C63_empty_refuted : exists download, (exists p, knows e_lib (Some [(5, lit "text")]) p) /\ (forall k, (1 <= k)%nat -> download k = Ok (Some [(5, lit "text")])) /\
  forall n, fst (logs_events e_lib (default_cb download) (repeat e_log (S n)) px0) =
    Ok [] :: repeat (Ok [(7, lit "INFO", lit "[Unknown event with ID 5]")]) n.
Proof.
  exists (fun k => if Nat.eqb k 0 then Ok None else Ok (Some [(5, lit "text")])). split; [exists [(5, lit "text")], [(5, lit "text")]; split; reflexivity|].
  split; [intros [|k] Hk; [lia|reflexivity]|]. intros n. cbn [repeat logs_events].
  set (cb := default_cb _). assert (E : logged_events e_lib cb e_log px0 = (Ok [], mkPx (Some []) [false])) by (vm_compute; reflexivity).
  rewrite E. generalize [false] as calls. clear E. induction n as [|n IH]; intros calls; cbn [repeat logs_events]; [reflexivity|].
  assert (E : logged_events e_lib cb e_log (mkPx (Some []) calls) = (Ok [(7, lit "INFO", lit "[Unknown event with ID 5]")], mkPx (Some []) (calls ++ [true]))).
  { unfold logged_events. change (has_events e_log) with true. cbv iota. rewrite no_own_get by now left. subst cb. unfold default_parser, default_cb.
    cbn [px_default px_calls]. cbv zeta iota. f_equal. }
  rewrite E. specialize (IH (calls ++ [true])). destruct (logs_events e_lib cb (repeat e_log n) (mkPx (Some []) (calls ++ [true]))) as [xs s2].
  cbn [fst] in *. injection IH as ->. reflexivity.
Qed.
