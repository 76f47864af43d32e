(** Property C59: the KML map of a log. *)
From Verif Require Import Base Dict PyStr PyFloat Struct ModelTypes ModelApi ModelTools SpecTools ModelKml SpecKml ProofsMap.
From Coq Require Import Sorted QArith.
Open Scope Z_scope.

(** The map shows the track of each topic with its colours and nothing else, and all camera triggers. *)
Theorem C59_map : forall fstr load names cols offset min style camera u ch tracks cam,
  load (names ++ [lit "vehicle_status"] ++ match camera with Some c => [c] | None => [] end) = Ok u -> modes u ch ->
  Forall2 (fun nc t => trackable u (fst nc) (fst (fst t)) (snd (fst t)) (snd t) /\ forall m, mode_of ch m -> exists c, snd nc m = Ok c)
          (combine names cols) tracks ->
  camera_in u camera cam ->
  exists groups points, convert_ulog2kml fstr load (inr names) (inr cols) offset min style camera = Ok (mkDoc (concat groups) points) /\
    Forall2 (fun p g => shown min ch style offset (fst (fst p)) (snd (fst p)) (fst (fst (snd p))) (snd (fst (snd p))) (snd (snd p)) g)
            (combine (combine names cols) tracks) groups /\ triggers fstr offset cam points.
Proof. exact map_spec. Qed.
(** one topic with one function for the colours *)
Theorem C59_one : forall fstr load topic colors offset min style camera u ch d ts fixes cam,
  load (topic :: lit "vehicle_status" :: match camera with Some c => [c] | None => [] end) = Ok u -> modes u ch ->
  trackable u topic d ts fixes -> (forall m, mode_of ch m -> exists c, colors m = Ok c) -> camera_in u camera cam ->
  exists lines points, convert_ulog2kml fstr load (inl topic) (inl colors) offset min style camera = Ok (mkDoc lines points) /\
    shown min ch style offset topic colors d ts fixes lines /\ triggers fstr offset cam points.
Proof.
  intros fstr load topic colors offset min style camera u ch d ts fixes cam L M T C K. rewrite one_many.
  destruct (C59_map fstr load [topic] [colors] offset min style camera u ch [(d, ts, fixes)] cam L M) as (gs & ps & E & F & Tp).
  - constructor; [|constructor]. split; assumption.
  - exact K.
  - inversion F; subst. match goal with H : Forall2 _ _ _ |- _ => inversion H; subst end. cbn [concat] in E. rewrite app_nil_r in E. eexists. exists ps. split; [exact E|]. split; assumption.
Qed.
(** the command line: with the flight modes below 18 there is a map, thinned to more than 0.1 s, at the logged altitudes *)
Theorem C59_command : forall fstr load topic camera u ch d ts fixes cam,
  let name := match topic with Some t => t | None => lit "vehicle_gps_position" end in
  load (name :: lit "vehicle_status" :: match camera with Some c => [c] | None => [] end) = Ok u -> modes u ch ->
  trackable u name d ts fixes -> Forall (fun c => snd c < 18) ch -> camera_in u camera cam ->
  exists lines points, kml_main fstr load topic camera = Ok (mkDoc lines points) /\
    shown 100000 ch None (VInt 0) name default_colors d ts fixes lines /\ triggers fstr (VInt 0) cam points.
Proof.
  intros fstr load topic camera u ch d ts fixes cam name L M T F K. unfold kml_main. fold name. eapply C59_one; try eassumption.
  intros m Hm. assert (Hl : m < 18).
  { unfold mode_of in Hm. destruct ch as [|c ch]; [lia|]. apply in_map_iff in Hm. destruct Hm as (x & <- & Hx). rewrite Forall_forall in F. apply F. exact Hx. }
  unfold default_colors, py_nth. destruct (nth_error colors_arr (Z.to_nat (Z.max m 0))) as [c|] eqn:E; [exists c; reflexivity|].
  apply nth_error_None in E. cbn in E. lia.
Qed.
(** where a point is, in exact arithmetic: degrees and metres for topics with integer positions, else the logged values *)
Theorem C59_value : forall d offset i x y z a b c, placed d (VInt offset) i (x, y, z) ->
  forall lon lat alt, raw_position d i lon lat alt -> amount lon a -> amount lat b -> amount alt c ->
  (int_degrees d -> amount x (a / inject_Z 10000000) /\ amount y (b / inject_Z 10000000) /\ amount z (c / inject_Z 1000 + inject_Z offset)) /\
  (~ int_degrees d -> amount x a /\ amount y b /\ amount z (c + inject_Z offset)).
Proof. exact placed_value. Qed.
(** a topic that is not in the log gives no map *)
Theorem C59_absent : forall fstr load topic colors offset min style camera u ch,
  load (topic :: lit "vehicle_status" :: match camera with Some c => [c] | None => [] end) = Ok u -> modes u ch ->
  (forall d, get_dataset u topic 0 <> Ok d) ->
  convert_ulog2kml fstr load (inl topic) (inl colors) offset min style camera = Err KeyError.
Proof.
  intros fstr load topic colors offset min style camera u ch L M H. destruct (modes_spec u ch M) as (changes & Ec & _).
  unfold convert_ulog2kml. cbv zeta. cbn [app]. rewrite L. cbn [bind]. rewrite Ec. cbn [bind combine foldM]. unfold add_position_data, kml_track, kml_positions. cbn [fst snd]. rewrite Ec. cbn [bind].
  destruct (get_dataset u topic 0) as [d|e]; [destruct (H d eq_refl)|]. reflexivity.
Qed.
(** the colour of every mode: red without a mode, and beyond the eighteen known modes the map fails *)
Theorem C59_palette : (forall m, m <= 0 -> default_colors m = Ok (lit "red")) /\
  map default_colors [1; 2; 3; 4; 5; 6] = map (@Ok str) [lit "green"; lit "blue"; lit "violet"; lit "yellow"; lit "orange"; lit "burlywood"] /\
  map default_colors [7; 8; 9; 10; 11; 12] = map (@Ok str) [lit "azure"; lit "lightblue"; lit "lawngreen"; lit "indianred"; lit "hotpink"; lit "bisque"] /\
  map default_colors [13; 14; 15; 16; 17] = map (@Ok str) [lit "cyan"; lit "darksalmon"; lit "deepskyblue"; lit "lime"; lit "orchid"] /\
  (forall m, 18 <= m -> default_colors m = Err IndexError).
Proof.
  split; [|split; [|split; [|split]]]; try reflexivity.
  - intros m H. unfold default_colors. replace (Z.max m 0) with 0 by lia. reflexivity.
  - intros m H. unfold default_colors, py_nth. replace (nth_error colors_arr (Z.to_nat (Z.max m 0))) with (@None str); [reflexivity|].
    symmetry. apply nth_error_None. change (length colors_arr) with 18%nat. lia.
Qed.
(** different modes have different colours *)
Theorem C59_distinct : forall m n c, 0 <= m -> 0 <= n -> default_colors m = Ok c -> default_colors n = Ok c -> m = n.
Proof.
  assert (D : NoDup colors_arr).
  { repeat (constructor; [intros H; repeat (destruct H as [H|H]; [vm_compute in H; discriminate H|]); exact H|]). constructor. }
  intros m n c Hm Hn A B. unfold default_colors, py_nth in A, B.
  destruct (nth_error colors_arr (Z.to_nat (Z.max m 0))) as [a|] eqn:EA; [|discriminate].
  destruct (nth_error colors_arr (Z.to_nat (Z.max n 0))) as [b|] eqn:EB; [|discriminate].
  assert (Z.to_nat (Z.max m 0) = Z.to_nat (Z.max n 0)); [|lia].
  apply (proj1 (NoDup_nth_error _) D); [apply nth_error_Some; rewrite EA; discriminate|]. rewrite EA, EB. congruence.
Qed.
(** the lines have the names and colours of the flight modes; -1 (the end of the log) is red *)
Theorem C59_red : default_colors (-1) = Ok (lit "red") /\ default_colors 0 = Ok (lit "red") /\ default_colors 1 = Ok (lit "green") /\ default_colors 17 = Ok (lit "orchid").
Proof. repeat split. Qed.

(** ** An example: two samples without a mode change, then one after it; a sample without a fix; two camera triggers *)
Definition m_pos : dataset := mkDS 0 1 (lit "pos") [mkFD (lit "timestamp") U64; mkFD (lit "lon") I32; mkFD (lit "lat") I32; mkFD (lit "alt") I32; mkFD (lit "fix_type") U8] 0
  [(lit "timestamp", mkCol (NI 8 false) [1000000; 2000000; 3000000]); (lit "lon", mkCol (NI 4 true) [85000000; 85100000; 85200000]);
   (lit "lat", mkCol (NI 4 true) [4294967295; 1; 2]); (lit "alt", mkCol (NI 4 true) [500000; 501000; 502000]); (lit "fix_type", mkCol (NI 1 false) [3; 3; 2])].
Definition m_status (mode : Z) : dataset := mkDS 0 2 (lit "vehicle_status") [mkFD (lit "timestamp") U64; mkFD (lit "nav_state") U8] 0
  [(lit "timestamp", mkCol (NI 8 false) [500000; 1500000]); (lit "nav_state", mkCol (NI 1 false) [4; mode])].
Definition m_cam : dataset := mkDS 0 3 (lit "cam") [mkFD (lit "seq") U32; mkFD (lit "lon") I32; mkFD (lit "lat") I32; mkFD (lit "alt") I32] 0
  [(lit "seq", mkCol (NI 4 false) [7]); (lit "lon", mkCol (NI 4 true) [85000000]); (lit "lat", mkCol (NI 4 true) [1]); (lit "alt", mkCol (NI 4 true) [500000])].
Definition m_log (mode : Z) : ulog := set_last 9000000 (set_data [m_pos; m_status mode; m_cam] ulog0).
Definition m_at (lon lat alt : Z) : coord :=
  (NDiv (NElem (NI 4 true) lon) 10000000, NDiv (NElem (NI 4 true) lat) 10000000, NPlus (NDiv (NElem (NI 4 true) alt) 1000) (VInt 0)).
Example C59_ex : kml_main (fun _ _ => []) (fun _ => Ok (m_log 5)) (Some (lit "pos")) (Some (lit "cam")) =
  Ok (mkDoc [mkLS (lit "pos:4") false (lit "yellow") 3 [m_at 85000000 4294967295 500000; m_at 85100000 1 501000];
             mkLS (lit "pos:5") false (lit "orange") 3 [m_at 85100000 1 501000]]
            [mkPlace (lit "Camera Trigger 7") (NElem (NI 4 true) 85000000, NElem (NI 4 true) 1, NPlus (NElem (NI 4 true) 500000) (VInt 0))]).
Proof. vm_compute. reflexivity. Qed.
Lemma m_modes mode : 0 <= mode < 256 -> modes (m_log mode) [(500000, 4); (1500000, mode); (9000000, -1)].
Proof.
  intros H. apply (MKnown (m_log mode) (m_status mode) [500000; 1500000] [4; mode] (mkCol (NI 8 false) [500000; 1500000])); try reflexivity.
  - do 3 eexists. split; [reflexivity|]. split; reflexivity.
  - do 3 eexists. split; [reflexivity|]. split; reflexivity.
  - repeat constructor; lia.
  - repeat constructor; cbn; lia.
Qed.
Lemma m_track mode : trackable (m_log mode) (lit "pos") m_pos [1000000; 2000000; 3000000] (Some [3; 3; 2]).
Proof.
  constructor.
  - reflexivity.
  - eexists. split; [left; reflexivity|reflexivity].
  - eexists. split; [left; reflexivity|reflexivity].
  - eexists. split; [left; reflexivity|reflexivity].
  - do 3 eexists. split; [reflexivity|]. split; reflexivity.
  - repeat constructor; lia.
  - repeat constructor; lia.
  - split; [|reflexivity]. do 3 eexists. split; [reflexivity|]. split; reflexivity.
Qed.
Lemma m_camera mode : camera_in (m_log mode) (Some (lit "cam")) (Some (m_cam, 1%nat)).
Proof.
  constructor. split; [reflexivity|]. split; [eexists; split; [left; reflexivity|reflexivity]|]. split; [eexists; split; [left; reflexivity|reflexivity]|].
  split; [eexists; split; [left; reflexivity|reflexivity]|]. eexists. split; reflexivity.
Qed.
Example C59_ex_hyps : modes (m_log 5) [(500000, 4); (1500000, 5); (9000000, -1)] /\
  trackable (m_log 5) (lit "pos") m_pos [1000000; 2000000; 3000000] (Some [3; 3; 2]) /\
  camera_in (m_log 5) (Some (lit "cam")) (Some (m_cam, 1%nat)) /\ int_degrees m_pos.
Proof.
  split; [apply m_modes; lia|]. split; [apply m_track|]. split; [apply m_camera|]. apply scaled_spec. reflexivity.
Qed.

(** ** What does not hold *)
(** A later flight mode (18 and above exist in PX4) gives no map at all. *)
Theorem C59_mode_refuted : exists load u ch d ts fixes, load [lit "pos"; lit "vehicle_status"] = Ok u /\ modes u ch /\
  trackable u (lit "pos") d ts fixes /\ (forall c, In c ch -> snd c < 256) /\ kml_main (fun _ _ => []) load (Some (lit "pos")) None = Err IndexError.
Proof.
  exists (fun _ => Ok (m_log 18)), (m_log 18). do 4 eexists. split; [reflexivity|]. split; [apply m_modes; lia|]. split; [apply m_track|].
  split; [|vm_compute; reflexivity]. intros c [<-|[<-|[<-|[]]]]; cbn; lia.
Qed.
(** A list of topics, which the documentation allows, does not go with the default colours (or with any single function). *)
Theorem C59_topics_refuted : forall fstr load names colors offset min style camera u ch,
  load (names ++ [lit "vehicle_status"] ++ match camera with Some c => [c] | None => [] end) = Ok u -> modes u ch ->
  convert_ulog2kml fstr load (inr names) (inl colors) offset min style camera = Err TypeError.
Proof.
  intros fstr load names colors offset min style camera u ch L M. destruct (modes_spec u ch M) as (changes & Ec & _).
  unfold convert_ulog2kml. cbv zeta. rewrite L. cbn [bind]. rewrite Ec. reflexivity.
Qed.
(** A list of colours with a single topic does not work either, the list is called as if it were a function. *)
Theorem C59_list_refuted : forall fstr load topic colors offset min style camera u ch d ts fixes,
  load (topic :: lit "vehicle_status" :: match camera with Some c => [c] | None => [] end) = Ok u -> modes u ch -> trackable u topic d ts fixes ->
  convert_ulog2kml fstr load (inl topic) (inr colors) offset min style camera = Err TypeError.
Proof.
  intros fstr load topic colors offset min style camera u ch d ts fixes L M T. destruct (modes_spec u ch M) as (changes & Ec & _).
  unfold convert_ulog2kml. cbv zeta. cbn [app]. rewrite L. cbn [bind]. rewrite Ec. cbn [bind combine foldM].
  destruct (track_shown min u ch style offset topic (fun _ => Ok []) d ts fixes [] M T ltac:(intros m _; eexists; reflexivity)) as (lines & El & _).
  unfold add_position_data in El |- *. cbn [fst snd] in *. unfold kml_track in *. destruct (kml_changes u) as [cs|]; [|discriminate]. cbn [bind] in *.
  destruct (kml_positions u topic) as [ps|]; [|discriminate]. cbn [bind] in *. destruct (get_dataset u topic 0) as [d'|]; [|discriminate]. cbn [bind] in *.
  unfold kml_lines in *. cbv zeta in *. destruct (kml_done _) as [|l r]; cbn [app mapM] in *.
  - unfold draw in *. destruct (style_get (style_of style) (lit "extrude")); cbn [bind] in *; [reflexivity|discriminate].
  - unfold draw at 1 in El. unfold draw at 1. destruct (style_get (style_of style) (lit "extrude")); cbn [bind] in *; [reflexivity|discriminate].
Qed.
(** Topics without a colour of their own are left out without a word, whether or not the log has them. *)
Theorem C59_colours_refuted : exists load names, length names = 2%nat /\
  (exists doc, convert_ulog2kml (fun _ _ => []) load (inr names) (inr [default_colors]) (VInt 0) 100000 None None = Ok doc /\
               forall s, In s (k_lines doc) -> exists r, ls_name s = lit "pos:" ++ r) /\
  In (lit "nowhere") names.
Proof.
  exists (fun _ => Ok (m_log 5)), [lit "pos"; lit "nowhere"]. split; [reflexivity|]. split; [|right; left; reflexivity]. eexists. split; [vm_compute; reflexivity|].
  intros s [<-|[<-|[]]]; eexists; reflexivity.
Qed.
(** Camera triggers of a topic with integer positions are not scaled: the same position is in two places. *)
Theorem C59_camera_refuted : exists load doc s p t, kml_main (fun _ _ => []) load (Some (lit "pos")) (Some (lit "cam")) = Ok doc /\
  In s (k_lines doc) /\ In p (ls_coords s) /\ In t (k_points doc) /\ int_degrees m_pos /\ int_degrees m_cam /\
  amount (fst (fst p)) (inject_Z 85000000 / inject_Z 10000000) /\ amount (fst (fst (pl_coord t))) (inject_Z 85000000).
Proof.
  exists (fun _ => Ok (m_log 5)). do 4 eexists. split; [exact C59_ex|]. split; [left; reflexivity|]. split; [left; reflexivity|]. split; [left; reflexivity|].
  split; [apply scaled_spec; reflexivity|]. split; [apply scaled_spec; reflexivity|]. split; cbn; repeat constructor.
Qed.
Definition all_map := (@C59_map, @C59_one, @C59_command, @C59_value, @C59_absent, @C59_red, @C59_mode_refuted, @C59_topics_refuted, @C59_list_refuted, @C59_colours_refuted, @C59_camera_refuted).
Print Assumptions all_map.
