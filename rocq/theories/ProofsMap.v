(** The KML map of a log. *)
From Verif Require Import Base Dict PyStr PyFloat Struct ModelTypes ModelApi ModelTools SpecTools ProofsKml ModelKml SpecKml.
From Coq Require Import Sorted QArith.
Open Scope Z_scope.

(** ** positions *)
Lemma quantity_either d a b c : quantity d a b c <-> either d a b = Ok c.
Proof.
  unfold quantity, either. destruct (sget a (ds_data d)) as [x|].
  - split; [intros [E|(E & _)]; [injection E as ->; reflexivity|discriminate]|]. intros E. injection E as ->. left. reflexivity.
  - destruct (sget b (ds_data d)) as [y|]; split; try discriminate.
    + intros [E|(_ & E)]; [discriminate|injection E as ->; reflexivity].
    + intros E. injection E as ->. right. split; reflexivity.
    + intros [E|(_ & E)]; discriminate.
Qed.
Lemma quantity_elem d a b c i raw : quantity d a b c -> nth_error (c_raw c) i = Some raw -> elem d (col_name d a b) i = Ok (c_type c, raw).
Proof.
  intros [E|(E & F)] H; unfold elem, col_name; rewrite E; [rewrite E|rewrite F]; unfold py_nth; rewrite H; reflexivity.
Qed.
Lemma quantity_reads d a b n i : (exists c, quantity d a b c /\ length (c_raw c) = n) -> (i < n)%nat ->
  exists t raw, elem d (col_name d a b) i = Ok (t, raw) /\ reads d a b i (NElem t raw).
Proof.
  intros (c & Q & L) Hi. destruct (nth_error (c_raw c) i) as [raw|] eqn:E.
  - exists (c_type c), raw. split; [exact (quantity_elem _ _ _ _ _ _ Q E)|]. exists c, raw. repeat split; assumption.
  - apply nth_error_None in E. lia.
Qed.
Lemma scaled_spec d : scaled d = true <-> int_degrees d.
Proof.
  unfold scaled, int_degrees. induction (ds_fields d) as [|f l IH]; cbn [filter].
  - split; [discriminate|]. intros (a & b & E & _). destruct a; discriminate.
  - destruct (str_eqb (fd_name f) (lit "lon")) eqn:E.
    + apply str_eqb_eq in E. destruct f as (n, t). cbn [fd_name fd_type] in *. subst n. split.
      * intros H. exists [], l. destruct t; try discriminate. split; [reflexivity|intros []].
      * intros (a & b & Ea & N). destruct a as [|g a]; [injection Ea as -> _; reflexivity|]. injection Ea as <- _. destruct N. left. reflexivity.
    + rewrite IH. split; intros (a & b & Ea & N).
      * exists (f :: a), b. rewrite Ea. split; [reflexivity|]. intros [X|X]; [|exact (N X)]. rewrite X, (proj2 (str_eqb_eq _ _) eq_refl) in E. discriminate.
      * destruct a as [|g a].
        -- injection Ea as -> _. cbn [fd_name] in E. rewrite (proj2 (str_eqb_eq _ _) eq_refl) in E. discriminate.
        -- injection Ea as <- Ea. exists a, b. split; [exact Ea|]. intros X. apply N. right. exact X.
Qed.
Lemma coord_placed d off n i : 
  (exists c, quantity d (lit "lon") (lit "longitude_deg") c /\ length (c_raw c) = n) ->
  (exists c, quantity d (lit "lat") (lit "latitude_deg") c /\ length (c_raw c) = n) ->
  (exists c, quantity d (lit "alt") (lit "altitude_msl_m") c /\ length (c_raw c) = n) -> (i < n)%nat ->
  exists lon lat alt, raw_position d i lon lat alt /\ 
    forall s, coord_at d s off i = Ok (if s then (NDiv lon 10000000, NDiv lat 10000000, NPlus (NDiv alt 1000) off) else (lon, lat, NPlus alt off)).
Proof.
  intros A B C Hi. destruct (quantity_reads _ _ _ _ _ A Hi) as (t1 & r1 & E1 & R1). destruct (quantity_reads _ _ _ _ _ B Hi) as (t2 & r2 & E2 & R2).
  destruct (quantity_reads _ _ _ _ _ C Hi) as (t3 & r3 & E3 & R3). exists (NElem t1 r1), (NElem t2 r2), (NElem t3 r3). split; [repeat split; assumption|].
  intros s. unfold coord_at. rewrite E1. cbn [bind]. rewrite E2. cbn [bind]. rewrite E3. cbn [bind fst snd]. destruct s; reflexivity.
Qed.
Lemma coord_track d off n i : 
  (exists c, quantity d (lit "lon") (lit "longitude_deg") c /\ length (c_raw c) = n) ->
  (exists c, quantity d (lit "lat") (lit "latitude_deg") c /\ length (c_raw c) = n) ->
  (exists c, quantity d (lit "alt") (lit "altitude_msl_m") c /\ length (c_raw c) = n) -> (i < n)%nat ->
  exists p, coord_at d (scaled d) off i = Ok p /\ placed d off i p.
Proof.
  intros A B C Hi. destruct (coord_placed d off n i A B C Hi) as (x & y & z & R & E). eexists. split; [apply E|]. exists x, y, z. split; [exact R|].
  pose proof (scaled_spec d) as S. destruct (scaled d); split; intros H; try reflexivity.
  - destruct H. apply S. reflexivity.
  - apply S in H. discriminate.
Qed.

(** ** the style *)
Lemma sget_fold (s : dict str Z) : forall acc k, sget k (fold_left (fun a kv => sset (fst kv) (snd kv) a) s acc) =
  match find (fun kv => str_eqb k (fst kv)) (rev s) with Some kv => Some (snd kv) | None => sget k acc end.
Proof.
  induction s as [|(a, v) s IH] using rev_ind; intros acc k; [reflexivity|]. rewrite fold_left_app, rev_app_distr. cbn [fold_left rev app find fst snd].
  destruct (str_eqb k a) eqn:E.
  - apply str_eqb_eq in E. subst a. apply (dget_dset_eq str_eqb str_eqb_spec).
  - rewrite (dget_dset_neq str_eqb str_eqb_spec); [apply IH|]. intros ->. rewrite (proj2 (str_eqb_eq _ _) eq_refl) in E. discriminate.
Qed.
Lemma find_last (s : dict str Z) k : match find (fun kv => str_eqb k (fst kv)) (rev s) with
  | Some kv => exists a b, s = a ++ (k, snd kv) :: b /\ ~ In k (map fst b)
  | None => ~ In k (map fst s)
  end.
Proof.
  induction s as [|(x, v) s IH] using rev_ind; [intros []|]. rewrite rev_app_distr. cbn [rev app find fst]. destruct (str_eqb k x) eqn:E.
  - apply str_eqb_eq in E. subst x. exists s, []. split; [reflexivity|intros []].
  - assert (N : k <> x) by (intros ->; rewrite (proj2 (str_eqb_eq _ _) eq_refl) in E; discriminate).
    destruct (find (fun kv : list Z * Z => str_eqb k (fst kv)) (rev s)) as [(y, w)|].
    + destruct IH as (a & b & -> & Nb). exists a, (b ++ [(x, v)]). rewrite <- app_assoc. split; [reflexivity|]. rewrite map_app. intros X. apply in_app_or in X.
      destruct X as [X|[X|[]]]; [exact (Nb X)|]. cbn in X. congruence.
    + rewrite map_app. intros X. apply in_app_or in X. destruct X as [X|[X|[]]]; [exact (IH X)|]. cbn in X. congruence.
Qed.
Lemma style_spec style k v : sget k [(lit "extrude", 0); (lit "line_width", 3)] = Some v ->
  exists w, style_get (style_of style) k = Ok w /\ styled style k v w.
Proof.
  intros H. unfold style_get, style_of, styled. destruct style as [s|]; [|exists v; rewrite H; split; reflexivity].
  rewrite sget_fold. pose proof (find_last s k) as F. destruct (find (fun kv : list Z * Z => str_eqb k (fst kv)) (rev s)) as [kv|].
  - exists (snd kv). split; [reflexivity|left; exact F].
  - exists v. rewrite H. split; [reflexivity|]. right. split; [exact F|reflexivity].
Qed.

(** ** lines *)
Lemma mapM_F2 {A B} (f : A -> res B) (R : A -> B -> Prop) l : (forall x, In x l -> exists y, f x = Ok y /\ R x y) -> exists m, mapM f l = Ok m /\ Forall2 R l m.
Proof.
  induction l as [|x l IH]; intros H; [exists []; split; [reflexivity|constructor]|].
  destruct (H x (or_introl eq_refl)) as (y & E & Hy). destruct IH as (m & Em & F); [intros z Hz; apply H; right; exact Hz|].
  exists (y :: m). cbn [mapM]. rewrite E. cbn [bind]. rewrite Em. cbn [bind]. split; [reflexivity|constructor; assumption].
Qed.
Lemma draw_spec colors style off topic d (ts : list Z) (l : line) c : 
  (exists c, quantity d (lit "lon") (lit "longitude_deg") c /\ length (c_raw c) = length ts) ->
  (exists c, quantity d (lit "lat") (lit "latitude_deg") c /\ length (c_raw c) = length ts) ->
  (exists c, quantity d (lit "alt") (lit "altitude_msl_m") c /\ length (c_raw c) = length ts) ->
  (forall p, In p (snd l) -> (Z.to_nat (snd p) < length ts)%nat) -> colors (fst l) = Ok c ->
  exists s, draw colors (style_of style) off topic d l = Ok s /\ drawn colors style off topic d l s.
Proof.
  intros A B C Hp Hc. destruct (style_spec style (lit "extrude") 0 eq_refl) as (e & Ee & Se). destruct (style_spec style (lit "line_width") 3 eq_refl) as (w & Ew & Sw).
  destruct (mapM_F2 (fun p => coord_at d (scaled d) off (Z.to_nat (snd p))) (fun p c => placed d off (Z.to_nat (snd p)) c) (snd l)) as (ps & Ep & Fp).
  { intros p H. apply (coord_track d off (length ts)); auto. }
  unfold draw. rewrite Ee. cbn [bind]. rewrite Hc. cbn [bind]. rewrite Ew. cbn [bind]. rewrite Ep. cbn [bind]. eexists. split; [reflexivity|].
  unfold drawn. cbn [ls_name ls_color ls_extrude ls_width ls_coords]. split; [reflexivity|]. split; [exact Hc|]. split; [|split; assumption].
  exists e. split; [exact Se|]. destruct (Z.eqb_spec e 0); cbn [negb]; split; intros; (congruence || discriminate || reflexivity).
Qed.

(** the modes of the lines are modes of the log *)
Lemma next_modes_in changes p : forall fuel k, Forall (fun l => mode_of changes (fst l)) (kml_done k ++ [kml_cur k]) ->
  Forall (fun l => mode_of changes (fst l)) (kml_done (next_modes fuel changes p k) ++ [kml_cur (next_modes fuel changes p k)]).
Proof.
  induction fuel as [|f IH]; intros k H; [exact H|]. cbn [next_modes]. destruct (nth_error changes (S (kml_idx k))) as [(t, m)|] eqn:E; [|exact H].
  destruct (t <=? fst p); [|exact H]. apply IH. cbn [kml_done kml_cur]. apply Forall_app. split; [exact H|]. constructor; [|constructor]. cbn [fst].
  apply nth_error_In in E. unfold mode_of. destruct changes; [destruct E|]. apply (in_map snd) in E. exact E.
Qed.
Lemma lines_in min changes ps : Forall (fun l => mode_of changes (fst l)) (kml_lines min changes ps).
Proof.
  unfold kml_lines. cbv zeta.
  assert (G : forall k, Forall (fun l => mode_of changes (fst l)) (kml_done k ++ [kml_cur k]) ->
    Forall (fun l => mode_of changes (fst l)) (kml_done (fold_left (kml_point min changes) ps k) ++ [kml_cur (fold_left (kml_point min changes) ps k)])).
  { induction ps as [|p ps IH]; intros k H; [exact H|]. cbn [fold_left]. apply IH. unfold kml_point. destruct (min <? _); [|exact H].
    apply next_modes_in. cbn [kml_done kml_cur]. apply Forall_app in H. destruct H as (H & H2). apply Forall_app. split; [exact H|]. inversion H2; subst. constructor; [assumption|constructor]. }
  apply G. cbn. constructor; [|constructor]. unfold mode_of. destruct changes as [|(t, m) r]; [reflexivity|]. left. reflexivity.
Qed.
(** the points of the lines are samples *)
Lemma In_path (lines : list line) l p : In l lines -> consecutive touches lines -> In p (snd l) -> In p (path lines).
Proof.
  destruct lines as [|l0 r]; [intros []|]. intros H C Hp. cbn [path]. apply in_or_app. revert l0 C H. induction r as [|l1 r IH]; intros l0 C H.
  - left. destruct H as [->|[]]. exact Hp.
  - destruct H as [->|H]; [left; exact Hp|]. cbn [map concat]. destruct (C [] r l0 l1 eq_refl) as (a & q & b & E0 & E1).
    assert (C' : consecutive touches (l1 :: r)) by (intros x y u v E; apply (C (l0 :: x) y u v); cbn; rewrite E; reflexivity).
    destruct (IH l1 C' H) as [I|I].
    + rewrite E1 in *. cbn [tl]. destruct I as [<-|I]; [left; rewrite E0; apply in_or_app; right; left; reflexivity|]. right. apply in_or_app. left. exact I.
    + right. apply in_or_app. right. exact I.
Qed.

Lemma modes_spec u ch : modes u ch -> exists changes, kml_changes u = Ok changes /\ StronglySorted (fun a b => fst a <= fst b) changes /\
  (forall t, mode_at changes t = mode_at ch t) /\ forall m, mode_of changes m -> mode_of ch m.
Proof.
  intros H. destruct H as [vs ts ms c H1 H2 H3 H3' H4 H5 H6 H7|H|vs H1 H2].
  - destruct (changes_spec u vs ts ms H1 H2 (ex_intro _ c (conj H3 H3')) H4 H5 H6 H7) as (changes & E & Ss & M & I & N). exists changes. repeat split; try assumption.
    intros m Hm. unfold mode_of in *. destruct changes as [|p changes]; [destruct (N eq_refl)|].
    apply in_map_iff in Hm. destruct Hm as (x & <- & Hx). apply I in Hx. destruct (mode_samples u ts ms); [destruct Hx|]. apply in_map. exact Hx.
  - exists []. split; [|split; [constructor|split; [reflexivity|intros m Hm; exact Hm]]]. unfold kml_changes.
    destruct (get_dataset u (lit "vehicle_status") 0) as [vs|e] eqn:G; [destruct (H vs eq_refl)|]. unfold get_dataset, py_nth in G.
    destruct (nth_error _ 0); [discriminate|]. injection G as <-. reflexivity.
  - exists []. split; [|split; [constructor|split; [reflexivity|intros m Hm; exact Hm]]]. unfold kml_changes, list_value_changes. rewrite H1. cbn [bind].
    destruct H2 as [H2|H2].
    + rewrite H2. reflexivity.
    + rewrite H2. destruct (sget (lit "timestamp") (ds_data vs)); reflexivity.
Qed.

Lemma track_shown min u ch style off topic colors d ts fixes kml : modes u ch -> trackable u topic d ts fixes ->
  (forall m, mode_of ch m -> exists c, colors m = Ok c) ->
  exists lines, add_position_data min u (style_of style) off kml (topic, colors) = Ok (kml ++ lines) /\ shown min ch style off topic colors d ts fixes lines.
Proof.
  intros M [T1 T2 T3 T4 T5 T6 T7 T8] Hc. destruct (modes_spec u ch M) as (changes & E & Ss & Ma & Mi).
  set (pieces := kml_lines min changes (fix_samples ts fixes)).
  assert (Ek : kml_track min u topic = Ok pieces).
  { unfold kml_track. rewrite E. cbn [bind]. rewrite (fun a b c => positions_spec u topic d ts T1 a b c T5 fixes T8); [reflexivity| | | ].
    - destruct T2 as (c & Q & _). exists c. apply quantity_either. exact Q.
    - destruct T3 as (c & Q & _). exists c. apply quantity_either. exact Q.
    - destruct T4 as (c & Q & _). exists c. apply quantity_either. exact Q. }
  destruct (kml_spec min changes (fix_samples ts fixes) Ss (fix_samples_sorted ts fixes T6)) as (A & B & C).
  { apply Forall_forall. intros p Hp. unfold fix_samples in Hp. apply in_map_iff in Hp. destruct Hp as (i & <- & Hi). apply filter_In in Hi. destruct Hi as (Hi & _).
    apply in_seq in Hi. rewrite Forall_forall in T7. apply T7. apply nth_In. lia. }
  fold pieces in A, B, C.
  destruct (mapM_F2 (draw colors (style_of style) off topic d) (drawn colors style off topic d) pieces) as (lines & El & Fl).
  { intros l Hl. pose proof (lines_in min changes (fix_samples ts fixes)) as L. rewrite Forall_forall in L. destruct (Hc (fst l) (Mi _ (L l Hl))) as (c & Ec).
    apply (draw_spec colors style off topic d ts l c T2 T3 T4); [|exact Ec]. intros p Hp. pose proof (In_path pieces l p Hl B Hp) as Ip.
    apply (sub_In _ _ _ (thinned_sub _ _ _ _ A)) in Ip. unfold fix_samples in Ip. apply in_map_iff in Ip. destruct Ip as (i & <- & Hi). apply filter_In in Hi.
    destruct Hi as (Hi & _). apply in_seq in Hi. cbn [snd]. lia. }
  exists lines. unfold add_position_data. cbn [fst snd]. rewrite Ek. cbn [bind]. rewrite T1. cbn [bind]. rewrite El. cbn [bind]. split; [reflexivity|].
  exists pieces. split; [exact A|]. split; [exact B|]. split; [|exact Fl]. eapply Forall_impl; [|exact C]. intros l Hl a b x y Ex. cbv beta. rewrite <- Ma. exact (Hl a b x y Ex).
Qed.

(** ** camera triggers *)
Lemma triggers_ok fstr u off camera cam : camera_in u camera cam ->
  exists ps, add_camera_triggers fstr u camera off = Ok ps /\ triggers fstr off cam ps.
Proof.
  intros H. destruct H as [|name H|name d n (G & A & B & C & D)].
  - exists []. split; reflexivity.
  - exists []. unfold add_camera_triggers. destruct (get_dataset u name 0) as [d|e] eqn:G; [destruct (H d eq_refl)|]. split; reflexivity.
  - destruct (mapM_F2 (fun i => let* s := elem d (lit "seq") i in let* p := coord_at d false off i in Ok (mkPlace (lit "Camera Trigger " ++ np_str fstr s) p))
      (trigger fstr off d) (seq 0 n)) as (ps & E & F).
    { intros i Hi. apply in_seq in Hi. destruct (coord_placed d off n i A B C ltac:(lia)) as (x & y & z & R & Ec).
      destruct D as (c & Hc & Lc). destruct (nth_error (c_raw c) i) as [raw|] eqn:En; [|apply nth_error_None in En; lia].
      assert (Ee : elem d (lit "seq") i = Ok (c_type c, raw)) by (unfold elem, py_nth; rewrite Hc, En; reflexivity).
      rewrite Ee. cbn [bind]. rewrite Ec. cbn [bind]. eexists. split; [reflexivity|]. exists x, y, z, (c_type c), raw. split; [exact R|]. split; [reflexivity|].
      split; [exact Ee|reflexivity]. }
    exists ps. split; [|exact F]. unfold add_camera_triggers. rewrite G.
    destruct A as (c1 & Q1 & L1). destruct B as (c2 & Q2 & L2). destruct C as (c3 & Q3 & L3). destruct D as (c4 & Q4 & L4).
    apply quantity_either in Q1, Q2, Q3. rewrite Q1. cbn [bind]. rewrite Q2. cbn [bind]. rewrite Q3. cbn [bind]. rewrite Q4. cbn [bind]. rewrite L1. exact E.
Qed.

(** ** the whole document *)
Lemma tracks_shown min u ch style off : modes u ch -> forall ncs tracks, 
  Forall2 (fun nc t => trackable u (fst nc) (fst (fst t)) (snd (fst t)) (snd t) /\ forall m, mode_of ch m -> exists c, snd nc m = Ok c) ncs tracks ->
  forall kml, exists groups, foldM (add_position_data min u (style_of style) off) ncs kml = Ok (kml ++ concat groups) /\
    Forall2 (fun p g => shown min ch style off (fst (fst p)) (snd (fst p)) (fst (fst (snd p))) (snd (fst (snd p))) (snd (snd p)) g) (combine ncs tracks) groups.
Proof.
  intros M ncs tracks F. induction F as [|(n, c) ((d, ts), fx) ncs tracks (T & C) F IH]; intros kml.
  - exists []. cbn. rewrite app_nil_r. split; [reflexivity|constructor].
  - cbn [fst snd] in *. destruct (track_shown min u ch style off n c d ts fx kml M T C) as (ls & E & Sh). destruct (IH (kml ++ ls)) as (gs & Eg & Fg).
    exists (ls :: gs). cbn [foldM combine concat]. rewrite E. cbn [bind]. rewrite Eg, <- app_assoc. split; [reflexivity|]. constructor; assumption.
Qed.
Lemma map_spec fstr load names cols off min style camera u ch tracks cam :
  load (names ++ [lit "vehicle_status"] ++ match camera with Some c => [c] | None => [] end) = Ok u -> modes u ch ->
  Forall2 (fun nc t => trackable u (fst nc) (fst (fst t)) (snd (fst t)) (snd t) /\ forall m, mode_of ch m -> exists c, snd nc m = Ok c) (combine names cols) tracks ->
  camera_in u camera cam ->
  exists groups points, convert_ulog2kml fstr load (inr names) (inr cols) off min style camera = Ok (mkDoc (concat groups) points) /\
    Forall2 (fun p g => shown min ch style off (fst (fst p)) (snd (fst p)) (fst (fst (snd p))) (snd (fst (snd p))) (snd (snd p)) g)
            (combine (combine names cols) tracks) groups /\ triggers fstr off cam points.
Proof.
  intros L M F C. destruct (tracks_shown min u ch style off M _ _ F []) as (gs & Eg & Fg). destruct (triggers_ok fstr u off camera cam C) as (ps & Ep & Tp).
  destruct (modes_spec u ch M) as (changes & Ec & _). exists gs, ps. split; [|split; assumption]. unfold convert_ulog2kml. cbv zeta. rewrite L. cbn [bind]. rewrite Ec. cbn [bind].
  rewrite Eg. cbn [bind]. rewrite Ep. reflexivity.
Qed.
Lemma one_many fstr load t f off min style camera :
  convert_ulog2kml fstr load (inl t) (inl f) off min style camera = convert_ulog2kml fstr load (inr [t]) (inr [f]) off min style camera.
Proof. reflexivity. Qed.

Lemma placed_value d off i x y z a b c : placed d (VInt off) i (x, y, z) -> forall lon lat alt, raw_position d i lon lat alt ->
  amount lon a -> amount lat b -> amount alt c ->
  (int_degrees d -> amount x (a / inject_Z 10000000) /\ amount y (b / inject_Z 10000000) /\ amount z (c / inject_Z 1000 + inject_Z off)) /\
  (~ int_degrees d -> amount x a /\ amount y b /\ amount z (c + inject_Z off)).
Proof.
  intros (lon' & lat' & alt' & (R1 & R2 & R3) & P & Q) lon lat alt (S1 & S2 & S3) A B C.
  assert (U : forall o n m m', reads d o n i m -> reads d o n i m' -> m = m').
  { intros o n m m' (k & r & Hq & Hn & ->) (k' & r' & Hq' & Hn' & ->). apply quantity_either in Hq, Hq'. rewrite Hq in Hq'. injection Hq' as <-. congruence. }
  rewrite (U _ _ _ _ R1 S1), (U _ _ _ _ R2 S2), (U _ _ _ _ R3 S3) in *. split; intros H.
  - specialize (P H). injection P as -> -> ->. repeat split; repeat constructor; assumption.
  - specialize (Q H). injection Q as -> -> ->. repeat split; repeat constructor; assumption.
Qed.
