(** Which event definitions a log is shown with, independent of how they are chosen. *)
From Verif Require Import Base Dict PyStr PyFloat Struct ModelTypes ModelApi ModelTools ModelEvents.

(** The log has events to show. *)
Definition events_in (u : ulog) : Prop :=
  exists d c, get_dataset u (lit "event") 0 = Ok d /\ sget (lit "id") (ds_data d) = Some c /\ c_raw c <> [].
(** A hash is a text of 1 to 64 letters and digits. *)
Definition letter_or_digit (c : Z) : Prop := 48 <= c <= 57 \/ 65 <= c <= 90 \/ 97 <= c <= 122.
Definition good_hash {J P} (lb : lib J P) (h : value) : Prop :=
  (exists s, h = VStr s /\ (1 <= length s <= 64)%nat /\ Forall (fun c => (c < 128 /\ letter_or_digit c) \/ (128 <= c /\ lb_alnum lb c = true)) s) \/
  (exists b, h = VBytes b /\ (1 <= length b <= 64)%nat /\ Forall letter_or_digit b).
Definition has_length (h : value) : Prop := (exists s, h = VStr s) \/ (exists b, h = VBytes b).
(** The log has definitions of its own: the first list of pieces under metadata_events, and a hash. *)
Definition own {J P} (lb : lib J P) (u : ulog) (data : bytes) : Prop :=
  exists segs rest h, sget (lit "metadata_events") (u_multi u) = Some (map VBytes segs :: rest) /\
    sget (lit "metadata_events_sha256") (u_info u) = Some h /\ good_hash lb h /\ data = concat segs.
Definition no_own {J P} (lb : lib J P) (u : ulog) : Prop :=
  sget (lit "metadata_events") (u_multi u) = None \/ sget (lit "metadata_events_sha256") (u_info u) = None \/
  exists h, sget (lit "metadata_events_sha256") (u_info u) = Some h /\ has_length h /\ ~ good_hash lb h.
(** [p] is a parser with the definitions [j] in the profile dev. *)
Definition knows {J P} (lb : lib J P) (j : J) (p : P) : Prop :=
  exists p0, lb_load lb j (lb_new lb) = (Ok tt, p0) /\ p = lb_profile lb (lit "dev") p0.
Definition refuses {J P} (lb : lib J P) (j : J) : Prop := exists e p, lb_load lb j (lb_new lb) = (Err e, p).
(** the events as they are shown with a parser (none: every event is unknown), see C45 *)
Definition shown {J P} (lb : lib J P) (p : option P) (u : ulog) : res (list (Z * str * str)) :=
  get_logged_events (Ok (match p with Some q => Some (lb_parse lb q) | None => None end)) u.
