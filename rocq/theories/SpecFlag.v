(** When a log counts as corrupt: the messages and places of a file that set file_corruption, and the message ids the reader warns about. *)
From Verif Require Import Base Dict PyStr Utf8 Struct ModelTypes ModelRead Spec SpecSection SpecTools SpecText.

(** an info or parameter payload whose "type name" text has no blank, and so no name *)
Definition nameless (ign : bool) (p : bytes) : Prop :=
  exists k rest t, p = k :: rest /\ utf8_decode ign (firstn (Z.to_nat k) rest) = Ok t /\ ~ In 32 t.
(** messages with such a payload; in M and Q a byte precedes it *)
Definition unreadable (ign : bool) (ty : Z) (p : bytes) : Prop :=
  ((ty = 73 \/ ty = 80) /\ nameless ign p) \/ ((ty = 77 \/ ty = 81) /\ exists b q, p = b :: q /\ nameless ign q).

(** a format whose text has no colon, or a field without name: "type" and no blank. The fields before it are sound, for otherwise the load raises ValueError *)
Definition partless (ign : bool) (p : bytes) : Prop :=
  exists s, utf8_decode ign p = Ok s /\ (~ In 58 s \/
    exists name parts t a f b, s = name ++ 58 :: separated [59] parts ++ t /\ ignored 58 t /\ ~ In 58 name /\
      Forall (fun q => ~ In 58 q /\ ~ In 59 q) parts /\ parts = a ++ f :: b /\ f <> [] /\ ~ In 32 f /\
      Forall (fun g => g = [] \/ exists x, field_def g x) a).

(** ** The definition section: garbage, an unreadable message, or a format without its parts *)
Definition def_suspicious (ign : bool) (e : event) : Prop :=
  e = ECorrupt \/ exists ty p, e = EMsg ty p /\ (unreadable ign ty p \/ ty = 70 /\ partless ign p).

(** ** The data sections *)
(** a subscription of [id] to a topic that the filter leaves out *)
Definition shunned (cf : cfg) (fmts : dict str mformat) (evs : list event) (id : Z) : Prop :=
  exists p s, In (EMsg 65 p) evs /\ parse_add cf fmts p = Ok s /\ sb_id s = id /\ cf_filter cf (sb_name s) = false.
(** [e] is a sample of the message id [id], which the section has not subscribed before ([pre]) and which was not left out in
    this section or an earlier one ([before]) *)
Definition orphan (cf : cfg) (fmts : dict str mformat) (id : Z) (before pre : list event) (e : event) : Prop :=
  exists p, e = EMsg 68 p /\ msg_id p = Some id /\ subscription cf fmts pre id = None /\ ~ shunned cf fmts (before ++ pre) id.
(** garbage, an unreadable message, a sample of the wrong size, a sample without subscription *)
Definition suspicious (cf : cfg) (fmts : dict str mformat) (before pre : list event) (e : event) : Prop :=
  e = ECorrupt \/
  (exists ty p, e = EMsg ty p /\ unreadable (cf_ign cf) ty p) \/
  (exists p id s rows, e = EMsg 68 p /\ msg_id p = Some id /\ subscription cf fmts pre id = Some (s, rows) /\ fits s p = false) \/
  (exists id, orphan cf fmts id before pre e).
(** somewhere in the sections: [P] of the events of the sections before, of the events before in the section, and of the event *)
Definition in_section (P : list event -> list event -> event -> Prop) (secs : list (list event)) : Prop :=
  exists s1 evs s2 pre e post, secs = s1 ++ evs :: s2 /\ evs = pre ++ e :: post /\ P (concat s1) pre e.
