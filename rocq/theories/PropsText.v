(** Property C60: what the texts of a log mean. *)
From Verif Require Import Base Dict PyStr Utf8 Struct ModelTypes ModelRead SpecTools ProofsInv SpecText ProofsText.

(** A format message is read exactly if its text is in the grammar, as the format that the grammar gives. *)
Theorem C60_format : forall ign data f, parse_format ign data = Ok f <-> exists s, utf8_decode ign data = Ok s /\ format_def s f.
Proof. exact format_iff. Qed.
(** Otherwise one of three exceptions is raised. *)
Theorem C60_format_refused : forall ign data, (forall s f, utf8_decode ign data = Ok s -> ~ format_def s f) ->
  parse_format ign data = Err UnicodeDecodeError \/ parse_format ign data = Err IndexError \/ parse_format ign data = Err ValueError.
Proof.
  intros ign data H. pose proof (format_errs ign data) as L. destruct (parse_format ign data) as [f|e] eqn:E.
  - apply format_iff in E. destruct E as (s & Es & F). destruct (H s f Es F).
  - simpl in L. destruct L as [<-|[<-|[<-|[]]]]; auto.
Qed.
(** The text decides the format. *)
Theorem C60_format_unique : forall s f g, str_ok s -> format_def s f -> format_def s g -> f = g.
Proof.
  intros s f g Hs F G. destruct (utf8_encode_Ok s Hs) as (b & Eb). pose proof (utf8_decode_encode false s b Eb) as D.
  assert (A : parse_format false b = Ok f) by (apply format_iff; exists s; split; assumption).
  assert (B : parse_format false b = Ok g) by (apply format_iff; exists s; split; assumption). congruence.
Qed.
(** An info or parameter message likewise. *)
Theorem C60_info : forall ign data m, bytes_ok data -> (parse_info ign data = Ok m <-> info_def ign data m).
Proof. exact info_iff. Qed.

(** ** Examples *)
Example C60_ex : format_def (lit "gyro:uint64_t timestamp;float[3] xyz;;uint8_t[+1_0]x a b;")
  (mkFmt (lit "gyro") [(lit "uint64_t", 0, lit "timestamp"); (lit "float", 3, lit "xyz"); (lit "uint8_t", 10, lit "a")]).
Proof.
  assert (A : exists s, utf8_decode false (lit "gyro:uint64_t timestamp;float[3] xyz;;uint8_t[+1_0]x a b;") = Ok s /\ format_def s 
    (mkFmt (lit "gyro") [(lit "uint64_t", 0, lit "timestamp"); (lit "float", 3, lit "xyz"); (lit "uint8_t", 10, lit "a")])) by (apply C60_format; vm_compute; reflexivity).
  destruct A as (s & E & F). vm_compute in E. apply (f_equal (fun r => match r with Ok x => x | Err _ => [] end)) in E. cbv beta iota in E. rewrite <- E in F. exact F.
Qed.
Example C60_ex_info : info_def false ([11] ++ lit "int32_t ABC" ++ [255; 255; 255; 255]) (mkInfo (lit "int32_t") (lit "ABC") (VInt (-1))).
Proof. apply info_iff; [vm_compute; repeat constructor; discriminate|vm_compute; reflexivity]. Qed.

(** ** What does not hold *)
(** An array type whose bracket is not closed is not refused but read with another size. *)
Theorem C60_open_refuted : exists f, parse_format false (lit "t:uint8_t[12 a;") = Ok f /\ mf_fields f = [(lit "uint8_t", 1, lit "a")].
Proof. eexists. split; vm_compute; reflexivity. Qed.
(** A negative size is accepted. *)
Theorem C60_negative_refuted : exists f, parse_format false (lit "t:uint8_t[-2] a;") = Ok f /\ mf_fields f = [(lit "uint8_t", -2, lit "a")].
Proof. eexists. split; vm_compute; reflexivity. Qed.
(** What follows a second colon is lost without an error. *)
Theorem C60_colon_refuted : exists f, parse_format false (lit "t:uint8_t a;:uint8_t b;") = Ok f /\ mf_fields f = [(lit "uint8_t", 0, lit "a")].
Proof. eexists. split; vm_compute; reflexivity. Qed.
