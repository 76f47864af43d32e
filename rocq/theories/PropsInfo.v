(** Property C55: the report of ulog_info. *)
From Verif Require Import Base Dict PyStr PyFloat PySort Struct ModelTypes ModelRead ModelApi ModelInfo
  Spec SpecMsg SpecSection SpecLog SpecTools SpecInfo ProofsFields ProofsWhole ProofsProps ProofsInfo Samples PropsRead SpecWalk ProofsWalk.
From Coq Require Import Permutation Sorted.

(** The report of any log with times below 2^53 us, the last not before the first. *)
Theorem C55_report : forall vstr lstr verbose u out, show_info vstr lstr verbose u = Ok out ->
  0 <= u_start u <= 2 ^ 53 -> 0 <= u_last u - u_start u <= 2 ^ 53 ->
  0 <= sumZ (map dr_dur (u_dropouts u)) < 2 ^ 53 -> report vstr lstr verbose u out.
Proof. exact show_info_report. Qed.
(** It is printed for every log whose software version, if any, is a number and whose topics have timestamps. *)
Theorem C55_printed : forall vstr lstr verbose u,
  (forall v, sget (lit "ver_sw_release") (u_info u) = Some v -> (exists z, v = VInt z) \/ (exists b, v = VBool b)) ->
  (forall d, In d (u_data u) -> sget (lit "timestamp") (ds_data d) <> None) ->
  exists out, show_info vstr lstr verbose u = Ok out.
Proof. exact show_info_total. Qed.
(** For a log loaded from a file only the sizes of the numbers have to be assumed. *)
Theorem C55_loaded : forall cf f u vstr lstr verbose out, bytes_ok f -> cf_hdr cf = false -> produces cf f (Ok u) ->
  u_last u <= 2 ^ 53 -> lenZ (u_dropouts u) < 2 ^ 37 ->
  show_info vstr lstr verbose u = Ok out -> report vstr lstr verbose u out.
Proof.
  intros cf f u vstr lstr verbose out Hb Hh Hp Hl Hd E.
  destruct (loaded_times cf f u Hb Hh Hp) as (A & B & C).
  apply C55_report; [exact E|lia|lia|]. apply durations_sum; assumption.
Qed.
(** The number of samples is that of the data messages of the topic's subscription, and "total bytes" is the sum of
    the lengths of their records (the payload without the message id). *)
Theorem C55_bytes : forall cf f u, bytes_ok f -> cf_hdr cf = false -> produces cf f (Ok u) ->
  exists defs secs, trace cf f u defs secs /\ forall ds, In ds (u_data u) ->
  exists sec s ps, In sec secs /\ inbox cf (u_formats u) sec (ds_id ds) = Some (s, ps) /\
    ds_fields ds = sb_fields s /\ ds_name ds = sb_name s /\ ds_multi ds = sb_multi s /\
    forall c, sget (lit "timestamp") (ds_data ds) = Some c ->
      lenZ (c_raw c) = lenZ ps /\ total (ds_fields ds) * lenZ (c_raw c) = sumZ (map (fun p => lenZ p - 2) ps).
Proof.
  intros cf f u Hb Hh Hp. destruct (load_walked cf f u Hb Hh Hp) as (defs & secs & Ht). exists defs, secs. split; [exact Ht|].
  intros ds Hin. destruct Ht as (_ & _ & _ & _ & Hr). destruct (dataset_bytes _ _ _ _ _ _ _ Hr Hin) as (sec & s & ps & A & B & C & D & F & G).
  exists sec, s, ps. repeat (split; [assumption|]). intros c Hc. exact (G _ c Hc).
Qed.
(** A message is shown by -m entry by entry: a heading and the value. *)
Theorem C55_message : forall name newline u entries, sget name (u_multi u) = Some entries ->
  Forall (fun m => (exists l, l <> [] /\ Forall bytes_ok l /\ m = map VBytes l) \/ (exists l, m = map VStr l)) entries ->
  exists pages, show_message name newline u = Ok (concat pages) /\ length pages = length entries /\
    forall i m, nth_error entries i = Some m ->
      (forall l, l <> [] -> Forall bytes_ok l -> m = map VBytes l -> exists t, nth_error pages i = Some
         [lit "# " ++ name ++ lit " " ++ str_of_Z (Z.of_nat i) ++ lit " (len: " ++ str_of_Z (lenZ (concat l)) ++ lit "):"; t] /\
         spelled (concat l) t) /\
      (forall l, m = map VStr l -> nth_error pages i = Some
         [lit "# " ++ name ++ lit " " ++ str_of_Z (Z.of_nat i) ++ lit ":"; if newline then separated [10] l else concat l]).
Proof.
  intros name newline u entries E H. unfold show_message. rewrite E. set (sep := if newline then [10] else []).
  assert (Hs : Forall (fun c => c = 32 \/ c = 10) sep) by (unfold sep; destruct newline; [constructor; [right; reflexivity|constructor]|constructor]).
  destruct (entries_app name sep 0 entries) as (pages & E1 & L & N).
  { intros j m Hj. rewrite Forall_forall in H. destruct (H m (nth_error_In _ _ Hj)) as [(l & A & B & ->)|(l & ->)].
    - destruct (entry_bytes name sep (0 + j) l A B Hs) as (t & -> & _). eauto.
    - rewrite entry_texts. eauto. }
  exists pages. split; [exact E1|]. split; [exact L|]. intros i m Hi. destruct (N i m Hi) as (ls & A & B). simpl in B. split.
  - intros l H1 H2 ->. destruct (entry_bytes name sep i l H1 H2 Hs) as (t & F & S). exists t. split; [|exact S]. rewrite A.
    exact (f_equal (fun r => match r with Ok x => Some x | Err _ => None end) (eq_trans (eq_sym B) F)).
  - intros l ->. rewrite entry_texts in B. rewrite A. unfold sep in B. destruct newline.
    + exact (f_equal (fun r => match r with Ok x => Some x | Err _ => None end) (eq_sym B)).
    + rewrite separated_nil in B. exact (f_equal (fun r => match r with Ok x => Some x | Err _ => None end) (eq_sym B)).
Qed.
(** the hexadecimal text determines the bytes *)
Theorem C55_hex : forall a b t, spelled a t -> spelled b t -> a = b.
Proof. intros a b t H. apply spelled_fun. exact H. Qed.
Theorem C55_not_found : forall name newline u, sget name (u_multi u) = None ->
  show_message name newline u = Ok [lit "message " ++ name ++ lit " not found"].
Proof. intros name newline u H. unfold show_message. rewrite H. reflexivity. Qed.

(** ** The sample log *)
Definition c55_v (v : value) : str := match v with VInt z => str_of_Z z | VStr s => s | _ => lit "?" end.
Example C55_ex : exists u, produces cf0 s_file (Ok u) /\ show_info c55_v (fun _ => []) false u = Ok
  [lit "Logging start time: 0:00:00, duration: 0:00:00";
   lit "Dropouts: count: 1, total duration: 0.0 s, max: 20 ms, mean: 20 ms";
   lit "SW Version: v1.2.3";
   lit "Info Messages:"; lit " sys_name: PX4"; lit " ver_sw_release: 16909311";
   lit "Info Multiple Messages: [k: 1]";
   [];
   lit "Name (multi id, message size in bytes)    number of data points, total bytes";
   lit " t (0, 13)                                      2         26";
   lit " t (1, 13)                                      1         13"] /\
  show_message (lit "k") false u = Ok [lit "# k 0:"; lit "ab"].
Proof. eexists. split; [exists 30%nat; vm_compute; reflexivity|]. split; vm_compute; reflexivity. Qed.
Definition c55_log (drops : list Z) (multi : dict str (list (list value))) (data : list dataset) : ulog :=
  set_multi multi (set_data data (set_dropouts (map (fun d => mkDrop d 0) drops) (set_last 7325000000 (set_start 3661000000 ulog0)))).
(** hours, and a total that is rounded *)
Example C55_ex_numbers : exists out, show_info c55_v (fun _ => []) false (c55_log [150; 1; 200] [] []) = Ok out /\
  firstn 2 out = [lit "Logging start time: 1:01:01, duration: 1:01:04";
                  lit "Dropouts: count: 3, total duration: 0.4 s, max: 200 ms, mean: 117 ms"].
Proof. eexists. split; vm_compute; reflexivity. Qed.
Example C55_ex_hex : show_message (lit "k") true (c55_log [] [(lit "k", [[VBytes [0; 10; 255]; VBytes [16]]])] []) =
  Ok [lit "# k 0 (len: 4):"; lit "00 0a ff" ++ [10] ++ lit "10"].
Proof. vm_compute. reflexivity. Qed.

(** ** Findings *)
(** A log whose software version is a text, or a topic without timestamps, ends the tool with an exception. *)
Theorem C55_printed_refuted :
  (exists u, produces cf0 (hdr0 ++ frame_of (wire (MInfo (lit "char[2]") (lit "ver_sw_release") (lit "v1")))) (Ok u) /\
     forall vstr lstr verbose, show_info vstr lstr verbose u = Err TypeError) /\
  (exists u, produces cf0 (hdr0 ++ frame_of (wire (MFormat (lit "t") [(lit "uint8_t", 0, lit "x")])) ++
                           frame_of (wire (MAdd 0 1 (lit "t"))) ++ frame_of (wire (MData 1 [7]))) (Ok u) /\
     forall vstr lstr verbose, show_info vstr lstr verbose u = Err KeyError).
Proof.
  split; (eexists; split; [exists 8%nat; vm_compute; reflexivity|]; intros vstr lstr [|]; vm_compute; reflexivity).
Qed.
(** A multi info message that holds numbers cannot be shown with -m. *)
Theorem C55_numbers_refuted : exists u,
  produces cf0 (hdr0 ++ frame_of (wire (MMulti 0 (lit "uint8_t") (lit "k") [7]))) (Ok u) /\
  sget (lit "k") (u_multi u) = Some [[VInt 7]] /\ forall newline, show_message (lit "k") newline u = Err TypeError.
Proof. eexists. split; [exists 8%nat; vm_compute; reflexivity|]. split; [reflexivity|]. intros [|]; vm_compute; reflexivity. Qed.
(** The rows are ordered by the text of topic and instance: instance 10 comes before instance 2. *)
Theorem C55_order_refuted : exists u out, show_info c55_v (fun _ => []) false u = Ok out /\
  StronglySorted (fun a b => ds_multi a <= ds_multi b) (u_data u) /\ (forall d, In d (u_data u) -> ds_name d = lit "t") /\
  skipn (length out - 2) out = [lit " t (10, 8)                                      1          8";
                                lit " t (2, 8)                                       1          8"].
Proof.
  exists (c55_log [] [] [mkDS 2 1 (lit "t") [mkFD (lit "timestamp") U64] 0 [(lit "timestamp", mkCol (NI 8 false) [5])];
                         mkDS 10 2 (lit "t") [mkFD (lit "timestamp") U64] 0 [(lit "timestamp", mkCol (NI 8 false) [5])]]).
  eexists. split; [vm_compute; reflexivity|]. split; [repeat constructor; cbn; lia|].
  split; [intros d [<-|[<-|[]]]; reflexivity|vm_compute; reflexivity].
Qed.
