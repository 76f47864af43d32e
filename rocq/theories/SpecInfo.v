(** What the report of ulog_info says.  This file does not mention the definitions of ModelInfo. *)
From Verif Require Import Base Dict PyStr Struct ModelTypes ModelRead ModelApi Spec SpecSection SpecLog SpecTools.
From Coq Require Import Permutation Sorted.

(** a number of seconds as h:mm:ss *)
Definition hms (n : Z) (t : str) : Prop := exists h m s, 0 <= m < 60 /\ 0 <= s < 60 /\
  h * 3600 + m * 60 + s = n /\ t = str_of_Z h ++ lit ":" ++ dd m ++ lit ":" ++ dd s.
(** a number of milliseconds as seconds with one digit, to the nearest tenth *)
Definition one_digit (ms : Z) (t : str) : Prop := exists a b, 0 <= b < 10 /\
  Z.abs ((10 * a + b) * 100 - ms) <= 50 /\ t = str_of_Z a ++ lit "." ++ str_of_Z b.
Definition sumZ (l : list Z) : Z := fold_right Z.add 0 l.

Definition dropouts_shown (l : list Z) (t : str) : Prop :=
  (l = [] /\ t = lit "No Dropouts") \/
  (exists tot mx, l <> [] /\ one_digit (sumZ l) tot /\ In mx l /\ (forall x, In x l -> x <= mx) /\
     t = lit "Dropouts: count: " ++ str_of_Z (lenZ l) ++ lit ", total duration: " ++ tot ++
         lit " s, max: " ++ str_of_Z mx ++ lit " ms, mean: " ++ str_of_Z (sumZ l / lenZ l) ++ lit " ms").

(** the lines for the keys of a dictionary, in alphabetic order; [shown] selects the keys *)
Definition key_lines {V} (shown : str -> Prop) (line : str -> V -> str) (d : dict str V) (ls : list str) : Prop :=
  exists ks, StronglySorted (fun a b => str_cmp a b <> Gt) ks /\
    (NoDup (map fst d) -> NoDup ks) /\
    (forall k, In k ks <-> In k (map fst d) /\ shown k) /\
    Forall2 (fun k l => exists v, sget k d = Some v /\ l = line k v) ks ls.

(** the text [s] in a column of width [w], at the left or at the right *)
Definition at_left (w : nat) (s t : str) : Prop := exists k, t = s ++ repeat 32 k /\ length t = Nat.max w (length s).
Definition at_right (w : nat) (s t : str) : Prop := exists k, t = repeat 32 k ++ s /\ length t = Nat.max w (length s).
(** a row: topic, instance, bytes per sample, number of samples, all bytes *)
Definition row (d : dataset) (t : str) : Prop := exists c a b e,
  sget (lit "timestamp") (ds_data d) = Some c /\
  at_left 40 (ds_name d ++ lit " (" ++ str_of_Z (ds_multi d) ++ lit ", " ++ str_of_Z (total (ds_fields d)) ++ lit ")") a /\
  at_right 7 (str_of_Z (lenZ (c_raw c))) b /\
  at_right 10 (str_of_Z (total (ds_fields d) * lenZ (c_raw c))) e /\
  t = lit " " ++ a ++ lit " " ++ b ++ lit " " ++ e.

Definition perf_key (k : str) : Prop := exists r, k = lit "perf_" ++ r.

(** The whole report. *)
Definition report (vstr : value -> str) (lstr : list (list value) -> str) (verbose : bool) (u : ulog) (out : list str) : Prop :=
  exists warn start duration drops version infos multis rows ds,
    out = warn ++ [lit "Logging start time: " ++ start ++ lit ", duration: " ++ duration; drops] ++ version ++
          [lit "Info Messages:"] ++ infos ++ multis ++ [[]; lit "Name (multi id, message size in bytes)    number of data points, total bytes"] ++ rows /\
    warn = (if u_corrupt u then [lit "Warning: file has data corruption(s)"] else []) /\
    hms (u_start u / 1000000) start /\ hms ((u_last u - u_start u) / 1000000) duration /\
    dropouts_shown (map dr_dur (u_dropouts u)) drops /\
    (* the text of get_version_info_str(), see C27 *)
    (exists v, get_version_info_str u (lit "ver_sw_release") = Ok v /\
       version = match v with Some t => [lit "SW Version: " ++ t] | None => [] end) /\
    key_lines (fun k => perf_key k -> verbose = true) (fun k v => lit " " ++ k ++ lit ": " ++ vstr v) (u_info u) infos /\
    (u_multi u = [] -> multis = []) /\
    (u_multi u <> [] -> verbose = true -> exists ls, multis = lit "Info Multiple Messages:" :: ls /\
       key_lines (fun _ => True) (fun k v => lit " " ++ k ++ lit ": " ++ lstr v) (u_multi u) ls) /\
    (u_multi u <> [] -> verbose = false -> exists l ls, multis = [lit "Info Multiple Messages: " ++ l] /\
       key_lines (fun _ => True) (fun k v => lit "[" ++ k ++ lit ": " ++ str_of_Z (lenZ v) ++ lit "]") (u_multi u) ls /\
       l = separated (lit ", ") ls) /\
    Permutation ds (u_data u) /\
    StronglySorted (fun a b => str_cmp (ds_name a ++ str_of_Z (ds_multi a)) (ds_name b ++ str_of_Z (ds_multi b)) <> Gt) ds /\
    Forall2 row ds rows.

(** The payloads of the data messages that belong to the current subscription of a message id. *)
Definition inbox_step (cf : cfg) (fmts : dict str mformat) (id : Z)
    (cur : option (subscr * list bytes)) (e : event) : option (subscr * list bytes) :=
  match e with
  | EMsg ty p =>
    if ty =? 65 then
      match parse_add cf fmts p with
      | Ok s => if (sb_id s =? id) && cf_filter cf (sb_name s) then Some (s, []) else cur
      | Err _ => cur
      end
    else if ty =? 68 then
      match msg_id p, cur with
      | Some i, Some (s, ps) => if (i =? id) && fits s p then Some (s, ps ++ [p]) else cur
      | _, _ => cur
      end
    else cur
  | _ => cur
  end.
Definition inbox (cf : cfg) (fmts : dict str mformat) (evs : list event) (id : Z) : option (subscr * list bytes) :=
  fold_left (inbox_step cf fmts id) evs None.

(** two hexadecimal digits *)
Definition hex_value (c : Z) (n : Z) : Prop := (48 <= c <= 57 /\ n = c - 48) \/ (97 <= c <= 102 /\ n = c - 87).
(** [spelled b t]: the text [t], blanks and line ends apart, is the bytes [b] in hexadecimal *)
Inductive spelled : bytes -> str -> Prop :=
| sp_nil : spelled [] []
| sp_blank b c t : c = 32 \/ c = 10 -> spelled b t -> spelled b (c :: t)
| sp_byte x b c1 c2 n1 n2 t : hex_value c1 n1 -> hex_value c2 n2 -> x = 16 * n1 + n2 -> spelled b t ->
    spelled (x :: b) (c1 :: c2 :: t).
