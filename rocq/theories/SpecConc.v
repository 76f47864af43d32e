(** Several connections to one database. *)
From Verif Require Import Base Dict PyStr ModelTypes Sql Schema5 ModelDb ModelConc SpecDb SpecHist.

(** Operations of other processes.  save() first looks for the hash of the file and then runs its transaction; other
    processes may commit in between.  [CCommit] is the transaction without the look, so what the look found, and when,
    is left open.  Transactions are one after the other, as SQLite lets one connection write at a time; reading
    operations leave the database as it is. *)
Inductive cop := CDo (o : op) | CCommit (i : nat) (F : fault) (json : bool).
Definition cstep (w : world) (c : cop) : world * event :=
  match c with
  | CDo o => step w o
  | CCommit i F json =>
    match nth_error (w_objs w) i with
    | None => (w, Other)
    | Some x =>
      match o_pk x with
      | Some _ => (w, Other)
      | None =>
        let '(r, x', d') := save_tx F json x (w_db w) in
        (mkW d' (put i x' (w_objs w)), match r, o_pk x' with Ok _, Some pk => Saved pk (o_sha x) (o_log x) | _, _ => Other end)
      end
    end
  end.
Fixpoint crun (w : world) (cs : list cop) : world * list event :=
  match cs with
  | [] => (w, [])
  | c :: cs' => let '(w1, e) := cstep w c in let '(w2, es) := crun w1 cs' in (w2, e :: es)
  end.
Definition creached (d : db) (es : list event) : Prop :=
  exists d0 objs cs w, fresh d0 /\ crun (mkW d0 objs) cs = (w, es) /\ w_db w = d.

(** A program whose statement number [n] comes after the operations [others n] of other processes. *)
Fixpoint among {A} (p : prog A) (w : world) (others : nat -> list cop) (n : nat) : res A * world * list event :=
  match p with
  | Ret r => (r, w, [])
  | Ask q k =>
    let '(w1, es) := crun w (others n) in
    match q (w_db w1) with
    | Err e => (Err e, w1, es)
    | Ok rows => let '(r, w2, es2) := among (k rows) w1 others (S n) in (r, w2, es ++ es2)
    end
  end.

(** What may be left of a log: every part is whole or empty, a dataset may have lost its columns, an info message its
    lists, and a list its values. *)
Definition part {A} (whole p : list A) : Prop := p = whole \/ p = [].
Record remains (u v : ulog) : Prop := {
  rm_head : u_version v = u_version u /\ u_start v = u_start u /\ u_last v = u_last u /\ u_compat v = u_compat u /\ u_incompat v = u_incompat u /\
    u_sync_cnt v = u_sync_cnt u /\ u_has_sync v = u_has_sync u /\ u_corrupt v = u_corrupt u /\ u_subs v = u_subs u /\ u_filtered v = u_filtered u /\ u_missing v = u_missing u;
  rm_offsets : part (u_offsets u) (u_offsets v);
  rm_data : u_data v = [] \/ Forall2 (fun ds ds' => ds' = ds \/ ds' = shell ds) (u_data u) (u_data v);
  rm_dropouts : part (u_dropouts u) (u_dropouts v);
  rm_logged : part (u_logged u) (u_logged v);
  rm_tagged : part (u_tagged u) (u_tagged v);
  rm_formats : part (u_formats u) (u_formats v);
  rm_info : part (u_info u) (u_info v) /\ part (u_infot u) (u_infot v);
  rm_multi : u_multi v = [] \/
    Forall2 (fun kl kl' => fst kl' = fst kl /\ (snd kl' = [] \/ Forall2 part (snd kl) (snd kl'))) (u_multi u) (u_multi v);
  rm_multit : part (u_multit u) (u_multit v);
  rm_params : part (u_params u) (u_params v);
  rm_defaults : part (u_defaults u) (u_defaults v);
  rm_changed : part (u_changed u) (u_changed v) }.

(** The same open with only one change: the statements before number [n] see the database [d], the others [d']. *)
Fixpoint split_at {A} (p : prog A) (n : nat) (d d' : db) : res A :=
  match p with
  | Ret r => r
  | Ask q k => match q (match n with O => d' | S _ => d end) with Ok rows => split_at (k rows) (pred n) d d' | Err e => Err e end
  end.
(** The parts of a log in the order in which they are read, each with what it means that it is whole and that it is
    empty: behind a part that is not whole, all are empty. *)
Fixpoint in_order (l : list (Prop * Prop)) : Prop :=
  match l with
  | [] => True
  | (whole, _) :: r => (whole \/ Forall snd r) /\ in_order r
  end.
Definition read_in_order (u v : ulog) : Prop := in_order [
  (u_offsets v = u_offsets u, u_offsets v = []);
  (u_data v = u_data u, u_data v = []);
  (u_dropouts v = u_dropouts u, u_dropouts v = []);
  (u_logged v = u_logged u, u_logged v = []);
  (u_tagged v = u_tagged u, u_tagged v = []);
  (u_formats v = u_formats u, u_formats v = []);
  (u_info v = u_info u /\ u_infot v = u_infot u, u_info v = [] /\ u_infot v = []);
  (u_multi v = u_multi u /\ u_multit v = u_multit u, u_multi v = [] /\ u_multit v = []);
  (u_params v = u_params u, u_params v = []);
  (u_defaults v = u_defaults u, u_defaults v = []);
  (u_changed v = u_changed u, u_changed v = [])].
(** the datasets: all of them, none, or all of them with the columns of the last one missing *)
Definition last_missing (l l' : list dataset) : Prop := l' = l \/ l' = [] \/ exists a x, l = a ++ [x] /\ l' = a ++ [shell x].
