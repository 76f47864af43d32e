(** A log that is deleted while it is opened: what the statements before and after the deletion find. *)
From Verif Require Import Base Dict PyStr PyFloat PySort Struct ModelTypes ModelApi Sql Schema5 ModelSchema ModelDb ModelConc SpecDb SpecHist SpecConc
  ProofsDb ProofsDel ProofsFrame ProofsSave ProofsHist ProofsConc.

Fixpoint void {A} (p : prog A) : res A := match p with Ret r => r | Ask _ f => void (f []) end.
Lemma void_bind {A B} (p : prog A) (f : A -> prog B) : void (pbind p f) = bind (void p) (fun a => void (f a)).
Proof. induction p as [[a|e]|q g IH]; cbn; auto. Qed.

Section torn.
  Variables (b : db) (k : Z).
  Fixpoint tear {A} (p : prog A) (r : res A) : Prop :=
    match p with
    | Ret _ => False
    | Ask q f => (exists rows, q b = Ok rows /\ tear (f rows) r) \/ r = void (f [])
    end.
  Lemma tear_bind {A B} (p : prog A) (f : A -> prog B) r : tear (pbind p f) r ->
    (exists a, alone p b = Ok a /\ tear (f a) r) \/ (exists x, tear p x /\ r = bind x (fun a => void (f a))).
  Proof.
    induction p as [[a|e]|q g IH]; intros H; cbn in H |- *; [eauto|contradiction|].
    destruct H as [(rows & E & H)|H].
    - rewrite E. apply IH in H as [H|(x & H1 & H2)]; [now left|]. right. exists x. split; [left; exists rows; auto|exact H2].
    - right. exists (void (g [])). rewrite void_bind in H. auto.
  Qed.
  Lemma void_may {A} (p : prog A) : may b p (void p).
  Proof. induction p as [r|q f IH]; cbn; auto. Qed.
  Lemma tear_may {A} (p : prog A) r : tear p r -> may b p r.
  Proof. induction p as [r0|q f IH]; cbn; [contradiction|]. intros [(rows & E & H)| ->]; [left; eauto|right; apply void_may]. Qed.
  Lemma tear_ask q x : tear (ask q) x -> x = Ok [].
  Proof. cbn. intros [(rows & _ & [])| ->]; auto. Qed.
  Lemma tear_mapM {A B} (f : A -> prog B) l r : tear (pmapM f l) r ->
    exists l1 x l2 ys z, l = l1 ++ x :: l2 /\ mapM (fun x => alone (f x) b) l1 = Ok ys /\ tear (f x) z /\
      r = bind z (fun y => bind (void (pmapM f l2)) (fun ys' => Ok (ys ++ y :: ys'))).
  Proof.
    revert r. induction l as [|x l IH]; intros r H; cbn [pmapM] in H; [contradiction|].
    apply tear_bind in H as [(a & Ea & H)|(z & Hz & ->)].
    - apply tear_bind in H as [(a' & _ & H)|(z & Hz & ->)]; [contradiction|]. apply IH in Hz as (l1 & x1 & l2 & ys & z1 & -> & E1 & T & ->).
      exists (x :: l1), x1, l2, (a :: ys), z1. split; [reflexivity|]. split; [cbn [mapM]; rewrite Ea; cbn [bind]; now rewrite E1|]. split; [exact T|].
      destruct z1 as [y|]; [|reflexivity]. cbn [bind]. now destruct (void (pmapM f l2)).
    - exists [], x, l, [], z. split; [reflexivity|]. split; [reflexivity|]. split; [exact Hz|]. destruct z; [|reflexivity]. cbn [bind app]. now rewrite void_bind.
  Qed.

  (** every open is whole, or torn at one place *)
  Hypothesis Gb : good b.
  Lemma crun_gone cs : forall w w' es, good (w_db w) -> gone b (w_db w) k -> crun w cs = (w', es) -> good (w_db w') /\ gone b (w_db w') k.
  Proof.
    induction cs as [|o cs IH]; intros w w' es G Go E; cbn [crun] in E; [now injection E as <- <-|].
    destruct (cstep w o) as [w1 e] eqn:S1. destruct (crun w1 cs) as [w2 es2] eqn:R. injection E as <- <-.
    destruct (cstep_db _ _ _ _ G S1) as [[E0 ->]|[(r & d1 & N & sha & u & -> & X)|(pk & -> & C)]].
    - apply (IH w1 w2 es2); rewrite ?E0; auto.
    - apply (IH w1 w2 es2); auto; [eapply tx_good; eauto|eapply gone_tx; eauto].
    - apply (IH w1 w2 es2); auto; [eapply cuts_good; eauto|eapply gone_cuts; eauto].
  Qed.
  Lemma among_gone {A} (p : prog A) others : forall w n r w' es, tame b k p -> good (w_db w) -> gone b (w_db w) k -> among p w others n = (r, w', es) -> r = void p.
  Proof.
    induction p as [r0|q f IH]; intros w n r w' es T G Go E; cbn [among tame void] in *; [now injection E as <- _ _|].
    destruct T as (T1 & T2 & (rows & Eq & T3) & T4). destruct (crun w (others n)) as [w1 es1] eqn:C. destruct (crun_gone _ _ _ _ G Go C) as [G1 Go1].
    rewrite (T2 _ G1 Go1) in E. destruct (among (f []) w1 others (S n)) as [[r2 w2] es2] eqn:M. injection E as <- <- <-. apply (IH [] w1 (S n) r2 w2 es2); auto.
  Qed.
  Lemma among_torn {A} (p : prog A) others : forall w n r w' es, tame b k p -> phase b k (w_db w) -> among p w others n = (r, w', es) -> r = alone p b \/ tear p r.
  Proof.
    induction p as [r0|q f IH]; intros w n r w' es T Ph E; cbn [among tame alone tear] in *; [injection E as <- _ _; now left|].
    destruct T as (T1 & T2 & (rows & Eq & T3) & T4). destruct (crun w (others n)) as [w1 es1] eqn:C.
    pose proof (crun_phase _ _ _ _ _ _ Ph C) as Ph1. pose proof Ph1 as (G1 & K1 & [A1|Go]).
    - rewrite (T1 _ G1 A1), Eq in E. destruct (among (f rows) w1 others (S n)) as [[r2 w2] es2] eqn:M. injection E as <- <- <-. rewrite Eq.
      destruct (IH rows w1 (S n) r2 w2 es2) as [H|H]; auto. right. eauto.
    - rewrite (T2 _ G1 Go) in E. destruct (among (f []) w1 others (S n)) as [[r2 w2] es2] eqn:M. injection E as <- <- <-.
      right. right. eapply among_gone; eauto.
  Qed.
  (** ... and then it is the one with a deletion at that statement *)
  Lemma void_split {A} (p : prog A) d' : tame b k p -> good d' -> gone b d' k -> split_at p 0 b d' = void p.
  Proof.
    induction p as [r|q f IH]; intros T G Go; [reflexivity|]. cbn [split_at void pred tame] in *. destruct T as (_ & T2 & _ & T4). rewrite (T2 _ G Go). apply IH; auto.
  Qed.
  Lemma tear_split {A} (p : prog A) d' r : tame b k p -> good d' -> gone b d' k -> tear p r -> exists n, r = split_at p n b d'.
  Proof.
    intros T G Go. revert T. induction p as [r0|q f IH]; intros T H; cbn [tear tame] in *; [contradiction|].
    destruct T as (T1 & T2 & (rows & Eq & T3) & T4). destruct H as [(rows' & E & H)| ->].
    - rewrite Eq in E. injection E as <-. destruct (IH rows T3 H) as (n & ->). exists (S n). cbn [split_at pred]. now rewrite Eq.
    - exists O. cbn [split_at pred]. rewrite (T2 _ G Go). symmetry. now apply void_split.
  Qed.
  Lemma alone_split {A} (p : prog A) d' : tame b k p -> exists n, alone p b = split_at p n b d'.
  Proof.
    induction p as [r|q f IH]; intros T; [exists O; reflexivity|]. cbn [tame] in T. destruct T as (_ & _ & (rows & Eq & T3) & _).
    destruct (IH rows T3) as (n & E). exists (S n). cbn [alone split_at pred]. now rewrite Eq.
  Qed.
End torn.

(** ** The order of the parts *)
Section order.
  Variable b : db.
  Lemma tear_fetch pk name multi lazy x y : alone (fetch_dataset_p pk name multi lazy) b = Ok x -> tear b (fetch_dataset_p pk name multi lazy) (Ok y) -> y = shell x.
  Proof.
    unfold fetch_dataset_p. intros E H. rewrite alone_bind, alone_ask in E. apply tear_bind in H as [(rows & Er & H)|(z & Hz & H)].
    2:{ apply tear_ask in Hz as ->. cbn in H. discriminate. }
    rewrite alone_ask in Er. rewrite Er in E. cbn [bind] in E. destruct rows as [|[|id [|ts [|msg [|]]]] rest]; try contradiction.
    cbn [pbind] in E, H. destruct (as_int id) as [i|] eqn:Ei; [|discriminate]. destruct (as_int ts) as [t|] eqn:Et; [|discriminate].
    destruct (as_int msg) as [m|] eqn:Em; [|discriminate]. cbv beta iota in E, H.
    destruct lazy; [contradiction|]. rewrite alone_bind, alone_ask in E. apply tear_bind in H as [(fs & Ef & H)|(z & Hz & H)].
    - cbn [pbind] in H. destruct (mapM read_field fs); contradiction.
    - apply tear_ask in Hz as ->. cbn in H. injection H as ->.
      destruct (sql_select b _ _ _) as [fs|]; [|discriminate]. cbn [bind pbind] in E.
      destruct (mapM read_field fs); [|discriminate]. cbn in E. injection E as <-. reflexivity.
  Qed.
  Lemma mapM_app_Ok {A B} (f : A -> res B) l1 l2 ys : mapM f (l1 ++ l2) = Ok ys -> exists a c, mapM f l1 = Ok a /\ mapM f l2 = Ok c /\ ys = a ++ c.
  Proof.
    revert ys. induction l1 as [|x l1 IH]; intros ys E; cbn [app mapM] in E; [exists [], ys; auto|].
    destruct (f x) as [y|] eqn:Ex; [|discriminate]. cbn [bind] in E. destruct (mapM f (l1 ++ l2)) as [zs|] eqn:Ez; [|discriminate]. cbn [bind] in E. injection E as <-.
    destruct (IH zs eq_refl) as (a & c & E1 & E2 & ->). exists (y :: a), c. cbn [mapM]. rewrite Ex. cbn [bind]. rewrite E1. auto.
  Qed.
  Lemma tear_data pk lazy xs ys : alone (data_p pk lazy) b = Ok xs -> tear b (data_p pk lazy) (Ok ys) -> last_missing xs ys.
  Proof.
    unfold data_p. intros E H. rewrite alone_bind in E. apply tear_bind in H as [(names & En & H)|(z & Hz & H)].
    - rewrite En in E. cbn [bind] in E. rewrite alone_mapM in E. apply tear_mapM in H as (l1 & nm & l2 & y1 & z & El & E1 & T & Ez). rewrite El in E.
      destruct z as [y|]; [|discriminate]. cbn [bind] in Ez. destruct l2 as [|x2 l2].
      + cbn in Ez. injection Ez as ->. apply mapM_app_Ok in E as (a & c & Ea & Ec & ->). rewrite E1 in Ea. injection Ea as <-.
        cbn [mapM] in Ec. destruct (alone (fetch_dataset_p (Some pk) (fst nm) (snd nm) lazy) b) as [x|] eqn:Ex; [|discriminate]. cbn [bind] in Ec. injection Ec as <-.
        right. right. exists y1, x. split; auto. now rewrite (tear_fetch _ _ _ _ _ _ Ex T).
      + cbn [pmapM] in Ez. rewrite void_bind in Ez. discriminate.
    - unfold part_p in Hz. apply tear_bind in Hz as [(rows & _ & [])|(z1 & Hz & ->)]. apply tear_ask in Hz as ->. cbn in H. injection H as ->. right. now left.
  Qed.
  (** the rest of the statements find nothing *)
  Lemma tear_part {B} t names pk (f : row -> res B) z : tear b (part_p t names pk f) z -> z = Ok [].
  Proof. unfold part_p. intros H. apply tear_bind in H as [(rows & _ & [])|(z1 & Hz & ->)]. apply tear_ask in Hz as ->. reflexivity. Qed.

  Ltac next E a Ea := rewrite alone_bind in E; match type of E with bind ?x _ = _ => destruct x as [a|] eqn:Ea; [|discriminate]; cbn [bind] in E end.
  Lemma tear_load k lazy x y : alone (load_p (mkObj (Some k) [] lazy ulog0) lazy) b = Ok x -> tear b (load_p (mkObj (Some k) [] lazy ulog0) lazy) (Ok y) ->
    read_in_order (o_log x) (o_log y) /\ last_missing (u_data (o_log x)) (u_data (o_log y)).
  Proof.
    unfold load_p. cbn [o_pk o_log]. intros E H.
    next E rows Er. apply tear_bind in H as [(a & Ea & H)|(z & Hz & H)]; [|apply tear_ask in Hz as ->; cbn in H; discriminate].
    rewrite Er in Ea. injection Ea as <-. destruct (negb _); [discriminate|].
    next E top Et. apply tear_bind in H as [(a & Ea & H)|(z & Hz & H)].
    2:{ unfold top_p in Hz. apply tear_bind in Hz as [(rs & _ & Hz)|(z1 & Hz & ->)]; [destruct rs; contradiction|]. apply tear_ask in Hz as ->. cbn in H. discriminate. }
    rewrite Et in Ea. injection Ea as <-. destruct top as [[[[[[[v st] la] co] ic] sc] hs] sh].
    next E offs Eoffs. apply tear_bind in H as [(a & Ea & H)|(z & Hz & H)].
    2:{ destruct z as [offs'|]; [|discriminate]. next E data Edata. next E drops Edrops. next E logs Elogs. next E tags Etags. next E fmts Efmts. next E infos Einfos. next E multis Emultis. next E pars Epars. next E defs Edefs. next E chgs Echgs. cbn [alone] in E. injection E as <-. cbn in H. injection H as ->. cbn [o_log]. unfold read_in_order. cbn.
        split; [|right; now left]. repeat (split; [first [left; first [reflexivity|split; reflexivity]|right; repeat constructor]|]). exact I. }
    rewrite Eoffs in Ea. injection Ea as <-.
    next E data Edata. apply tear_bind in H as [(a & Ea & H)|(z & Hz & H)].
    2:{ destruct z as [data'|]; [|discriminate]. next E drops Edrops. next E logs Elogs. next E tags Etags. next E fmts Efmts. next E infos Einfos. next E multis Emultis. next E pars Epars. next E defs Edefs. next E chgs Echgs. cbn [alone] in E. injection E as <-. cbn in H. injection H as ->. cbn [o_log]. unfold read_in_order. cbn.
        split; [|eapply tear_data; eauto]. repeat (split; [first [left; first [reflexivity|split; reflexivity]|right; repeat constructor]|]). exact I. }
    rewrite Edata in Ea. injection Ea as <-.
    next E drops Edrops. apply tear_bind in H as [(a & Ea & H)|(z & Hz & H)].
    2:{ destruct z as [drops'|]; [|discriminate]. next E logs Elogs. next E tags Etags. next E fmts Efmts. next E infos Einfos. next E multis Emultis. next E pars Epars. next E defs Edefs. next E chgs Echgs. cbn [alone] in E. injection E as <-. cbn in H. injection H as ->. cbn [o_log]. unfold read_in_order. cbn.
        split; [|now left]. repeat (split; [first [left; first [reflexivity|split; reflexivity]|right; repeat constructor]|]). exact I. }
    rewrite Edrops in Ea. injection Ea as <-.
    next E logs Elogs. apply tear_bind in H as [(a & Ea & H)|(z & Hz & H)].
    2:{ destruct z as [logs'|]; [|discriminate]. next E tags Etags. next E fmts Efmts. next E infos Einfos. next E multis Emultis. next E pars Epars. next E defs Edefs. next E chgs Echgs. cbn [alone] in E. injection E as <-. cbn in H. injection H as ->. cbn [o_log]. unfold read_in_order. cbn.
        split; [|now left]. repeat (split; [first [left; first [reflexivity|split; reflexivity]|right; repeat constructor]|]). exact I. }
    rewrite Elogs in Ea. injection Ea as <-.
    next E tags Etags. apply tear_bind in H as [(a & Ea & H)|(z & Hz & H)].
    2:{ destruct z as [tags'|]; [|discriminate]. next E fmts Efmts. next E infos Einfos. next E multis Emultis. next E pars Epars. next E defs Edefs. next E chgs Echgs. cbn [alone] in E. injection E as <-. cbn in H. injection H as ->. cbn [o_log]. unfold read_in_order. cbn.
        split; [|now left]. repeat (split; [first [left; first [reflexivity|split; reflexivity]|right; repeat constructor]|]). exact I. }
    rewrite Etags in Ea. injection Ea as <-.
    next E fmts Efmts. apply tear_bind in H as [(a & Ea & H)|(z & Hz & H)].
    2:{ destruct z as [fmts'|]; [|discriminate]. next E infos Einfos. next E multis Emultis. next E pars Epars. next E defs Edefs. next E chgs Echgs. cbn [alone] in E. injection E as <-. cbn in H. injection H as ->. cbn [o_log]. unfold read_in_order. cbn.
        split; [|now left]. repeat (split; [first [left; first [reflexivity|split; reflexivity]|right; repeat constructor]|]). exact I. }
    rewrite Efmts in Ea. injection Ea as <-.
    next E infos Einfos. apply tear_bind in H as [(a & Ea & H)|(z & Hz & H)].
    2:{ destruct z as [infos'|]; [|discriminate]. next E multis Emultis. next E pars Epars. next E defs Edefs. next E chgs Echgs. cbn [alone] in E. injection E as <-. cbn in H. injection H as ->. cbn [o_log]. unfold read_in_order. cbn.
        split; [|now left]. repeat (split; [first [left; first [reflexivity|split; reflexivity]|right; repeat constructor]|]). exact I. }
    rewrite Einfos in Ea. injection Ea as <-.
    next E multis Emultis. apply tear_bind in H as [(a & Ea & H)|(z & Hz & H)].
    2:{ destruct z as [multis'|]; [|discriminate]. next E pars Epars. next E defs Edefs. next E chgs Echgs. cbn [alone] in E. injection E as <-. cbn in H. injection H as ->. cbn [o_log]. unfold read_in_order. cbn.
        split; [|now left]. repeat (split; [first [left; first [reflexivity|split; reflexivity]|right; repeat constructor]|]). exact I. }
    rewrite Emultis in Ea. injection Ea as <-.
    next E pars Epars. apply tear_bind in H as [(a & Ea & H)|(z & Hz & H)].
    2:{ destruct z as [pars'|]; [|discriminate]. next E defs Edefs. next E chgs Echgs. cbn [alone] in E. injection E as <-. cbn in H. injection H as ->. cbn [o_log]. unfold read_in_order. cbn.
        split; [|now left]. repeat (split; [first [left; first [reflexivity|split; reflexivity]|right; repeat constructor]|]). exact I. }
    rewrite Epars in Ea. injection Ea as <-.
    next E defs Edefs. apply tear_bind in H as [(a & Ea & H)|(z & Hz & H)].
    2:{ destruct z as [defs'|]; [|discriminate]. next E chgs Echgs. cbn [alone] in E. injection E as <-. cbn in H. injection H as ->. cbn [o_log]. unfold read_in_order. cbn.
        split; [|now left]. repeat (split; [first [left; first [reflexivity|split; reflexivity]|right; repeat constructor]|]). exact I. }
    rewrite Edefs in Ea. injection Ea as <-.
    next E chgs Echgs. apply tear_bind in H as [(a & Ea & H)|(z & Hz & H)].
    2:{ destruct z as [chgs'|]; [|discriminate].  cbn [alone] in E. injection E as <-. cbn in H. injection H as ->. cbn [o_log]. unfold read_in_order. cbn.
        split; [|now left]. repeat (split; [first [left; first [reflexivity|split; reflexivity]|right; repeat constructor]|]). exact I. }
    rewrite Echgs in Ea. injection Ea as <-.
    contradiction.
  Qed.
End order.
