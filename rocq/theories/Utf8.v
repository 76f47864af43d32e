(** UTF-8 as used by [str(cstr, 'utf-8', errors)] and [bytes(s, 'utf-8')]
    (pyulog/core.py 14-22, 82-93, 350, 360).

    [utf8_decode true] is errors='ignore', [utf8_decode false] is errors='strict'.
    CPython drops the maximal ill-formed prefix in 'ignore' mode; dropping one byte
    at a time (as here) gives the same string because every byte of such a
    prefix after the first is a continuation byte, which is itself dropped (proved: [C75_text]). *)
From Verif Require Import Base.
Ltac Zify.zify_post_hook ::= Z.div_mod_to_equations.

(** Unicode scalar values: code points that are not surrogates. (what str.encode accepts, core.py 350, 360) *)
Definition scalar_ok (c : Z) : bool :=
  (0 <=? c) && (c <=? 1114111) && negb ((55296 <=? c) && (c <=? 57343)).

(** UTF-8 encoding of one code point (core.py 350, 360) *)
Definition utf8_enc1 (c : Z) : bytes :=
  if c <? 128 then [c]
  else if c <? 2048 then [192 + c / 64; 128 + c mod 64]
  else if c <? 65536 then [224 + c / 4096; 128 + (c / 64) mod 64; 128 + c mod 64]
  else [240 + c / 262144; 128 + (c / 4096) mod 64; 128 + (c / 64) mod 64; 128 + c mod 64].

(** [s.encode('utf-8')] (core.py 350, 360) *)
Fixpoint utf8_encode (s : str) : res bytes :=
  match s with
  | [] => Ok []
  | c :: r => if scalar_ok c then let* b := utf8_encode r in Ok (utf8_enc1 c ++ b)
              else Err UnicodeEncodeError
  end.

(** Continuation byte of a multi-byte sequence (core.py 82-93) *)
Definition is_cont (b : Z) : bool := (128 <=? b) && (b <? 192).

(** [b.decode('utf-8')], strict (core.py 82-93) *)
Fixpoint utf8_decode (ign : bool) (l : bytes) : res str :=
  match l with
  | [] => Ok []
  | b0 :: r =>
    let bad := if ign then utf8_decode ign r else Err UnicodeDecodeError in
    if (0 <=? b0) && (b0 <? 128) then let* s := utf8_decode ign r in Ok (b0 :: s)
    else if (194 <=? b0) && (b0 <? 224) then
      match r with
      | b1 :: r1 =>
        if is_cont b1 then
          let* s := utf8_decode ign r1 in Ok ((b0 - 192) * 64 + (b1 - 128) :: s)
        else bad
      | [] => bad
      end
    else if (224 <=? b0) && (b0 <? 240) then
      match r with
      | b1 :: b2 :: r2 =>
        let c := (b0 - 224) * 4096 + (b1 - 128) * 64 + (b2 - 128) in
        if is_cont b1 && is_cont b2 && (2048 <=? c) && scalar_ok c then
          let* s := utf8_decode ign r2 in Ok (c :: s)
        else bad
      | _ => bad
      end
    else if (240 <=? b0) && (b0 <? 245) then
      match r with
      | b1 :: b2 :: b3 :: r3 =>
        let c := (b0 - 240) * 262144 + (b1 - 128) * 4096 + (b2 - 128) * 64 + (b3 - 128) in
        if is_cont b1 && is_cont b2 && is_cont b3 && (65536 <=? c) && scalar_ok c then
          let* s := utf8_decode ign r3 in Ok (c :: s)
        else bad
      | _ => bad
      end
    else bad
  end.

(** Strings that str.encode accepts (core.py 350, 360) *)
Definition str_ok (s : str) : Prop := Forall (fun c => scalar_ok c = true) s.

Lemma scalar_ok_iff c :
  scalar_ok c = true <-> 0 <= c <= 1114111 /\ ~ (55296 <= c <= 57343).
Proof. unfold scalar_ok. lia. Qed.

Lemma utf8_decode_enc1 ign c r :
  scalar_ok c = true ->
  utf8_decode ign (utf8_enc1 c ++ r) = (let* s := utf8_decode ign r in Ok (c :: s)).
Proof.
  intros Hc. pose proof Hc as Hc'. apply scalar_ok_iff in Hc'.
  unfold utf8_enc1.
  destruct (Z.ltb_spec c 128); [|destruct (Z.ltb_spec c 2048); [|destruct (Z.ltb_spec c 65536)]];
    cbn [app utf8_decode].
  - replace ((0 <=? c) && (c <? 128)) with true by lia. reflexivity.
  - replace ((0 <=? 192 + c / 64) && (192 + c / 64 <? 128)) with false by lia.
    replace ((194 <=? 192 + c / 64) && (192 + c / 64 <? 224)) with true by lia.
    replace (is_cont (128 + c mod 64)) with true by (unfold is_cont; lia).
    replace ((192 + c / 64 - 192) * 64 + (128 + c mod 64 - 128)) with c by lia. reflexivity.
  - set (b0 := 224 + c / 4096).
    replace ((0 <=? b0) && (b0 <? 128)) with false by (unfold b0; lia).
    replace ((194 <=? b0) && (b0 <? 224)) with false by (unfold b0; lia).
    replace ((224 <=? b0) && (b0 <? 240)) with true by (unfold b0; lia).
    replace (is_cont (128 + (c / 64) mod 64)) with true by (unfold is_cont; lia).
    replace (is_cont (128 + c mod 64)) with true by (unfold is_cont; lia).
    replace ((b0 - 224) * 4096 + (128 + (c / 64) mod 64 - 128) * 64 + (128 + c mod 64 - 128))
      with c by (unfold b0; lia).
    rewrite Hc. replace (2048 <=? c) with true by lia. reflexivity.
  - set (b0 := 240 + c / 262144).
    replace ((0 <=? b0) && (b0 <? 128)) with false by (unfold b0; lia).
    replace ((194 <=? b0) && (b0 <? 224)) with false by (unfold b0; lia).
    replace ((224 <=? b0) && (b0 <? 240)) with false by (unfold b0; lia).
    replace ((240 <=? b0) && (b0 <? 245)) with true by (unfold b0; lia).
    replace (is_cont (128 + (c / 4096) mod 64)) with true by (unfold is_cont; lia).
    replace (is_cont (128 + (c / 64) mod 64)) with true by (unfold is_cont; lia).
    replace (is_cont (128 + c mod 64)) with true by (unfold is_cont; lia).
    replace ((b0 - 240) * 262144 + (128 + (c / 4096) mod 64 - 128) * 4096
             + (128 + (c / 64) mod 64 - 128) * 64 + (128 + c mod 64 - 128))
      with c by (unfold b0; lia).
    rewrite Hc. replace (65536 <=? c) with true by lia. reflexivity.
Qed.

Lemma utf8_encode_Ok s : str_ok s -> exists b, utf8_encode s = Ok b.
Proof.
  induction 1 as [|c s Hc Hs [b IH]]; simpl; [eauto|]. rewrite Hc, IH. simpl. eauto.
Qed.

Lemma utf8_encode_str_ok s b : utf8_encode s = Ok b -> str_ok s.
Proof.
  revert b; induction s as [|c s IH]; simpl; intros b H; [constructor|].
  destruct (scalar_ok c) eqn:E; [|discriminate].
  apply bind_Ok in H as (b' & Hb & _). constructor; eauto.
  eapply IH; eauto.
Qed.

Lemma utf8_decode_encode_app ign s b r :
  utf8_encode s = Ok b ->
  utf8_decode ign (b ++ r) = (let* t := utf8_decode ign r in Ok (s ++ t)).
Proof.
  revert b; induction s as [|c s IH]; simpl; intros b H.
  - injection H as <-. simpl. destruct (utf8_decode ign r); reflexivity.
  - destruct (scalar_ok c) eqn:Hc; [|discriminate].
    apply bind_Ok in H as (b' & Hb & H). injection H as <-.
    rewrite <- app_assoc, utf8_decode_enc1 by exact Hc.
    rewrite (IH _ Hb). destruct (utf8_decode ign r); reflexivity.
Qed.

Lemma utf8_decode_encode ign s b : utf8_encode s = Ok b -> utf8_decode ign b = Ok s.
Proof.
  intros H. rewrite <- (app_nil_r b), (utf8_decode_encode_app _ _ _ _ H). simpl.
  now rewrite app_nil_r.
Qed.

Lemma utf8_enc1_bytes_ok c : scalar_ok c = true -> bytes_ok (utf8_enc1 c).
Proof.
  intros H. apply scalar_ok_iff in H. unfold utf8_enc1, bytes_ok, byte_ok.
  destruct (Z.ltb_spec c 128); [|destruct (Z.ltb_spec c 2048); [|destruct (Z.ltb_spec c 65536)]];
    repeat constructor; lia.
Qed.

Lemma utf8_encode_bytes_ok s b : utf8_encode s = Ok b -> bytes_ok b.
Proof.
  revert b; induction s as [|c s IH]; simpl; intros b H.
  - injection H as <-. constructor.
  - destruct (scalar_ok c) eqn:Hc; [|discriminate].
    apply bind_Ok in H as (b' & Hb & H). injection H as <-.
    apply Forall_app; split; [apply utf8_enc1_bytes_ok, Hc | apply IH, Hb].
Qed.

Lemma utf8_encode_app s t b c :
  utf8_encode s = Ok b -> utf8_encode t = Ok c -> utf8_encode (s ++ t) = Ok (b ++ c).
Proof.
  revert b; induction s as [|x s IH]; simpl; intros b Hb Hc.
  - injection Hb as <-. exact Hc.
  - destruct (scalar_ok x); [|discriminate].
    apply bind_Ok in Hb as (b' & Hb & H). injection H as <-.
    rewrite (IH _ Hb Hc). simpl. now rewrite app_assoc.
Qed.

(** Induction along the sequences the decoder recognises. *)
Ltac dec_cases :=
  repeat match goal with
  | H : context [if ?b then _ else _] |- _ => destruct b eqn:?
  | |- context [if ?b then _ else _] => destruct b eqn:?
  end.

Lemma utf8_decode_ignore_total_aux n l :
  (length l <= n)%nat -> exists s, utf8_decode true l = Ok s.
Proof.
  revert l; induction n as [|n IH]; intros l Hl.
  - destruct l; [simpl; eauto | simpl in Hl; lia].
  - destruct l as [|b0 r]; [simpl; eauto|]. simpl in Hl.
    destruct (IH r) as [s0 H0]; [lia|].
    cbn [utf8_decode]. cbn zeta. rewrite H0.
    destruct r as [|b1 r1]; [dec_cases; simpl in H0; simpl; eauto|].
    destruct (IH r1) as [s1 H1]; [simpl in Hl; lia|]. rewrite ?H1.
    destruct r1 as [|b2 r2]; [dec_cases; simpl; eauto|].
    destruct (IH r2) as [s2 H2]; [simpl in Hl; lia|]. rewrite ?H2.
    destruct r2 as [|b3 r3]; [dec_cases; simpl; eauto|].
    destruct (IH r3) as [s3 H3]; [simpl in Hl; lia|]. rewrite ?H3.
    dec_cases; simpl; eauto.
Qed.

Lemma utf8_decode_ignore_total l : exists s, utf8_decode true l = Ok s.
Proof. eapply utf8_decode_ignore_total_aux. apply le_n. Qed.

(** One strict decoding step, inverted. *)
Lemma utf8_decode_strict_inv b0 r s :
  utf8_decode false (b0 :: r) = Ok s -> byte_ok b0 ->
  exists c l' s', scalar_ok c = true /\ b0 :: r = utf8_enc1 c ++ l' /\
    utf8_decode false l' = Ok s' /\ s = c :: s'.
Proof.
  intros H Hb. cbn [utf8_decode] in H. cbn zeta in H. unfold byte_ok in Hb.
  destruct ((0 <=? b0) && (b0 <? 128)) eqn:E1.
  { apply bind_Ok in H as (s' & Hs & H). injection H as <-.
    exists b0, r, s'. repeat split; auto; [unfold scalar_ok; lia|].
    unfold utf8_enc1. replace (b0 <? 128) with true by lia. reflexivity. }
  destruct ((194 <=? b0) && (b0 <? 224)) eqn:E2.
  { destruct r as [|b1 r1]; [discriminate|]. unfold is_cont in H.
    destruct ((128 <=? b1) && (b1 <? 192)) eqn:Ec; [|discriminate].
    apply bind_Ok in H as (s' & Hs & H). injection H as <-.
    eexists _, r1, s'. split; [|split; [|split; [eassumption|reflexivity]]].
    - unfold scalar_ok. lia.
    - set (c := (b0 - 192) * 64 + (b1 - 128)).
      unfold utf8_enc1. replace (c <? 128) with false by (unfold c; lia).
      replace (c <? 2048) with true by (unfold c; lia). cbn [app].
      replace (192 + c / 64) with b0 by (unfold c; lia).
      replace (128 + c mod 64) with b1 by (unfold c; lia). reflexivity. }
  destruct ((224 <=? b0) && (b0 <? 240)) eqn:E3.
  { destruct r as [|b1 [|b2 r2]]; try discriminate. unfold is_cont in H.
    set (c := (b0 - 224) * 4096 + (b1 - 128) * 64 + (b2 - 128)) in *.
    match type of H with (if ?b then _ else _) = _ => destruct b eqn:Ec; [|discriminate] end.
    apply bind_Ok in H as (s' & Hs & H). injection H as <-.
    exists c, r2, s'. split; [|split; [|split; [eassumption|reflexivity]]].
    - apply andb_true_iff in Ec; tauto.
    - apply andb_true_iff in Ec as [Ec _].
      unfold utf8_enc1. replace (c <? 128) with false by lia.
      replace (c <? 2048) with false by lia. replace (c <? 65536) with true by (unfold c in *; lia).
      cbn [app].
      replace (224 + c / 4096) with b0 by (unfold c in *; lia).
      replace (128 + (c / 64) mod 64) with b1 by (unfold c in *; lia).
      replace (128 + c mod 64) with b2 by (unfold c in *; lia). reflexivity. }
  destruct ((240 <=? b0) && (b0 <? 245)) eqn:E4; [|discriminate].
  destruct r as [|b1 [|b2 [|b3 r3]]]; try discriminate. unfold is_cont in H.
  set (c := (b0 - 240) * 262144 + (b1 - 128) * 4096 + (b2 - 128) * 64 + (b3 - 128)) in *.
  match type of H with (if ?b then _ else _) = _ => destruct b eqn:Ec; [|discriminate] end.
  apply bind_Ok in H as (s' & Hs & H). injection H as <-.
  exists c, r3, s'. split; [|split; [|split; [eassumption|reflexivity]]].
  - apply andb_true_iff in Ec; tauto.
  - apply andb_true_iff in Ec as [Ec _]. unfold utf8_enc1. replace (c <? 128) with false by lia.
    replace (c <? 2048) with false by lia. replace (c <? 65536) with false by lia.
    cbn [app].
    assert (Hb1 : 128 <= b1 < 192) by lia. assert (Hb2 : 128 <= b2 < 192) by lia.
    assert (Hb3 : 128 <= b3 < 192) by lia. clear Ec E1 E2 E3.
    replace (240 + c / 262144) with b0 by (unfold c; lia).
    replace (128 + (c / 4096) mod 64) with b1 by (unfold c; lia).
    replace (128 + (c / 64) mod 64) with b2 by (unfold c; lia).
    replace (128 + c mod 64) with b3 by (unfold c; lia). reflexivity.
Qed.

(** Strict decoding succeeds only on encodings. *)
Lemma utf8_decode_strict_encode l s :
  bytes_ok l -> utf8_decode false l = Ok s -> utf8_encode s = Ok l.
Proof.
  assert (Haux : forall n l s, (length l <= n)%nat -> bytes_ok l ->
    utf8_decode false l = Ok s -> utf8_encode s = Ok l).
  { induction n as [|n IH]; intros l0 s0 Hl Hok H.
    - destruct l0; [|simpl in Hl; lia]. injection H as <-. reflexivity.
    - destruct l0 as [|b0 r]; [injection H as <-; reflexivity|].
      inversion Hok as [|? ? Hb0 Hr]; subst.
      destruct (utf8_decode_strict_inv _ _ _ H Hb0) as (c & l' & s' & Hc & El & Hs & ->).
      cbn [utf8_encode]. rewrite Hc.
      assert (Hl' : (length l' <= n)%nat).
      { apply (f_equal (@length Z)) in El. rewrite app_length in El.
        assert (1 <= length (utf8_enc1 c))%nat.
        { unfold utf8_enc1. destruct (c <? 128), (c <? 2048), (c <? 65536); simpl; lia. }
        simpl in *. lia. }
      assert (Hok' : bytes_ok l').
      { unfold bytes_ok in Hok. rewrite El in Hok. apply Forall_app in Hok. tauto. }
      rewrite (IH _ _ Hl' Hok' Hs). simpl. now rewrite El. }
  intros Hok H. eapply Haux; eauto.
Qed.

Lemma utf8_decode_strict_ignore l s : bytes_ok l ->
  utf8_decode false l = Ok s -> utf8_decode true l = Ok s.
Proof.
  intros Hok H. apply utf8_decode_encode. now apply utf8_decode_strict_encode.
Qed.

(** Every decoded string is encodable, and re-encoding does not grow it. *)
Lemma utf8_decode_str_ok ign l s : bytes_ok l -> utf8_decode ign l = Ok s ->
  exists b, utf8_encode s = Ok b /\ (length b <= length l)%nat.
Proof.
  assert (Haux : forall n l s, (length l <= n)%nat -> bytes_ok l ->
    utf8_decode ign l = Ok s -> exists b, utf8_encode s = Ok b /\ (length b <= length l)%nat).
  { induction n as [|n IH]; intros l0 s0 Hl Hok H.
    - destruct l0; [|simpl in Hl; lia]. injection H as <-. exists []. simpl. auto.
    - destruct l0 as [|b0 r]; [injection H as <-; exists []; simpl; auto|].
      inversion Hok as [|? ? Hb0 Hr]; subst. simpl in Hl.
      assert (Hbad : (if ign then utf8_decode ign r else Err UnicodeDecodeError) = Ok s0 ->
                     exists b, utf8_encode s0 = Ok b /\ (length b <= length (b0 :: r))%nat).
      { destruct ign; [|discriminate]. intros Hs. destruct (IH r s0) as (b & Hb & Hlen); auto; [lia|].
        exists b. simpl. split; auto. }
      assert (Hgood : forall c l', scalar_ok c = true -> (length (utf8_enc1 c) + length l' <= length (b0 :: r))%nat ->
                bytes_ok l' -> (length l' <= n)%nat ->
                (let* s := utf8_decode ign l' in Ok (c :: s)) = Ok s0 ->
                exists b, utf8_encode s0 = Ok b /\ (length b <= length (b0 :: r))%nat).
      { intros c l' Hc Hlen Hok' Hl' Hs. apply bind_Ok in Hs as (s' & Hs & E). injection E as <-.
        destruct (IH l' s' Hl' Hok' Hs) as (b & Hb & Hb'). exists (utf8_enc1 c ++ b).
        cbn [utf8_encode]. rewrite Hc, Hb. simpl. split; [reflexivity|]. rewrite app_length. simpl in *; lia. }
      cbn [utf8_decode] in H. cbn zeta in H. unfold byte_ok in Hb0.
      destruct ((0 <=? b0) && (b0 <? 128)) eqn:E1.
      { apply (Hgood b0 r); auto; [unfold scalar_ok; lia | | lia].
        unfold utf8_enc1. replace (b0 <? 128) with true by lia. simpl; lia. }
      destruct ((194 <=? b0) && (b0 <? 224)) eqn:E2.
      { destruct r as [|b1 r1]; [auto|]. unfold is_cont in H.
        destruct ((128 <=? b1) && (b1 <? 192)) eqn:Ec; [|auto].
        eapply Hgood; [| | | |exact H].
        - unfold scalar_ok. lia.
        - unfold utf8_enc1. set (c := (b0 - 192) * 64 + (b1 - 128)).
          replace (c <? 128) with false by (unfold c; lia).
          replace (c <? 2048) with true by (unfold c; lia). simpl; lia.
        - inversion Hr; auto.
        - simpl in Hl; lia. }
      destruct ((224 <=? b0) && (b0 <? 240)) eqn:E3.
      { destruct r as [|b1 [|b2 r2]]; auto. unfold is_cont in H.
        set (c := (b0 - 224) * 4096 + (b1 - 128) * 64 + (b2 - 128)) in *.
        match type of H with (if ?b then _ else _) = _ => destruct b eqn:Ec; [|auto] end.
        eapply Hgood; [| | | |exact H].
        - apply andb_true_iff in Ec; tauto.
        - apply andb_true_iff in Ec as [Ec _]. unfold utf8_enc1. replace (c <? 65536) with true by (unfold c in *; lia).
          destruct (c <? 128), (c <? 2048); simpl; lia.
        - inversion Hr as [|? ? ? Hr1]; inversion Hr1; auto.
        - simpl in Hl; lia. }
      destruct ((240 <=? b0) && (b0 <? 245)) eqn:E4; [|auto].
      destruct r as [|b1 [|b2 [|b3 r3]]]; auto. unfold is_cont in H.
      set (c := (b0 - 240) * 262144 + (b1 - 128) * 4096 + (b2 - 128) * 64 + (b3 - 128)) in *.
      match type of H with (if ?b then _ else _) = _ => destruct b eqn:Ec; [|auto] end.
      eapply Hgood; [| | | |exact H].
      + apply andb_true_iff in Ec; tauto.
      + unfold utf8_enc1. destruct (c <? 128), (c <? 2048), (c <? 65536); simpl; lia.
      + inversion Hr as [|? ? ? Hr1]; inversion Hr1 as [|? ? ? Hr2]; inversion Hr2; auto.
      + simpl in Hl; lia. }
  intros Hok H. eapply Haux; eauto.
Qed.

(** ASCII strings encode to themselves. *)
Lemma utf8_encode_ascii s : Forall (fun c => 0 <= c < 128) s -> utf8_encode s = Ok s.
Proof.
  induction 1 as [|c s Hc Hs IH]; [reflexivity|]. cbn [utf8_encode].
  replace (scalar_ok c) with true by (unfold scalar_ok; lia). rewrite IH. simpl.
  unfold utf8_enc1. replace (c <? 128) with true by lia. reflexivity.
Qed.

Lemma length_utf8_encode s b : utf8_encode s = Ok b -> (length s <= length b)%nat.
Proof.
  revert b; induction s as [|c s IH]; simpl; intros b H; [lia|].
  destruct (scalar_ok c); [|discriminate]. apply bind_Ok in H as (b' & Hb & H).
  injection H as <-. rewrite app_length. specialize (IH _ Hb).
  assert (1 <= length (utf8_enc1 c))%nat.
  { unfold utf8_enc1. destruct (c <? 128), (c <? 2048), (c <? 65536); simpl; lia. }
  lia.
Qed.
