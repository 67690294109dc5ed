(** The parser of the GPS link delivers exactly the messages contained in the stream. *)
From Verif Require Import Base SbpModel SbpSpec SbpCrcProofs SbpParseProofs.

Ltac bytes := repeat (apply Forall_cons || apply Forall_nil); try assumption; try (unfold is_byte; lia).

(** *** one call of the parser for one part of a message *)

Lemma feed_process s inp s' es : wf s -> Forall is_byte inp -> inp <> [] -> sbp_process s inp = Some (s', [], es) ->
  feed s inp = (s', es).
Proof.
  intros W H N E. pose proof (drain_feed s inp W H) as D. destruct inp as [|b inp]; [congruence|].
  replace (2 * length (b :: inp))%nat with (S (S (2 * length inp))) in D by (cbn [length]; lia).
  assert (E2 : drain (S (S (2 * length inp))) s (b :: inp) [] = Done s' es).
  { cbn [drain]. rewrite E. cbn [drain app]. reflexivity. }
  rewrite E2 in D. destruct (feed s (b :: inp)) as [x y]. cbn [fst snd] in D. congruence.
Qed.

Lemma feed_mark s : wf s -> p_st s = Waiting -> feed s [0x55] = (set_st (set_nread s 0) GetType, []).
Proof.
  intros W E. apply feed_process; [assumption|bytes|discriminate|].
  unfold sbp_process. rewrite E. reflexivity.
Qed.
Lemma feed_skip s b : wf s -> p_st s = Waiting -> is_byte b -> b <> 0x55 -> feed s [b] = (s, []).
Proof.
  intros W E B N. apply feed_process; [assumption|bytes|discriminate|].
  unfold sbp_process. rewrite E. unfold uart_read. change (Z.to_nat 1) with 1%nat. cbn [firstn skipn].
  destruct (Z.eqb_spec b 85); [congruence|reflexivity].
Qed.

Lemma len2 (a b : Z) : len [a; b] = 2. Proof. reflexivity. Qed.

Lemma feed_type s t0 t1 : wf s -> p_st s = GetType -> p_nread s = 0 -> is_byte t0 -> is_byte t1 ->
  feed s [t0; t1] = (set_st (set_nread (set_ty s [t0; t1]) 0) GetSender, []).
Proof.
  intros W E N B0 B1. apply feed_process; [assumption|bytes|discriminate|].
  unfold sbp_process. rewrite E, N. destruct W as (H1 & _). destruct (two_list _ H1) as (x & y & Et). rewrite Et. reflexivity.
Qed.
Lemma feed_sender s t0 t1 : wf s -> p_st s = GetSender -> p_nread s = 0 -> is_byte t0 -> is_byte t1 ->
  feed s [t0; t1] = (set_st (set_nread (set_se s [t0; t1]) 2) GetLen, []).
Proof.
  intros W E N B0 B1. apply feed_process; [assumption|bytes|discriminate|].
  unfold sbp_process. rewrite E, N. destruct W as (_ & H1 & _). destruct (two_list _ H1) as (x & y & Et). rewrite Et. reflexivity.
Qed.
Lemma feed_len s n : wf s -> p_st s = GetLen -> is_byte n -> feed s [n] = (set_st (set_nread (set_len s n) 0) GetMsg, []).
Proof.
  intros W E B. apply feed_process; [assumption|bytes|discriminate|].
  unfold sbp_process. rewrite E. reflexivity.
Qed.
Lemma feed_payload s l : wf s -> p_st s = GetMsg -> p_nread s = 0 -> p_len s = len l -> l <> [] -> Forall is_byte l ->
  feed s l = (set_st (set_nread (set_buf s (l ++ skipn (length l) (p_buf s))) 0) GetCrc, []).
Proof.
  intros W E N L Hn B. apply feed_process; try assumption.
  assert (Hl : p_len s < 256) by (destruct W as (_ & _ & _ & _ & W); rewrite E in W; lia).
  assert (H4 : length (p_buf s) = 256%nat) by (destruct W as (_ & _ & _ & W & _); exact W).
  unfold sbp_process. rewrite E, N, L. rewrite Z.sub_0_r. unfold len at 1. rewrite u32_small by (unfold len in *; lia).
  unfold uart_read. rewrite Nat2Z.id, firstn_all, skipn_all.
  unfold put. unfold len in *. destruct (Z.leb_spec (0 + Z.of_nat (length l)) (Z.of_nat (length (p_buf s)))); [|lia].
  change (Z.to_nat 0) with O. cbn [firstn app Nat.add]. sbpsimp. rewrite u8_small by lia. rewrite L.
  destruct (Z.leb_spec (Z.of_nat (length l) - (0 + Z.of_nat (length l))) 0); [|lia]. reflexivity.
Qed.
Definition crc_of (ty se : list Z) (n : Z) (payload : list Z) : Z :=
  crc16_ccitt payload (crc16_ccitt [n] (crc16_ccitt se (crc16_ccitt ty 0))).
Lemma feed_crc s c0 c1 : wf s -> p_st s = GetCrc -> p_nread s = 0 -> is_byte c0 -> is_byte c1 ->
  feed s [c0; c1] = (set_st (set_nread (set_crc s [c0; c1]) 2) Waiting,
    [if c0 + 256 * c1 =? crc_of (p_ty s) (p_se s) (p_len s) (firstn (Z.to_nat (p_len s)) (p_buf s))
     then Message (p_ty s) (p_se s) (p_len s) (p_buf s) else Corrupt]).
Proof.
  intros W E N B0 B1. apply feed_process; [assumption|bytes|discriminate|].
  unfold sbp_process. rewrite E, N. destruct W as (_ & _ & H1 & _). destruct (two_list _ H1) as (x & y & Et). rewrite Et. reflexivity.
Qed.
Lemma feed_crc1 s c0 : wf s -> p_st s = GetCrc -> p_nread s = 0 -> is_byte c0 -> snd (feed s [c0]) = [].
Proof.
  intros W E N B0. rewrite (feed_process s [c0] (set_nread (set_crc s [c0; nth 1 (p_crc s) 0]) 1) []); [reflexivity|assumption|bytes|discriminate|].
  unfold sbp_process. rewrite E, N. destruct W as (_ & _ & H1 & _). destruct (two_list _ H1) as (x & y & Et). rewrite Et. reflexivity.
Qed.

Lemma feed_norm s l : wf s -> l <> [] -> feed s l = feed (norm s) l.
Proof.
  intros W N. destruct l as [|b l]; [congruence|]. cbn [feed].
  assert (E : bstep (norm s) b = bstep s b).
  { unfold bstep. destruct (norm_wf s W) as [_ M]. replace (norm (norm s)) with (norm s); [reflexivity|].
    unfold norm at 2. rewrite M. reflexivity. }
  rewrite E. reflexivity.
Qed.

(** *** up to the checksum *)
Definition at_crc (s : sbp) (ty se payload : list Z) : Prop :=
  wf s /\ p_st s = GetCrc /\ p_nread s = 0 /\ p_ty s = ty /\ p_se s = se /\ p_len s = len payload /\
  firstn (length payload) (p_buf s) = payload.

Lemma feed_head s ty se payload : wf s -> p_st s = Waiting -> two ty -> two se ->
  Forall is_byte (0x55 :: body ty se payload) ->
  exists s1, feed s (0x55 :: body ty se payload) = (s1, []) /\ wf s1 /\ at_crc (norm s1) ty se payload.
Proof.
  intros W E T S B. destruct (two_list _ T) as (t0 & t1 & ->). destruct (two_list _ S) as (s0 & s1 & ->).
  unfold body in *. cbn [app] in *. repeat match goal with H : Forall _ (_ :: _) |- _ => inversion H; clear H; subst end.
  change (85 :: t0 :: t1 :: s0 :: s1 :: Z.of_nat (length payload) :: payload)
    with ([85] ++ [t0; t1] ++ [s0; s1] ++ [len payload] ++ payload).
  rewrite !feed_app. 
  pose proof (feed_wf [85] s W ltac:(bytes)) as W1.
  rewrite feed_mark in * by assumption. cbn [fst snd] in *.
  set (a1 := set_st (set_nread s 0) GetType) in *.
  pose proof (feed_wf [t0; t1] a1 W1 ltac:(bytes)) as W2.
  rewrite (feed_type a1) in * by (assumption || reflexivity). cbn [fst snd] in *.
  set (a2 := set_st (set_nread (set_ty a1 [t0; t1]) 0) GetSender) in *.
  pose proof (feed_wf [s0; s1] a2 W2 ltac:(bytes)) as W3.
  rewrite (feed_sender a2) in * by (assumption || reflexivity). cbn [fst snd] in *.
  set (a3 := set_st (set_nread (set_se a2 [s0; s1]) 2) GetLen) in *.
  pose proof (feed_wf [len payload] a3 W3 ltac:(bytes)) as W4.
  rewrite (feed_len a3) in * by (assumption || reflexivity). cbn [fst snd] in *.
  set (a4 := set_st (set_nread (set_len a3 (len payload)) 0) GetMsg) in *.
  destruct payload as [|b payload].
  - cbn [feed fst snd app]. exists a4. split; [reflexivity|]. split; [assumption|].
    assert (M : msg0 a4 = true) by reflexivity. unfold norm. rewrite M.
    split; [|repeat split]. destruct (norm_wf a4 W4) as [W5 _]. unfold norm in W5. rewrite M in W5. exact W5.
  - assert (HL : len (b :: payload) < 256) by (unfold len; unfold is_byte in *; lia).
    pose proof (feed_wf (b :: payload) a4 W4 ltac:(assumption || (constructor; assumption))) as W5.
    rewrite (feed_payload a4) in * by (assumption || reflexivity || discriminate || (constructor; assumption)). cbn [fst snd app] in *.
    eexists. split; [reflexivity|]. split; [exact W5|].
    match goal with |- at_crc (norm ?x) _ _ _ => replace (norm x) with x by reflexivity end.
    split; [exact W5|]. repeat split. unfold set_buf, set_nread, set_st. cbn [p_buf].
    rewrite app_comm_cons, firstn_app, firstn_all. replace (length (b :: payload) - length (b :: payload))%nat with O by lia.
    cbn [firstn]. rewrite app_nil_r. reflexivity.
Qed.

Lemma at_crc_remainder s ty se payload : at_crc s ty se payload -> Forall is_byte (body ty se payload) ->
  crc_of (p_ty s) (p_se s) (p_len s) (firstn (Z.to_nat (p_len s)) (p_buf s)) = remainder (body ty se payload).
Proof.
  intros (W & E & N & -> & -> & -> & P) B. unfold len at 2. rewrite Nat2Z.id, P. rewrite <- crc_remainder by assumption.
  unfold body, crc_of. rewrite !crc_app. reflexivity.
Qed.

Lemma feed_message s ty se payload c0 c1 : wf s -> p_st s = Waiting -> two ty -> two se ->
  Forall is_byte (0x55 :: body ty se payload) -> is_byte c0 -> is_byte c1 ->
  exists s' e, feed s (0x55 :: body ty se payload ++ [c0; c1]) = (s', [e]) /\ wf s' /\ p_st s' = Waiting /\
    view e = (if c0 + 256 * c1 =? remainder (body ty se payload) then Good ty se payload else Bad) /\
    (forall t u n buf, e = Message t u n buf -> t = ty /\ n = len payload /\ length buf = 256%nat).
Proof.
  intros W E T S B C0 C1. destruct (feed_head s ty se payload W E T S B) as (s1 & F & W1 & A).
  rewrite app_comm_cons. rewrite feed_app, F. cbn [fst snd app]. rewrite (feed_norm s1) by (assumption || discriminate).
  inversion B as [|? ? _ B']; subst. pose proof (at_crc_remainder _ _ _ _ A B') as R.
  destruct A as (Wn & En & Nn & Et & Es & El & P).
  pose proof (feed_wf [c0; c1] (norm s1) Wn ltac:(bytes)) as Wf.
  rewrite feed_crc in * by assumption. cbn [fst snd] in *. rewrite R.
  eexists _, _. split; [reflexivity|]. split; [exact Wf|]. split; [reflexivity|].
  destruct (c0 + 256 * c1 =? remainder (body ty se payload)).
  - cbn [view]. rewrite Et, Es, El. unfold len. rewrite Nat2Z.id, P. split; [reflexivity|]. intros t u n buf X. injection X as <- <- <- <-.
    repeat split. destruct Wn as (_ & _ & _ & Wn & _). exact Wn.
  - split; [reflexivity|]. discriminate.
Qed.

Lemma feed_message_no_event s ty se payload c0 : wf s -> p_st s = Waiting -> two ty -> two se ->
  Forall is_byte (0x55 :: body ty se payload) -> is_byte c0 -> snd (feed s (0x55 :: body ty se payload ++ [c0])) = [].
Proof.
  intros W E T S B C0. destruct (feed_head s ty se payload W E T S B) as (s1 & F & W1 & A).
  rewrite app_comm_cons, feed_app, F. cbn [fst snd app]. rewrite (feed_norm s1) by (assumption || discriminate).
  destruct A as (Wn & En & Nn & _). apply feed_crc1; assumption.
Qed.

Lemma body_short ty se payload : Forall is_byte (body ty se payload) -> two ty -> two se -> (length payload < 256)%nat.
Proof.
  intros B T S. unfold body in B. apply Forall_app in B as [_ B]. apply Forall_app in B as [_ B]. inversion B; subst. unfold is_byte in *. lia.
Qed.

Lemma remainder_bytes l : is_byte (remainder l mod 256) /\ is_byte (remainder l / 256) /\
  remainder l mod 256 + 256 * (remainder l / 256) = remainder l.
Proof. pose proof (fold_range (bits l) 0 ltac:(lia)) as H. unfold remainder, is_byte in *. lia. Qed.

(** every message the stream contains is delivered, in order, and nothing else *)
Theorem feed_messages l is : messages l is -> forall s, wf s -> p_st s = Waiting -> Forall is_byte l ->
  map view (snd (feed s l)) = is.
Proof.
  induction 1 as [|b t is Hb M IH|ty se payload t is T S M IH|ty se payload c0 c1 t is T S C M IH|ty se payload c more t T S N1 N2 BM E LC];
    intros s W St B.
  - reflexivity.
  - inversion B; subst. change (b :: t) with ([b] ++ t). rewrite feed_app. rewrite feed_skip by assumption. cbn [fst snd app]. apply IH; assumption.
  - unfold framed in *. apply Forall_app in B as [B1 B2].
    set (r := remainder (body ty se payload)) in *. rewrite app_comm_cons in B1. apply Forall_app in B1 as [B1 B3].
    inversion B3 as [|? ? C0 B4]; subst. inversion B4 as [|? ? C1 _]; subst.
    destruct (feed_message s ty se payload (r mod 256) (r / 256) W St T S B1 C0 C1) as (s' & e & F & W' & St' & V & _).
    rewrite feed_app. rewrite F. cbn [fst snd app map].
    rewrite IH by assumption. rewrite V. unfold r. destruct (remainder_bytes (body ty se payload)) as (_ & _ & ->). rewrite Z.eqb_refl. reflexivity.
  - rewrite app_comm_cons in B. apply Forall_app in B as [B1 B]. apply Forall_app in B as [B3 B2].
    inversion B3 as [|? ? C0 B4]; subst. inversion B4 as [|? ? C1 _]; subst.
    destruct (feed_message s ty se payload c0 c1 W St T S B1 C0 C1) as (s' & e & F & W' & St' & V & _).
    change (85 :: body ty se payload ++ [c0; c1] ++ t) with ((85 :: body ty se payload) ++ [c0; c1] ++ t).
    rewrite app_assoc. rewrite feed_app. cbn [app] in *. rewrite F. cbn [fst snd app map].
    rewrite IH by assumption. rewrite V. destruct (Z.eqb_spec (c0 + 256 * c1) (remainder (body ty se payload))); [congruence|reflexivity].
  - (* an unfinished message: its bytes are among those of a complete one *)
    destruct (two_list _ LC) as (x & y & ->). destruct (exists_last N2) as (m' & z & Em). subst more.
    assert (BB : Forall is_byte (0x55 :: body ty se payload ++ [x; y])) by (rewrite <- E; apply Forall_app; split; assumption).
    rewrite app_comm_cons in BB. apply Forall_app in BB as [BB BX]. inversion BX; subst.
    assert (E' : t ++ m' = 0x55 :: body ty se payload ++ [x]).
    { rewrite app_comm_cons in E. change [x; y] with ([x] ++ [y]) in E. rewrite !app_assoc in E.
      apply app_inj_tail in E as [E _]. rewrite E. reflexivity. }
    pose proof (feed_message_no_event s ty se payload x W St T S BB ltac:(assumption)) as F.
    rewrite <- E', feed_app in F. cbn [snd] in F. apply app_eq_nil in F as [F _]. rewrite F. reflexivity.
Qed.

Lemma firstn_plus {A} (a b : nat) : forall l : list A, firstn (a + b) l = firstn a l ++ firstn b (skipn a l).
Proof. induction a as [|a IH]; intros [|x l]; cbn [firstn skipn app Nat.add]; rewrite ?firstn_nil; f_equal; auto. Qed.

(** every stream of bytes consists of messages *)
Theorem messages_total : forall l, Forall is_byte l -> exists is, messages l is.
Proof.
  assert (G : forall n l, (length l <= n)%nat -> Forall is_byte l -> exists is, messages l is).
  2:{ intros l. exact (G (length l) l (le_n _)). }
  induction n as [|n IH]; intros l L B.
  - destruct l; [|cbn in L; lia]. exists []. constructor.
  - destruct l as [|b t]; [exists []; constructor|]. inversion B as [|? ? Hb Bt]; subst. cbn [length] in L.
    destruct (Z.eq_dec b 0x55) as [->|N].
    2:{ destruct (IH t ltac:(lia) Bt) as (is & M). exists is. constructor; assumption. }
    assert (Bu : Forall is_byte (t ++ repeat 0 300)).
    { apply Forall_app. split; [assumption|]. apply Forall_forall. intros x Hx. apply repeat_spec in Hx. subst. unfold is_byte. lia. }
    remember (t ++ repeat 0 300) as u eqn:Eu.
    assert (Lu : length u = (length t + 300)%nat) by (subst u; rewrite app_length, repeat_length; reflexivity).
    destruct u as [|t0 [|t1 [|s0 [|s1 [|m u]]]]]; cbn [length] in Lu; try lia.
    repeat match goal with H : Forall _ (_ :: _) |- _ => inversion H; clear H; subst end.
    set (k := Z.to_nat m). assert (Hk : (k < 256)%nat) by (unfold k, is_byte in *; lia).
    set (pl := firstn k u). set (c := firstn 2 (skipn k u)).
    assert (Lpl : length pl = k) by (unfold pl; rewrite firstn_length; lia).
    assert (Lc : length c = 2%nat) by (unfold c; rewrite firstn_length, skipn_length; lia).
    assert (Em : Z.of_nat (length pl) = m) by (unfold k, is_byte in *; lia).
    assert (Ebody : body [t0; t1] [s0; s1] pl = t0 :: t1 :: s0 :: s1 :: m :: pl) by (unfold body; rewrite Em; reflexivity).
    assert (Ef : firstn (7 + k) (t ++ repeat 0 300) = body [t0; t1] [s0; s1] pl ++ c).
    { rewrite <- Eu, Ebody. change (7 + k)%nat with (5 + (2 + k))%nat. rewrite firstn_plus. cbn [firstn skipn app]. do 5 f_equal. rewrite Nat.add_comm. apply firstn_plus. }
    destruct (Nat.le_gt_cases (7 + k) (length t)) as [Hle|Hgt].
    + rewrite firstn_app in Ef. replace (7 + k - length t)%nat with O in Ef by lia. cbn [firstn] in Ef. rewrite app_nil_r in Ef.
      assert (Et : t = body [t0; t1] [s0; s1] pl ++ c ++ skipn (7 + k) t).
      { rewrite app_assoc, <- Ef. symmetry. apply firstn_skipn. }
      destruct (IH (skipn (7 + k) t)) as (is & M). { rewrite skipn_length. lia. } { rewrite Et in Bt. apply Forall_app in Bt as [_ Bt]. apply Forall_app in Bt as [_ Bt]. exact Bt. }
      destruct (two_list _ Lc) as (c0 & c1 & Ec).
      assert (Bc : is_byte c0 /\ is_byte c1).
      { rewrite Et, Ec in Bt. apply Forall_app in Bt as [_ Bt]. split; [exact (Forall_inv Bt)|exact (Forall_inv (Forall_inv_tail Bt))]. }
      destruct (Z.eq_dec (c0 + 256 * c1) (remainder (body [t0; t1] [s0; s1] pl))) as [E|E].
      * exists (Good [t0; t1] [s0; s1] pl :: is). rewrite Et at 1. rewrite Ec.
        replace (85 :: body [t0; t1] [s0; s1] pl ++ [c0; c1] ++ skipn (7 + k) t)
          with (framed [t0; t1] [s0; s1] pl (remainder (body [t0; t1] [s0; s1] pl)) ++ skipn (7 + k) t).
        { apply Msg_good; try reflexivity. exact M. }
        unfold framed. rewrite <- app_comm_cons, <- app_assoc. do 2 f_equal. rewrite <- E. unfold is_byte in Bc.
        replace ((c0 + 256 * c1) mod 256) with c0 by lia. replace ((c0 + 256 * c1) / 256) with c1 by lia. reflexivity.
      * exists (Bad :: is). rewrite Et at 1. rewrite Ec. apply Msg_bad; try reflexivity; assumption.
    + exists []. rewrite firstn_app in Ef. rewrite firstn_all2 in Ef by lia.
      apply (Msg_part [t0; t1] [s0; s1] pl c (firstn (7 + k - length t) (repeat 0 300))); try reflexivity; try assumption.
      * discriminate.
      * intros X. apply (f_equal (@length Z)) in X. rewrite firstn_length, repeat_length in X. cbn [length] in X. lia.
      * assert (X : Forall is_byte (repeat 0 300)) by (apply Forall_forall; intros x Hx; apply repeat_spec in Hx; rewrite Hx; unfold is_byte; lia).
        rewrite <- (firstn_skipn (7 + k - length t) (repeat 0 300)) in X. apply Forall_app in X as [X _]. exact X.
      * cbn [app]. f_equal. exact Ef.
Qed.
