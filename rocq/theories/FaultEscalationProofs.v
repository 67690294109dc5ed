From Verif Require Import Base FaultModel FaultHandlerModel FaultHandlerSpec FaultHandlerProofs.

Lemma u32_sub a b : u32 (u32 a - u32 b) = u32 (a - b).
Proof. unfold u32, uwrap. rewrite <- Zminus_mod. reflexivity. Qed.

Definition stage_start (n : Z) : Z :=
  if n <? one_day then 0
  else if n <? 2 * one_day then one_day
  else if n <? 2 * one_day + third then 2 * one_day
  else if n <? 2 * one_day + 2 * third then 2 * one_day + third
  else if n <? 2 * one_day + 3 * third then 2 * one_day + 2 * third
  else 2 * one_day + 3 * third.

Lemma one_day_val : one_day = 508235. Proof. reflexivity. Qed.
Lemma third_val : third = 169411. Proof. reflexivity. Qed.

(** one cycle of the handler in step with the closed form *)
Lemma quake_step L n h1 h2 r2 :
  0 <= n -> n + 1 < 2 ^ 32 ->
  q_enabled (hq h1) = true -> q_state (hq h1) = stage n ->
  (one_day <= n -> q_entry (hq h1) = u32 (L + stage_start n)) ->
  hc h1 = u32 (L + (n + 1)) -> b_last_comms (hb h1) = u32 L ->
  (q_state (hq h1) = q_unfaulted \/ q_state (hq h1) = q_forced_standby \/ q_state (hq h1) = q_safehold -> ~ radio_off h1) ->
  quake_execute h1 = (h2, r2) ->
  q_enabled (hq h2) = true /\ q_state (hq h2) = stage (n + 1) /\
  (one_day <= n + 1 -> q_entry (hq h2) = u32 (L + stage_start (n + 1))) /\ r2 = stage_response (n + 1) /\
  (power_cycle_at (n + 1) = true -> b_radio_pc (hb h2) = true /\ b_radio (hb h2) = r_disabled) /\
  (power_cycle_at (n + 1) = false -> b_radio_pc (hb h2) = b_radio_pc (hb h1)) /\
  (power_cycle_at n = true -> b_radio (hb h2) = r_config).
Proof.
  intros Hn HB EN ES EE EC EL HR EX.
  assert (SIL : u32 (hc h1 - b_last_comms (hb h1)) = n + 1).
  { rewrite EC, EL, u32_sub. replace (L + (n + 1) - L) with (n + 1) by lia. apply u32_id. lia. }
  assert (INS : one_day <= n -> u32 (hc h1 - q_entry (hq h1)) = n + 1 - stage_start n).
  { intros HD. rewrite EC, EE by assumption. rewrite u32_sub. replace (L + (n + 1) - (L + stage_start n)) with (n + 1 - stage_start n) by lia.
    apply u32_id. unfold stage_start. rewrite one_day_val, third_val in *.
    repeat match goal with |- context [?a <? ?b] => destruct (Z.ltb_spec a b) end; lia. }
  unfold quake_execute in EX. rewrite EN in EX. cbn [negb] in EX.
  unfold stage, stage_response, stage_start, power_cycle_at in *.
  change (one_day / 3) with third in *.
  rewrite ES in EX.
  unfold radio_off in HR. rewrite ES in HR.
  rewrite one_day_val, third_val in *.
  destruct (Z.ltb_spec n 508235) as [C1|C1].
  { (* unfaulted *)
    cbn in EX. unfold q_disp_unfaulted, radio_is_disabled, recent_comms in EX. rewrite SIL in EX.
    destruct (Z.eqb_spec (b_radio (hb h1)) r_disabled) as [R|R]; [exfalso; apply HR; auto|]. cbn [orb] in EX.
    rewrite one_day_val in EX.
    destruct (Z.ltb_spec (n + 1) 508235); injection EX as <- <-.
    - cbn. rewrite !ES. repeat match goal with |- context [?a =? ?b] => destruct (Z.eqb_spec a b); try lia end.
      repeat match goal with |- context [?a <? ?b] => destruct (Z.ltb_spec a b); try lia end.
      cbn. repeat split; auto; try lia; try discriminate.
    - cbn. rewrite EC. assert (n + 1 = 508235) by lia.
      repeat match goal with |- context [?a =? ?b] => destruct (Z.eqb_spec a b); try lia end.
      repeat match goal with |- context [?a <? ?b] => destruct (Z.ltb_spec a b); try lia end.
      repeat match goal with |- context [?a <=? ?b] => destruct (Z.leb_spec a b); try lia end.
      cbn. repeat split; auto; try discriminate. intros _. f_equal. lia. }
  specialize (INS ltac:(lia)). specialize (EE ltac:(lia)).
  destruct (Z.ltb_spec n (2 * 508235)) as [C2|C2].
  { (* forced standby *)
    cbn in EX. unfold q_disp_forced, in_state_for, radio_is_disabled, recent_comms in EX. rewrite INS, SIL, one_day_val in EX.
    destruct (Z.eqb_spec (b_radio (hb h1)) r_disabled) as [R|R]; [exfalso; apply HR; auto|]. cbn [orb] in EX.
    destruct (Z.ltb_spec (n + 1) 508235); [lia|].
    destruct (Z.leb_spec 508235 (n + 1 - 508235)); injection EX as <- <-.
    - assert (n + 1 = 2 * 508235) by lia. cbn. rewrite EC.
      repeat match goal with |- context [?a =? ?b] => destruct (Z.eqb_spec a b); try lia end.
      repeat match goal with |- context [?a <? ?b] => destruct (Z.ltb_spec a b); try lia end.
      repeat match goal with |- context [?a <=? ?b] => destruct (Z.leb_spec a b); try lia end.
      cbn. repeat split; auto; try discriminate. intros _. f_equal. lia.
    - cbn. rewrite ES.
      repeat match goal with |- context [?a =? ?b] => destruct (Z.eqb_spec a b); try lia end.
      repeat match goal with |- context [?a <? ?b] => destruct (Z.ltb_spec a b); try lia end.
      repeat match goal with |- context [?a <=? ?b] => destruct (Z.leb_spec a b); try lia end.
      cbn. repeat split; auto; try discriminate. }
  assert (P : forall next start,
    (next = q_powercycle_2 \/ next = q_powercycle_3 \/ next = q_safehold) ->
    start <= n < start + 169411 -> q_entry (hq h1) = u32 (L + start) -> u32 (hc h1 - q_entry (hq h1)) = n + 1 - start ->
    q_disp_powercycle next h1 = (h2, r2) ->
    r2 = RStandby /\ q_enabled (hq h2) = true /\
    (n + 1 = start + 169411 -> q_state (hq h2) = next /\ q_entry (hq h2) = hc h1 /\
       (next <> q_safehold -> b_radio_pc (hb h2) = true /\ b_radio (hb h2) = r_disabled) /\
       (next = q_safehold -> b_radio_pc (hb h2) = b_radio_pc (hb h1))) /\
    (n + 1 < start + 169411 -> hq h2 = hq h1 /\ b_radio_pc (hb h2) = b_radio_pc (hb h1) /\
       (n = start -> b_radio (hb h2) = r_config))).
  { intros next start HN HS HE HI HX. unfold q_disp_powercycle in HX.
    set (h1' := if hc h1 <=? u32 (q_entry (hq h1) + 1) then _ else h1) in HX.
    assert (K : hc h1' = hc h1 /\ hq h1' = hq h1 /\ b_last_comms (hb h1') = b_last_comms (hb h1) /\ b_radio_pc (hb h1') = b_radio_pc (hb h1)).
    { unfold h1'. destruct (_ <=? _); cbn; auto. }
    destruct K as (K1 & K2 & K3 & K4). unfold in_state_for, recent_comms in HX. rewrite K1, K2, K3, HI, SIL, one_day_val in HX.
    change (508235 / 3) with 169411 in HX.
    destruct (Z.ltb_spec (n + 1) 508235); [lia|].
    destruct (Z.leb_spec 169411 (n + 1 - start)); injection HX as <- <-.
    - split; [reflexivity|]. split; [destruct (negb _); cbn; rewrite K2; exact EN|]. split; [|intros; lia]. intros _.
      destruct (Z.eqb_spec next q_safehold) as [Q|Q]; cbn; rewrite K1.
      + split; [reflexivity|]. split; [reflexivity|]. split; [contradiction|]. intros _. exact K4.
      + split; [reflexivity|]. split; [reflexivity|]. split; [auto|contradiction].
    - split; [reflexivity|]. rewrite K2. split; [exact EN|]. split; [intros; lia|]. intros _. split; [reflexivity|]. split; [exact K4|].
      intros ->. unfold h1'.
      assert (G : (hc h1 <=? u32 (q_entry (hq h1) + 1)) = true).
      { apply Z.leb_le. rewrite EC, HE. unfold u32, uwrap. rewrite Zplus_mod_idemp_l.
        replace (L + (start + 1)) with (L + start + 1) by lia. lia. }
      rewrite G. reflexivity. }
  destruct (Z.ltb_spec n (2 * 508235 + 169411)) as [C3|C3].
  { cbn in EX. destruct (P q_powercycle_2 (2 * 508235) ltac:(auto) ltac:(lia) EE INS EX) as (P1 & P2 & P3 & P4).
    destruct (Z.eq_dec (n + 1) (2 * 508235 + 169411)) as [E|E].
    - destruct (P3 E) as (Q1 & Q2 & Q3 & Q4). rewrite Q1, Q2, EC, P1, P2. destruct (Q3 ltac:(discriminate)) as (Q5 & Q6).
      repeat match goal with |- context [?a =? ?b] => destruct (Z.eqb_spec a b); try lia end.
      repeat match goal with |- context [?a <? ?b] => destruct (Z.ltb_spec a b); try lia end.
      repeat match goal with |- context [?a <=? ?b] => destruct (Z.leb_spec a b); try lia end.
      cbn. repeat split; auto; try discriminate. intros _. f_equal. lia.
    - destruct (P4 ltac:(lia)) as (Q1 & Q2 & Q3). rewrite Q1, Q2, ES, P1, EN, EE.
      repeat match goal with |- context [?a =? ?b] => destruct (Z.eqb_spec a b); try lia end.
      all: repeat match goal with |- context [?a <? ?b] => destruct (Z.ltb_spec a b); try lia end.
      all: repeat match goal with |- context [?a <=? ?b] => destruct (Z.leb_spec a b); try lia end.
      all: cbn; repeat split; auto; try discriminate. }
  destruct (Z.ltb_spec n (2 * 508235 + 2 * 169411)) as [C4|C4].
  { cbn in EX. destruct (P q_powercycle_3 (2 * 508235 + 169411) ltac:(auto) ltac:(lia) EE INS EX) as (P1 & P2 & P3 & P4).
    destruct (Z.eq_dec (n + 1) (2 * 508235 + 2 * 169411)) as [E|E].
    - destruct (P3 ltac:(lia)) as (Q1 & Q2 & Q3 & Q4). rewrite Q1, Q2, EC, P1, P2. destruct (Q3 ltac:(discriminate)) as (Q5 & Q6).
      repeat match goal with |- context [?a =? ?b] => destruct (Z.eqb_spec a b); try lia end.
      repeat match goal with |- context [?a <? ?b] => destruct (Z.ltb_spec a b); try lia end.
      repeat match goal with |- context [?a <=? ?b] => destruct (Z.leb_spec a b); try lia end.
      cbn. repeat split; auto; try discriminate. intros _. f_equal. lia.
    - destruct (P4 ltac:(lia)) as (Q1 & Q2 & Q3). rewrite Q1, Q2, ES, P1, EN, EE.
      repeat match goal with |- context [?a =? ?b] => destruct (Z.eqb_spec a b); try lia end.
      all: repeat match goal with |- context [?a <? ?b] => destruct (Z.ltb_spec a b); try lia end.
      all: repeat match goal with |- context [?a <=? ?b] => destruct (Z.leb_spec a b); try lia end.
      all: cbn; repeat split; auto; try discriminate. }
  destruct (Z.ltb_spec n (2 * 508235 + 3 * 169411)) as [C5|C5].
  { cbn in EX. destruct (P q_safehold (2 * 508235 + 2 * 169411) ltac:(auto) ltac:(lia) EE INS EX) as (P1 & P2 & P3 & P4).
    destruct (Z.eq_dec (n + 1) (2 * 508235 + 3 * 169411)) as [E|E].
    - destruct (P3 ltac:(lia)) as (Q1 & Q2 & Q3 & Q4). rewrite Q1, Q2, EC, P1, P2. specialize (Q4 eq_refl).
      repeat match goal with |- context [?a =? ?b] => destruct (Z.eqb_spec a b); try lia end.
      repeat match goal with |- context [?a <? ?b] => destruct (Z.ltb_spec a b); try lia end.
      repeat match goal with |- context [?a <=? ?b] => destruct (Z.leb_spec a b); try lia end.
      cbn. repeat split; auto; try discriminate. intros _. f_equal. lia.
    - destruct (P4 ltac:(lia)) as (Q1 & Q2 & Q3). rewrite Q1, Q2, ES, P1, EN, EE.
      repeat match goal with |- context [?a =? ?b] => destruct (Z.eqb_spec a b); try lia end.
      all: repeat match goal with |- context [?a <? ?b] => destruct (Z.ltb_spec a b); try lia end.
      all: repeat match goal with |- context [?a <=? ?b] => destruct (Z.leb_spec a b); try lia end.
      all: cbn; repeat split; auto; try discriminate; intros; apply Q3; lia. }
  (* safehold *)
  cbn in EX. unfold q_disp_safehold, radio_is_disabled, recent_comms in EX. rewrite SIL, one_day_val in EX.
  destruct (Z.eqb_spec (b_radio (hb h1)) r_disabled) as [R|R]; [exfalso; apply HR; auto|]. cbn [orb] in EX.
  destruct (Z.ltb_spec (n + 1) 508235); [lia|]. injection EX as <- <-. rewrite ES, EN, EE.
  repeat match goal with |- context [?a =? ?b] => destruct (Z.eqb_spec a b); try lia end.
  repeat match goal with |- context [?a <? ?b] => destruct (Z.ltb_spec a b); try lia end.
  repeat match goal with |- context [?a <=? ?b] => destruct (Z.leb_spec a b); try lia end.
  cbn. repeat split; auto; try discriminate.
Qed.

Lemma silence_nonneg L n h r : silence L n h r -> 0 <= n.
Proof. induction 1; lia. Qed.

Lemma silence_inv L n h r : silence L n h r -> n < 2 ^ 32 ->
  q_enabled (hq h) = true /\ q_state (hq h) = stage n /\ r = stage_response n /\
  (one_day <= n -> q_entry (hq h) = u32 (L + stage_start n)).
Proof.
  induction 1 as [h A B C D | n h r h1 h2 r2 HS IH Q C LC HR HX]; intros HB.
  - repeat split; auto. rewrite one_day_val. lia.
  - pose proof (silence_nonneg _ _ _ _ HS). destruct (IH ltac:(lia)) as (I1 & I2 & I3 & I4).
    rewrite <- Q in I1, I2, I4.
    destruct (quake_step L n h1 h2 r2) as (A1 & A2 & A3 & A4 & _); auto.
Qed.

(** a success in two consecutive cycles brings the handler back, from any state it or the ground may have left it in *)
Lemma quake_recent h h' r : quake_execute h = (h', r) -> q_enabled (hq h) = true -> recent_comms h = true ->
  (q_state (hq h') = q_unfaulted /\ r = RNone) \/
  (r = RStandby /\ q_entry (hq h') = hc h /\
   ((q_state (hq h) = q_forced_standby /\ one_day <= in_stage_for h /\ q_state (hq h') = q_powercycle_1) \/
    (q_powercycle_1 <= q_state (hq h) <= q_powercycle_3 /\ third <= in_stage_for h /\ q_state (hq h') = q_state (hq h) + 1))).
Proof.
  intros EX EN RC. unfold quake_execute in EX. rewrite EN in EX. cbn [negb] in EX.
  unfold in_stage_for. change ((hc h - q_entry (hq h)) mod 2 ^ 32) with (u32 (hc h - q_entry (hq h))).
  assert (P : forall next, q_disp_powercycle next h = (h', r) ->
     (q_state (hq h') = q_unfaulted /\ r = RNone) \/ (r = RStandby /\ q_entry (hq h') = hc h /\ third <= u32 (hc h - q_entry (hq h)) /\ q_state (hq h') = next)).
  { intros next HX. unfold q_disp_powercycle in HX. set (h1 := if hc h <=? _ then _ else h) in HX.
    assert (K : hc h1 = hc h /\ hq h1 = hq h /\ recent_comms h1 = true).
    { unfold h1. destruct (_ <=? _); cbn; auto. }
    destruct K as (K1 & K2 & K3). unfold in_state_for in HX. rewrite K1, K2, K3 in HX. change (one_day / 3) with third in HX.
    destruct (Z.leb_spec third (u32 (hc h - q_entry (hq h)))); injection HX as <- <-; [|left; cbn; auto].
    right. destruct (negb _); cbn; auto. }
  destruct (Z.eqb_spec (q_state (hq h)) q_unfaulted) as [E|N0].
  { unfold q_disp_unfaulted in EX. rewrite RC, orb_true_r in EX. injection EX as <- <-. auto. }
  destruct (Z.eqb_spec (q_state (hq h)) q_forced_standby) as [E|N1].
  { unfold q_disp_forced, in_state_for in EX. rewrite RC, orb_true_r in EX.
    destruct (Z.leb_spec one_day (u32 (hc h - q_entry (hq h)))); injection EX as <- <-; cbn; auto 10. }
  destruct (Z.eqb_spec (q_state (hq h)) q_powercycle_1) as [E|N2].
  { destruct (P _ EX) as [X|(X & Y & Z1 & Z2)]; [auto|right]. rewrite E. cbn in Z2. split; [exact X|]. split; [exact Y|].
    right. rewrite Z2. unfold q_powercycle_1, q_powercycle_2, q_powercycle_3. lia. }
  destruct (Z.eqb_spec (q_state (hq h)) q_powercycle_2) as [E|N3].
  { destruct (P _ EX) as [X|(X & Y & Z1 & Z2)]; [auto|right]. rewrite E. cbn in Z2. split; [exact X|]. split; [exact Y|].
    right. rewrite Z2. unfold q_powercycle_1, q_powercycle_2, q_powercycle_3. lia. }
  destruct (Z.eqb_spec (q_state (hq h)) q_powercycle_3) as [E|N4].
  { destruct (P _ EX) as [X|(X & Y & Z1 & Z2)]; [auto|right]. rewrite E. cbn in Z2. split; [exact X|]. split; [exact Y|].
    right. rewrite Z2. unfold q_powercycle_1, q_safehold, q_powercycle_3. lia. }
  destruct (Z.eqb_spec (q_state (hq h)) q_safehold) as [E|N5].
  { unfold q_disp_safehold in EX. rewrite RC, orb_true_r in EX. injection EX as <- <-. cbn. auto. }
  injection EX as <- <-. cbn. auto.
Qed.

Lemma quake_recovers h1 h1' r1 h2 h2' r2 :
  q_enabled (hq h1) = true -> recent_comms h1 = true -> quake_execute h1 = (h1', r1) ->
  hq h2 = hq h1' -> hc h2 = u32 (hc h1 + 1) -> recent_comms h2 = true -> quake_execute h2 = (h2', r2) ->
  q_state (hq h2') = q_unfaulted /\ r2 = RNone.
Proof.
  intros EN R1 X1 Q C R2 X2.
  assert (EN2 : q_enabled (hq h2) = true).
  { rewrite Q. pose proof (quake_same h1) as (_ & _ & _ & _ & _ & _ & A). rewrite X1 in A. cbn in A. congruence. }
  destruct (quake_recent _ _ _ X1 EN R1) as [(A & B)|(A & B & D)].
  - destruct (quake_recent _ _ _ X2 EN2 R2) as [E|(E1 & E2 & [(E3 & _)|(E3 & _)])]; [exact E| |];
      rewrite Q, A in E3; unfold q_unfaulted, q_forced_standby, q_powercycle_1 in E3; lia.
  - destruct (quake_recent _ _ _ X2 EN2 R2) as [E|(E1 & E2 & F)]; [exact E|exfalso].
    assert (G : in_stage_for h2 = 1).
    { unfold in_stage_for. rewrite Q, B, C. unfold u32, uwrap.
      rewrite Zminus_mod_idemp_l. replace (hc h1 + 1 - hc h1) with 1 by lia. reflexivity. }
    rewrite G, one_day_val, third_val in F. destruct F as [(F & F' & _)|(F & F' & _)]; lia.
Qed.
