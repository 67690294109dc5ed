From Verif Require Import Base FaultModel FaultSpec.

(** well-formed histories: the clock has ticked before the first use, thresholds are 32-bit *)
Fixpoint after_first_tick (h : list fop) : Prop :=
  match h with
  | [] => True
  | Signal :: t => 1 <= cycles t /\ after_first_tick t
  | _ :: t => after_first_tick t
  end.

Lemma cycles_nonneg h : 0 <= cycles h.
Proof. induction h as [|o h IH]; cbn [cycles]; [lia|]. destruct o; lia. Qed.
Lemma cycles_cons o h : cycles h <= cycles (o :: h).
Proof. cbn [cycles]. destruct o; lia. Qed.

Lemma signalled_cycles_bound h : after_first_tick h ->
  0 <= signalled_cycles h <= (if signalled_this_cycle h then cycles h else Z.max 0 (cycles h - 1)) /\
  (signalled_this_cycle h = true -> 1 <= cycles h).
Proof.
  induction h as [|o h IH]; intros HT; [cbn; split; [lia|discriminate]|]. pose proof (cycles_nonneg h).
  assert (HTt : after_first_tick h) by (destruct o; cbn [after_first_tick] in HT; tauto). destruct (IH HTt) as [B1 B2].
  assert (C : signalled_this_cycle (o :: h) = true -> 1 <= cycles (o :: h)).
  { destruct o; cbn [after_first_tick signalled_this_cycle cycles] in *; try tauto; discriminate. }
  split; [|exact C]. unfold signalled_cycles; fold signalled_cycles.
  destruct (clears (o :: h)).
  - pose proof (cycles_nonneg (o :: h)). destruct (signalled_this_cycle (o :: h)); lia.
  - clear C. destruct o; cbn [after_first_tick cycles signalled_this_cycle] in *; destruct (signalled_this_cycle h); lia.
Qed.

Lemma fault_read_eq fl num last po ps ov su un pe :
  fst (fault_read (mk_flt fl num last po ps ov su un pe)) =
  let n := if (ov && negb po) || (su && negb ps) || un then 0 else num in mk_flt (pe <? n) n last ov su ov su false pe.
Proof. destruct po, ps, ov, su, un; reflexivity. Qed.

Definition abs (p : Z) (h : list fop) (cf : Z * fault) : Prop :=
  let f := snd cf in
  fst cf = cycles h /\ ft_num f = signalled_cycles h /\
  (if signalled_this_cycle h then ft_last f = cycles h else 0 <= ft_last f <= cycles h /\ (1 <= cycles h -> ft_last f < cycles h)) /\
  ft_prev_o f = at_previous_read overridden h /\ ft_prev_s f = at_previous_read suppressed h /\
  ft_override f = overridden h /\ ft_suppress f = suppressed h /\ ft_unsignal f = unsignal_pending h /\
  ft_persistence f = threshold p h.

Lemma fault_abs p h : 0 <= p < 2 ^ 32 -> after_first_tick h -> cycles h < 2 ^ 32 -> abs p h (fault_after p h).
Proof.
  intros HP. induction h as [|o h IH]; intros HT HC.
  - cbn. unfold abs; cbn. rewrite u32_id by lia. repeat split; lia.
  - assert (HTt : after_first_tick h) by (destruct o; cbn [after_first_tick] in HT; tauto).
    pose proof (cycles_cons o h) as CC. specialize (IH HTt ltac:(lia)).
    cbn [fault_after]. destruct (fault_after p h) as [cc f]. destruct f as [fl num last po ps ov su un pe].
    unfold abs in IH; cbn [fst snd ft_num ft_last ft_prev_o ft_prev_s ft_override ft_suppress ft_unsignal ft_persistence] in IH.
    destruct IH as (E1 & E2 & E3 & E4 & E5 & E6 & E7 & E8 & E9).
    pose proof (cycles_nonneg h) as CN. pose proof (signalled_cycles_bound h HTt) as [SB SB2].
    destruct o; unfold abs; cbn [fault_op fst snd].
    + (* Tick *) cbn [cycles] in *. rewrite u32_id by lia.
      unfold signalled_cycles; fold signalled_cycles; cbn [clears signalled_this_cycle at_previous_read overridden suppressed unsignal_pending threshold ft_num ft_last ft_prev_o ft_prev_s ft_override ft_suppress ft_unsignal ft_persistence].
      destruct (signalled_this_cycle h); repeat split; try assumption; lia.
    + (* Signal *) cbn [after_first_tick] in HT. destruct HT as [HT _].
      unfold fault_signal, with_flag, with_num; cbn [ft_flag ft_num ft_last ft_prev_o ft_prev_s ft_override ft_suppress ft_unsignal ft_persistence].
      unfold signalled_cycles; fold signalled_cycles; cbn [clears signalled_this_cycle at_previous_read overridden suppressed unsignal_pending threshold cycles].
      destruct (signalled_this_cycle h).
      * replace ((last <? cc) || (cc =? 0)) with false by lia. cbn [ft_flag ft_num ft_last ft_prev_o ft_prev_s ft_override ft_suppress ft_unsignal ft_persistence]. repeat split; try assumption; lia.
      * replace ((last <? cc) || (cc =? 0)) with true by lia. cbn [ft_flag ft_num ft_last ft_prev_o ft_prev_s ft_override ft_suppress ft_unsignal ft_persistence].
        rewrite u32_id by lia. repeat split; try assumption; lia.
    + (* Unsignal *) unfold fault_unsignal, with_num; cbn. repeat split; try assumption; destruct (signalled_this_cycle h); lia.
    + (* Read *)
      rewrite fault_read_eq.
      unfold signalled_cycles; fold signalled_cycles; cbn [clears signalled_this_cycle at_previous_read overridden suppressed unsignal_pending threshold cycles ft_num ft_last ft_prev_o ft_prev_s ft_override ft_suppress ft_unsignal ft_persistence].
      rewrite <- E2, <- E4, <- E5, <- E6, <- E7, <- E8. repeat split; assumption || reflexivity.
    + unfold with_flag; cbn. repeat split; assumption.
    + cbn. repeat split; assumption.
    + cbn. repeat split; assumption.
    + cbn. repeat split; assumption.
    + cbn. repeat split; assumption.
Qed.

Lemma fault_read_abs p h : 0 <= p < 2 ^ 32 -> after_first_tick h -> cycles h < 2 ^ 32 ->
  snd (fault_read (snd (fault_after p h))) = faulted_after_read p h.
Proof.
  intros HP HT HC. pose proof (fault_abs p (Read :: h) HP HT HC) as A. pose proof (fault_abs p h HP HT HC) as B.
  cbn [fault_after] in A. destruct (fault_after p h) as [cc f]. cbn [fault_op snd] in A.
  unfold abs in A; cbn [fst snd] in A. destruct A as (_ & A2 & _ & _ & _ & A6 & A7 & _ & A9).
  unfold faulted_after_read. cbn [overridden suppressed threshold] in A6, A7, A9. cbn [snd].
  rewrite <- A2, <- A6, <- A7, <- A9. unfold fault_read. cbn [fst snd]. unfold with_flag. cbn. reflexivity.
Qed.

(** after the counter has wrapped past a signalled cycle, signals are no longer counted *)
Lemma fault_stuck cc f : ft_last f > cc -> cc <> 0 ->
  ft_num (fault_signal cc f) = ft_num f /\ ft_last (fault_signal cc f) = ft_last f.
Proof.
  intros H1 H2. unfold fault_signal. replace ((ft_last f <? cc) || (cc =? 0)) with false by lia. split; reflexivity.
Qed.

(** the value of the fault field itself, as telemetered, right after a signal or a reading *)
Lemma fault_flag_abs p o h : o = Signal \/ o = Read -> 0 <= p < 2 ^ 32 -> after_first_tick (o :: h) -> cycles h < 2 ^ 32 ->
  ft_flag (snd (fault_after p (o :: h))) = (threshold p h <? signalled_cycles (o :: h)).
Proof.
  intros HO HP HT HC. assert (HC' : cycles (o :: h) < 2 ^ 32) by (destruct HO as [-> | ->]; exact HC).
  pose proof (fault_abs p (o :: h) HP HT HC') as A. unfold abs in A. destruct A as (_ & A2 & _ & _ & _ & _ & _ & _ & A9).
  rewrite <- A2. replace (threshold p h) with (ft_persistence (snd (fault_after p (o :: h)))) by (rewrite A9; destruct HO as [-> | ->]; reflexivity).
  cbn [fault_after]. destruct (fault_after p h) as [cc f]. destruct HO as [-> | ->]; cbn [fault_op snd fst].
  - unfold fault_signal. destruct ((ft_last f <? cc) || (cc =? 0)); reflexivity.
  - unfold fault_read. cbn [fst]. reflexivity.
Qed.
