From Verif Require Import Base FaultModel FaultHandlerModel FaultHandlerSpec FaultHandlerProofs FaultEscalationProofs FaultHandlerMoreProofs
  MissionModel MissionSpec MissionProofs MissionDockProofs MissionWitness.

(** C18.  For any list of constituent handlers: the most severe of their answers, each run after the ones before it. *)
Theorem C18_most_severe_response : forall ms h,
  snd (main_execute ms h) = if h_enabled h then most_severe (responses ms h) else RNone.
Proof. exact main_execute_resp. Qed.
Print Assumptions C18_most_severe_response.

(** C18.  The flight list of handlers, in terms of the fields they read. *)
Theorem C18_flight_safehold : forall h, snd (main_execute main_machines h) = RSafehold <-> h_enabled h = true /\ wants_safehold h.
Proof. exact main_safehold. Qed.
Print Assumptions C18_flight_safehold.

Theorem C18_flight_standby : forall h,
  snd (main_execute main_machines h) = RStandby <-> h_enabled h = true /\ ~ wants_safehold h /\ wants_standby h.
Proof. exact main_standby. Qed.
Print Assumptions C18_flight_standby.

(** low battery while venting: safehold wins *)
Example C18_case :
  snd (main_execute main_machines (mk_h 7 (wit_bus m_standby p_venting 0 0 20) low_batt (mk_q 0 0 true) (mk_k true one_day 100 0) (mk_v 20 0 false) true)) = RSafehold /\
  snd (main_execute main_machines (mk_h 7 (wit_bus m_standby p_venting 0 0 20) no_faults (mk_q 0 0 true) (mk_k true one_day 100 0) (mk_v 20 0 false) true)) = RStandby.
Proof. vm_compute. auto. Qed.

(** C19.  [n] cycles after the last exchange, without another: stage and answer in closed form, over the wrapping
    counter, for every [n] below 2^32. *)
Theorem C19_escalation : forall L n h r, silence L n h r -> n < 2 ^ 32 ->
  q_state (hq h) = stage n /\ r = stage_response n.
Proof. intros L n h r HS HN. destruct (silence_inv L n h r HS HN) as (_ & A & B & _). auto. Qed.
Print Assumptions C19_escalation.

(** C19.  The radio is power cycled exactly when a power-cycle stage begins, and configured again one cycle later. *)
Theorem C19_power_cycles : forall L n h r h1 h2 r2, silence L n h r -> n + 1 < 2 ^ 32 ->
  hq h1 = hq h -> hc h1 = u32 (L + (n + 1)) -> b_last_comms (hb h1) = u32 L ->
  (q_state (hq h1) = q_unfaulted \/ q_state (hq h1) = q_forced_standby \/ q_state (hq h1) = q_safehold -> ~ radio_off h1) ->
  quake_execute h1 = (h2, r2) ->
  (power_cycle_at (n + 1) = true -> b_radio_pc (hb h2) = true /\ radio_off h2) /\
  (power_cycle_at (n + 1) = false -> b_radio_pc (hb h2) = b_radio_pc (hb h1)) /\
  (power_cycle_at n = true -> b_radio (hb h2) = r_config).
Proof.
  intros L n h r h1 h2 r2 HS HN HQ HC HL HR HX.
  pose proof (silence_nonneg _ _ _ _ HS) as H0.
  destruct (silence_inv L n h r HS ltac:(lia)) as (A & B & _ & D). rewrite <- HQ in A, B, D.
  destruct (quake_step L n h1 h2 r2 H0 HN A B D HC HL HR HX) as (_ & _ & _ & _ & P). exact P.
Qed.
Print Assumptions C19_power_cycles.

(** C19.  Contact within the last day, seen in two consecutive cycles, returns the handler to unfaulted from any
    stage, whatever the ground had written there. *)
Theorem C19_contact_recovers : forall h1 h1' r1 h2 h2' r2,
  q_enabled (hq h1) = true -> silent_for h1 < one_day -> quake_execute h1 = (h1', r1) ->
  hq h2 = hq h1' -> hc h2 = u32 (hc h1 + 1) -> silent_for h2 < one_day -> quake_execute h2 = (h2', r2) ->
  q_state (hq h2') = q_unfaulted /\ r2 = RNone.
Proof.
  intros h1 h1' r1 h2 h2' r2 EN R1 X1 Q C R2 X2.
  apply (quake_recovers h1 h1' r1 h2 h2' r2); auto; unfold recent_comms; apply Z.ltb_lt; assumption.
Qed.
Print Assumptions C19_contact_recovers.

(** the schedule starts, and the closed form at its corners *)
Example C19_case :
  (exists h, silence 4294967290 0 h RNone) /\
  map stage_response [508234; 508235; 1524703; 1524704; 4000000000] = [RNone; RStandby; RStandby; RSafehold; RSafehold] /\
  map stage [508234; 508235; 1016470; 1185881; 1355292; 1524703] = [0; 1; 2; 3; 4; 5].
Proof.
  split; [|vm_compute; auto].
  exists (mk_h 4294967290 (wit_bus m_standby p_idle 0 4294967290 20) no_faults (mk_q 0 0 true) (mk_k true one_day 100 0) (mk_v 20 0 false) true).
  apply silence_start; reflexivity.
Qed.

(** C20. *)
Theorem C20_safehold_disarms : forall i w, h_enabled (wh w) = true -> wants_safehold (wh w) ->
  wmission w <> m_startup -> wmission w <> m_manual ->
  exists w', mission_execute i w = Some w' /\
    wmission w' = m_safehold /\ wprop w' = p_disabled /\ mm_adcs (wm w') = a_startup /\
    mm_adcs_dcdc (wm w') = false /\ mm_sph_dcdc (wm w') = false /\ mm_desig (wm w') = d_undecided.
Proof.
  intros i w HE HW N1 N2. destruct (safehold_response_total i w (conj HE HW) N1 N2) as (w' & X). exists w'. split; [exact X|].
  destruct (safehold_disarms i w w' (conj HE HW) N1 N2 X) as (D & _). exact D.
Qed.
Print Assumptions C20_safehold_disarms.

(** low battery while firing in close approach *)
Example C20_case :
  let w := mk_world (mk_h 50 (wit_bus m_follower_close_approach 5 0 0 20) low_batt (mk_q 0 0 true) (mk_k true one_day 100 0) (mk_v 20 0 false) true)
             (mk_m a_point_docking d_follower true true true 0 one_day 106 true false false false 0 0 false) in
  h_enabled (wh w) = true /\ wants_safehold (wh w) /\
  match mission_execute near_inputs w with Some w' => (wmission w', wprop w', mm_adcs_dcdc (wm w'), mm_sph_dcdc (wm w')) = (10, 0, false, false) | None => False end.
Proof.
  cbv zeta. split; [reflexivity|]. split; [|vm_compute; reflexivity]. left. split; [cbn; auto 10|vm_compute; reflexivity].
Qed.

(** C21. *)
Theorem C21_left_only_by_ground : forall l w w', history l w w' -> Forall (fun g => g = false) l ->
  wmission w = m_safehold \/ wmission w = m_manual -> wmission w' = wmission w.
Proof. exact history_stays. Qed.
Print Assumptions C21_left_only_by_ground.

(** histories exist: any number of cycles in safehold *)
Example C21_case : forall n, Z.of_nat n < 2 ^ 32 - 2000000 -> exists w, unheard_cycles n lost_contact w /\ wmission w = m_safehold.
Proof. intros n H. destruct (unheard_forever n H) as (w & A & _ & _ & _ & _ & _ & B). exists w. auto. Qed.

(** C22. *)
Theorem C22_state_changes_are_edges : forall i w w', mission_execute i w = Some w' -> conops i w (wmission w) (wmission w').
Proof. exact mission_edge. Qed.
Print Assumptions C22_state_changes_are_edges.

(** C22.  Docking only from close approach, docked only from docking with the dock sensed. *)
Theorem C22_docking_and_docked : forall i w w', mission_execute i w = Some w' ->
  (wmission w' = m_docking -> wmission w <> m_docking ->
     wmission w = m_follower_close_approach \/ wmission w = m_leader_close_approach) /\
  (wmission w' = m_docked -> wmission w <> m_docked -> wmission w = m_docking /\ i_docked i = true).
Proof.
  intros i w w' X. apply mission_edge in X. remember (wmission w) as s. remember (wmission w') as t. clear Heqs Heqt.
  destruct X as [s| | | | | | | |s H| | |s H|s|s t H H']; split; intros A B;
    try (exfalso; congruence); try discriminate A; try tauto.
  - cbn [In] in H. destruct H as [<-|[<-|[]]]; auto.
  - destruct H' as [->|(-> & _)]; discriminate A.
  - destruct H' as [->|(-> & _)]; discriminate A.
Qed.
Print Assumptions C22_docking_and_docked.

(** the nominal chain from standby to docked *)
Example C22_case :
  let f := fun i d w => match mission_execute i (quiet d p_idle one_day w) with Some x => x | None => w end in
  let w0 := mk_world (mk_h 50 (wit_bus m_standby p_idle 0 0 20) no_faults (mk_q 0 0 true) (mk_k true one_day 100 0) (mk_v 20 0 false) true)
             (mk_m a_point_standby d_undecided true true true 0 one_day 106 true false false false 0 0 false) in
  let w1 := f no_inputs d_leader w0 in let w2 := f near_inputs d_leader w1 in let w3 := f near_inputs d_leader w2 in
  let w4 := f (mk_in true true true true true true) d_leader w3 in
  map wmission [w0; w1; w2; w3; w4] = [m_standby; m_leader; m_leader_close_approach; m_docking; m_docked].
Proof. vm_compute. reflexivity. Qed.

(** C23.  From power-on with the deployment timer restored at [e0] batches of 100 cycles (0 at first boot): startup is
    kept, with the timer counting, for all of the remaining batches, and left in the next cycle. *)
Theorem C23_deployment_wait : forall l w0 w e0, history l w0 w -> Forall (fun g => g = false) l ->
  wmission w0 = m_startup -> wcc w0 = 0 -> mm_elapsed (wm w0) = e0 -> 0 <= e0 <= 106 ->
  let n := Z.of_nat (length l) in
  (n <= 100 * (106 - e0) -> wmission w = m_startup /\ mm_elapsed (wm w) = e0 + n / 100) /\
  (n = 100 * (106 - e0) + 1 -> wmission w <> m_startup).
Proof.
  intros l w0 w e0 HH HF HM HC HE HB. cbv zeta.
  destruct (deployment_history l w0 w HH HF HM HC e0 HE HB) as (A & B). split; [|exact B].
  intros L. destruct (A L) as (A1 & A2 & _). auto.
Qed.
Print Assumptions C23_deployment_wait.

(** C23.  At first boot that is more than the full deployment wait of half an hour. *)
Theorem C23_first_boot : forall l w w', history l (mission_construct 1 w) w' -> Forall (fun g => g = false) l ->
  hc (wh w) = 0 -> wmission w' <> m_startup -> deployment_wait < Z.of_nat (length l).
Proof.
  intros l w w' HH HF HC HN. rewrite wait_val.
  destruct (Z_lt_dec 10588 (Z.of_nat (length l))) as [L|L]; [exact L|]. exfalso. apply HN.
  refine (proj1 (proj1 (deployment_history l _ w' HH HF _ _ 0 _ _) _)); try reflexivity; try lia. exact HC.
Qed.
Print Assumptions C23_first_boot.

(** C23.  While the timer runs the mission manager touches neither the attitude mode nor the converters. *)
Theorem C23_no_actuation : forall i w w', wmission w = m_startup -> mm_elapsed (wm w) < 106 -> mission_execute i w = Some w' ->
  wmission w' = m_startup /\ mm_adcs (wm w') = mm_adcs (wm w) /\
  mm_adcs_dcdc (wm w') = mm_adcs_dcdc (wm w) /\ mm_sph_dcdc (wm w') = mm_sph_dcdc (wm w).
Proof.
  intros i w w' HM HE HX. destruct (startup_cycle i w w' HM HX) as (_ & [(_ & A & _ & B)|(A & _)]); [auto|lia].
Qed.
Print Assumptions C23_no_actuation.

Example C23_case :
  let w0 := mission_construct 1 (mk_world (mk_h 0 (wit_bus 5 5 0 0 20) no_faults (mk_q 0 0 true) (mk_k true one_day 100 0) (mk_v 20 0 false) true)
             (mk_m 0 0 true true true 0 one_day 77 true false false false 0 0 false)) in
  wmission w0 = m_startup /\ wcc w0 = 0 /\ mm_elapsed (wm w0) = 0 /\ wprop w0 = p_disabled /\ mm_sph_dcdc (wm w0) = false /\
  exists w1, cycle false no_inputs w0 w1 /\ wmission w1 = m_startup.
Proof.
  cbv zeta. repeat (split; [reflexivity|]). eexists. split; [eexists; split; [apply (quiet_env 0 0 0)|vm_compute; reflexivity]|reflexivity].
Qed.

(** C24.  What is missing: stays in docking after an earlier one was ended by a fault response (or by the ground). *)
Theorem C24_docking_timeout_partial : forall k w w1 i w2, docking_stay k w -> k < 2 ^ 32 -> environment false w w1 ->
  no_response w1 -> i_docked i = false -> mission_execute i w1 = Some w2 ->
  wmission w2 = (if mm_dock_limit (wm w1) <? k then m_standby else m_docking).
Proof. exact docking_timeout. Qed.
Print Assumptions C24_docking_timeout_partial.

(** C24.  A flight from boot in which docking is never left by a fault response or by the ground: the timeout counts from
    the cycle in which this docking, be it the first or a later one, was entered. *)
Theorem C24_orderly_flight_partial : forall k w w1 i w2, in_docking_for k w -> k < 2 ^ 32 -> environment false w w1 ->
  no_response w1 -> i_docked i = false -> mission_execute i w1 = Some w2 ->
  wmission w2 = (if mm_dock_limit (wm w1) <? k then m_standby else m_docking).
Proof. exact orderly_timeout. Qed.
Print Assumptions C24_orderly_flight_partial.

(** boot, the ground commands the follower state, the satellite closes in and goes into docking *)
Example C24_orderly_case : exists w, in_docking_for 1 w.
Proof.
  set (w0 := mission_construct 1 fresh_docking).
  set (u1 := upd_bus (quiet d_follower p_idle one_day w0) (fun b => set_mission b m_follower)).
  destruct (mission_execute no_inputs u1) as [w1|] eqn:E1; [|vm_compute in E1; discriminate].
  destruct (mission_execute near_inputs (quiet d_follower p_idle one_day w1)) as [w2|] eqn:E2; [|vm_compute in E1; injection E1 as <-; vm_compute in E2; discriminate].
  assert (M1 : wmission w1 = m_follower) by (vm_compute in E1; injection E1 as <-; reflexivity).
  assert (M2 : wmission w2 = m_follower_close_approach) by (vm_compute in E1; injection E1 as <-; vm_compute in E2; injection E2 as <-; reflexivity).
  destruct (mission_execute near_inputs (quiet d_follower p_idle one_day w2)) as [w3|] eqn:E3;
    [|vm_compute in E1; injection E1 as <-; vm_compute in E2; injection E2 as <-; vm_compute in E3; discriminate].
  assert (M3 : wmission w3 = m_docking) by (vm_compute in E1; injection E1 as <-; vm_compute in E2; injection E2 as <-; vm_compute in E3; injection E3 as <-; reflexivity).
  destruct (mission_execute near_inputs (quiet d_follower p_idle one_day w3)) as [w4|] eqn:E4;
    [|vm_compute in E1; injection E1 as <-; vm_compute in E2; injection E2 as <-; vm_compute in E3; injection E3 as <-; vm_compute in E4; discriminate].
  assert (M4 : wmission w4 = m_docking) by (vm_compute in E1; injection E1 as <-; vm_compute in E2; injection E2 as <-; vm_compute in E3; injection E3 as <-; vm_compute in E4; injection E4 as <-; reflexivity).
  assert (O1 : orderly w1).
  { apply (ord_cycle true no_inputs w0 u1 w1); [constructor| | | |exact E1].
    - unfold environment, u1. repeat split; intros; try discriminate; vm_compute; reflexivity.
    - intros _. vm_compute. discriminate.
    - intros X. vm_compute in X. discriminate. }
  assert (O2 : orderly w2).
  { apply (ord_cycle false near_inputs w1 (quiet d_follower p_idle one_day w1) w2); [exact O1|apply quiet_env|discriminate| |exact E2].
    intros X. change (wmission w1 = m_docking) in X. rewrite M1 in X. discriminate. }
  exists w4. apply (id_more 0 near_inputs w3 w4); [|eexists; split; [apply quiet_env|exact E4]|exact M4].
  apply (id_enter near_inputs w2 w3); [exact O2|rewrite M2; discriminate|eexists; split; [apply quiet_env|exact E3]|exact M3].
Qed.

(** C24.  A second docking, entered from close approach, is abandoned in its first cycle with a limit of a day: the
    entry cycle of the first one, ended by a propulsion fault, is still in use. *)
Theorem C24_docking_timeout_refuted : exists l w w1 w2 w3,
  history l fresh_docking w /\ wmission w = m_follower_close_approach /\
  cycle false near_inputs w w1 /\ wmission w1 = m_docking /\
  environment false w1 w2 /\ no_response w2 /\ mm_dock_limit (wm w2) = one_day /\
  mission_execute near_inputs w2 = Some w3 /\ wmission w3 = m_standby.
Proof. exact stale_docking. Qed.
Print Assumptions C24_docking_timeout_refuted.

Example C24_case : docking_stay 0 fresh_docking /\ exists w1, docking_stay 1 w1.
Proof.
  split; [constructor; reflexivity|].
  eexists. apply (stay_more 0 fresh_docking (quiet d_follower p_idle one_day fresh_docking) no_inputs);
    [constructor; reflexivity|apply quiet_env|vm_compute; reflexivity|reflexivity].
Qed.

(** C25.  What is missing: stays in safehold during which the radio handler itself keeps asking for safehold. *)
Theorem C25_day_in_safehold_partial : forall k w w1 i w2, safehold_stay k w -> k + 1 < 2 ^ 32 -> environment false w w1 ->
  ~ response_safehold w1 -> mission_execute i w1 = Some w2 -> one_day <= k + 1 -> mm_reset (wm w2) = true.
Proof.
  intros k w w1 i w2 HS HK EN NR EX HD. rewrite (safehold_day k w w1 i w2 HS HK EN NR EX).
  destruct (Z.leb_spec one_day (k + 1)); [reflexivity|lia].
Qed.
Print Assumptions C25_day_in_safehold_partial.

(** C25.  In safehold for want of contact, the reset is never requested, however long: every cycle restarts the day. *)
Theorem C25_lost_contact_refuted :
  (forall n w w', unheard_cycles n w w' -> wmission w = m_safehold -> wmission w' = m_safehold /\ mm_reset (wm w') = mm_reset (wm w)) /\
  (forall n, Z.of_nat n <= 1000 * one_day -> exists w, unheard_cycles n lost_contact w) /\
  wmission lost_contact = m_safehold /\ mm_reset (wm lost_contact) = false.
Proof.
  split; [exact unheard_no_reset|]. split; [|split; reflexivity].
  intros n H. rewrite one_day_val in H. destruct (unheard_forever n) as (w & A & _); [lia|]. exists w. exact A.
Qed.
Print Assumptions C25_lost_contact_refuted.

Example C25_case : exists w, safehold_stay 0 w.
Proof.
  set (w := mk_world (mk_h 50 (wit_bus m_leader p_idle 0 0 20) low_batt (mk_q 0 0 true) (mk_k true one_day 100 0) (mk_v 20 0 false) true)
             (mk_m a_point_docking d_leader true true true 0 one_day 106 true false false false 0 0 false)).
  eexists. apply (safe_enter no_inputs w); [|discriminate|discriminate|vm_compute; reflexivity].
  split; [reflexivity|]. left. split; [cbn; auto 10|vm_compute; reflexivity].
Qed.

(** C47.  From a fault response on, not before a day.  What is missing: safehold commanded by the ground. *)
Theorem C47_not_before_a_day_partial : forall k w w1 i w2, safehold_stay k w -> k + 1 < one_day -> environment false w w1 ->
  ~ response_safehold w1 -> mission_execute i w1 = Some w2 -> mm_reset (wm w2) = mm_reset (wm w1).
Proof.
  intros k w w1 i w2 HS HK EN NR EX.
  assert (k + 1 < 2 ^ 32) by (rewrite one_day_val in HK; lia).
  rewrite (safehold_day k w w1 i w2 HS H EN NR EX). destruct (Z.leb_spec one_day (k + 1)); [lia|reflexivity].
Qed.
Print Assumptions C47_not_before_a_day_partial.

(** C47.  Commanded into safehold a day or more after boot, the spacecraft reboots in that very cycle. *)
Theorem C47_not_before_a_day_refuted : exists w w1 w2,
  wmission w = m_standby /\ mm_safehold_begin (wm w) = 0 /\ mm_reset (wm w1) = false /\
  environment true w w1 /\ wmission w1 = m_safehold /\ no_response w1 /\ mission_execute no_inputs w1 = Some w2 /\ mm_reset (wm w2) = true.
Proof.
  set (w := mk_world (mk_h one_day (wit_bus m_standby p_idle 0 0 20) no_faults (mk_q 0 0 true) (mk_k true one_day 100 0) (mk_v 20 0 false) true)
             (mk_m a_point_docking d_leader true true true 0 one_day 106 true false false false 0 0 false)).
  set (w1 := upd_bus (quiet 0 p_idle one_day w) (fun b => set_mission b m_safehold)).
  exists w, w1. eexists. split; [reflexivity|]. split; [reflexivity|]. split; [reflexivity|].
  split; [unfold environment; split; [reflexivity|]; split; [discriminate|]; repeat split|]. split; [reflexivity|].
  split; [|split; [vm_compute; reflexivity|reflexivity]].
  split; [intros A; apply main_safehold in A|intros A; apply main_standby in A]; vm_compute in A; discriminate A.
Qed.
Print Assumptions C47_not_before_a_day_refuted.

(** C48.  What is missing: cycles in which another handler asks for safehold first. *)
Theorem C48_radio_back_on_partial : forall h, h_enabled h = true -> q_enabled (hq h) = true ->
  q_powercycle_1 <= q_state (hq h) <= q_powercycle_3 -> hc h = u32 (q_entry (hq h) + 1) -> ~ wants_safehold h ->
  b_radio (hb (fst (main_execute main_machines h))) = r_config.
Proof.
  intros h HE HQ HS HC HN. destruct (main_quake h HE HN) as (-> & _). apply quake_reconfigures; assumption.
Qed.
Print Assumptions C48_radio_back_on_partial.

(** C48.  A low battery in the cycle after the radio was switched off: it is not switched on then, nor in the next. *)
Theorem C48_radio_back_on_refuted :
  let c1 := main_execute main_machines before_power_cycle in
  let c2 := main_execute main_machines (next_cycle (fst c1) m_standby low_batt) in
  let c3 := main_execute main_machines (next_cycle (fst c2) m_safehold low_batt) in
  b_radio (hb before_power_cycle) = 0 /\
  (snd c1, b_radio (hb (fst c1)), b_radio_pc (hb (fst c1))) = (RStandby, r_disabled, true) /\
  (snd c2, b_radio (hb (fst c2))) = (RSafehold, r_disabled) /\
  (snd c3, b_radio (hb (fst c3))) = (RStandby, r_disabled).
Proof. vm_compute. auto. Qed.
Print Assumptions C48_radio_back_on_refuted.

(** C48.  If that happens in the last stage, the handler ends up unfaulted with the radio off and stays so. *)
Theorem C48_radio_lost_refuted : forall h1 h1' r1 h2 h2' r2,
  q_enabled (hq h1) = true -> q_state (hq h1) = q_powercycle_3 -> b_radio (hb h1) = r_disabled ->
  u32 (q_entry (hq h1) + 1) < hc h1 -> third <= in_stage_for h1 -> quake_execute h1 = (h1', r1) ->
  hq h2 = hq h1' -> b_radio (hb h2) = b_radio (hb h1') -> quake_execute h2 = (h2', r2) ->
  q_state (hq h2') = q_unfaulted /\ b_radio (hb h2') = r_disabled /\ r2 = RNone /\
  forall h3, hq h3 = hq h2' -> b_radio (hb h3) = r_disabled -> quake_execute h3 = (h3, RNone).
Proof.
  intros h1 h1' r1 h2 h2' r2 A1 A2 A3 A4 A5 A6 A7 A8 A9.
  destruct (quake_lost h1 h1' r1 h2 h2' r2 A1 A2 A3 A4 A5 A6 A7 A8 A9) as (B1 & B2 & B3).
  split; [exact B1|]. split; [exact B2|]. split; [exact B3|]. intros h3 C1 C2. apply quake_deaf; congruence.
Qed.
Print Assumptions C48_radio_lost_refuted.

Example C48_case :
  let h := mk_h (2 * one_day + 3 * third) (wit_bus m_safehold p_disabled r_disabled 0 20) no_faults (mk_q q_powercycle_3 (2 * one_day + 2 * third) true)
                (mk_k true one_day 100 0) (mk_v 20 0 false) true in
  q_enabled (hq h) = true /\ q_state (hq h) = q_powercycle_3 /\ b_radio (hb h) = r_disabled /\
  u32 (q_entry (hq h) + 1) < hc h /\ third <= in_stage_for h.
Proof. vm_compute. repeat split; discriminate. Qed.

(** C49.  What is missing: safehold entered by ground command or from an undefined mission state. *)
Theorem C49_safehold_disarmed_partial : forall i w w', mission_execute i w = Some w' -> wmission w' = m_safehold ->
  0 <= wmission w <= 11 -> wmission w <> m_safehold -> disarmed w'.
Proof.
  intros i w w' HX HM HR HN. pose proof (mission_edge i w w' HX) as E. rewrite HM in E.
  assert (NS : wmission w <> m_startup /\ wmission w <> m_manual /\ response_safehold w).
  { clear HX HM. revert HR HN E. generalize (wmission w). intros s HR HN E. inversion E; subst; try congruence; auto; lia. }
  destruct NS as (N1 & N2 & R). apply (safehold_disarms i w w' R N1 N2 HX).
Qed.
Print Assumptions C49_safehold_disarmed_partial.

(** C49.  Ground-commanded safehold, and mission state 12, which the ground can write: propulsion keeps firing. *)
Theorem C49_safehold_disarmed_refuted :
  let m := mk_m a_point_docking d_leader true true true 0 one_day 106 true false false false 0 0 false in
  let w s := mk_world (mk_h 50 (wit_bus s 5 0 0 20) no_faults (mk_q 0 0 true) (mk_k true one_day 100 0) (mk_v 20 0 false) true) m in
  (exists w', mission_execute no_inputs (w m_safehold) = Some w' /\ wmission w' = m_safehold /\ wprop w' = 5 /\ mm_adcs_dcdc (wm w') = true) /\
  (exists w', mission_execute no_inputs (w 12) = Some w' /\ wmission w' = m_safehold /\ wprop w' = 5 /\ mm_sph_dcdc (wm w') = true).
Proof. cbv zeta. split; eexists; (split; [vm_compute; reflexivity|]; repeat split). Qed.
Print Assumptions C49_safehold_disarmed_refuted.

(** C50. *)
Theorem C50_gps_handler : forall h,
  snd (piksi_execute h) <> RSafehold /\ (snd (piksi_execute h) = RStandby <-> piksi_wants_standby h).
Proof. exact piksi_snd. Qed.
Print Assumptions C50_gps_handler.

(** no fix for a day and one cycle after entering close approach, across the wrap of the counter *)
Example C50_case :
  let h c := mk_h c (mk_bus m_leader_close_approach p_idle 0 false 0 20 0 4294967000) no_faults (mk_q 0 0 true) (mk_k true one_day 100 7) (mk_v 20 0 false) true in
  snd (piksi_execute (h (u32 (4294967000 + one_day)))) = RNone /\ snd (piksi_execute (h (u32 (4294967000 + one_day + 1)))) = RStandby.
Proof. vm_compute. auto. Qed.

(** C51.  What is missing: limits the ground changes after the handler's first cycle. *)
Theorem C51_venting_limit_restored_partial : forall M h h1, 0 < M < 2 ^ 32 - 1 -> vent_runs M h ->
  b_max_vent (hb h1) = b_max_vent (hb h) -> hv h1 = hv h -> prop_wants_standby h1 ->
  ~ (faulted h1 Tank1Hot /\ (faulted h1 Tank2Hot \/ faulted h1 Overpressure)) ->
  b_max_vent (hb (fst (prop_execute h1))) = M.
Proof. exact vent_restored. Qed.
Print Assumptions C51_venting_limit_restored_partial.

(** C51.  The ground lowers the limit to 5; the first venting cycle puts 20 back. *)
Theorem C51_venting_limit_refuted :
  let boot := mk_h 1 (wit_bus m_standby p_idle 0 0 20) no_faults (mk_q 0 0 true) (mk_k true one_day 100 0) (mk_v 0 0 true) true in
  let h1 := fst (prop_execute boot) in
  let h2 := with_b h1 (set_prop (set_max_vent (hb h1) 5) p_handling_fault) in
  b_max_vent (hb h2) = 5 /\ b_max_vent (hb (fst (prop_execute h2))) = 20.
Proof. vm_compute. auto. Qed.
Print Assumptions C51_venting_limit_refuted.

Example C51_case : vent_runs 20 (mk_h 1 (wit_bus m_standby p_idle 0 0 20) no_faults (mk_q 0 0 true) (mk_k true one_day 100 0) (mk_v 0 0 true) true).
Proof. apply vent_start; auto. Qed.
