(** From conditions on board to the response of the mission manager. *)
From Verif Require Import Base FaultModel FaultHandlerModel FaultHandlerSpec MissionModel MissionWitness ChainModel ChainSpec ChainProofs ChainWitness.

(** C144.  What is missing: docking, and housekeeping data that cannot be read. *)
Theorem C144_low_battery_partial : forall p v theta os c g o inp w1 c', (forall j, In j owned -> 0 <= p j < 2 ^ 32) -> flight p v os c ->
  Z.of_nat (length (o :: os)) < 2 ^ 32 -> craft_cycle g o inp c w1 c' -> h_enabled (wh w1) = true ->
  In (wmission w1) [m_detumble; m_initialization_hold; m_standby; m_follower; m_leader; m_follower_close_approach;
                    m_leader_close_approach; m_docked] ->
  p LowBatt < Z.of_nat (length os) ->
  Forall (fun x => o_threshold x = theta) (o :: firstn (Z.to_nat (p LowBatt + 1)) os) ->
  Forall (fun x => exists y, o_hk x = Some y /\ y < theta) (firstn (Z.to_nat (p LowBatt + 1)) os) ->
  safe (c_world c').
Proof. exact low_battery. Qed.
Print Assumptions C144_low_battery_partial.

(** a flight whose next cycle meets the hypotheses *)
Example C144_case : exists c1 c2, flight ones 8000 [dying; dying] c2 /\ h_enabled (wh (calm m_follower dying c2)) = true /\
  wmission (c_world c1) = m_follower /\ wmission (calm m_follower dying c2) = m_follower /\
  exists c3, craft_cycle false dying no_inputs c2 (calm m_follower dying c2) c3 /\ wmission (c_world c3) = m_safehold.
Proof.
  pose (c1 := went (run1 true m_follower dying no_inputs cold)). pose (c2 := went (run1 false m_follower dying no_inputs c1)).
  pose (c3 := went (run1 false m_follower dying no_inputs c2)).
  assert (E1 : run1 true m_follower dying no_inputs cold = Some c1) by (apply went_on; vm_compute; reflexivity).
  assert (E2 : run1 false m_follower dying no_inputs c1 = Some c2) by (apply went_on; vm_compute; reflexivity).
  assert (E3 : run1 false m_follower dying no_inputs c2 = Some c3) by (apply went_on; vm_compute; reflexivity).
  assert (M1 : wmission (c_world c1) = m_follower) by (vm_compute; reflexivity).
  assert (M2 : wmission (c_world c2) = m_follower) by (vm_compute; reflexivity).
  assert (M3 : wmission (c_world c3) = m_safehold) by (vm_compute; reflexivity).
  clearbody c3 c2 c1. exists c1, c2. repeat split; auto.
  - eapply fl_cycle; [eapply fl_cycle; [apply fl_boot, cold_booted|apply (run1_step true _ _ _ _ _ ltac:(discriminate) E1)]|].
    apply (run1_step false _ _ _ _ _ (fun _ => eq_sym M1) E2).
  - exists c3. split; [|exact M3]. apply (run1_step false _ _ _ _ _ (fun _ => eq_sym M2) E3).
Qed.

(** C144.  In docking a low battery is not answered, for as long as docking lasts: up to a day with the limit set at boot. *)
Theorem C144_docking_refuted : forall n, Z.of_nat n <= one_day -> exists c, flight ones 8000 (repeat dying (S n)) c /\
  wmission (c_world c) = m_docking /\ o_hk dying = Some 5000 /\ o_threshold dying = 7300.
Proof.
  intros n L. destruct (docking_more n L) as (c & F & M & _). exists c. repeat split; assumption.
Qed.
Print Assumptions C144_docking_refuted.

(** C144.  When housekeeping data cannot be read the last value read stays in force, for any number of cycles: nothing is answered. *)
Theorem C144_unreadable_refuted : forall n, Z.of_nat n < 2 ^ 32 - 2 -> exists c, flight ones 8000 (repeat blind (S n)) c /\
  wmission (c_world c) = m_follower /\ c_vbatt c = 8000 /\ o_hk blind = None.
Proof.
  intros n L. destruct (standby_blind n L) as (c & F & M & _). exists c. repeat split; auto.
  destruct (flight_tracks ones 8000 _ c ones_ok F) as (_ & V & _); [rewrite repeat_length; lia|]. rewrite V. apply blind_read.
Qed.
Print Assumptions C144_unreadable_refuted.

(** C145.  A condition that has lasted longer than its persistence is answered in that very cycle ... *)
Theorem C145_answered : forall p v os c g o inp w1 c' i, (forall j, In j owned -> 0 <= p j < 2 ^ 32) -> flight p v os c ->
  Z.of_nat (length (o :: os)) < 2 ^ 32 -> craft_cycle g o inp c w1 c' -> h_enabled (wh w1) = true ->
  In i owned -> In (wmission w1) (guarded i) -> p i < present_for v i (o :: os) -> safe (c_world c').
Proof. exact timely. Qed.
Print Assumptions C145_answered.

(** ... and safehold is entered for such a cause only, or for a radio that stays silent through all its power cycles, or from a
    mission state that does not exist. *)
Theorem C145_cause : forall p v os c g o inp w1 c', (forall j, In j owned -> 0 <= p j < 2 ^ 32) -> flight p v os c ->
  Z.of_nat (length (o :: os)) < 2 ^ 32 -> craft_cycle g o inp c w1 c' -> wmission w1 <> m_safehold -> wmission (c_world c') = m_safehold ->
  (exists i, In i owned /\ In (wmission w1) (guarded i) /\ p i < present_for v i (o :: os)) \/ radio_lost w1 \/ ~ 0 <= wmission w1 <= 11.
Proof. exact cause. Qed.
Print Assumptions C145_cause.

(** a wheel that fails in two cycles, with one good one between: no response; then for two in a row: safehold *)
Definition wheel (b : bool) : obs := mk_obs (Some 8000) 7300 (fun i => match i with Wheel2 => b | _ => false end).
Example C145_case :
  match run1 true m_follower (wheel true) no_inputs cold with
  | Some c1 => match run1 false m_follower (wheel false) no_inputs c1 with
    | Some c2 => match run1 false m_follower (wheel true) no_inputs c2 with
      | Some c3 => match run1 false m_follower (wheel true) no_inputs c3 with
        | Some c4 => map (fun c => wmission (c_world c)) [c1; c2; c3; c4]
        | None => [] end
      | None => [] end
    | None => [] end
  | None => [] end = [m_follower; m_follower; m_follower; m_safehold] /\
  map (present_for 8000 Wheel2) [[wheel true]; [wheel false; wheel true]; [wheel true; wheel false; wheel true];
    [wheel true; wheel true; wheel false; wheel true]] = [1; 0; 1; 2].
Proof. vm_compute. split; reflexivity. Qed.

(** C146 *)
Theorem C146_deployment_check : forall p v os c g o inp w1 c', (forall j, In j owned -> 0 <= p j < 2 ^ 32) -> flight p v os c ->
  Z.of_nat (length (o :: os)) < 2 ^ 32 -> craft_cycle g o inp c w1 c' -> wmission w1 = m_startup -> wmission (c_world c') <> m_startup ->
  wmission (c_world c') = (if existsb (fun i => p i <? present_for v i (o :: os)) hardware then m_initialization_hold else m_detumble) /\
  mm_adcs (wm (c_world c')) = a_detumble /\ wprop (c_world c') = p_idle /\ mm_sph_dcdc (wm (c_world c')) = true.
Proof. exact deployment. Qed.
Print Assumptions C146_deployment_check.

(** the end of the wait, with a wheel controller that has been faulty for two cycles *)
Definition waited (s : craft) : craft := mk_craft (c_vbatt s) (upd_m (c_world s) (fun m => m_set_elapsed m 106)).
Example C146_case : forall b,
  match run1 false m_startup (wheel true) no_inputs cold with
  | Some c1 => match run1 false m_startup (wheel b) no_inputs (waited c1) with
    | Some c2 => map (fun c => wmission (c_world c)) [c1; c2]
    | None => [] end
  | None => [] end = [m_startup; if b then m_initialization_hold else m_detumble].
Proof. intros []; vm_compute; reflexivity. Qed.
