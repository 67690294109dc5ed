(** Claims about the attitude computer, its link, and the flight computer's attitude tasks. *)
From Verif Require Import Base AdcsModel AdcsSpec AdcsConvProofs AdcsRecvProofs AdcsActProofs AdcsRunProofs AdcsServeProofs AdcsTableProofs AdcsMonProofs AdcsExecProofs AdcsRefuteProofs AdcsEndProofs.
From Coq Require Import QArith Qabs.
Local Open Scope Z_scope.

(** * C36 Attitude device reset and disable commands address only the named devices *)

Definition ac0 (rst dis : nat -> bool) : acmd :=
  mk_ac 0 0 v0 v0 1 1 0 v0 max_moment 1 0 0 1 1 1 0 0 rst dis.
Definition only (k : nat) : nat -> bool := Nat.eqb k.

Theorem C36_reset_exact : forall ld sm a b l b', any_dev (a_rst a) = true -> Forall (avoids [28]) l -> (40 <= n_steps l)%nat ->
  exists t, In (SetReset t) (controller_calls sm a) /\
  (brun ld b (sent (SetReset t) ++ l) = Some b' ->
   exists l1 e l2 b1 b2, l = l1 ++ Step e :: l2 /\ brun ld b (sent (SetReset t) ++ l1) = Some b1 /\ bstep ld e b1 = Some b2 /\
   forall k, (k < n_dev)%nat ->
     (a_rst a k = false -> dev_view k (dv b2) = dev_view k (dv b1)) /\
     (a_rst a k = true -> dev_view k (dv b2) = idle_view (if bus_dev k then e_reset e k else true))).
Proof. exact reset_end. Qed.
Print Assumptions C36_reset_exact.
Example C36_reset_case : any_dev (a_rst (ac0 (only 4) (only 7))) = true /\
  (match brun true up (sent (SetReset 16) ++ idle 40) with Some b => rod (dv b) 1%nat =? 0 | None => false end) = true.
Proof. vm_compute. split; reflexivity. Qed.

(** holds as long as no reset is commanded in the same cycle; with one, see the refutation below *)
Theorem C36_disable_exact_partial : forall ld sm a b l b', any_dev (a_dis a) = true -> any_dev (a_rst a) = false ->
  Forall (avoids [29]) l -> (40 <= n_steps l)%nat ->
  exists t, In (SetDisable t) (controller_calls sm a) /\
  (brun ld b (sent (SetDisable t) ++ l) = Some b' ->
   exists l1 e l2 b1 b2, l = l1 ++ Step e :: l2 /\ brun ld b (sent (SetDisable t) ++ l1) = Some b1 /\ bstep ld e b1 = Some b2 /\
   forall k, (k < n_dev)%nat ->
     (a_dis a k = false -> dev_view k (dv b2) = dev_view k (dv b1)) /\
     (a_dis a k = true -> dev_view k (dv b2) = idle_view false)).
Proof. exact disable_end_alone. Qed.
Print Assumptions C36_disable_exact_partial.
Example C36_disable_case : any_dev (a_dis (ac0 (fun _ => false) (only 7))) = true /\ any_dev (a_rst (ac0 (fun _ => false) (only 7))) = false /\
  (match brun true up (sent (SetDisable 128) ++ idle 40) with Some b => negb (wccw (dv b) 0%nat) && negb (fn (dv b) 7%nat) | None => false end) = true.
Proof. vm_compute. repeat split. Qed.

(** a reset and a disable commanded in one cycle: the device to be reset is disabled as well *)
Theorem C36_reset_device_disabled_refuted : forall ld sm a b l b', any_dev (a_dis a) = true -> Forall (avoids [29]) l -> (40 <= n_steps l)%nat ->
  exists t, In (SetDisable t) (controller_calls sm a) /\
  (brun ld b (sent (SetDisable t) ++ l) = Some b' ->
   exists l1 e l2 b1 b2, l = l1 ++ Step e :: l2 /\ brun ld b (sent (SetDisable t) ++ l1) = Some b1 /\ bstep ld e b1 = Some b2 /\
   forall k, (k < n_dev)%nat -> a_rst a k = true -> dev_view k (dv b2) = idle_view false).
Proof. exact disable_end_leak. Qed.
Print Assumptions C36_reset_device_disabled_refuted.
Example C36_leak_case : a_rst (ac0 (only 4) (only 7)) 4%nat = true /\ a_dis (ac0 (only 4) (only 7)) 4%nat = false /\
  In (SetDisable 144) (controller_calls 0 (ac0 (only 4) (only 7))) /\
  (match brun true up (sent (SetReset 16) ++ sent (SetDisable 144) ++ idle 40) with Some b => negb (fn (dv b) 4%nat) | None => false end) = true.
Proof. split; [reflexivity|]. split; [reflexivity|]. split; [vm_compute; tauto|vm_compute; reflexivity]. Qed.

Theorem C36_commands_cleared : forall a k, (k < n_dev)%nat -> a_rst (controller_fields a) k = false /\ a_dis (controller_fields a) k = false.
Proof. exact fields_cleared. Qed.
Print Assumptions C36_commands_cleared.

Theorem C36_nothing_uncommanded : forall sm a c, any_dev (a_rst a) = false -> any_dev (a_dis a) = false -> In c (controller_calls sm a) ->
  match c with SetReset _ | SetDisable _ => False | _ => True end.
Proof. exact no_table_calls. Qed.
Print Assumptions C36_nothing_uncommanded.

(** no device is taken into or out of use except by a table naming it or by its own bus failing *)
Theorem C36_only_by_table_or_failure : forall ld b v b' k, (k < n_dev)%nat -> bexec ld b v = Some b' -> fn (dv b') k <> fn (dv b) k ->
  (exists e, v = Step e /\ pc b = PRstChk /\ Z.testbit (l_tab b) (Z.of_nat k) = true) \/
  (exists e, v = Step e /\ pc b = PDisChk /\ Z.testbit (l_tab b) (Z.of_nat k) = true) \/ v = Fail k.
Proof. exact functional_only. Qed.
Print Assumptions C36_only_by_table_or_failure.

(** * C37 Attitude computer register writes are isolated *)

Theorem C37_only_named_registers : forall c ms z r n, dmsgs c = Some ms -> ~ In n (names c) -> same_reg n r (recv_all z ms r).
Proof. exact driver_frame. Qed.
Print Assumptions C37_only_named_registers.
Example C37_case : dmsgs (SetM1 1) = Some [[19; 1]] /\ ~ In NI2Mode (names (SetM1 1)) /\ i_m1 (r_imu (recv_all 0 [[19; 1]] regs0)) = 1 /\
  i_m2 (r_imu (recv_all 0 [[19; 1; 1]] regs0)) = 1.
Proof. repeat split. cbn. intuition discriminate. Qed.

(** * C38 Torque rods obey the configured moment limit *)

Theorem C38_lower_limit_partial : forall ld c lim h i, (i < 3)%nat -> fn h (3 + i) = true -> (0 <= lim)%Q ->
  (- lim <= moment (mtr_actuate ld 1 c lim h) i)%Q.
Proof. exact rod_lower. Qed.
Print Assumptions C38_lower_limit_partial.
Theorem C38_within_limit_partial : forall ld c lim h i, (i < 3)%nat -> fn h (3 + i) = true ->
  (Qabs (vnth (body_to_mtr ld c) i) <= lim)%Q -> (Qabs (moment (mtr_actuate ld 1 c lim h) i) <= lim)%Q.
Proof. exact rod_within. Qed.
Print Assumptions C38_within_limit_partial.
Theorem C38_full_scale_partial : forall ld c h i, (i < 3)%nat -> fn h (3 + i) = true -> in_range3 (- max_moment) max_moment c ->
  (Qabs (moment (mtr_actuate ld 1 c max_moment h) i) <= max_moment)%Q.
Proof. exact rod_full_scale. Qed.
Print Assumptions C38_full_scale_partial.
Example C38_case : (0 <= 1 # 100)%Q /\ in_range3 (- max_moment) max_moment moment1 /\ fn (dv up) 3%nat = true /\ (moment (dv up) 0 > 29 # 1000)%Q.
Proof. vm_compute. repeat split; discriminate. Qed.
(** the limit is 0.01, the rod is driven with more than four times as much *)
Theorem C38_upper_limit_refuted : exists b, reachable true b /\ fn (dv b) 3%nat = true /\ m_flg (r_mtr (rg b)) = false /\
  (4 * m_lim (r_mtr (rg b)) < moment (dv b) 0)%Q.
Proof. exact limit_exceeded. Qed.
Print Assumptions C38_upper_limit_refuted.

(** * C39 Disabling the reaction wheels stops them *)

Theorem C39_pending_command_partial : forall ld b l1 l2 b', r_mode (rg b) = 1 -> w_flg (r_rwa (rg b)) = true ->
  Forall (avoids [1; 3]) l1 -> (43 <= n_steps l1)%nat -> Forall (avoids [3]) l2 ->
  brun ld b (sent (SetRwa 0 v0) ++ l1 ++ l2) = Some b' -> forall i, (i < 3)%nat -> fn (dv b') (7 + i) = true -> stopped (dv b') i.
Proof. exact pending_stop. Qed.
Print Assumptions C39_pending_command_partial.
Example C39_case : (match brun true up (sent (SetRwa 2 torque1) ++ sent (SetRwa 0 v0) ++ idle 43) with
  | Some b => fn (dv b) 7%nat && negb (wcw (dv b) 0%nat) && negb (wccw (dv b) 0%nat) && negb (wcw (dv b) 1%nat) | None => false end) = true.
Proof. vm_compute. reflexivity. Qed.
(** otherwise they turn for ever, however often the command is repeated *)
Theorem C39_never_stopped_refuted : exists b, reachable true b /\ r_mode (rg b) = 1 /\
  forall l b', Forall (calls_only wheels_idle_call) l -> brun true b (sent (SetRwa 0 v0) ++ l) = Some b' ->
    forall i, (i < 3)%nat -> ~ stopped (dv b') i.
Proof. exact wheels_never_stop. Qed.
Print Assumptions C39_never_stopped_refuted.
Example C39_traffic : Forall (calls_only wheels_idle_call) (sent (SetRwa 0 v0) ++ sent (SetMtrCmd moment1) ++ idle 50) /\
  (match brun true up (sent (SetRwa 0 v0) ++ sent (SetRwa 0 v0) ++ sent (SetMtrCmd moment1) ++ idle 50) with Some b => wccw (dv b) 0%nat | None => false end) = true.
Proof.
  split; [|vm_compute; reflexivity].
  apply Forall_app. split; [|apply Forall_app; split].
  - repeat constructor; exists (SetRwa 0 v0); eexists; (split; [reflexivity|]); (split; [reflexivity|]); cbn; auto.
  - unfold sent. destruct (dmsgs (SetMtrCmd moment1)) as [ms|] eqn:E; [|constructor]. apply Forall_forall. intros v H. apply in_map_iff in H. destruct H as [m [<- H]].
    exists (SetMtrCmd moment1), ms. split; [exact I|]. split; [exact E|exact H].
  - apply Forall_forall. intros v H. apply repeat_spec in H. subst v. exact I.
Qed.

(** * C65 Disabling the torque rods turns them off *)

Theorem C65_rods_off : forall ld b m v l1 l2 b', r_mode (rg b) = 1 -> m <> 1 -> in_range3 (- max_moment) max_moment v ->
  Forall (avoids [1; 10; 11; 12]) l1 -> (43 <= n_steps l1)%nat -> Forall (avoids [10]) l2 ->
  brun ld b (sent (SetMtrMode m) ++ sent (SetMtrCmd v) ++ l1 ++ l2) = Some b' ->
  forall i, (i < 3)%nat -> fn (dv b') (3 + i) = true -> rod (dv b') i = 0.
Proof. exact rods_disabled. Qed.
Print Assumptions C65_rods_off.
Example C65_case : rod (dv up) 0%nat = 17347 /\ r_mode (rg up) = 1 /\
  (match brun true up (sent (SetMtrMode 0) ++ sent (SetMtrCmd moment1) ++ idle 43) with Some b => rod (dv b) 0%nat =? 0 | None => false end) = true.
Proof. vm_compute. repeat split. Qed.

(** * C66 A zero moment command turns the torque rods off *)

Theorem C66_zero_is_off : forall ld b l b', r_mode (rg b) = 1 -> m_mode (r_mtr (rg b)) = 1 -> (0 <= m_lim (r_mtr (rg b)))%Q ->
  Forall (avoids [1; 10; 11; 12]) l -> (44 <= n_steps l)%nat -> brun ld b (sent (SetMtrCmd v0) ++ l) = Some b' ->
  exists l1 e l2 b1 b2, l = l1 ++ Step e :: l2 /\ brun ld b (sent (SetMtrCmd v0) ++ l1) = Some b1 /\ bstep ld e b1 = Some b2 /\
    forall i, (i < 3)%nat -> fn (dv b2) (3 + i) = true -> rod (dv b2) i = 0.
Proof. exact zero_turns_off. Qed.
Print Assumptions C66_zero_is_off.
Example C66_case : rod (dv up) 0%nat = 17347 /\ m_mode (r_mtr (rg up)) = 1 /\ (0 <= m_lim (r_mtr (rg up)))%Q /\
  (match brun true up (sent (SetMtrCmd v0) ++ idle 44) with Some b => rod (dv b) 0%nat =? 0 | None => false end) = true.
Proof. vm_compute. repeat split. discriminate. Qed.

(** * C67 Attitude commands arrive as given, to one step of their scale *)

Theorem C67_rod_moment : forall v z r, in_range3 (- max_moment) max_moment v ->
  exists ms, dmsgs (SetMtrCmd v) = Some ms /\
    within_step3 65535 (- max_moment) max_moment v (m_cmd (r_mtr (recv_all z ms r))) /\ m_flg (r_mtr (recv_all z ms r)) = true.
Proof. exact rod_command_arrives. Qed.
Print Assumptions C67_rod_moment.
Theorem C67_rod_limit : forall f z r, in_range (- max_moment) max_moment f ->
  exists ms, dmsgs (SetMtrLim f) = Some ms /\
    within_step 65535 (- max_moment) max_moment f (m_lim (r_mtr (recv_all z ms r))) /\ m_flg (r_mtr (recv_all z ms r)) = true.
Proof. exact rod_limit_arrives. Qed.
Print Assumptions C67_rod_limit.
Theorem C67_wheels : forall m v z r, let mx := if m =? 1 then max_speed_command else max_torque in
  m = 1 \/ m = 2 -> in_range3 (- mx) mx v ->
  exists ms, dmsgs (SetRwa m v) = Some ms /\
    within_step3 65535 (- mx) mx v (w_cmd (r_rwa (recv_all z ms r))) /\ w_mode (r_rwa (recv_all z ms r)) = m /\
    w_flg (r_rwa (recv_all z ms r)) = true.
Proof. exact wheel_command_arrives. Qed.
Print Assumptions C67_wheels.
Theorem C67_filters : forall f z r, in_range 0 1 f ->
  exists t, 0 <= t <= 255 /\ within_step 255 0 1 f (fp8 t 0 1) /\
    dmsgs (SetSFlt f) = Some [[6; t]] /\ w_sflt (r_rwa (recv z [6; t] r)) = fp8 t 0 1 /\
    dmsgs (SetRFlt f) = Some [[7; t]] /\ w_rflt (r_rwa (recv z [7; t] r)) = fp8 t 0 1 /\
    dmsgs (SetSsaFlt f) = Some [[16; t]] /\ s_flt (r_ssa (recv z [16; t] r)) = fp8 t 0 1 /\
    dmsgs (SetMFlt f) = Some [[22; t]] /\ i_mflt (r_imu (recv z [22; t] r)) = fp8 t 0 1 /\
    dmsgs (SetGFlt f) = Some [[23; t]] /\ i_gflt (r_imu (recv z [23; t] r)) = fp8 t 0 1 /\
    dmsgs (SetTFlt f) = Some [[24; t]] /\ i_tflt (r_imu (recv z [24; t] r)) = fp8 t 0 1.
Proof. exact byte_commands_arrive. Qed.
Print Assumptions C67_filters.
Theorem C67_target_temperature : forall f z r, in_range (-40) 85 f ->
  exists ms, dmsgs (SetDes f) = Some ms /\ within_step 255 (-40) 85 f (i_des (r_imu (recv_all z ms r))).
Proof. exact target_arrives. Qed.
Print Assumptions C67_target_temperature.
Theorem C67_tables : forall t z r, 0 <= t < 2 ^ 32 ->
  (exists ms, dmsgs (SetReset t) = Some ms /\ h_rst (r_hav (recv_all z ms r)) = t /\ h_rflg (r_hav (recv_all z ms r)) = true) /\
  (exists ms, dmsgs (SetDisable t) = Some ms /\ h_dis (r_hav (recv_all z ms r)) = t /\ h_dflg (r_hav (recv_all z ms r)) = true).
Proof. exact tables_arrive. Qed.
Print Assumptions C67_tables.
Example C67_case : in_range3 (- max_moment) max_moment moment1 /\ in_range3 (- max_torque) max_torque torque1 /\
  in_range3 (- max_speed_command) max_speed_command spin /\ in_range 0 1 (3 # 10) /\ in_range (-40) 85 (20 # 1).
Proof. vm_compute. repeat split; discriminate. Qed.

(** * C68 Wheels turn in the commanded direction *)

Theorem C68_torque_direction_partial : forall e c h h' i, (i < 3)%nat -> fn h 6 = true -> fn h (7 + i) = true ->
  rwa_actuate e 2 c h = Some h' ->
  wcw h' i = (if Qlt_le_dec (vnth (body_to_rwa c) i) 0 then true else false) /\
  wccw h' i = (if Qlt_le_dec (vnth (body_to_rwa c) i) 0 then false else true).
Proof. exact torque_direction. Qed.
Print Assumptions C68_torque_direction_partial.
Example C68_case : fn (hw0 all_up) 6%nat = true /\
  (match rwa_actuate se0 2 torque1 (hw0 all_up) with Some h => wccw h 0%nat && wcw h 1%nat && wccw h 2%nat | None => false end) = true.
Proof. vm_compute. split; reflexivity. Qed.
(** with the torque potentiometer out of use a torque command is ignored *)
Theorem C68_torque_ignored_refuted : forall e c h, fn h 6%nat = false -> rwa_actuate e 2 c h = Some h.
Proof. exact torque_ignored. Qed.
Print Assumptions C68_torque_ignored_refuted.
(** a speed command turns every wheel the same way, whatever its sign *)
Theorem C68_speed_direction_refuted : forall e c h h' i, (i < 3)%nat -> fn h (7 + i) = true -> in_range3 (- max_speed_command) max_speed_command c ->
  rwa_actuate e 1 c h = Some h' -> wcw h' i = false /\ wccw h' i = true.
Proof. exact speed_direction. Qed.
Print Assumptions C68_speed_direction_refuted.
Example C68_speed_case :
  (match rwa_actuate se0 1 (V 100 100 100) (hw0 all_up), rwa_actuate se0 1 (V (-100) (-100) (-100)) (hw0 all_up) with
   | Some h, Some h' => wccw h 0%nat && wccw h' 0%nat | _, _ => false end) = true.
Proof. vm_compute. reflexivity. Qed.

(** * C69 A passive attitude computer drives no actuator *)

(** the actuators keep what they had *)
Theorem C69_passive_changes_nothing_partial : forall ld ro wc wcc b l b', frozen ro wc wcc b -> Forall (calls_only passive_call) l ->
  brun ld b l = Some b' -> rod (dv b') = ro /\ wcw (dv b') = wc /\ wccw (dv b') = wcc.
Proof. exact passive_frozen. Qed.
Print Assumptions C69_passive_changes_nothing_partial.
Example C69_case : frozen (fun _ => 0) (fun _ => false) (fun _ => false) (box0 all_up) /\
  Forall (calls_only passive_call) (sent (SetMtrMode 1) ++ sent (SetMtrCmd v0) ++ idle 60).
Proof.
  split; [unfold frozen; cbn; repeat split; discriminate|]. apply Forall_app. split; [|apply Forall_app; split].
  - repeat constructor. exists (SetMtrMode 1), [[10; 1]]. cbn. auto.
  - unfold sent. destruct (dmsgs (SetMtrCmd v0)) as [ms|] eqn:E; [|constructor]. apply Forall_forall. intros v H. apply in_map_iff in H. destruct H as [m [<- H]].
    exists (SetMtrCmd v0), ms. split; [exact I|]. split; [exact E|exact H].
  - apply Forall_forall. intros v H. apply repeat_spec in H. subst v. exact I.
Qed.
(** so that rods and wheels that were on stay on *)
Theorem C69_actuators_stay_on_refuted : exists b, reachable true b /\
  forall l b', Forall (calls_only passive_call) l -> brun true b (sent (SetMode 0) ++ l) = Some b' ->
    rod (dv b') 0%nat = 17347 /\ rod (dv b') 1%nat = -5781 /\ ~ stopped (dv b') 0%nat.
Proof. exact passive_stays_on. Qed.
Print Assumptions C69_actuators_stay_on_refuted.

(** * C70 Wheel readings are refreshed in every pass of the loop *)

Theorem C70_refreshed_when_commanded_partial : forall ld b l b', r_mode (rg b) = 1 -> w_flg (r_rwa (rg b)) = true ->
  Forall (avoids [1]) l -> (45 <= n_steps l)%nat -> brun ld b l = Some b' ->
  exists l1 e l2 b1 b2, l = l1 ++ Step e :: l2 /\ brun ld b l1 = Some b1 /\ bstep ld e b1 = Some b2 /\
    w_spd (r_rwa (rg b2)) = spd_rd (dv b1) /\ w_rmp (r_rwa (rg b2)) = rmp_rd (dv b1).
Proof. exact wheel_readings_refreshed. Qed.
Print Assumptions C70_refreshed_when_commanded_partial.
Example C70_case : (match brun true up (sent (SetRwa 2 torque1)) with Some b => w_flg (r_rwa (rg b)) && (r_mode (rg b) =? 1) | None => false end) = true.
Proof. vm_compute. reflexivity. Qed.
Theorem C70_stale_while_disabled_refuted : exists b, reachable true b /\ r_mode (rg b) = 1 /\
  forall l b', Forall (calls_only wheels_idle_call) l -> brun true b (sent (SetRwa 0 v0) ++ l) = Some b' ->
    w_spd (r_rwa (rg b')) = w_spd (r_rwa (rg b)) /\ w_rmp (r_rwa (rg b')) = w_rmp (r_rwa (rg b)).
Proof. exact readings_never_change. Qed.
Print Assumptions C70_stale_while_disabled_refuted.

(** * C71 The gyroscope heater is on exactly when the gyroscope is too cold *)

Theorem C71_heater_rule_partial : forall e i h, heat (imu_update e i h) =
  if negb (fn h 18) then 0 else if negb (fn h 0) then 0 else
  match e_gyr e with
  | None => heat h
  | Some _ => if Qlt_le_dec (tmp_rd (imu_update e i h)) (i_des i) then i_pwm i * 128 else 0
  end.
Proof. exact heater_rule. Qed.
Print Assumptions C71_heater_rule_partial.
Theorem C71_heats_without_readings_refuted : exists b, reachable true b /\ heat (dv b) = 12800 /\
  forall l b', Forall no_gyr l -> brun true b l = Some b' -> heat (dv b') = 12800.
Proof. exact heater_stays_on. Qed.
Print Assumptions C71_heats_without_readings_refuted.
Example C71_case : heat (imu_update se0 (r_imu (rg up)) (dv up)) = 12800 /\ heat (imu_update se0 (im_des (r_imu (rg up)) (-40)) (dv up)) = 0.
Proof. vm_compute. split; reflexivity. Qed.

(** * C72 The sun vector reported is one that was computed *)

Theorem C72_vector_was_computed : forall ld f l b, Forall asks_sun l -> brun ld (box0 f) l = Some b -> s_mode (r_ssa (rg b)) = 2 ->
  exists l1 e l2 b1, l = l1 ++ Step e :: l2 /\ brun ld (box0 f) l1 = Some b1 /\ pc b1 = PSsaCalc /\ (4 <= length (ssa_lit (dv b1)))%nat /\
    s_vec (r_ssa (rg b)) = Some (e_sun e).
Proof. exact sun_origin. Qed.
Print Assumptions C72_vector_was_computed.
Example C72_case : Forall asks_sun run_up /\ s_mode (r_ssa (rg up)) = 2 /\ s_vec (r_ssa (rg up)) = Some (V 0 0 1).
Proof. split; [apply asks_sun_check; vm_compute; reflexivity|vm_compute; split; reflexivity]. Qed.
Theorem C72_vector_stable : forall ld b l b' v, s_mode (r_ssa (rg b)) = 2 -> s_vec (r_ssa (rg b)) = Some v -> pc b <> PSsaCalc ->
  Forall (avoids [14]) l -> brun ld b l = Some b' -> s_mode (r_ssa (rg b')) = 2 /\ s_vec (r_ssa (rg b')) = Some v.
Proof. exact sun_stable. Qed.
Print Assumptions C72_vector_stable.
Theorem C72_vector_transmitted : forall z r1 r2 ans v, s_mode (r_ssa r1) = 2 -> s_vec (r_ssa r2) = Some v -> in_range3 (-1) 1 v ->
  ans 14 = answers r1 14 -> ans 15 = answers r2 15 ->
  exists w, o_sun (monitor z ans) = Some w /\ within_step3 65535 (-1) 1 v w.
Proof. exact sun_readback. Qed.
Print Assumptions C72_vector_transmitted.
Example C72_transmitted_case : in_range3 (-1) 1 (V 0 0 1) /\ (match o_sun (monitor 0 (answers (rg up))) with Some w => Qeq_bool (vz w) 1 | None => false end) = true.
Proof. vm_compute. repeat split; discriminate. Qed.
Theorem C72_no_vector_unless_complete : forall z ans, (forall l, ans 14 = Some l -> nth 0 l z <> 2) -> z <> 2 -> o_sun (monitor z ans) = None.
Proof. exact no_sun_unless_complete. Qed.
Print Assumptions C72_no_vector_unless_complete.

(** * C73 A silent attitude computer is noticed *)

Theorem C73_not_functional_partial : forall z, z <> 15 -> z <> 2 -> let o := monitor z (fun _ => None) in o_ok o = false /\ o_sun o = None.
Proof. exact silent_not_functional. Qed.
Print Assumptions C73_not_functional_partial.
(** but numbers are published as if they had been measured *)
Theorem C73_numbers_published_refuted : forall z, let o := monitor z (fun _ => None) in
  o_spd o = V (fp16 (257 * z) (- max_speed_read) max_speed_read) (fp16 (257 * z) (- max_speed_read) max_speed_read) (fp16 (257 * z) (- max_speed_read) max_speed_read) /\
  o_gyr o = V (fp16 (257 * z) (- max_omega) max_omega) (fp16 (257 * z) (- max_omega) max_omega) (fp16 (257 * z) (- max_omega) max_omega).
Proof. exact silent_numbers. Qed.
Print Assumptions C73_numbers_published_refuted.
Example C73_case : Qeq_bool (vx (o_gyr (monitor 0 (fun _ => None)))) (- max_omega) = true /\ o_fgyr (monitor 0 (fun _ => None)) = false.
Proof. vm_compute. split; reflexivity. Qed.

(** * C74 No half-received actuator command is carried out *)

Theorem C74_rods_whole : forall ld b0 l b e b', in_rods (pc b0) = false -> brun ld b0 l = Some b -> bstep ld e b = Some b' -> rod (dv b') <> rod (dv b) ->
  (exists l1 l2 b1 m, l = l1 ++ l2 /\ brun ld b0 l1 = Some b1 /\ dv b' = mtr_actuate ld m (m_cmd (r_mtr (rg b1))) (m_lim (r_mtr (rg b))) (dv b)) \/
  dv b' = exec_reset e (l_tab b) (dv b) \/ dv b' = exec_disable e (l_tab b) (dv b).
Proof. exact rods_change. Qed.
Print Assumptions C74_rods_whole.
Theorem C74_wheels_whole : forall ld b0 l b e b', in_wheels (pc b0) = false -> brun ld b0 l = Some b -> bstep ld e b = Some b' ->
  (wcw (dv b') <> wcw (dv b) \/ wccw (dv b') <> wccw (dv b)) ->
  (exists m, rwa_actuate e m (w_cmd (r_rwa (rg b))) (dv b) = Some (dv b')) \/
  dv b' = exec_reset e (l_tab b) (dv b) \/ dv b' = exec_disable e (l_tab b) (dv b).
Proof. exact wheels_change. Qed.
Print Assumptions C74_wheels_whole.
(** a command arriving while the previous one is being copied: only the new one is carried out *)
Example C74_case : in_rods (pc (box0 all_up)) = false /\ in_wheels (pc (box0 all_up)) = false /\
  (match brun true up (sent (SetMtrCmd (V (1 # 20) (1 # 20) (1 # 20))) ++ idle 10 ++ sent (SetMtrCmd moment1) ++ idle 44) with
   | Some b => rod (dv b) 0%nat =? 17347 | None => false end) = true.
Proof. vm_compute. repeat split. Qed.

(** * C75 A device out of use is idle *)

Theorem C75_idle : forall ld f l b k, brun ld (box0 f) l = Some b -> (k < n_dev)%nat -> fn (dv b) k = false -> dev_view k (dv b) = idle_view false.
Proof. exact idle_always. Qed.
Print Assumptions C75_idle.
Example C75_case : (match brun true up (sent (SetDisable 136) ++ idle 40) with
  | Some b => negb (fn (dv b) 3%nat) && (rod (dv b) 0%nat =? 0) && negb (wccw (dv b) 0%nat) && negb (rod (dv b) 1%nat =? 0) | None => false end) = true.
Proof. vm_compute. reflexivity. Qed.

(** * C76 The device table read by the flight computer is at most one pass old *)

Theorem C76_table_age : forall ld b0 l b z, pc b0 = PHavt -> brun ld b0 l = Some b -> (0 < n_steps l)%nat ->
  exists l1 l2 b1, l = l1 ++ l2 /\ brun ld b0 l1 = Some b1 /\ (n_steps l2 <= 37)%nat /\
    forall k, (k < n_dev)%nat -> o_dev (monitor z (answers (rg b))) k = fn (dv b1) k.
Proof. exact table_age. Qed.
Print Assumptions C76_table_age.
Example C76_case : (match brun true (box0 all_up) (idle 10) with Some b => match pc b with PHavt => true | _ => false end | None => false end) = true /\
  (match brun true up (sent (SetDisable 128) ++ idle 50) with Some b => negb (o_dev (monitor 0 (answers (rg b))) 7) && o_dev (monitor 0 (answers (rg b))) 8 | None => false end) = true.
Proof. vm_compute. split; reflexivity. Qed.

(** * C77 Readings are flagged exactly when they are out of range *)

Theorem C77_unflagged_in_range_partial : forall z ans, let o := monitor z ans in
  (o_fspd o = false -> in_range3 (- max_speed_read) max_speed_read (o_spd o)) /\
  (o_fgyr o = false -> in_range3 (- max_omega) max_omega (o_gyr o)) /\
  (o_ftmp o = false -> in_range (-103) 153 (o_tmp o)).
Proof. exact unflagged_in_range. Qed.
Print Assumptions C77_unflagged_in_range_partial.
Example C77_case : o_fspd (monitor 0 (answers regs0)) = false /\ o_ftmp (monitor 0 (answers regs0)) = false.
Proof. vm_compute. split; reflexivity. Qed.
(** the flags of the ramp and of both magnetometers are always raised *)
Theorem C77_flags_always_raised_refuted : forall z ans, 0 <= z < 256 -> (forall p l, ans p = Some l -> bytes l) ->
  let o := monitor z ans in o_frmp o = true /\ o_fb1 o = true /\ o_fb2 o = true.
Proof. exact flags_stuck. Qed.
Print Assumptions C77_flags_always_raised_refuted.

(** * C78 Every reading of the attitude computer can be transmitted *)

Theorem C78_inertial_readings_partial : forall f ld e1 e2 l b z, env_ok e1 -> env_ok e2 -> Forall real_ev l ->
  brun ld (box0 f) (Step e1 :: Step e2 :: l) = Some b ->
  exists a, answers (rg b) 21 = Some a /\
  let o := monitor z (answers (rg b)) in
  within_step3 65535 (- max_mag1) max_mag1 (i_b1 (r_imu (rg b))) (o_b1 o) /\
  within_step3 65535 (- max_mag2) max_mag2 (i_b2 (r_imu (rg b))) (o_b2 o) /\
  within_step3 65535 (- max_omega) max_omega (i_gyr (r_imu (rg b))) (o_gyr o) /\
  within_step 65535 (-103) 153 (i_tmp (r_imu (rg b))) (o_tmp o).
Proof. exact inertial_end. Qed.
Print Assumptions C78_inertial_readings_partial.
Example C78_case : env_ok se0 /\ (match brun true (box0 all_up) (idle 20) with Some b => match answers (rg b) 21 with Some a => Nat.eqb (length a) 20 | None => false end | None => false end) = true.
Proof.
  split; [|vm_compute; reflexivity]. split; [|split].
  - intros t w H. change (Some (0, (100, 200, 300)) = Some (t, w)) in H. injection H as H1 H2. subst t w. unfold short3, short. lia.
  - intros w H. change (Some (1, 2, 3) = Some w) in H. injection H as H1. subst w. unfold short3, short. lia.
  - intros w H. change (Some (1, 2, 3) = Some w) in H. injection H as H1. subst w. unfold short3, short. lia.
Qed.
(** a ramp reading is negative for two of the three axes, which the encoding cannot represent *)
Theorem C78_ramp_refuted : exists b, reachable true b /\ answers (rg b) 8 = None.
Proof. exact ramp_unreadable. Qed.
Print Assumptions C78_ramp_refuted.
(** a sun sensor at more than 3.3 volts *)
Theorem C78_sun_voltage_refuted : exists b, reachable true b /\ answers (rg b) 17 = None.
Proof. exact sun_unreadable. Qed.
Print Assumptions C78_sun_voltage_refuted.

(** * C79 Converter readings are two's complement *)

Theorem C79_converter_code : forall ub lb, 0 <= ub < 256 -> 0 <= lb < 256 ->
  adc_code ub lb = (let u := 16 * ub + lb / 16 in if u <? 2048 then u else u - 4096).
Proof. exact adc_code_spec. Qed.
Print Assumptions C79_converter_code.
Example C79_case : adc_code 255 240 = -1 /\ adc_code 128 0 = -2048 /\ adc_code 127 240 = 2047.
Proof. vm_compute. repeat split. Qed.

(** * C80 No command of the flight computer makes the attitude computer compute outside its number ranges *)

Theorem C80_without_speed_commands_partial : forall ld f l, Forall no_speed l -> brun ld (box0 f) l <> None.
Proof. exact no_undefined. Qed.
Print Assumptions C80_without_speed_commands_partial.
Example C80_case : Forall no_speed run_up.
Proof. apply no_speed_check. vm_compute. reflexivity. Qed.
(** a speed command still pending when the mode changes to torque is read as a torque *)
Theorem C80_speed_read_as_torque_refuted : brun true (box0 all_up) run_bad = None.
Proof. exact speed_as_torque. Qed.
Print Assumptions C80_speed_read_as_torque_refuted.

(** * C81 Each automatic attitude state commands the actuators in its own way *)

Theorem C81_actuator_commands : forall sm pt pm a, 2 <= a_state a <= 8 ->
  actuator_calls (controller_calls sm (commander pt pm a)) = state_actuation (a_state a) pt pm.
Proof. exact commander_actuation. Qed.
Print Assumptions C81_actuator_commands.
Theorem C81_computer_mode : forall sm pt pm a,
  hd_error (controller_calls sm (commander pt pm a)) = Some (SetMode (if a_state a =? st_startup then 0 else 1)).
Proof. exact commander_mode. Qed.
Print Assumptions C81_computer_mode.
Example C81_case : 2 <= a_state (mk_ac 7 1 spin spin 1 1 0 v0 max_moment 1 0 0 1 1 1 0 0 (only 4) (only 4)) <= 8 /\
  actuator_calls (controller_calls 0 (commander torque1 moment1 (mk_ac 7 1 spin spin 1 1 0 v0 max_moment 1 0 0 1 1 1 0 0 (only 4) (only 4)))) =
  [SetRwa 2 torque1; SetMtrMode 1; SetMtrCmd moment1].
Proof. split; [cbn; lia|reflexivity]. Qed.

(** * C82 A magnetometer calibration that is requested is performed *)

Theorem C82_calibrated_partial : forall ld b l b', i_m2 (r_imu (rg b)) = 1 -> pc b <> PImuPub -> pc b <> PImuM1 -> pc b <> PImuM2 ->
  Forall (avoids [19; 20]) l -> (34 <= n_steps l)%nat -> brun ld b l = Some b' ->
  exists l1 e l2 b1 b2, l = l1 ++ Step e :: l2 /\ brun ld b l1 = Some b1 /\ bstep ld e b1 = Some b2 /\
    (fn (dv b1) 2%nat = true -> cal2 (dv b2) = S (cal2 (dv b1))).
Proof. exact calibration_served. Qed.
Print Assumptions C82_calibrated_partial.
Example C82_case : pc up = PImu /\ (match brun true up (sent (SetM2 1) ++ idle 34) with Some b => Nat.eqb (cal2 (dv b)) (S (cal2 (dv up))) | None => false end) = true.
Proof. vm_compute. split; reflexivity. Qed.
(** arriving while the loop publishes its readings, the request is lost *)
Theorem C82_request_lost_refuted : exists b, reachable true b /\ fn (dv b) 2%nat = true /\
  forall l b', Forall (avoids [19; 20]) l -> brun true b (sent (SetM2 1) ++ l) = Some b' -> cal2 (dv b') = cal2 (dv b).
Proof. exact calibration_lost. Qed.
Print Assumptions C82_request_lost_refuted.

(** * C83 An actuator command is carried out within a little more than one pass *)

Theorem C83_wheel_command : forall ld b m v l b', let mx := if m =? 1 then max_speed_command else max_torque in
  m = 1 \/ m = 2 -> in_range3 (- mx) mx v -> r_mode (rg b) = 1 ->
  Forall (avoids [1; 3; 4]) l -> (43 <= n_steps l)%nat -> brun ld b (sent (SetRwa m v) ++ l) = Some b' ->
  exists w, within_step3 65535 (- mx) mx v w /\
  exists l1 e l2 b1 b2, l = l1 ++ Step e :: l2 /\ brun ld b (sent (SetRwa m v) ++ l1) = Some b1 /\ bstep ld e b1 = Some b2 /\
    rwa_actuate e m w (dv b1) = Some (dv b2).
Proof. exact wheel_call_executed. Qed.
Print Assumptions C83_wheel_command.
Theorem C83_rod_command : forall ld b v l b', in_range3 (- max_moment) max_moment v -> r_mode (rg b) = 1 ->
  Forall (avoids [1; 10; 11; 12]) l -> (44 <= n_steps l)%nat -> brun ld b (sent (SetMtrCmd v) ++ l) = Some b' ->
  exists w, within_step3 65535 (- max_moment) max_moment v w /\
  exists l1 e l2 b1 b2, l = l1 ++ Step e :: l2 /\ brun ld b (sent (SetMtrCmd v) ++ l1) = Some b1 /\ bstep ld e b1 = Some b2 /\
    dv b2 = mtr_actuate ld (m_mode (r_mtr (rg b))) w (m_lim (r_mtr (rg b))) (dv b1).
Proof. exact rod_call_executed. Qed.
Print Assumptions C83_rod_command.
Example C83_case : in_range3 (- max_torque) max_torque (V (- (1 # 1000)) (1 # 1000) (1 # 1000)) /\
  (match brun true up (sent (SetRwa 2 (V (- (1 # 1000)) (1 # 1000) (1 # 1000))) ++ idle 43) with
   | Some b => wcw (dv b) 0%nat && wcw (dv b) 1%nat && wcw (dv b) 2%nat | None => false end) = true.
Proof. split; [vm_compute; repeat split; discriminate|vm_compute; reflexivity]. Qed.
