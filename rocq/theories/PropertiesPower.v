From Verif Require Import Base FaultModel FaultHandlerModel MissionModel MissionSpec PowerModel PowerSpec PowerProofs PowerRunProofs.
From Coq Require Import QArith.
Local Open Scope Z_scope.

(** a bus that works, and a supply with the given outputs, cached outputs, commands, off switch and period *)
Definition ex_bus : genv := mk_ge true (fun _ => true) true true true true.
Definition ex_gom (out cached cyc : nat -> bool) (off : bool) (period : Z) : gom :=
  mk_g out false 1 (fun _ => 4000) cached 1 (fun _ => 4000) cached 1 (fun _ => 4000) cyc (fun _ => 4000) 1 false off period.
Definition set_heat (g : gom) : gom :=
  mk_g (p_out g) (p_heat g) (p_ppt g) (p_vb g) (k_out g) (k_ppt g) (k_vb g) (f_out g) (f_ppt g) (f_vb g)
    (c_cyc g) (c_pv g) 2 true (c_off g) (c_period g).
Definition all_on : nat -> bool := fun _ => true.
Definition only (i : nat) : nat -> bool := fun j => Nat.eqb j i.

(** * C33 *)
(** C33.  What is missing: commands lost on the bus, a period of 0, and the GPS output while its off switch is set. *)
Theorem C33_power_cycle_partial : forall i cc n g tr g', (i < 6)%nat -> 0 < c_period g < 2 ^ 32 ->
  c_cyc g i = true -> p_out g i = true -> f_out g i = true -> pcrun i cc n g tr g' ->
  ((sent i tr = [] /\ c_cyc g' i = true /\ p_out g' i = true) \/
   ((sent i tr = [false] \/ sent i tr = [false; false]) /\ c_cyc g' i = true /\ p_out g' i = false) \/
   ((sent i tr = [false; true] \/ sent i tr = [false; false; true]) /\ c_cyc g' i = false /\ p_out g' i = true)) /\
  (3 * c_period g <= n -> c_cyc g' i = false /\ p_out g' i = true).
Proof. exact power_cycle_run. Qed.
Print Assumptions C33_power_cycle_partial.

(** C33.  No other output is touched, whatever the bus does. *)
Theorem C33_others_untouched : forall cc e g g' t x v, gom_exec cc e g = Some (g', t) -> In (x, v) t ->
  (c_cyc g x = true /\ v = negb (f_out g x)) \/ (x = 0%nat /\ v = false /\ c_off g = true).
Proof. exact exec_touch. Qed.
Print Assumptions C33_others_untouched.

(** C33.  The command to switch on is lost: the output stays off and the power-cycle command is cleared. *)
Theorem C33_lost_command_refuted :
  let g := ex_gom (fun j => negb (Nat.eqb j 2)) (fun j => negb (Nat.eqb j 2)) (only 2) false 250 in
  let e := mk_ge true (fun _ => false) true true true true in
  exists g' t, gom_exec 500 e g = Some (g', t) /\ p_out g' 2%nat = false /\ c_cyc g' 2%nat = false.
Proof. cbv zeta. eexists. eexists. split; [reflexivity|]. split; reflexivity. Qed.
Print Assumptions C33_lost_command_refuted.

(** C33.  A period of 0, which the ground can write, is a division by zero. *)
Theorem C33_period_zero_refuted : forall cc e g, c_period g = 0 -> gom_exec cc e g = None.
Proof. intros cc e g H. unfold gom_exec, first_cycle, get_hk. destruct (cc =? 1), (ge_hk e); cbn; rewrite H; reflexivity. Qed.
Print Assumptions C33_period_zero_refuted.

(** output 3 is cycled: three cycles at period 1 *)
Example C33_case : exists tr g', pcrun 3 9 3 (ex_gom all_on all_on (only 3) false 1) tr g' /\ sent 3 tr = [false; false; true].
Proof.
  set (g0 := ex_gom all_on all_on (only 3) false 1).
  assert (L : forall g, elsewhere 3 g g) by (intros g; unfold elsewhere; repeat split; discriminate).
  assert (W : working ex_bus) by (repeat split).
  destruct (gom_exec (u32 (9 + (0 + 1))) ex_bus g0) as [[g1 t1]|] eqn:E1; [|vm_compute in E1; discriminate].
  pose proof (pc_S 3 9 0 g0 [] g0 g0 ex_bus g1 t1 (pc_0 3 9 g0) (L g0) W ltac:(vm_compute; discriminate) E1) as R1.
  destruct (gom_exec (u32 (9 + (0 + 1 + 1))) ex_bus g1) as [[g2 t2]|] eqn:E2; [|vm_compute in E1; injection E1 as <- <-; vm_compute in E2; discriminate].
  pose proof (pc_S 3 9 _ g0 _ g1 g1 ex_bus g2 t2 R1 (L g1) W ltac:(vm_compute; discriminate) E2) as R2.
  destruct (gom_exec (u32 (9 + (0 + 1 + 1 + 1))) ex_bus g2) as [[g3 t3]|] eqn:E3;
    [|vm_compute in E1; injection E1 as <- <-; vm_compute in E2; injection E2 as <- <-; vm_compute in E3; discriminate].
  pose proof (pc_S 3 9 _ g0 _ g2 g2 ex_bus g3 t3 R2 (L g2) W ltac:(vm_compute; discriminate) E3) as R3.
  exists ((([] ++ t1) ++ t2) ++ t3), g3. split; [exact R3|].
  vm_compute in E1. injection E1 as <- <-. vm_compute in E2. injection E2 as <- <-. vm_compute in E3. injection E3 as <- <-. reflexivity.
Qed.

(** * C34 *)
Theorem C34_converters_follow : forall d,
  dc_a (dcdc_exec d) = dc_ca (dcdc_exec d) /\ dc_s (dcdc_exec d) = dc_cs (dcdc_exec d) /\
  dc_ra (dcdc_exec d) = dc_a (dcdc_exec d) /\ dc_rs (dcdc_exec d) = dc_s (dcdc_exec d) /\ dc_dis (dcdc_exec d) = false /\
  (dc_dis d = false -> dc_rst d = false -> dc_a (dcdc_exec d) = dc_ca d /\ dc_s (dcdc_exec d) = dc_cs d).
Proof. exact dcdc_follow. Qed.
Print Assumptions C34_converters_follow.

(** C34.  What is missing: disable together with reset. *)
Theorem C34_disable_partial : forall d, dc_dis d = true -> dc_rst d = false -> dc_a (dcdc_exec d) = false /\ dc_s (dcdc_exec d) = false.
Proof. exact dcdc_disable. Qed.
Print Assumptions C34_disable_partial.

(** C34.  What is missing: a reset in a cycle in which both converters are commanded off, or disabled. *)
Theorem C34_reset_partial : forall d, dc_dis d = false -> dc_rst d = true -> dc_ca d || dc_cs d = true ->
  (dc_a (dcdc_exec d) = false /\ dc_s (dcdc_exec d) = false /\ dc_rst (dcdc_exec d) = true) /\
  (dc_a (dcdc_exec (dcdc_exec d)) = true /\ dc_s (dcdc_exec (dcdc_exec d)) = true /\ dc_rst (dcdc_exec (dcdc_exec d)) = false).
Proof. exact dcdc_reset. Qed.
Print Assumptions C34_reset_partial.

(** C34.  Disable and reset together switch both converters on; a reset with both commanded off leaves running converters on. *)
Theorem C34_disable_reset_refuted :
  (exists d, dc_dis d = true /\ dc_a (dcdc_exec d) = true /\ dc_s (dcdc_exec d) = true) /\
  (exists d, dc_dis d = false /\ dc_rst d = true /\ dc_a d = true /\ dc_a (dcdc_exec d) = true /\ dc_rst (dcdc_exec d) = false).
Proof. split; [exists (mk_dc true true true true true true true true)|exists (mk_dc true true false false false true true true)]; repeat split. Qed.
Print Assumptions C34_disable_reset_refuted.

Example C34_case : let d := mk_dc true false true false false true true false in
  dc_dis d = false /\ dc_rst d = true /\ dc_ca d || dc_cs d = true /\ dc_s (dcdc_exec (dcdc_exec d)) = true.
Proof. repeat split. Qed.

(** * C35 *)
(** C35.  What is missing: a command withdrawn while the motor turns, and reboots. *)
Theorem C35_flag_right_partial : forall angle n d, halfturn_steps angle = Some n -> dkrun angle dock_init d -> at_rest d -> flag_right n d.
Proof. exact dk_flag. Qed.
Print Assumptions C35_flag_right_partial.

Theorem C35_half_turn_ends : forall n cmd angle d d', dk_timer d = true -> dk_turning d = true -> 0 <= dk_steps d -> cmd <> dk_config d ->
  2 * dk_steps d <= Z.of_nat n -> dock_exec cmd angle (ticks n d) = Some d' -> dk_config d' = cmd /\ at_rest d' /\ dk_turning d' = false.
Proof. exact halfturn_ends. Qed.
Print Assumptions C35_half_turn_ends.

(** C35.  At the default angle: the command is withdrawn after five steps; the motor rests five steps into its turn with the
    flag still saying docking side.  A step angle of 0, which the ground can write, is undefined behaviour. *)
Theorem C35_flag_refuted :
  (exists d1 d2, dock_exec false (4 # 125) dock_init = Some d1 /\ dock_exec true (4 # 125) (ticks 9 d1) = Some d2 /\
    halfturn_steps (4 # 125) = Some 5625 /\ at_rest d2 /\ ~ flag_right 5625 d2) /\
  dock_exec false (0 # 1) dock_init = None.
Proof.
  split; [|vm_compute; reflexivity].
  destruct (dock_exec false (4 # 125) dock_init) as [d1|] eqn:E1; [|vm_compute in E1; discriminate].
  destruct (dock_exec true (4 # 125) (ticks 9 d1)) as [d2|] eqn:E2; [|vm_compute in E1; injection E1 as <-; vm_compute in E2; discriminate].
  exists d1, d2. split; [reflexivity|]. split; [exact E2|]. split; [vm_compute; reflexivity|].
  vm_compute in E1. injection E1 as <-. vm_compute in E2. injection E2 as <-. split; [split; reflexivity|].
  intros (k & P & _). cbn [dk_pos] in P. lia.
Qed.
Print Assumptions C35_flag_refuted.

(** C35.  A reboot after a half turn: the flag is set to the docking side again, the motor is on the other. *)
Theorem C35_reboot_refuted : forall n, 0 < n -> ~ flag_right n (mk_dk (dk_config dock_init) false 0 false false false n).
Proof. intros n H (k & P & C). cbn in P, C. assert (k = 1) by nia. subst k. discriminate. Qed.
Print Assumptions C35_reboot_refuted.

Example C35_case : exists d, dkrun (60 # 1) dock_init d /\ at_rest d /\ dk_config d = false /\ dk_pos d = 3.
Proof.
  destruct (dock_exec false (60 # 1) dock_init) as [d1|] eqn:E1; [|vm_compute in E1; discriminate].
  destruct (dock_exec false (60 # 1) (ticks 5 d1)) as [d2|] eqn:E2; [|vm_compute in E1; injection E1 as <-; vm_compute in E2; discriminate].
  assert (R : dkrun (60 # 1) dock_init d1) by (apply (dk_exec _ _ dock_init false d1 (dk_0 _ _)); [discriminate|exact E1]).
  exists d2. split.
  - apply (dk_exec _ _ (ticks 5 d1) false d2); [cbn [ticks]; do 5 apply dk_tick; exact R| |exact E2].
    vm_compute in E1. injection E1 as <-. intros _. discriminate.
  - vm_compute in E1. injection E1 as <-. vm_compute in E2. injection E2 as <-. repeat split.
Qed.

(** * C59 *)
Theorem C59_heater_follows : forall cc e g g' t, working e -> cc <> 1 -> gom_exec cc e g = Some (g', t) -> p_heat g' = c_heat g.
Proof. exact heater_follows. Qed.
Print Assumptions C59_heater_follows.

Example C59_case : exists g' t, gom_exec 7 ex_bus (set_heat (ex_gom all_on all_on (fun _ => false) false 250)) = Some (g', t) /\ working ex_bus /\
  p_heat g' = true.
Proof. do 2 eexists. split; [vm_compute; reflexivity|]. split; [repeat split|reflexivity]. Qed.

(** C60.  What is missing: a boot at which the supply does not answer. *)
Theorem C60_boot_partial : forall e g g' t, working e -> gom_exec 1 e g = Some (g', t) ->
  c_heat g' = p_heat g /\ p_heat g' = p_heat g /\ (forall i, (i < 3)%nat -> c_pv g' i = p_vb g i) /\ (forall i, c_cyc g' i = false).
Proof. exact boot_takes_over. Qed.
Print Assumptions C60_boot_partial.

(** C60.  The heater query fails once at boot: the error code 2 becomes the command "on", and the heater is switched on. *)
Theorem C60_boot_refuted :
  let g := ex_gom all_on all_on (fun _ => false) true 250 in
  exists g1 t1 g2 t2, gom_exec 1 (mk_ge true (fun _ => true) true true false true) g = Some (g1, t1) /\ gom_exec 2 ex_bus g1 = Some (g2, t2) /\
    p_heat g = false /\ c_heat g = false /\ p_heat g2 = true.
Proof.
  cbv zeta. set (g := ex_gom all_on all_on (fun _ => false) true 250).
  destruct (gom_exec 1 (mk_ge true (fun _ => true) true true false true) g) as [[g1 t1]|] eqn:E1; [|vm_compute in E1; discriminate].
  destruct (gom_exec 2 ex_bus g1) as [[g2 t2]|] eqn:E2; [|vm_compute in E1; injection E1 as <- <-; vm_compute in E2; discriminate].
  exists g1, t1, g2, t2. split; [reflexivity|]. split; [exact E2|]. split; [reflexivity|]. split; [reflexivity|].
  vm_compute in E1. injection E1 as <- <-. vm_compute in E2. injection E2 as <- <-. reflexivity.
Qed.
Print Assumptions C60_boot_refuted.

(** * C61 *)
Theorem C61_tracker_mode_follows : forall cc1 e1 g g1 t1 cc2 e2 g1' g2 t2, working e1 -> working e2 -> cc1 <> 1 -> cc2 <> 1 -> c_ppt g <= 2 ->
  gom_exec cc1 e1 g = Some (g1, t1) -> p_ppt g1' = p_ppt g1 -> f_ppt g1' = f_ppt g1 -> c_ppt g1' = c_ppt g1 ->
  gom_exec cc2 e2 g1' = Some (g2, t2) -> p_ppt g2 = c_ppt g.
Proof. exact tracker_follows. Qed.
Print Assumptions C61_tracker_mode_follows.

(** the mode goes from 1 to 2 *)
Example C61_case : let g := set_heat (ex_gom all_on all_on (fun _ => false) false 250) in p_ppt g = 1 /\ c_ppt g <= 2 /\
  exists g1 t1 g2 t2, gom_exec 7 ex_bus g = Some (g1, t1) /\ gom_exec 8 ex_bus g1 = Some (g2, t2).
Proof.
  cbv zeta. set (g := set_heat (ex_gom all_on all_on (fun _ => false) false 250)). split; [reflexivity|]. split; [cbn; lia|].
  destruct (gom_exec 7 ex_bus g) as [[g1 t1]|] eqn:E1; [|vm_compute in E1; discriminate].
  destruct (gom_exec 8 ex_bus g1) as [[g2 t2]|] eqn:E2; [|vm_compute in E1; injection E1 as <- <-; vm_compute in E2; discriminate].
  exists g1, t1, g2, t2. auto.
Qed.

(** * C62 *)
(** C62.  What is missing: every value whose two bytes differ. *)
Theorem C62_voltage_partial : forall cc e g g' t i b, working e -> cc <> 1 -> gom_exec cc e g = Some (g', t) -> f_ppt g = 2 -> (i < 3)%nat ->
  f_vb g i <> c_pv g i -> 0 <= b < 256 -> c_pv g i = 257 * b -> p_vb g' i = c_pv g i.
Proof.
  intros cc e g g' t i b W N X F Hi D Hb E. rewrite (voltage_sent cc e g g' t i W N X F Hi D), E. unfold bswap16. lia.
Qed.
Print Assumptions C62_voltage_partial.

(** C62.  For every other value the supply is given a different voltage than the one commanded. *)
Theorem C62_voltage_refuted : forall cc e g g' t i, working e -> cc <> 1 -> gom_exec cc e g = Some (g', t) -> f_ppt g = 2 -> (i < 3)%nat ->
  f_vb g i <> c_pv g i -> 0 <= c_pv g i < 2 ^ 16 -> c_pv g i mod 256 <> c_pv g i / 256 -> p_vb g' i <> c_pv g i.
Proof.
  intros cc e g g' t i W N X F Hi D R E. rewrite (voltage_sent cc e g g' t i W N X F Hi D). unfold bswap16. lia.
Qed.
Print Assumptions C62_voltage_refuted.

(** the default command, 4000 mV, reaches the supply as 40975 *)
Example C62_case : bswap16 4000 = 40975 /\
  let g := mk_g all_on false 2 (fun _ => 3700) all_on 2 (fun _ => 3700) all_on 2 (fun _ => 3700) (fun _ => false) (fun _ => 4000) 2 false false 250 in
  exists g' t, gom_exec 7 ex_bus g = Some (g', t) /\ f_ppt g = 2 /\ f_vb g 1%nat <> c_pv g 1%nat /\ p_vb g' 1%nat = 40975.
Proof. split; [reflexivity|]. cbv zeta. do 2 eexists. split; [reflexivity|]. split; [reflexivity|]. split; [discriminate|reflexivity]. Qed.

(** * C63 *)
Theorem C63_receiver_kept_off : forall cc e g g' t, gom_exec cc e g = Some (g', t) -> c_off g = true -> ge_out e 0%nat = true -> p_out g' 0%nat = false.
Proof. exact exec_off. Qed.
Print Assumptions C63_receiver_kept_off.

Theorem C63_released_after_deployment : forall i w w', wmission w = m_startup -> deployment_wait_batch_thresh <= mm_elapsed (wm w) ->
  mission_execute i w = Some w' -> mm_piksi_off (wm w') = false /\ mm_piksi_pc (wm w') = true.
Proof. exact startup_frees. Qed.
Print Assumptions C63_released_after_deployment.

(** C63.  What is missing: reboots that do not go through startup. *)
Theorem C63_powered_partial : forall i cc n g tr g', (i < 6)%nat -> 0 < c_period g < 2 ^ 32 ->
  c_cyc g i = true -> p_out g i = false -> f_out g i = false -> pcrun i cc n g tr g' ->
  ((sent i tr = [] /\ c_cyc g' i = true /\ p_out g' i = false) \/ (sent i tr = [true] /\ c_cyc g' i = false /\ p_out g' i = true)) /\
  (c_period g <= n -> p_out g' i = true).
Proof. exact power_on_run. Qed.
Print Assumptions C63_powered_partial.

(** C63.  A boot whose mission state is restored as docking or docked never releases the receiver, whatever happens short of
    a ground command. *)
Theorem C63_reboot_docked_refuted : forall w w', gps_history w w' -> wmission w = m_docking \/ wmission w = m_docked ->
  mm_piksi_off (wm w) = true -> mm_piksi_off (wm w') = true.
Proof.
  intros w w' H D O. destruct (gps_stays_off w w' H) as [_ E]; [|congruence]. destruct D as [-> | ->]; discriminate.
Qed.
Print Assumptions C63_reboot_docked_refuted.

Example C63_case : exists g' t, gom_exec 250 ex_bus (ex_gom (fun _ => false) (fun _ => false) (only 0) false 250) = Some (g', t) /\
  p_out g' 0%nat = true /\ c_cyc g' 0%nat = false.
Proof. do 2 eexists. split; [reflexivity|]. split; reflexivity. Qed.

(** the mission manager's side: a boot into docked with the receiver held off, and the end of the deployment wait *)
Definition ex_world (s elapsed : Z) : world :=
  mk_world (mk_h 50 (mk_bus s 1 0 false 0 20 0 0) (fun _ => fault_make 100) (mk_q 0 0 true) (mk_k true one_day 100 0) (mk_v 20 0 false) true)
    (mk_m a_startup d_undecided false false true 0 one_day elapsed true false true false 0 0 false).
Example C63_docked_case : exists w', mission_execute (mk_in true true true true true true) (ex_world m_docked 255) = Some w' /\ mm_piksi_off (wm w') = true.
Proof. eexists. split; [vm_compute; reflexivity|reflexivity]. Qed.
Example C63_deployed_case : deployment_wait_batch_thresh <= mm_elapsed (wm (ex_world m_startup 255)) /\
  exists w', mission_execute (mk_in true true true true true true) (ex_world m_startup 255) = Some w' /\ mm_piksi_off (wm w') = false.
Proof. split; [vm_compute; discriminate|]. eexists. split; [vm_compute; reflexivity|reflexivity]. Qed.
