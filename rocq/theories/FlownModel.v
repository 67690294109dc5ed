(** The telemetry table that flies: /repo/src/flow_data.cpp, with the serializer each of its fields is declared with, and the
    downlink producer (DownlinkModel) over it.  The two lists are transcribed by a script from flow_data.cpp and from the
    constructors of the control tasks; each entry cites the line. *)
From Coq Require Import String.
From Coq Require Import List.
From Verif Require Import Base BitArrayModel IntSerModel GPSTimeModel VecSerModel DownlinkModel.
Open Scope string_scope.
Open Scope Z_scope.

(** How a field is declared.  [DInt t mn mx c]: Serializer<t>(mn, mx[, c]); [DFlt b]: Serializer<float or double>(mn, mx, b);
    [DVec mn mx s p]: Serializer of a 3-vector of lengths mn/s to mx/s with [p] extra bits; [DQuat]: Serializer of a unit
    4-vector; [DGps]: Serializer<gps_time_t>. *)
Inductive fdecl := DBool | DInt (t : ity) (mn mx : Z) (c : option nat) | DFlt (bits : nat)
                 | DVec (mn mx scale : Z) (p : nat) | DQuat | DGps.

(** The size of the two angles of a vector, SerializerTypes.inl:403-406, for bounds mn/s and mx/s (the unit cancels). *)
Definition angle_bits (mn mx : Z) (p : nat) : nat := Z.to_nat (Z.log2_up (- (- (3 * mx) / (mx - mn))) + Z.of_nat p).

(** The size of the bit array, from the constructors: SerializerTypes.inl:20 (bool), 68-78 (integers), 765-777 (times),
    217-222 (floats: as given), 395-433 (vectors), 527-545 (quaternions). *)
Definition width (d : fdecl) : option nat :=
  match d with
  | DBool => Some 1%nat
  | DInt t mn mx None => option_map (fun s => List.length (is_bits s)) (iser_make_auto t mn mx)
  | DInt t mn mx (Some c) => Some (List.length (is_bits (iser_make t mn mx c)))
  | DFlt b => Some b
  | DVec mn mx _ p => Some (1 + vb1 p + 2 * angle_bits mn mx p)%nat
  | DQuat => Some (2 + 3 * quat_component_sz)%nat
  | DGps => option_map (fun s => List.length (gs_bits s)) gser_make
  end.

(** The readable fields that the table names, as registered by the control tasks (paths under /repo/src/fsw/FCCode). *)
Definition registry : list (string * fdecl) := [
  ("pan.state", DInt UChar 0 12 None);  (* MissionManager.cpp:37 *)
  ("pan.deployed", DBool);  (* MissionManager.cpp:38 *)
  ("pan.sat_designation", DInt UChar 0 2 None);  (* MissionManager.cpp:40 *)
  ("pan.bootcount", DInt UChar 0 255 None);  (* FieldCreatorTask.hpp:26 *)
  ("pan.deployment.elapsed", DInt UChar 0 255 None);  (* MissionManager.cpp:39 *)
  ("pan.cycle_no", DInt UInt 0 4294967295 None);  (* ClockManager.cpp:8 *)
  ("time.valid", DBool);  (* Estimators/TimeEstimator.cpp:16 *)
  ("orbit.valid", DBool);  (* Estimators/OrbitEstimator.cpp:36 *)
  ("cursed", DBool);  (* FieldCreatorTask.hpp:27 *)
  ("time.gps", DGps);  (* Estimators/TimeEstimator.cpp:17 *)
  ("orbit.pos", DVec 6771000 6921000 1 28);  (* Estimators/OrbitEstimator.cpp:37 *)
  ("orbit.vel", DVec 7160 7360 1 20);  (* Estimators/OrbitEstimator.cpp:39 *)
  ("attitude_estimator.valid", DBool);  (* Estimators/AttitudeEstimator.cpp:36 *)
  ("attitude_estimator.ignore_sun_vectors", DBool);  (* Estimators/AttitudeEstimator.cpp:45 *)
  ("attitude_estimator.q_body_eci", DQuat);  (* Estimators/AttitudeEstimator.cpp:37 *)
  ("attitude_estimator.L_body", DVec 0 1 10 14);  (* Estimators/AttitudeEstimator.cpp:42 *)
  ("rel_orbit.state", DInt UChar 0 2 None);  (* Estimators/RelativeOrbitEstimator.cpp:60 *)
  ("orbit.pos_sigma", DVec 0 100 1 12);  (* Estimators/OrbitEstimator.cpp:38 *)
  ("orbit.vel_sigma", DVec 0 50 1 12);  (* Estimators/OrbitEstimator.cpp:40 *)
  ("rel_orbit.pos", DVec 6771000 6921000 1 28);  (* Estimators/RelativeOrbitEstimator.cpp:61 *)
  ("rel_orbit.vel", DVec 7160 7360 1 20);  (* Estimators/RelativeOrbitEstimator.cpp:62 *)
  ("rel_orbit.rel_pos", DVec 0 2000 1 22);  (* Estimators/RelativeOrbitEstimator.cpp:63 *)
  ("rel_orbit.rel_vel", DVec 0 11 1 14);  (* Estimators/RelativeOrbitEstimator.cpp:65 *)
  ("rel_orbit.rel_pos_sigma", DVec 0 10 1 12);  (* Estimators/RelativeOrbitEstimator.cpp:64 *)
  ("rel_orbit.rel_vel_sigma", DVec 0 1 1 12);  (* Estimators/RelativeOrbitEstimator.cpp:66 *)
  ("attitude_estimator.w_bias_body", DVec 0 35 100 14);  (* Estimators/AttitudeEstimator.cpp:40 *)
  ("attitude_estimator.p_body_eci_sigma_f", DVec 0 5 10 14);  (* Estimators/AttitudeEstimator.cpp:38 *)
  ("attitude_estimator.w_bias_sigma_body", DVec 0 1 10 14);  (* Estimators/AttitudeEstimator.cpp:41 *)
  ("attitude_estimator.mag_flag", DBool);  (* Estimators/AttitudeEstimator.cpp:44 *)
  ("attitude_estimator.b_valid", DBool);  (* Estimators/AttitudeEstimator.cpp:34 *)
  ("attitude_estimator.b_body", DVec 0 1 10000 12);  (* Estimators/AttitudeEstimator.cpp:35 *)
  ("adcs_monitor.functional_fault.base", DBool);  (* ADCSBoxMonitor.cpp:60 (add_fault registers the fault under this name) *)
  ("piksi_fh.dead.base", DBool);  (* PiksiFaultHandler.cpp:15 (add_fault registers the fault under this name) *)
  ("adcs_monitor.wheel1_fault.base", DBool);  (* ADCSBoxMonitor.cpp:61 (add_fault registers the fault under this name) *)
  ("adcs_monitor.wheel2_fault.base", DBool);  (* ADCSBoxMonitor.cpp:62 (add_fault registers the fault under this name) *)
  ("adcs_monitor.wheel3_fault.base", DBool);  (* ADCSBoxMonitor.cpp:63 (add_fault registers the fault under this name) *)
  ("adcs_monitor.wheel_pot_fault.base", DBool);  (* ADCSBoxMonitor.cpp:64 (add_fault registers the fault under this name) *)
  ("prop.overpressured.base", DBool);  (* PropController.cpp:39 (add_fault registers the fault under this name) *)
  ("prop.pressurize_fail.base", DBool);  (* PropController.cpp:38 (add_fault registers the fault under this name) *)
  ("prop.tank2_temp_high.base", DBool);  (* PropController.cpp:40 (add_fault registers the fault under this name) *)
  ("prop.tank1_temp_high.base", DBool);  (* PropController.cpp:41 (add_fault registers the fault under this name) *)
  ("gomspace.low_batt.base", DBool);  (* GomspaceController.cpp:10 (add_fault registers the fault under this name) *)
  ("gomspace.get_hk.base", DBool);  (* GomspaceController.cpp:9 (add_fault registers the fault under this name) *)
  ("attitude_estimator.fault.base", DBool);  (* Estimators/AttitudeEstimator.cpp:46 (add_fault registers the fault under this name) *)
  ("gomspace.vbatt", DInt UInt 5000 9500 (Some 10%nat));  (* GomspaceController.cpp:21 *)
  ("gomspace.cursun", DInt UInt 0 3000 (Some 10%nat));  (* GomspaceController.cpp:29 *)
  ("gomspace.cursys", DInt UInt 0 12000 (Some 10%nat));  (* GomspaceController.cpp:32 *)
  ("gomspace.temp.output1", DInt SInt (-40) 125 None);  (* GomspaceController.cpp:60 *)
  ("gomspace.temp.output2", DInt SInt (-40) 125 None);  (* GomspaceController.cpp:61 *)
  ("gomspace.temp.output3", DInt SInt (-40) 125 None);  (* GomspaceController.cpp:62 *)
  ("gomspace.temp.output4", DInt SInt (-40) 125 None);  (* GomspaceController.cpp:63 *)
  ("gomspace.vboost.output1", DInt UInt 0 8500 (Some 6%nat));  (* GomspaceController.cpp:16 *)
  ("gomspace.vboost.output2", DInt UInt 0 8500 (Some 6%nat));  (* GomspaceController.cpp:17 *)
  ("gomspace.vboost.output3", DInt UInt 0 8500 (Some 6%nat));  (* GomspaceController.cpp:18 *)
  ("gomspace.curin.output1", DInt UInt 0 6000 (Some 10%nat));  (* GomspaceController.cpp:24 *)
  ("gomspace.curin.output2", DInt UInt 0 6000 (Some 10%nat));  (* GomspaceController.cpp:25 *)
  ("gomspace.curin.output3", DInt UInt 0 6000 (Some 10%nat));  (* GomspaceController.cpp:26 *)
  ("gomspace.curout.output1", DInt UInt 0 12000 (Some 10%nat));  (* GomspaceController.cpp:35 *)
  ("gomspace.curout.output2", DInt UInt 0 12000 (Some 10%nat));  (* GomspaceController.cpp:36 *)
  ("gomspace.curout.output3", DInt UInt 0 12000 (Some 10%nat));  (* GomspaceController.cpp:37 *)
  ("gomspace.curout.output4", DInt UInt 0 12000 (Some 10%nat));  (* GomspaceController.cpp:38 *)
  ("gomspace.curout.output5", DInt UInt 0 12000 (Some 10%nat));  (* GomspaceController.cpp:39 *)
  ("gomspace.curout.output6", DInt UInt 0 12000 (Some 10%nat));  (* GomspaceController.cpp:40 *)
  ("gomspace.output.output1", DBool);  (* GomspaceController.cpp:43 *)
  ("gomspace.output.output2", DBool);  (* GomspaceController.cpp:44 *)
  ("gomspace.output.output3", DBool);  (* GomspaceController.cpp:45 *)
  ("gomspace.output.output4", DBool);  (* GomspaceController.cpp:46 *)
  ("gomspace.output.output5", DBool);  (* GomspaceController.cpp:47 *)
  ("gomspace.output.output6", DBool);  (* GomspaceController.cpp:48 *)
  ("gomspace.counter_boot", DInt UInt 0 4294967295 None);  (* GomspaceController.cpp:57 *)
  ("gomspace.bootcause", DInt UChar 0 8 None);  (* GomspaceController.cpp:66 *)
  ("gomspace.battmode", DInt UChar 0 4 None);  (* GomspaceController.cpp:69 *)
  ("gomspace.pptmode", DInt UChar 1 2 None);  (* GomspaceController.cpp:72 *)
  ("gomspace.power_cycle_output1_cmd", DBool);  (* GomspaceController.cpp:81 *)
  ("gomspace.power_cycle_output2_cmd", DBool);  (* GomspaceController.cpp:82 *)
  ("gomspace.power_cycle_output3_cmd", DBool);  (* GomspaceController.cpp:83 *)
  ("gomspace.power_cycle_output4_cmd", DBool);  (* GomspaceController.cpp:84 *)
  ("gomspace.power_cycle_output5_cmd", DBool);  (* GomspaceController.cpp:85 *)
  ("gomspace.power_cycle_output6_cmd", DBool);  (* GomspaceController.cpp:86 *)
  ("gomspace.piksi_off", DBool);  (* GomspaceController.cpp:109 *)
  ("adcs.state", DInt UChar 0 10 None);  (* MissionManager.cpp:27 *)
  ("prop.state", DInt UInt 0 9 None);  (* PropController.cpp:14 *)
  ("radio.state", DInt UChar 0 255 None);  (* QuakeManager.cpp:37 *)
  ("piksi.state", DInt UChar 0 14 None);  (* PiksiControlTask.cpp:14 *)
  ("qfh.state", DInt UChar 0 5 None);  (* QuakeFaultHandler.cpp:8 *)
  ("adcs_monitor.havt_device0", DBool);  (* ADCSBoxMonitor.cpp:79-85 *)
  ("adcs_monitor.havt_device1", DBool);  (* ADCSBoxMonitor.cpp:79-85 *)
  ("adcs_monitor.havt_device2", DBool);  (* ADCSBoxMonitor.cpp:79-85 *)
  ("adcs_monitor.havt_device3", DBool);  (* ADCSBoxMonitor.cpp:79-85 *)
  ("adcs_monitor.havt_device4", DBool);  (* ADCSBoxMonitor.cpp:79-85 *)
  ("adcs_monitor.havt_device5", DBool);  (* ADCSBoxMonitor.cpp:79-85 *)
  ("adcs_monitor.havt_device6", DBool);  (* ADCSBoxMonitor.cpp:79-85 *)
  ("adcs_monitor.havt_device7", DBool);  (* ADCSBoxMonitor.cpp:79-85 *)
  ("adcs_monitor.havt_device8", DBool);  (* ADCSBoxMonitor.cpp:79-85 *)
  ("adcs_monitor.havt_device9", DBool);  (* ADCSBoxMonitor.cpp:79-85 *)
  ("adcs_monitor.havt_device10", DBool);  (* ADCSBoxMonitor.cpp:79-85 *)
  ("adcs_monitor.havt_device11", DBool);  (* ADCSBoxMonitor.cpp:79-85 *)
  ("adcs_monitor.havt_device12", DBool);  (* ADCSBoxMonitor.cpp:79-85 *)
  ("adcs_monitor.havt_device13", DBool);  (* ADCSBoxMonitor.cpp:79-85 *)
  ("adcs_monitor.havt_device14", DBool);  (* ADCSBoxMonitor.cpp:79-85 *)
  ("adcs_monitor.havt_device15", DBool);  (* ADCSBoxMonitor.cpp:79-85 *)
  ("adcs_monitor.havt_device16", DBool);  (* ADCSBoxMonitor.cpp:79-85 *)
  ("adcs_monitor.havt_device17", DBool);  (* ADCSBoxMonitor.cpp:79-85 *)
  ("adcs_monitor.rwa_speed_rd.x", DFlt 12);  (* ADCSBoxMonitor.cpp:13 *)
  ("adcs_monitor.rwa_speed_rd.y", DFlt 12);  (* ADCSBoxMonitor.cpp:14 *)
  ("adcs_monitor.rwa_speed_rd.z", DFlt 12);  (* ADCSBoxMonitor.cpp:15 *)
  ("adcs_monitor.rwa_torque_rd.x", DFlt 12);  (* ADCSBoxMonitor.cpp:19 *)
  ("adcs_monitor.rwa_torque_rd.y", DFlt 12);  (* ADCSBoxMonitor.cpp:20 *)
  ("adcs_monitor.rwa_torque_rd.z", DFlt 12);  (* ADCSBoxMonitor.cpp:21 *)
  ("adcs_monitor.ssa_mode", DInt UChar 0 2 None);  (* ADCSBoxMonitor.cpp:24 *)
  ("prop.tank1.valve_choice", DInt UInt 0 1 None);  (* PropController.cpp:30 *)
  ("prop.tank2.pressure", DFlt 8);  (* PropController.cpp:31 *)
  ("prop.tank2.temp", DFlt 8);  (* PropController.cpp:33 *)
  ("prop.tank1.temp", DFlt 8);  (* PropController.cpp:34 *)
  ("prop.num_prop_firings", DInt UInt 0 4294967295 None);  (* PropController.cpp:35 *)
  ("attitude.pointer_vec1_current", DVec 9999 10001 10000 0);  (* AttitudeController.cpp:36 *)
  ("attitude.pointer_vec1_desired", DVec 9999 10001 10000 0);  (* AttitudeController.cpp:38 *)
  ("attitude.pointer_vec2_current", DVec 9999 10001 10000 0);  (* AttitudeController.cpp:37 *)
  ("attitude.pointer_vec2_desired", DVec 9999 10001 10000 0);  (* AttitudeController.cpp:39 *)
  ("radio.err", DInt SInt (-90) 10 None);  (* QuakeManager.cpp:34 *)
  ("radio.last_comms_ccno", DInt UInt 0 4294967295 None);  (* QuakeManager.cpp:38 *)
  ("adcs_monitor.mag1_vec.x", DFlt 16);  (* ADCSBoxMonitor.cpp:31 *)
  ("adcs_monitor.mag1_vec.y", DFlt 16);  (* ADCSBoxMonitor.cpp:32 *)
  ("adcs_monitor.mag1_vec.z", DFlt 16);  (* ADCSBoxMonitor.cpp:33 *)
  ("adcs_monitor.mag2_vec.x", DFlt 16);  (* ADCSBoxMonitor.cpp:38 *)
  ("adcs_monitor.mag2_vec.y", DFlt 16);  (* ADCSBoxMonitor.cpp:39 *)
  ("adcs_monitor.mag2_vec.z", DFlt 16);  (* ADCSBoxMonitor.cpp:40 *)
  ("adcs_monitor.gyr_vec.x", DFlt 16);  (* ADCSBoxMonitor.cpp:44 *)
  ("adcs_monitor.gyr_vec.y", DFlt 16);  (* ADCSBoxMonitor.cpp:45 *)
  ("adcs_monitor.gyr_vec.z", DFlt 16);  (* ADCSBoxMonitor.cpp:46 *)
  ("adcs_monitor.ssa_vec", DVec 9999 10001 10000 0);  (* ADCSBoxMonitor.cpp:25 *)
  ("adcs_monitor.speed_rd_flag", DBool);  (* ADCSBoxMonitor.cpp:52 *)
  ("adcs_monitor.torque_rd_flag", DBool);  (* ADCSBoxMonitor.cpp:53 *)
  ("adcs_monitor.mag1_vec_flag", DBool);  (* ADCSBoxMonitor.cpp:54 *)
  ("adcs_monitor.mag2_vec_flag", DBool);  (* ADCSBoxMonitor.cpp:55 *)
  ("adcs_monitor.gyr_vec_flag", DBool);  (* ADCSBoxMonitor.cpp:56 *)
  ("adcs_monitor.gyr_temp_flag", DBool);  (* ADCSBoxMonitor.cpp:57 *)
  ("piksi.pos", DVec 6771000 6921000 1 28);  (* PiksiControlTask.cpp:11 *)
  ("piksi.vel", DVec 7570 7685 1 19);  (* PiksiControlTask.cpp:12 *)
  ("piksi.baseline_pos", DVec 0 2000 1 22);  (* PiksiControlTask.cpp:13 *)
  ("piksi.fix_error_count", DInt UInt 0 1001 None);  (* PiksiControlTask.cpp:15 *)
  ("piksi.time", DGps);  (* PiksiControlTask.cpp:16 *)
  ("piksi.microdelta", DInt UInt 0 4294967295 None);  (* PiksiControlTask.cpp:17 *)
  ("dcdc.SpikeDock", DBool);  (* DCDCController.cpp:11 *)
  ("dcdc.ADCSMotor", DBool);  (* DCDCController.cpp:10 *)
  ("adcs_monitor.ssa_voltage0", DFlt 8);  (* ADCSBoxMonitor.cpp:26, 70-75 *)
  ("adcs_monitor.ssa_voltage1", DFlt 8);  (* ADCSBoxMonitor.cpp:26, 70-75 *)
  ("adcs_monitor.ssa_voltage2", DFlt 8);  (* ADCSBoxMonitor.cpp:26, 70-75 *)
  ("adcs_monitor.ssa_voltage3", DFlt 8);  (* ADCSBoxMonitor.cpp:26, 70-75 *)
  ("adcs_monitor.ssa_voltage4", DFlt 8);  (* ADCSBoxMonitor.cpp:26, 70-75 *)
  ("adcs_monitor.ssa_voltage5", DFlt 8);  (* ADCSBoxMonitor.cpp:26, 70-75 *)
  ("adcs_monitor.ssa_voltage6", DFlt 8);  (* ADCSBoxMonitor.cpp:26, 70-75 *)
  ("adcs_monitor.ssa_voltage7", DFlt 8);  (* ADCSBoxMonitor.cpp:26, 70-75 *)
  ("adcs_monitor.ssa_voltage8", DFlt 8);  (* ADCSBoxMonitor.cpp:26, 70-75 *)
  ("adcs_monitor.ssa_voltage9", DFlt 8);  (* ADCSBoxMonitor.cpp:26, 70-75 *)
  ("adcs_monitor.ssa_voltage10", DFlt 8);  (* ADCSBoxMonitor.cpp:26, 70-75 *)
  ("adcs_monitor.ssa_voltage11", DFlt 8);  (* ADCSBoxMonitor.cpp:26, 70-75 *)
  ("adcs_monitor.ssa_voltage12", DFlt 8);  (* ADCSBoxMonitor.cpp:26, 70-75 *)
  ("adcs_monitor.ssa_voltage13", DFlt 8);  (* ADCSBoxMonitor.cpp:26, 70-75 *)
  ("adcs_monitor.ssa_voltage14", DFlt 8);  (* ADCSBoxMonitor.cpp:26, 70-75 *)
  ("adcs_monitor.ssa_voltage15", DFlt 8);  (* ADCSBoxMonitor.cpp:26, 70-75 *)
  ("adcs_monitor.ssa_voltage16", DFlt 8);  (* ADCSBoxMonitor.cpp:26, 70-75 *)
  ("adcs_monitor.ssa_voltage17", DFlt 8);  (* ADCSBoxMonitor.cpp:26, 70-75 *)
  ("adcs_monitor.ssa_voltage18", DFlt 8);  (* ADCSBoxMonitor.cpp:26, 70-75 *)
  ("adcs_monitor.ssa_voltage19", DFlt 8);  (* ADCSBoxMonitor.cpp:26, 70-75 *)
  ("docksys.docked", DBool);  (* DockingController.cpp:8 *)
  ("orbit.control.valve1", DInt UInt 0 1000 None);  (* OrbitController.cpp:28 *)
  ("orbit.control.valve2", DInt UInt 0 1000 None);  (* OrbitController.cpp:29 *)
  ("orbit.control.valve3", DInt UInt 0 1000 None);  (* OrbitController.cpp:30 *)
  ("orbit.control.valve4", DInt UInt 0 1000 None);  (* OrbitController.cpp:31 *)
  ("orbit.control.J_ecef", DVec 0 25 1000 10);  (* OrbitController.cpp:32 *)
  ("orbit.control.alpha", DFlt 10);  (* OrbitController.cpp:33 *)
  ("orbit.control.num_near_field_nodes", DInt UInt 0 300 None);  (* OrbitController.cpp:34 *)
  ("prop.cycles_until_firing", DInt UInt 0 33882 None);  (* PropController.cpp:15 *)
  ("prop.sched_intertank1", DInt UInt 0 2000 None);  (* PropController.cpp:20 *)
  ("prop.sched_intertank2", DInt UInt 0 2000 None);  (* PropController.cpp:21 *)
  ("adcs_cmd.rwa_speed_cmd", DVec (-680678) 680678 1000 48);  (* ADCSCommander.cpp:15 *)
  ("adcs_cmd.rwa_torque_cmd", DVec (-418750020) 418750020 100000000000 48);  (* ADCSCommander.cpp:17 *)
  ("adcs_cmd.mtr_cmd", DVec (-113337) 113337 2000000 48);  (* ADCSCommander.cpp:22 *)
  ("timing.adcs_commander.avg_wait", DFlt 18);  (* ADCSCommander.cpp:12, TimedControlTask.hpp:176 *)
  ("timing.adcs_commander.num_lates", DInt UInt 0 4294967295 None);  (* ADCSCommander.cpp:12, TimedControlTask.hpp:174 *)
  ("timing.adcs_controller.avg_wait", DFlt 18);  (* ADCSBoxController.cpp:8, TimedControlTask.hpp:176 *)
  ("timing.adcs_controller.num_lates", DInt UInt 0 4294967295 None);  (* ADCSBoxController.cpp:8, TimedControlTask.hpp:174 *)
  ("timing.estimators.avg_wait", DFlt 18);  (* Estimators.cpp:4, TimedControlTask.hpp:176 *)
  ("timing.estimators.num_lates", DInt UInt 0 4294967295 None);  (* Estimators.cpp:4, TimedControlTask.hpp:174 *)
  ("timing.adcs_monitor.avg_wait", DFlt 18);  (* ADCSBoxMonitor.cpp:8, TimedControlTask.hpp:176 *)
  ("timing.adcs_monitor.num_lates", DInt UInt 0 4294967295 None);  (* ADCSBoxMonitor.cpp:8, TimedControlTask.hpp:174 *)
  ("timing.attitude_controller.avg_wait", DFlt 18);  (* AttitudeController.cpp:20, TimedControlTask.hpp:176 *)
  ("timing.attitude_controller.num_lates", DInt UInt 0 4294967295 None);  (* AttitudeController.cpp:20, TimedControlTask.hpp:174 *)
  ("timing.clock_ct.avg_wait", DFlt 18);  (* ClockManager.cpp:6, TimedControlTask.hpp:176 *)
  ("timing.clock_ct.num_lates", DInt UInt 0 4294967295 None);  (* ClockManager.cpp:6, TimedControlTask.hpp:174 *)
  ("timing.dcdc_ct.avg_wait", DFlt 18);  (* DCDCController.cpp:5, TimedControlTask.hpp:176 *)
  ("timing.dcdc_ct.num_lates", DInt UInt 0 4294967295 None);  (* DCDCController.cpp:5, TimedControlTask.hpp:174 *)
  ("timing.debug.avg_wait", DFlt 18);  (* DebugTask.cpp:4, TimedControlTask.hpp:176 *)
  ("timing.debug.num_lates", DInt UInt 0 4294967295 None);  (* DebugTask.cpp:4, TimedControlTask.hpp:174 *)
  ("timing.docking_ct.avg_wait", DFlt 18);  (* DockingController.cpp:5, TimedControlTask.hpp:176 *)
  ("timing.docking_ct.num_lates", DInt UInt 0 4294967295 None);  (* DockingController.cpp:5, TimedControlTask.hpp:174 *)
  ("timing.downlink_ct.avg_wait", DFlt 18);  (* DownlinkProducer.cpp:5, TimedControlTask.hpp:176 *)
  ("timing.downlink_ct.num_lates", DInt UInt 0 4294967295 None);  (* DownlinkProducer.cpp:5, TimedControlTask.hpp:174 *)
  ("timing.eeprom_ct.avg_wait", DFlt 18);  (* EEPROMControllerTeensy.cpp:8, TimedControlTask.hpp:176 *)
  ("timing.eeprom_ct.num_lates", DInt UInt 0 4294967295 None);  (* EEPROMControllerTeensy.cpp:8, TimedControlTask.hpp:174 *)
  ("timing.gomspace_rd.avg_wait", DFlt 18);  (* GomspaceController.cpp:5, TimedControlTask.hpp:176 *)
  ("timing.gomspace_rd.num_lates", DInt UInt 0 4294967295 None);  (* GomspaceController.cpp:5, TimedControlTask.hpp:174 *)
  ("timing.mission_ct.avg_wait", DFlt 18);  (* MissionManager.cpp:20, TimedControlTask.hpp:176 *)
  ("timing.mission_ct.num_lates", DInt UInt 0 4294967295 None);  (* MissionManager.cpp:20, TimedControlTask.hpp:174 *)
  ("timing.piksi.avg_wait", DFlt 18);  (* PiksiControlTask.cpp:9, TimedControlTask.hpp:176 *)
  ("timing.piksi.num_lates", DInt UInt 0 4294967295 None);  (* PiksiControlTask.cpp:9, TimedControlTask.hpp:174 *)
  ("timing.quake.avg_wait", DFlt 18);  (* QuakeManager.cpp:31, TimedControlTask.hpp:176 *)
  ("timing.quake.num_lates", DInt UInt 0 4294967295 None);  (* QuakeManager.cpp:31, TimedControlTask.hpp:174 *)
  ("timing.uplink_ct.avg_wait", DFlt 18);  (* UplinkConsumer.cpp:5, TimedControlTask.hpp:176 *)
  ("timing.uplink_ct.num_lates", DInt UInt 0 4294967295 None);  (* UplinkConsumer.cpp:5, TimedControlTask.hpp:174 *)
  ("dcdc.ADCSMotor_cmd", DBool);  (* DCDCController.cpp:6 *)
  ("dcdc.SpikeDock_cmd", DBool);  (* DCDCController.cpp:7 *)
  ("dcdc.disable_cmd", DBool);  (* DCDCController.cpp:8 *)
  ("dcdc.reset_cmd", DBool);  (* DCDCController.cpp:9 *)
  ("adcs_cmd.rwa_mode", DInt UChar 0 2 None);  (* ADCSCommander.cpp:14 *)
  ("adcs_cmd.rwa_speed_filter", DFlt 8);  (* ADCSCommander.cpp:19 *)
  ("adcs_cmd.rwa_ramp_filter", DFlt 8);  (* ADCSCommander.cpp:20 *)
  ("adcs_cmd.mtr_mode", DInt UChar 0 2 None);  (* ADCSCommander.cpp:21 *)
  ("adcs_cmd.mtr_limit", DFlt 16);  (* ADCSCommander.cpp:24 *)
  ("adcs_cmd.ssa_voltage_filter", DFlt 8);  (* ADCSCommander.cpp:26 *)
  ("adcs_cmd.mag1_mode", DInt UChar 0 1 None);  (* ADCSCommander.cpp:27 *)
  ("adcs_cmd.mag2_mode", DInt UChar 0 1 None);  (* ADCSCommander.cpp:28 *)
  ("adcs_cmd.imu_mag_filter", DFlt 8);  (* ADCSCommander.cpp:29 *)
  ("adcs_cmd.imu_gyr_filter", DFlt 8);  (* ADCSCommander.cpp:30 *)
  ("adcs_cmd.imu_gyr_temp_filter", DFlt 8);  (* ADCSCommander.cpp:31 *)
  ("adcs_cmd.imu_gyr_temp_pwm", DInt UChar 0 255 None);  (* ADCSCommander.cpp:32 *)
  ("adcs_cmd.imu_gyr_temp_desired", DFlt 8);  (* ADCSCommander.cpp:33 *)
  ("detumble_safety_factor", DFlt 7);  (* MissionManager.cpp:21 *)
  ("docking_timeout_limit", DInt UInt 0 1016470 (Some 6%nat));  (* MissionManager.cpp:24 *)
  ("fault_handler.enabled", DBool);  (* MainFaultHandler.cpp:9 *)
  ("trigger_dist.close_approach", DFlt 13);  (* MissionManager.cpp:22 *)
  ("trigger_dist.docking", DFlt 14);  (* MissionManager.cpp:23 *)
  ("downlink.shift_id1", DInt UChar 0 43 None);  (* DownlinkProducer.cpp:18 *)
  ("downlink.shift_id2", DInt UChar 0 43 None);  (* DownlinkProducer.cpp:19 *)
  ("downlink.toggle_id", DInt UChar 0 43 None);  (* DownlinkProducer.cpp:17 *)
  ("gomspace.heater", DBool);  (* GomspaceController.cpp:75 *)
  ("gomspace.heater_cmd", DBool);  (* GomspaceController.cpp:97 *)
  ("gomspace.wdt_i2c_time_left", DInt UInt 0 99 None);  (* GomspaceController.cpp:51 *)
  ("gomspace.counter_wdt_i2c", DInt UInt 0 4294967295 None);  (* GomspaceController.cpp:54 *)
  ("gomspace.gs_reboot_cmd", DBool);  (* GomspaceController.cpp:106 *)
  ("gomspace.gs_reset_cmd", DBool);  (* GomspaceController.cpp:103 *)
  ("gomspace.pv1_cmd", DInt UInt 0 8500 (Some 9%nat));  (* GomspaceController.cpp:89 *)
  ("gomspace.pv2_cmd", DInt UInt 0 8500 (Some 9%nat));  (* GomspaceController.cpp:90 *)
  ("gomspace.pv3_cmd", DInt UInt 0 8500 (Some 9%nat));  (* GomspaceController.cpp:91 *)
  ("gomspace.pptmode_cmd", DInt UChar 1 2 None);  (* GomspaceController.cpp:94 *)
  ("gomspace.counter_reset_cmd", DBool);  (* GomspaceController.cpp:100 *)
  ("adcs_cmd.havt_disable0", DBool);  (* ADCSCommander.cpp:69-77 *)
  ("adcs_cmd.havt_disable1", DBool);  (* ADCSCommander.cpp:69-77 *)
  ("adcs_cmd.havt_disable2", DBool);  (* ADCSCommander.cpp:69-77 *)
  ("adcs_cmd.havt_disable3", DBool);  (* ADCSCommander.cpp:69-77 *)
  ("adcs_cmd.havt_disable4", DBool);  (* ADCSCommander.cpp:69-77 *)
  ("adcs_cmd.havt_disable5", DBool);  (* ADCSCommander.cpp:69-77 *)
  ("adcs_cmd.havt_disable6", DBool);  (* ADCSCommander.cpp:69-77 *)
  ("adcs_cmd.havt_disable7", DBool);  (* ADCSCommander.cpp:69-77 *)
  ("adcs_cmd.havt_disable8", DBool);  (* ADCSCommander.cpp:69-77 *)
  ("adcs_cmd.havt_disable9", DBool);  (* ADCSCommander.cpp:69-77 *)
  ("adcs_cmd.havt_disable10", DBool);  (* ADCSCommander.cpp:69-77 *)
  ("adcs_cmd.havt_disable11", DBool);  (* ADCSCommander.cpp:69-77 *)
  ("adcs_cmd.havt_disable12", DBool);  (* ADCSCommander.cpp:69-77 *)
  ("adcs_cmd.havt_disable13", DBool);  (* ADCSCommander.cpp:69-77 *)
  ("adcs_cmd.havt_disable14", DBool);  (* ADCSCommander.cpp:69-77 *)
  ("adcs_cmd.havt_disable15", DBool);  (* ADCSCommander.cpp:69-77 *)
  ("adcs_cmd.havt_disable16", DBool);  (* ADCSCommander.cpp:69-77 *)
  ("adcs_cmd.havt_disable17", DBool);  (* ADCSCommander.cpp:69-77 *)
  ("adcs_cmd.havt_disable18", DBool);  (* ADCSCommander.cpp:69-77 *)
  ("adcs_cmd.havt_reset0", DBool);  (* ADCSCommander.cpp:60-68 *)
  ("adcs_cmd.havt_reset1", DBool);  (* ADCSCommander.cpp:60-68 *)
  ("adcs_cmd.havt_reset2", DBool);  (* ADCSCommander.cpp:60-68 *)
  ("adcs_cmd.havt_reset3", DBool);  (* ADCSCommander.cpp:60-68 *)
  ("adcs_cmd.havt_reset4", DBool);  (* ADCSCommander.cpp:60-68 *)
  ("adcs_cmd.havt_reset5", DBool);  (* ADCSCommander.cpp:60-68 *)
  ("adcs_cmd.havt_reset6", DBool);  (* ADCSCommander.cpp:60-68 *)
  ("adcs_cmd.havt_reset7", DBool);  (* ADCSCommander.cpp:60-68 *)
  ("adcs_cmd.havt_reset8", DBool);  (* ADCSCommander.cpp:60-68 *)
  ("adcs_cmd.havt_reset9", DBool);  (* ADCSCommander.cpp:60-68 *)
  ("adcs_cmd.havt_reset10", DBool);  (* ADCSCommander.cpp:60-68 *)
  ("adcs_cmd.havt_reset11", DBool);  (* ADCSCommander.cpp:60-68 *)
  ("adcs_cmd.havt_reset12", DBool);  (* ADCSCommander.cpp:60-68 *)
  ("adcs_cmd.havt_reset13", DBool);  (* ADCSCommander.cpp:60-68 *)
  ("adcs_cmd.havt_reset14", DBool);  (* ADCSCommander.cpp:60-68 *)
  ("adcs_cmd.havt_reset15", DBool);  (* ADCSCommander.cpp:60-68 *)
  ("adcs_cmd.havt_reset16", DBool);  (* ADCSCommander.cpp:60-68 *)
  ("adcs_cmd.havt_reset17", DBool);  (* ADCSCommander.cpp:60-68 *)
  ("adcs_cmd.havt_reset18", DBool);  (* ADCSCommander.cpp:60-68 *)
  ("radio.max_transceive", DInt UInt 0 508235 None);  (* QuakeManager.cpp:33 *)
  ("radio.max_wait", DInt UInt 0 508235 None);  (* QuakeManager.cpp:32 *)
  ("piksi_fh.no_cdpgs_max_wait", DInt UInt 0 508235 None);  (* PiksiFaultHandler.cpp:11 *)
  ("piksi_fh.cdpgs_delay_max_wait", DInt UInt 0 508235 None);  (* PiksiFaultHandler.cpp:12 *)
  ("piksi_fh.enabled", DBool);  (* PiksiFaultHandler.cpp:13 *)
  ("prop.max_venting_cycles", DInt UInt 0 50 None);  (* PropController.cpp:23 *)
  ("prop.ctrl_cycles_per_closing", DInt UInt 0 50 None);  (* PropController.cpp:24 *)
  ("prop.max_pressurizing_cycles", DInt UInt 0 50 None);  (* PropController.cpp:26 *)
  ("prop.threshold_firing_pressure", DFlt 6);  (* PropController.cpp:27 *)
  ("prop.ctrl_cycles_per_filling", DInt UInt 0 25 None);  (* PropController.cpp:28 *)
  ("prop.ctrl_cycles_per_cooling", DInt UInt 0 100 None);  (* PropController.cpp:29 *)
  ("docksys.is_turning", DBool);  (* DockingController.cpp:10 *)
  ("docksys.config_cmd", DBool);  (* MissionManager.cpp:28 *)
  ("docksys.step_angle", DFlt 16);  (* DockingController.cpp:6 *)
  ("docksys.step_delay", DInt UInt 0 4294967295 None);  (* DockingController.cpp:7 *)
  ("docksys.dock_config", DBool)  (* DockingController.cpp:9 *)
].

(** flow_data.cpp:8-50: id, active at boot, names of the fields *)
Definition flown : list (Z * bool * list string) := [
  (1, true, ["pan.state"; "pan.deployed"; "pan.sat_designation"; "pan.bootcount"; "pan.deployment.elapsed"; "pan.cycle_no"]);  (* flow_data.cpp:8 *)
  (2, true, ["time.valid"; "orbit.valid"; "cursed"; "time.gps"; "orbit.pos"; "orbit.vel"; "attitude_estimator.valid"; "attitude_estimator.ignore_sun_vectors"; "attitude_estimator.q_body_eci"; "attitude_estimator.L_body"; "rel_orbit.state"]);  (* flow_data.cpp:9 *)
  (3, false, ["orbit.pos_sigma"; "orbit.vel_sigma"]);  (* flow_data.cpp:10 *)
  (4, false, ["rel_orbit.pos"; "rel_orbit.vel"]);  (* flow_data.cpp:11 *)
  (5, false, ["rel_orbit.rel_pos"; "rel_orbit.rel_vel"; "rel_orbit.rel_pos_sigma"; "rel_orbit.rel_vel_sigma"]);  (* flow_data.cpp:12 *)
  (6, false, ["attitude_estimator.w_bias_body"; "attitude_estimator.p_body_eci_sigma_f"; "attitude_estimator.w_bias_sigma_body"; "attitude_estimator.mag_flag"; "attitude_estimator.b_valid"; "attitude_estimator.b_body"]);  (* flow_data.cpp:13 *)
  (7, true, ["adcs_monitor.functional_fault.base"; "piksi_fh.dead.base"; "adcs_monitor.wheel1_fault.base"; "adcs_monitor.wheel2_fault.base"; "adcs_monitor.wheel3_fault.base"; "adcs_monitor.wheel_pot_fault.base"; "prop.overpressured.base"; "prop.pressurize_fail.base"; "prop.tank2_temp_high.base"; "prop.tank1_temp_high.base"; "gomspace.low_batt.base"; "gomspace.get_hk.base"; "attitude_estimator.fault.base"]);  (* flow_data.cpp:14 *)
  (8, true, ["gomspace.vbatt"; "gomspace.cursun"; "gomspace.cursys"; "gomspace.temp.output1"; "gomspace.temp.output2"; "gomspace.temp.output3"; "gomspace.temp.output4"]);  (* flow_data.cpp:15 *)
  (9, false, ["gomspace.vboost.output1"; "gomspace.vboost.output2"; "gomspace.vboost.output3"; "gomspace.curin.output1"; "gomspace.curin.output2"; "gomspace.curin.output3"]);  (* flow_data.cpp:16 *)
  (10, false, ["gomspace.curout.output1"; "gomspace.curout.output2"; "gomspace.curout.output3"; "gomspace.curout.output4"; "gomspace.curout.output5"; "gomspace.curout.output6"; "gomspace.output.output1"; "gomspace.output.output2"; "gomspace.output.output3"; "gomspace.output.output4"; "gomspace.output.output5"; "gomspace.output.output6"]);  (* flow_data.cpp:17 *)
  (11, false, ["gomspace.counter_boot"; "gomspace.bootcause"; "gomspace.battmode"; "gomspace.pptmode"]);  (* flow_data.cpp:18 *)
  (12, false, ["gomspace.power_cycle_output1_cmd"; "gomspace.power_cycle_output2_cmd"; "gomspace.power_cycle_output3_cmd"; "gomspace.power_cycle_output4_cmd"; "gomspace.power_cycle_output5_cmd"; "gomspace.power_cycle_output6_cmd"; "gomspace.piksi_off"]);  (* flow_data.cpp:19 *)
  (13, true, ["adcs.state"; "prop.state"; "radio.state"; "piksi.state"; "qfh.state"]);  (* flow_data.cpp:20 *)
  (14, true, ["adcs_monitor.havt_device0"; "adcs_monitor.havt_device1"; "adcs_monitor.havt_device2"; "adcs_monitor.havt_device3"; "adcs_monitor.havt_device4"; "adcs_monitor.havt_device5"; "adcs_monitor.havt_device6"; "adcs_monitor.havt_device7"; "adcs_monitor.havt_device8"; "adcs_monitor.havt_device9"; "adcs_monitor.havt_device10"; "adcs_monitor.havt_device11"; "adcs_monitor.havt_device12"; "adcs_monitor.havt_device13"; "adcs_monitor.havt_device14"; "adcs_monitor.havt_device15"; "adcs_monitor.havt_device16"; "adcs_monitor.havt_device17"]);  (* flow_data.cpp:21 *)
  (15, true, ["adcs_monitor.rwa_speed_rd.x"; "adcs_monitor.rwa_speed_rd.y"; "adcs_monitor.rwa_speed_rd.z"; "adcs_monitor.rwa_torque_rd.x"; "adcs_monitor.rwa_torque_rd.y"; "adcs_monitor.rwa_torque_rd.z"; "adcs_monitor.ssa_mode"]);  (* flow_data.cpp:22 *)
  (16, false, ["prop.tank1.valve_choice"; "prop.tank2.pressure"; "prop.tank2.temp"; "prop.tank1.temp"; "prop.num_prop_firings"]);  (* flow_data.cpp:23 *)
  (17, true, ["attitude.pointer_vec1_current"; "attitude.pointer_vec1_desired"; "attitude.pointer_vec2_current"; "attitude.pointer_vec2_desired"]);  (* flow_data.cpp:24 *)
  (18, true, ["radio.err"; "radio.last_comms_ccno"]);  (* flow_data.cpp:25 *)
  (19, true, ["adcs_monitor.mag1_vec.x"; "adcs_monitor.mag1_vec.y"; "adcs_monitor.mag1_vec.z"; "adcs_monitor.mag2_vec.x"; "adcs_monitor.mag2_vec.y"; "adcs_monitor.mag2_vec.z"; "adcs_monitor.gyr_vec.x"; "adcs_monitor.gyr_vec.y"; "adcs_monitor.gyr_vec.z"; "adcs_monitor.ssa_vec"]);  (* flow_data.cpp:26 *)
  (20, false, ["adcs_monitor.speed_rd_flag"; "adcs_monitor.torque_rd_flag"; "adcs_monitor.mag1_vec_flag"; "adcs_monitor.mag2_vec_flag"; "adcs_monitor.gyr_vec_flag"; "adcs_monitor.gyr_temp_flag"]);  (* flow_data.cpp:27 *)
  (21, false, ["piksi.pos"; "piksi.vel"; "piksi.baseline_pos"; "piksi.fix_error_count"; "piksi.time"; "piksi.microdelta"]);  (* flow_data.cpp:28 *)
  (22, false, ["dcdc.SpikeDock"; "dcdc.ADCSMotor"]);  (* flow_data.cpp:29 *)
  (23, false, ["adcs_monitor.ssa_voltage0"; "adcs_monitor.ssa_voltage1"; "adcs_monitor.ssa_voltage2"; "adcs_monitor.ssa_voltage3"; "adcs_monitor.ssa_voltage4"; "adcs_monitor.ssa_voltage5"; "adcs_monitor.ssa_voltage6"; "adcs_monitor.ssa_voltage7"; "adcs_monitor.ssa_voltage8"; "adcs_monitor.ssa_voltage9"]);  (* flow_data.cpp:30 *)
  (24, false, ["adcs_monitor.ssa_voltage10"; "adcs_monitor.ssa_voltage11"; "adcs_monitor.ssa_voltage12"; "adcs_monitor.ssa_voltage13"; "adcs_monitor.ssa_voltage14"; "adcs_monitor.ssa_voltage15"; "adcs_monitor.ssa_voltage16"; "adcs_monitor.ssa_voltage17"; "adcs_monitor.ssa_voltage18"; "adcs_monitor.ssa_voltage19"]);  (* flow_data.cpp:31 *)
  (25, true, ["docksys.docked"]);  (* flow_data.cpp:32 *)
  (26, true, ["orbit.control.valve1"; "orbit.control.valve2"; "orbit.control.valve3"; "orbit.control.valve4"; "orbit.control.J_ecef"; "orbit.control.alpha"; "orbit.control.num_near_field_nodes"]);  (* flow_data.cpp:33 *)
  (27, false, ["prop.cycles_until_firing"; "prop.sched_intertank1"; "prop.sched_intertank2"]);  (* flow_data.cpp:34 *)
  (28, false, ["adcs_cmd.rwa_speed_cmd"; "adcs_cmd.rwa_torque_cmd"; "adcs_cmd.mtr_cmd"]);  (* flow_data.cpp:35 *)
  (29, false, ["timing.adcs_commander.avg_wait"; "timing.adcs_commander.num_lates"; "timing.adcs_controller.avg_wait"; "timing.adcs_controller.num_lates"; "timing.estimators.avg_wait"; "timing.estimators.num_lates"; "timing.adcs_monitor.avg_wait"; "timing.adcs_monitor.num_lates"; "timing.attitude_controller.avg_wait"; "timing.attitude_controller.num_lates"; "timing.clock_ct.avg_wait"; "timing.clock_ct.num_lates"; "timing.dcdc_ct.avg_wait"; "timing.dcdc_ct.num_lates"; "timing.debug.avg_wait"; "timing.debug.num_lates"]);  (* flow_data.cpp:36 *)
  (30, false, ["timing.docking_ct.avg_wait"; "timing.docking_ct.num_lates"; "timing.downlink_ct.avg_wait"; "timing.downlink_ct.num_lates"; "timing.eeprom_ct.avg_wait"; "timing.eeprom_ct.num_lates"; "timing.gomspace_rd.avg_wait"; "timing.gomspace_rd.num_lates"; "timing.mission_ct.avg_wait"; "timing.mission_ct.num_lates"; "timing.piksi.avg_wait"; "timing.piksi.num_lates"; "timing.quake.avg_wait"; "timing.quake.num_lates"; "timing.uplink_ct.avg_wait"; "timing.uplink_ct.num_lates"]);  (* flow_data.cpp:37 *)
  (31, false, ["dcdc.ADCSMotor_cmd"; "dcdc.SpikeDock_cmd"; "dcdc.disable_cmd"; "dcdc.reset_cmd"]);  (* flow_data.cpp:38 *)
  (32, false, ["adcs_cmd.rwa_mode"; "adcs_cmd.rwa_speed_filter"; "adcs_cmd.rwa_ramp_filter"; "adcs_cmd.mtr_mode"; "adcs_cmd.mtr_limit"; "adcs_cmd.ssa_voltage_filter"; "adcs_cmd.mag1_mode"; "adcs_cmd.mag2_mode"; "adcs_cmd.imu_mag_filter"; "adcs_cmd.imu_gyr_filter"; "adcs_cmd.imu_gyr_temp_filter"; "adcs_cmd.imu_gyr_temp_pwm"; "adcs_cmd.imu_gyr_temp_desired"]);  (* flow_data.cpp:39 *)
  (33, false, ["detumble_safety_factor"; "docking_timeout_limit"; "fault_handler.enabled"; "trigger_dist.close_approach"; "trigger_dist.docking"]);  (* flow_data.cpp:40 *)
  (34, false, ["downlink.shift_id1"; "downlink.shift_id2"; "downlink.toggle_id"]);  (* flow_data.cpp:41 *)
  (35, false, ["gomspace.heater"; "gomspace.heater_cmd"]);  (* flow_data.cpp:42 *)
  (36, false, ["gomspace.wdt_i2c_time_left"; "gomspace.counter_wdt_i2c"]);  (* flow_data.cpp:43 *)
  (37, false, ["gomspace.gs_reboot_cmd"; "gomspace.gs_reset_cmd"; "gomspace.heater_cmd"; "gomspace.pv1_cmd"; "gomspace.pv2_cmd"; "gomspace.pv3_cmd"; "gomspace.pptmode_cmd"; "gomspace.counter_reset_cmd"]);  (* flow_data.cpp:44 *)
  (38, false, ["adcs_cmd.havt_disable0"; "adcs_cmd.havt_disable1"; "adcs_cmd.havt_disable2"; "adcs_cmd.havt_disable3"; "adcs_cmd.havt_disable4"; "adcs_cmd.havt_disable5"; "adcs_cmd.havt_disable6"; "adcs_cmd.havt_disable7"; "adcs_cmd.havt_disable8"; "adcs_cmd.havt_disable9"; "adcs_cmd.havt_disable10"; "adcs_cmd.havt_disable11"; "adcs_cmd.havt_disable12"; "adcs_cmd.havt_disable13"; "adcs_cmd.havt_disable14"; "adcs_cmd.havt_disable15"; "adcs_cmd.havt_disable16"; "adcs_cmd.havt_disable17"; "adcs_cmd.havt_disable18"]);  (* flow_data.cpp:45 *)
  (39, false, ["adcs_cmd.havt_reset0"; "adcs_cmd.havt_reset1"; "adcs_cmd.havt_reset2"; "adcs_cmd.havt_reset3"; "adcs_cmd.havt_reset4"; "adcs_cmd.havt_reset5"; "adcs_cmd.havt_reset6"; "adcs_cmd.havt_reset7"; "adcs_cmd.havt_reset8"; "adcs_cmd.havt_reset9"; "adcs_cmd.havt_reset10"; "adcs_cmd.havt_reset11"; "adcs_cmd.havt_reset12"; "adcs_cmd.havt_reset13"; "adcs_cmd.havt_reset14"; "adcs_cmd.havt_reset15"; "adcs_cmd.havt_reset16"; "adcs_cmd.havt_reset17"; "adcs_cmd.havt_reset18"]);  (* flow_data.cpp:46 *)
  (40, false, ["radio.max_transceive"; "radio.max_wait"]);  (* flow_data.cpp:47 *)
  (41, false, ["piksi_fh.no_cdpgs_max_wait"; "piksi_fh.cdpgs_delay_max_wait"; "piksi_fh.enabled"]);  (* flow_data.cpp:48 *)
  (42, false, ["prop.max_venting_cycles"; "prop.ctrl_cycles_per_closing"; "prop.max_pressurizing_cycles"; "prop.threshold_firing_pressure"; "prop.ctrl_cycles_per_filling"; "prop.ctrl_cycles_per_cooling"]);  (* flow_data.cpp:49 *)
  (43, false, ["docksys.is_turning"; "docksys.config_cmd"; "docksys.step_angle"; "docksys.step_delay"; "docksys.dock_config"])  (* flow_data.cpp:50 *)
].

(** [StateFieldRegistry::find_readable_field], /repo/src/common/StateFieldRegistry.cpp:16-23 *)
Fixpoint lookup (r : list (string * fdecl)) (n : string) : option fdecl :=
  match r with
  | [] => None
  | (m, d) :: t => if String.eqb m n then Some d else lookup t n
  end.

(** The field look-ups of [Flow::Flow], DownlinkProducer.cpp:205-222 (no name of the table is that of an event): an unknown name
    fails the assertion.  [val n] are the bits in the field's bit array. *)
Fixpoint find_fields (val : string -> list bool) (names : list string) : outcome (list (list bool)) :=
  match names with
  | [] => Done []
  | n :: t => match lookup registry n with
              | None => Abort
              | Some _ => obind (find_fields val t) (fun l => Done (val n :: l))
              end
  end.
Fixpoint find_all (val : string -> list bool) (tbl : list (Z * bool * list string))
  : outcome (list (Z * bool * list (list bool))) :=
  match tbl with
  | [] => Done []
  | (id, act, names) :: t => obind (find_fields val names) (fun fs => obind (find_all val t) (fun l => Done ((id, act, fs) :: l)))
  end.

(** [DownlinkProducer::init_flows] with the table that flies, DownlinkProducer.cpp:16-48. *)
Definition flown_boot (val : string -> list bool) (junk : list bool) : outcome dstate :=
  obind (find_all val flown) (fun fds => init_flows fds junk).

(** A cycle of the producer, DownlinkProducer.cpp:111-180: the fields' bits are now [val] (the serialize calls at :129 and :151);
    the cycle count is the field pan.cycle_no (:9, :129-130); no flow is to be moved, [tog] is to be toggled (0: none). *)
Definition reload (val : string -> list bool) (l : list flow) : list flow :=
  map (fun p => mk_flow (fl_sr (fst p)) (fl_active (fst p)) (map val (snd p))) (combine l (map snd flown)).
Definition flown_cycle (val : string -> list bool) (tog : Z) (d : dstate) : outcome dstate :=
  dl_execute (val "pan.cycle_no") (mk_ds (reload val (ds_flows d)) (ds_buf d) (ds_size d) 0 0 tog).

(** cycle after cycle *)
Fixpoint flown_run (l : list ((string -> list bool) * Z)) (d : dstate) : outcome dstate :=
  match l with
  | [] => Done d
  | (val, tog) :: t => obind (flown_cycle val tog d) (flown_run t)
  end.

(** ** The flight build *)
(** It is compiled with NDEBUG (platformio.ini:96, configs/flight_and_test_envs.ini:18, 82-88), so the assertions of
    DownlinkProducer.cpp:246, 266, 271 are absent and the program goes on: an id that is not found leaves the index at 0
    (:274), and toggles nothing. *)
Definition shift_flow_flight (l : list flow) (id1 id2 : Z) : outcome (list flow) :=
  match find_idx l id1 0 0, find_idx l id2 0 0 with
  | Some i1, Some i2 =>
    match (if Nat.ltb i2 i1 then shift_down (i1 - i2) l i1
           else if Nat.ltb i1 i2 then shift_up (i2 - i1) l i1 else Some l) with
    | Some l' => Done l'
    | None => Undef
    end
  | _, _ => Undef
  end.
Definition toggle_flow_flight (l : list flow) (id : Z) : outcome (list flow) :=
  match toggle_loop l id with Some l' => Done l' | None => Undef end.

(** execute, DownlinkProducer.cpp:111-180, with these *)
Definition dl_execute_flight (cc : list bool) (d : dstate) : outcome dstate :=
  let size := compute_downlink_size false (ds_flows d) in
  match build_frame cc (ds_flows d) (ds_buf d) with
  | None => Undef
  | Some fs =>
    let d1 := mk_ds (ds_flows d) (fs_buf fs) size (ds_shift1 d) (ds_shift2 d) (ds_toggle d) in
    obind (if (0 <? ds_shift1 d1) && (0 <? ds_shift2 d1)
           then obind (shift_flow_flight (ds_flows d1) (ds_shift1 d1) (ds_shift2 d1))
                  (fun l => Done (mk_ds l (ds_buf d1) (ds_size d1) 0 0 (ds_toggle d1)))
           else Done d1) (fun d2 =>
    if 0 <? ds_toggle d2
    then obind (toggle_flow_flight (ds_flows d2) (ds_toggle d2))
           (fun l => Done (mk_ds l (ds_buf d2) (ds_size d2) (ds_shift1 d2) (ds_shift2 d2) 0))
    else Done d2)
  end.

(** [Flow::Flow] and [init_flows], DownlinkProducer.cpp:16-48 and 192-229, likewise without the assertions at :35, :199 and :227
    (that of :218, a field that is not found, is left out of the flow). *)
Definition make_flow_flight (n : nat) (fd : Z * bool * list (list bool)) : outcome flow :=
  match bind (id_serializer n) (fun s => serialize s (fst (fst fd))) with
  | None => Undef
  | Some sr => Done (mk_flow sr (snd (fst fd)) (snd fd))
  end.
Fixpoint make_flows_flight (n : nat) (fds : list (Z * bool * list (list bool))) : outcome (list flow) :=
  match fds with
  | [] => Done []
  | fd :: t => obind (make_flow_flight n fd) (fun f => obind (make_flows_flight n t) (fun l => Done (f :: l)))
  end.
Definition init_flows_flight (fds : list (Z * bool * list (list bool))) (junk : list bool) : outcome dstate :=
  obind (make_flows_flight (length fds) fds) (fun l =>
  let size := compute_downlink_size true l in
  Done (mk_ds l (firstn (8 * Z.to_nat size) (junk ++ repeat false (8 * Z.to_nat size))) size 0 0 0)).
