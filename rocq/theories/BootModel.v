(** What the constructors of the flight software do to the field registry when the satellite boots: every registration and
    every lookup, in order, with the C++ type of the field, its serializer and its EEPROM period.  The list is transcribed by a
    script from the constructors that MainControlLoop.cpp:24-104 runs; each line cites the call (paths under
    /repo/src/fsw/FCCode).  No conditional compilation affects which calls are made.
    Simplified: pointer.rwa_torque_cmd and pointer.mtr_cmd take their bounds from constants of the attitude computer; they are
    given the upper bound 1 here (with lower bound 0 the width does not depend on it). *)
From Coq Require Import String.
From Coq Require Import List.
From Verif Require Import Base IntSerModel FlownModel RegistryModel.
Open Scope string_scope.
Open Scope list_scope.
Open Scope Z_scope.

(** the C++ type of a field's value; [CArr3f] is f_vector_t (std::array<float, 3>), the others are bool, unsigned char, signed
    int, unsigned int, unsigned long long, size_t, float, double, lin vectors, gps_time_t, char* *)
Inductive ctype := CBool | CUChar | CSInt | CUInt | CULL | CSize | CFloat | CDouble | CVec3f | CVec3d | CVec4f | CVec4d
                 | CArr3f | CGps | CPtr.
Inductive kind := KInternal | KReadable | KWritable.

(** a field handed to the registry; internal fields have no serializer *)
Record bfield := mk_bf { bf_name : string; bf_type : ctype; bf_decl : option fdecl; bf_period : Z }.

(** one call; a fault registers its base field and four command fields under its name *)
Inductive bop := Add (k : kind) (f : bfield) | AddFlt (name : string) | Find (k : kind) (name : string) (t : ctype) | FindFlt (name : string).

(** the five fields of a fault, Fault.cpp:5-20 (none is saved in EEPROM) *)
Definition fault_fields (n : string) : list bfield :=
  [ mk_bf (n ++ ".base") CBool (Some DBool) 0;
    mk_bf (n ++ ".suppress") CBool (Some DBool) 0;
    mk_bf (n ++ ".override") CBool (Some DBool) 0;
    mk_bf (n ++ ".unsignal") CBool (Some DBool) 0;
    mk_bf (n ++ ".persistence") CUInt (Some (DInt UInt 0 1048575 None)) 0 ].

(** The calls, in order. *)
Definition boot : list bop := [
  Add KReadable (mk_bf "pan.bootcount" CUChar (Some (DInt UChar 0 255 None)) 100);  (* FieldCreatorTask.hpp:29, 26 *)
  Add KReadable (mk_bf "cursed" CBool (Some DBool) 0);  (* FieldCreatorTask.hpp:30, 27 *)
  Add KReadable (mk_bf "timing.clock_ct.num_lates" CUInt (Some (DInt UInt 0 4294967295 None)) 0);  (* TimedControlTask.hpp:194, ClockManager.cpp:6 *)
  Add KReadable (mk_bf "timing.clock_ct.avg_wait" CFloat (Some (DFlt 18)) 0);  (* TimedControlTask.hpp:195, ClockManager.cpp:6 *)
  Add KReadable (mk_bf "timing.clock_ct.duration" CUInt (Some (DInt UInt 0 4294967295 None)) 0);  (* TimedControlTask.hpp:196, ClockManager.cpp:6 *)
  Add KReadable (mk_bf "pan.cycle_no" CUInt (Some (DInt UInt 0 4294967295 None)) 0);  (* ClockManager.cpp:10, 8 *)
  Add KReadable (mk_bf "timing.piksi.num_lates" CUInt (Some (DInt UInt 0 4294967295 None)) 0);  (* TimedControlTask.hpp:194, PiksiControlTask.cpp:9 *)
  Add KReadable (mk_bf "timing.piksi.avg_wait" CFloat (Some (DFlt 18)) 0);  (* TimedControlTask.hpp:195, PiksiControlTask.cpp:9 *)
  Add KReadable (mk_bf "timing.piksi.duration" CUInt (Some (DInt UInt 0 4294967295 None)) 0);  (* TimedControlTask.hpp:196, PiksiControlTask.cpp:9 *)
  Add KReadable (mk_bf "piksi.pos" CVec3d (Some (DVec 6771000 6921000 1 28)) 0);  (* PiksiControlTask.cpp:19, 11 *)
  Add KReadable (mk_bf "piksi.vel" CVec3d (Some (DVec 7570 7685 1 19)) 0);  (* PiksiControlTask.cpp:20, 12 *)
  Add KReadable (mk_bf "piksi.baseline_pos" CVec3d (Some (DVec 0 2000 1 22)) 0);  (* PiksiControlTask.cpp:21, 13 *)
  Add KReadable (mk_bf "piksi.state" CUChar (Some (DInt UChar 0 14 None)) 0);  (* PiksiControlTask.cpp:22, 14 *)
  Add KReadable (mk_bf "piksi.fix_error_count" CUInt (Some (DInt UInt 0 1001 None)) 0);  (* PiksiControlTask.cpp:23, 15 *)
  Add KReadable (mk_bf "piksi.time" CGps (Some DGps) 0);  (* PiksiControlTask.cpp:24, 16 *)
  Add KReadable (mk_bf "piksi.microdelta" CUInt (Some (DInt UInt 0 4294967295 None)) 0);  (* PiksiControlTask.cpp:25, 17 *)
  Add KReadable (mk_bf "timing.adcs_monitor.num_lates" CUInt (Some (DInt UInt 0 4294967295 None)) 0);  (* TimedControlTask.hpp:194, ADCSBoxMonitor.cpp:8 *)
  Add KReadable (mk_bf "timing.adcs_monitor.avg_wait" CFloat (Some (DFlt 18)) 0);  (* TimedControlTask.hpp:195, ADCSBoxMonitor.cpp:8 *)
  Add KReadable (mk_bf "timing.adcs_monitor.duration" CUInt (Some (DInt UInt 0 4294967295 None)) 0);  (* TimedControlTask.hpp:196, ADCSBoxMonitor.cpp:8 *)
  Add KReadable (mk_bf "adcs_monitor.havt_device0" CBool (Some DBool) 0);  (* ADCSBoxMonitor.cpp:90 *)
  Add KReadable (mk_bf "adcs_monitor.havt_device1" CBool (Some DBool) 0);  (* ADCSBoxMonitor.cpp:90 *)
  Add KReadable (mk_bf "adcs_monitor.havt_device2" CBool (Some DBool) 0);  (* ADCSBoxMonitor.cpp:90 *)
  Add KReadable (mk_bf "adcs_monitor.havt_device3" CBool (Some DBool) 0);  (* ADCSBoxMonitor.cpp:90 *)
  Add KReadable (mk_bf "adcs_monitor.havt_device4" CBool (Some DBool) 0);  (* ADCSBoxMonitor.cpp:90 *)
  Add KReadable (mk_bf "adcs_monitor.havt_device5" CBool (Some DBool) 0);  (* ADCSBoxMonitor.cpp:90 *)
  Add KReadable (mk_bf "adcs_monitor.havt_device6" CBool (Some DBool) 0);  (* ADCSBoxMonitor.cpp:90 *)
  Add KReadable (mk_bf "adcs_monitor.havt_device7" CBool (Some DBool) 0);  (* ADCSBoxMonitor.cpp:90 *)
  Add KReadable (mk_bf "adcs_monitor.havt_device8" CBool (Some DBool) 0);  (* ADCSBoxMonitor.cpp:90 *)
  Add KReadable (mk_bf "adcs_monitor.havt_device9" CBool (Some DBool) 0);  (* ADCSBoxMonitor.cpp:90 *)
  Add KReadable (mk_bf "adcs_monitor.havt_device10" CBool (Some DBool) 0);  (* ADCSBoxMonitor.cpp:90 *)
  Add KReadable (mk_bf "adcs_monitor.havt_device11" CBool (Some DBool) 0);  (* ADCSBoxMonitor.cpp:90 *)
  Add KReadable (mk_bf "adcs_monitor.havt_device12" CBool (Some DBool) 0);  (* ADCSBoxMonitor.cpp:90 *)
  Add KReadable (mk_bf "adcs_monitor.havt_device13" CBool (Some DBool) 0);  (* ADCSBoxMonitor.cpp:90 *)
  Add KReadable (mk_bf "adcs_monitor.havt_device14" CBool (Some DBool) 0);  (* ADCSBoxMonitor.cpp:90 *)
  Add KReadable (mk_bf "adcs_monitor.havt_device15" CBool (Some DBool) 0);  (* ADCSBoxMonitor.cpp:90 *)
  Add KReadable (mk_bf "adcs_monitor.havt_device16" CBool (Some DBool) 0);  (* ADCSBoxMonitor.cpp:90 *)
  Add KReadable (mk_bf "adcs_monitor.havt_device17" CBool (Some DBool) 0);  (* ADCSBoxMonitor.cpp:90 *)
  Add KReadable (mk_bf "adcs_monitor.havt_device18" CBool (Some DBool) 0);  (* ADCSBoxMonitor.cpp:90 *)
  Add KReadable (mk_bf "adcs_monitor.rwa_speed_rd" CVec3f (Some (DVec 0 1 1 1)) 0);  (* ADCSBoxMonitor.cpp:95, 12 *)
  Add KReadable (mk_bf "adcs_monitor.rwa_speed_rd.x" CFloat (Some (DFlt 12)) 0);  (* ADCSBoxMonitor.cpp:96, 13 *)
  Add KReadable (mk_bf "adcs_monitor.rwa_speed_rd.y" CFloat (Some (DFlt 12)) 0);  (* ADCSBoxMonitor.cpp:97, 14 *)
  Add KReadable (mk_bf "adcs_monitor.rwa_speed_rd.z" CFloat (Some (DFlt 12)) 0);  (* ADCSBoxMonitor.cpp:98, 15 *)
  Add KReadable (mk_bf "adcs_monitor.rwa_torque_rd" CVec3f (Some (DVec 0 1 1 1)) 0);  (* ADCSBoxMonitor.cpp:99, 18 *)
  Add KReadable (mk_bf "adcs_monitor.rwa_torque_rd.x" CFloat (Some (DFlt 12)) 0);  (* ADCSBoxMonitor.cpp:100, 19 *)
  Add KReadable (mk_bf "adcs_monitor.rwa_torque_rd.y" CFloat (Some (DFlt 12)) 0);  (* ADCSBoxMonitor.cpp:101, 20 *)
  Add KReadable (mk_bf "adcs_monitor.rwa_torque_rd.z" CFloat (Some (DFlt 12)) 0);  (* ADCSBoxMonitor.cpp:102, 21 *)
  Add KReadable (mk_bf "adcs_monitor.ssa_mode" CUChar (Some (DInt UChar 0 2 None)) 0);  (* ADCSBoxMonitor.cpp:103, 24 *)
  Add KReadable (mk_bf "adcs_monitor.ssa_vec" CVec3f (Some (DVec 9999 10001 10000 0)) 0);  (* ADCSBoxMonitor.cpp:104, 25 *)
  Add KReadable (mk_bf "adcs_monitor.ssa_voltage0" CFloat (Some (DFlt 8)) 0);  (* ADCSBoxMonitor.cpp:107 *)
  Add KReadable (mk_bf "adcs_monitor.ssa_voltage1" CFloat (Some (DFlt 8)) 0);  (* ADCSBoxMonitor.cpp:107 *)
  Add KReadable (mk_bf "adcs_monitor.ssa_voltage2" CFloat (Some (DFlt 8)) 0);  (* ADCSBoxMonitor.cpp:107 *)
  Add KReadable (mk_bf "adcs_monitor.ssa_voltage3" CFloat (Some (DFlt 8)) 0);  (* ADCSBoxMonitor.cpp:107 *)
  Add KReadable (mk_bf "adcs_monitor.ssa_voltage4" CFloat (Some (DFlt 8)) 0);  (* ADCSBoxMonitor.cpp:107 *)
  Add KReadable (mk_bf "adcs_monitor.ssa_voltage5" CFloat (Some (DFlt 8)) 0);  (* ADCSBoxMonitor.cpp:107 *)
  Add KReadable (mk_bf "adcs_monitor.ssa_voltage6" CFloat (Some (DFlt 8)) 0);  (* ADCSBoxMonitor.cpp:107 *)
  Add KReadable (mk_bf "adcs_monitor.ssa_voltage7" CFloat (Some (DFlt 8)) 0);  (* ADCSBoxMonitor.cpp:107 *)
  Add KReadable (mk_bf "adcs_monitor.ssa_voltage8" CFloat (Some (DFlt 8)) 0);  (* ADCSBoxMonitor.cpp:107 *)
  Add KReadable (mk_bf "adcs_monitor.ssa_voltage9" CFloat (Some (DFlt 8)) 0);  (* ADCSBoxMonitor.cpp:107 *)
  Add KReadable (mk_bf "adcs_monitor.ssa_voltage10" CFloat (Some (DFlt 8)) 0);  (* ADCSBoxMonitor.cpp:107 *)
  Add KReadable (mk_bf "adcs_monitor.ssa_voltage11" CFloat (Some (DFlt 8)) 0);  (* ADCSBoxMonitor.cpp:107 *)
  Add KReadable (mk_bf "adcs_monitor.ssa_voltage12" CFloat (Some (DFlt 8)) 0);  (* ADCSBoxMonitor.cpp:107 *)
  Add KReadable (mk_bf "adcs_monitor.ssa_voltage13" CFloat (Some (DFlt 8)) 0);  (* ADCSBoxMonitor.cpp:107 *)
  Add KReadable (mk_bf "adcs_monitor.ssa_voltage14" CFloat (Some (DFlt 8)) 0);  (* ADCSBoxMonitor.cpp:107 *)
  Add KReadable (mk_bf "adcs_monitor.ssa_voltage15" CFloat (Some (DFlt 8)) 0);  (* ADCSBoxMonitor.cpp:107 *)
  Add KReadable (mk_bf "adcs_monitor.ssa_voltage16" CFloat (Some (DFlt 8)) 0);  (* ADCSBoxMonitor.cpp:107 *)
  Add KReadable (mk_bf "adcs_monitor.ssa_voltage17" CFloat (Some (DFlt 8)) 0);  (* ADCSBoxMonitor.cpp:107 *)
  Add KReadable (mk_bf "adcs_monitor.ssa_voltage18" CFloat (Some (DFlt 8)) 0);  (* ADCSBoxMonitor.cpp:107 *)
  Add KReadable (mk_bf "adcs_monitor.ssa_voltage19" CFloat (Some (DFlt 8)) 0);  (* ADCSBoxMonitor.cpp:107 *)
  Add KReadable (mk_bf "adcs_monitor.mag1_vec" CVec3f (Some (DVec 0 1 1 1)) 0);  (* ADCSBoxMonitor.cpp:110, 30 *)
  Add KReadable (mk_bf "adcs_monitor.mag1_vec.x" CFloat (Some (DFlt 16)) 0);  (* ADCSBoxMonitor.cpp:111, 31 *)
  Add KReadable (mk_bf "adcs_monitor.mag1_vec.y" CFloat (Some (DFlt 16)) 0);  (* ADCSBoxMonitor.cpp:112, 32 *)
  Add KReadable (mk_bf "adcs_monitor.mag1_vec.z" CFloat (Some (DFlt 16)) 0);  (* ADCSBoxMonitor.cpp:113, 33 *)
  Add KReadable (mk_bf "adcs_monitor.mag2_vec" CVec3f (Some (DVec 0 1 1 1)) 0);  (* ADCSBoxMonitor.cpp:114, 37 *)
  Add KReadable (mk_bf "adcs_monitor.mag2_vec.x" CFloat (Some (DFlt 16)) 0);  (* ADCSBoxMonitor.cpp:115, 38 *)
  Add KReadable (mk_bf "adcs_monitor.mag2_vec.y" CFloat (Some (DFlt 16)) 0);  (* ADCSBoxMonitor.cpp:116, 39 *)
  Add KReadable (mk_bf "adcs_monitor.mag2_vec.z" CFloat (Some (DFlt 16)) 0);  (* ADCSBoxMonitor.cpp:117, 40 *)
  Add KReadable (mk_bf "adcs_monitor.gyr_vec" CVec3f (Some (DVec 0 1 1 1)) 0);  (* ADCSBoxMonitor.cpp:118, 43 *)
  Add KReadable (mk_bf "adcs_monitor.gyr_vec.x" CFloat (Some (DFlt 16)) 0);  (* ADCSBoxMonitor.cpp:119, 44 *)
  Add KReadable (mk_bf "adcs_monitor.gyr_vec.y" CFloat (Some (DFlt 16)) 0);  (* ADCSBoxMonitor.cpp:120, 45 *)
  Add KReadable (mk_bf "adcs_monitor.gyr_vec.z" CFloat (Some (DFlt 16)) 0);  (* ADCSBoxMonitor.cpp:121, 46 *)
  Add KReadable (mk_bf "adcs_monitor.gyr_temp" CFloat (Some (DFlt 16)) 0);  (* ADCSBoxMonitor.cpp:122, 49 *)
  Add KReadable (mk_bf "adcs_monitor.speed_rd_flag" CBool (Some DBool) 0);  (* ADCSBoxMonitor.cpp:125, 52 *)
  Add KReadable (mk_bf "adcs_monitor.torque_rd_flag" CBool (Some DBool) 0);  (* ADCSBoxMonitor.cpp:126, 53 *)
  Add KReadable (mk_bf "adcs_monitor.mag1_vec_flag" CBool (Some DBool) 0);  (* ADCSBoxMonitor.cpp:127, 54 *)
  Add KReadable (mk_bf "adcs_monitor.mag2_vec_flag" CBool (Some DBool) 0);  (* ADCSBoxMonitor.cpp:128, 55 *)
  Add KReadable (mk_bf "adcs_monitor.gyr_vec_flag" CBool (Some DBool) 0);  (* ADCSBoxMonitor.cpp:129, 56 *)
  Add KReadable (mk_bf "adcs_monitor.gyr_temp_flag" CBool (Some DBool) 0);  (* ADCSBoxMonitor.cpp:130, 57 *)
  Add KReadable (mk_bf "adcs_monitor.functional" CBool (Some DBool) 0);  (* ADCSBoxMonitor.cpp:132, 59 *)
  AddFlt "adcs_monitor.functional_fault";  (* ADCSBoxMonitor.cpp:134, 60 *)
  AddFlt "adcs_monitor.wheel1_fault";  (* ADCSBoxMonitor.cpp:135, 61 *)
  AddFlt "adcs_monitor.wheel2_fault";  (* ADCSBoxMonitor.cpp:136, 62 *)
  AddFlt "adcs_monitor.wheel3_fault";  (* ADCSBoxMonitor.cpp:137, 63 *)
  AddFlt "adcs_monitor.wheel_pot_fault";  (* ADCSBoxMonitor.cpp:138, 64 *)
  Add KReadable (mk_bf "timing.debug.num_lates" CUInt (Some (DInt UInt 0 4294967295 None)) 0);  (* TimedControlTask.hpp:194, DebugTask.cpp:4 *)
  Add KReadable (mk_bf "timing.debug.avg_wait" CFloat (Some (DFlt 18)) 0);  (* TimedControlTask.hpp:195, DebugTask.cpp:4 *)
  Add KReadable (mk_bf "timing.debug.duration" CUInt (Some (DInt UInt 0 4294967295 None)) 0);  (* TimedControlTask.hpp:196, DebugTask.cpp:4 *)
  Add KWritable (mk_bf "cycle.start" CBool (Some DBool) 1);  (* DebugTask.cpp:7, 5 *)
  Add KWritable (mk_bf "cycle.auto" CBool (Some DBool) 1);  (* DebugTask.cpp:8, 6 *)
  Add KReadable (mk_bf "timing.estimators.num_lates" CUInt (Some (DInt UInt 0 4294967295 None)) 0);  (* TimedControlTask.hpp:194, Estimators.cpp:4 *)
  Add KReadable (mk_bf "timing.estimators.avg_wait" CFloat (Some (DFlt 18)) 0);  (* TimedControlTask.hpp:195, Estimators.cpp:4 *)
  Add KReadable (mk_bf "timing.estimators.duration" CUInt (Some (DInt UInt 0 4294967295 None)) 0);  (* TimedControlTask.hpp:196, Estimators.cpp:4 *)
  Find KReadable "piksi.state" CUChar;  (* Estimators/TimeEstimator.cpp:13 *)
  Find KReadable "piksi.microdelta" CUInt;  (* Estimators/TimeEstimator.cpp:14 *)
  Find KReadable "piksi.time" CGps;  (* Estimators/TimeEstimator.cpp:15 *)
  Add KReadable (mk_bf "time.valid" CBool (Some DBool) 0);  (* Estimators/TimeEstimator.cpp:25, 16 *)
  Add KInternal (mk_bf "time.s" CDouble None 0);  (* Estimators/TimeEstimator.cpp:26, 19 *)
  Add KInternal (mk_bf "time.ns" CULL None 0);  (* Estimators/TimeEstimator.cpp:27, 18 *)
  Add KReadable (mk_bf "time.gps" CGps (Some DGps) 0);  (* Estimators/TimeEstimator.cpp:28, 17 *)
  Add KInternal (mk_bf "time.earth.w" CVec3d None 0);  (* Estimators/TimeEstimator.cpp:29, 20 *)
  Add KInternal (mk_bf "time.earth.q_ecef_eci" CVec4d None 0);  (* Estimators/TimeEstimator.cpp:30, 21 *)
  Add KInternal (mk_bf "time.earth.q_eci_ecef" CVec4d None 0);  (* Estimators/TimeEstimator.cpp:31, 22 *)
  Add KWritable (mk_bf "time.reset_cmd" CBool (Some DBool) 0);  (* Estimators/TimeEstimator.cpp:32, 23 *)
  Find KReadable "piksi.state" CUChar;  (* Estimators/OrbitEstimator.cpp:29 *)
  Find KReadable "piksi.microdelta" CUInt;  (* Estimators/OrbitEstimator.cpp:30 *)
  Find KReadable "piksi.pos" CVec3d;  (* Estimators/OrbitEstimator.cpp:31 *)
  Find KReadable "piksi.vel" CVec3d;  (* Estimators/OrbitEstimator.cpp:32 *)
  Find KReadable "time.valid" CBool;  (* Estimators/OrbitEstimator.cpp:33 *)
  Find KInternal "time.ns" CULL;  (* Estimators/OrbitEstimator.cpp:34 *)
  Find KInternal "time.earth.w" CVec3d;  (* Estimators/OrbitEstimator.cpp:35 *)
  Add KReadable (mk_bf "orbit.valid" CBool (Some DBool) 0);  (* Estimators/OrbitEstimator.cpp:43, 36 *)
  Add KReadable (mk_bf "orbit.pos" CVec3d (Some (DVec 6771000 6921000 1 28)) 0);  (* Estimators/OrbitEstimator.cpp:44, 37 *)
  Add KReadable (mk_bf "orbit.pos_sigma" CVec3d (Some (DVec 0 100 1 12)) 0);  (* Estimators/OrbitEstimator.cpp:45, 38 *)
  Add KReadable (mk_bf "orbit.vel" CVec3d (Some (DVec 7160 7360 1 20)) 0);  (* Estimators/OrbitEstimator.cpp:46, 39 *)
  Add KReadable (mk_bf "orbit.vel_sigma" CVec3d (Some (DVec 0 50 1 12)) 0);  (* Estimators/OrbitEstimator.cpp:47, 40 *)
  Add KWritable (mk_bf "orbit.reset_cmd" CBool (Some DBool) 0);  (* Estimators/OrbitEstimator.cpp:48, 41 *)
  Find KReadable "piksi.state" CUChar;  (* Estimators/RelativeOrbitEstimator.cpp:49 *)
  Find KReadable "piksi.microdelta" CUInt;  (* Estimators/RelativeOrbitEstimator.cpp:50 *)
  Find KReadable "piksi.pos" CVec3d;  (* Estimators/RelativeOrbitEstimator.cpp:51 *)
  Find KReadable "piksi.vel" CVec3d;  (* Estimators/RelativeOrbitEstimator.cpp:52 *)
  Find KReadable "piksi.baseline_pos" CVec3d;  (* Estimators/RelativeOrbitEstimator.cpp:53 *)
  Find KReadable "time.valid" CBool;  (* Estimators/RelativeOrbitEstimator.cpp:54 *)
  Find KReadable "time.gps" CGps;  (* Estimators/RelativeOrbitEstimator.cpp:55 *)
  Find KInternal "time.earth.w" CVec3d;  (* Estimators/RelativeOrbitEstimator.cpp:56 *)
  Find KReadable "orbit.valid" CBool;  (* Estimators/RelativeOrbitEstimator.cpp:57 *)
  Find KReadable "orbit.pos" CVec3d;  (* Estimators/RelativeOrbitEstimator.cpp:58 *)
  Find KReadable "orbit.vel" CVec3d;  (* Estimators/RelativeOrbitEstimator.cpp:59 *)
  Add KReadable (mk_bf "rel_orbit.state" CUChar (Some (DInt UChar 0 2 None)) 0);  (* Estimators/RelativeOrbitEstimator.cpp:75, 60 *)
  Add KReadable (mk_bf "rel_orbit.pos" CVec3d (Some (DVec 6771000 6921000 1 28)) 0);  (* Estimators/RelativeOrbitEstimator.cpp:76, 61 *)
  Add KReadable (mk_bf "rel_orbit.vel" CVec3d (Some (DVec 7160 7360 1 20)) 0);  (* Estimators/RelativeOrbitEstimator.cpp:77, 62 *)
  Add KReadable (mk_bf "rel_orbit.rel_pos" CVec3d (Some (DVec 0 2000 1 22)) 0);  (* Estimators/RelativeOrbitEstimator.cpp:78, 63 *)
  Add KReadable (mk_bf "rel_orbit.rel_pos_sigma" CVec3d (Some (DVec 0 10 1 12)) 0);  (* Estimators/RelativeOrbitEstimator.cpp:79, 64 *)
  Add KReadable (mk_bf "rel_orbit.rel_vel" CVec3d (Some (DVec 0 11 1 14)) 0);  (* Estimators/RelativeOrbitEstimator.cpp:80, 65 *)
  Add KReadable (mk_bf "rel_orbit.rel_vel_sigma" CVec3d (Some (DVec 0 1 1 12)) 0);  (* Estimators/RelativeOrbitEstimator.cpp:81, 66 *)
  Add KWritable (mk_bf "rel_orbit.reset_cmd" CBool (Some DBool) 0);  (* Estimators/RelativeOrbitEstimator.cpp:82, 67 *)
  Add KWritable (mk_bf "rel_orbit.uplink.time" CGps (Some DGps) 0);  (* Estimators/RelativeOrbitEstimator.cpp:83, 68 *)
  Add KWritable (mk_bf "rel_orbit.uplink.pos" CVec3d (Some (DVec 6771000 6921000 1 28)) 0);  (* Estimators/RelativeOrbitEstimator.cpp:84, 69 *)
  Add KWritable (mk_bf "rel_orbit.uplink.vel" CVec3d (Some (DVec 7160 7360 1 20)) 0);  (* Estimators/RelativeOrbitEstimator.cpp:85, 70 *)
  Find KReadable "time.valid" CBool;  (* Estimators/AttitudeEstimator.cpp:22 *)
  Find KInternal "time.s" CDouble;  (* Estimators/AttitudeEstimator.cpp:23 *)
  Find KReadable "orbit.valid" CBool;  (* Estimators/AttitudeEstimator.cpp:24 *)
  Find KReadable "orbit.pos" CVec3d;  (* Estimators/AttitudeEstimator.cpp:25 *)
  Find KReadable "adcs_monitor.havt_device0" CBool;  (* Estimators/AttitudeEstimator.cpp:26 *)
  Find KReadable "adcs_monitor.gyr_vec" CVec3f;  (* Estimators/AttitudeEstimator.cpp:27 *)
  Find KReadable "adcs_monitor.havt_device1" CBool;  (* Estimators/AttitudeEstimator.cpp:28 *)
  Find KReadable "adcs_monitor.mag1_vec" CVec3f;  (* Estimators/AttitudeEstimator.cpp:29 *)
  Find KReadable "adcs_monitor.havt_device2" CBool;  (* Estimators/AttitudeEstimator.cpp:30 *)
  Find KReadable "adcs_monitor.mag2_vec" CVec3f;  (* Estimators/AttitudeEstimator.cpp:31 *)
  Find KReadable "adcs_monitor.ssa_mode" CUChar;  (* Estimators/AttitudeEstimator.cpp:32 *)
  Find KReadable "adcs_monitor.ssa_vec" CVec3f;  (* Estimators/AttitudeEstimator.cpp:33 *)
  Add KReadable (mk_bf "attitude_estimator.b_valid" CBool (Some DBool) 0);  (* Estimators/AttitudeEstimator.cpp:48, 34 *)
  Add KReadable (mk_bf "attitude_estimator.b_body" CVec3f (Some (DVec 0 1 10000 12)) 0);  (* Estimators/AttitudeEstimator.cpp:49, 35 *)
  Add KReadable (mk_bf "attitude_estimator.valid" CBool (Some DBool) 0);  (* Estimators/AttitudeEstimator.cpp:50, 36 *)
  Add KReadable (mk_bf "attitude_estimator.q_body_eci" CVec4f (Some DQuat) 0);  (* Estimators/AttitudeEstimator.cpp:51, 37 *)
  Add KReadable (mk_bf "attitude_estimator.p_body_eci_sigma_f" CVec3f (Some (DVec 0 5 10 14)) 0);  (* Estimators/AttitudeEstimator.cpp:52, 38 *)
  Add KInternal (mk_bf "attitude_estimator.w_body" CVec3f None 0);  (* Estimators/AttitudeEstimator.cpp:53, 39 *)
  Add KReadable (mk_bf "attitude_estimator.w_bias_body" CVec3f (Some (DVec 0 35 100 14)) 0);  (* Estimators/AttitudeEstimator.cpp:54, 40 *)
  Add KReadable (mk_bf "attitude_estimator.w_bias_sigma_body" CVec3f (Some (DVec 0 1 10 14)) 0);  (* Estimators/AttitudeEstimator.cpp:55, 41 *)
  Add KReadable (mk_bf "attitude_estimator.L_body" CVec3f (Some (DVec 0 1 10 14)) 0);  (* Estimators/AttitudeEstimator.cpp:56, 42 *)
  Add KWritable (mk_bf "attitude_estimator.reset_cmd" CBool (Some DBool) 0);  (* Estimators/AttitudeEstimator.cpp:57, 43 *)
  Add KWritable (mk_bf "attitude_estimator.mag_flag" CBool (Some DBool) 1);  (* Estimators/AttitudeEstimator.cpp:58, 44 *)
  Add KWritable (mk_bf "attitude_estimator.ignore_sun_vectors" CBool (Some DBool) 1);  (* Estimators/AttitudeEstimator.cpp:59, 45 *)
  AddFlt "attitude_estimator.fault";  (* Estimators/AttitudeEstimator.cpp:60, 46 *)
  Add KReadable (mk_bf "timing.gomspace_rd.num_lates" CUInt (Some (DInt UInt 0 4294967295 None)) 0);  (* TimedControlTask.hpp:194, GomspaceController.cpp:5 *)
  Add KReadable (mk_bf "timing.gomspace_rd.avg_wait" CFloat (Some (DFlt 18)) 0);  (* TimedControlTask.hpp:195, GomspaceController.cpp:5 *)
  Add KReadable (mk_bf "timing.gomspace_rd.duration" CUInt (Some (DInt UInt 0 4294967295 None)) 0);  (* TimedControlTask.hpp:196, GomspaceController.cpp:5 *)
  AddFlt "gomspace.get_hk";  (* GomspaceController.cpp:111, 9 *)
  AddFlt "gomspace.low_batt";  (* GomspaceController.cpp:112, 10 *)
  Add KWritable (mk_bf "gomspace.batt_threshold" CUInt (Some (DInt UInt 5000 9000 (Some 10%nat))) 0);  (* GomspaceController.cpp:114, 13 *)
  Add KReadable (mk_bf "gomspace.vboost.output1" CUInt (Some (DInt UInt 0 8500 (Some 6%nat))) 0);  (* GomspaceController.cpp:117, 16 *)
  Add KReadable (mk_bf "gomspace.vboost.output2" CUInt (Some (DInt UInt 0 8500 (Some 6%nat))) 0);  (* GomspaceController.cpp:118, 17 *)
  Add KReadable (mk_bf "gomspace.vboost.output3" CUInt (Some (DInt UInt 0 8500 (Some 6%nat))) 0);  (* GomspaceController.cpp:119, 18 *)
  Add KReadable (mk_bf "gomspace.vbatt" CUInt (Some (DInt UInt 5000 9500 (Some 10%nat))) 0);  (* GomspaceController.cpp:121, 21 *)
  Add KReadable (mk_bf "gomspace.curin.output1" CUInt (Some (DInt UInt 0 6000 (Some 10%nat))) 0);  (* GomspaceController.cpp:123, 24 *)
  Add KReadable (mk_bf "gomspace.curin.output2" CUInt (Some (DInt UInt 0 6000 (Some 10%nat))) 0);  (* GomspaceController.cpp:124, 25 *)
  Add KReadable (mk_bf "gomspace.curin.output3" CUInt (Some (DInt UInt 0 6000 (Some 10%nat))) 0);  (* GomspaceController.cpp:125, 26 *)
  Add KReadable (mk_bf "gomspace.cursun" CUInt (Some (DInt UInt 0 3000 (Some 10%nat))) 0);  (* GomspaceController.cpp:127, 29 *)
  Add KReadable (mk_bf "gomspace.cursys" CUInt (Some (DInt UInt 0 12000 (Some 10%nat))) 0);  (* GomspaceController.cpp:129, 32 *)
  Add KReadable (mk_bf "gomspace.curout.output1" CUInt (Some (DInt UInt 0 12000 (Some 10%nat))) 0);  (* GomspaceController.cpp:131, 35 *)
  Add KReadable (mk_bf "gomspace.curout.output2" CUInt (Some (DInt UInt 0 12000 (Some 10%nat))) 0);  (* GomspaceController.cpp:132, 36 *)
  Add KReadable (mk_bf "gomspace.curout.output3" CUInt (Some (DInt UInt 0 12000 (Some 10%nat))) 0);  (* GomspaceController.cpp:133, 37 *)
  Add KReadable (mk_bf "gomspace.curout.output4" CUInt (Some (DInt UInt 0 12000 (Some 10%nat))) 0);  (* GomspaceController.cpp:134, 38 *)
  Add KReadable (mk_bf "gomspace.curout.output5" CUInt (Some (DInt UInt 0 12000 (Some 10%nat))) 0);  (* GomspaceController.cpp:135, 39 *)
  Add KReadable (mk_bf "gomspace.curout.output6" CUInt (Some (DInt UInt 0 12000 (Some 10%nat))) 0);  (* GomspaceController.cpp:136, 40 *)
  Add KReadable (mk_bf "gomspace.output.output1" CBool (Some DBool) 0);  (* GomspaceController.cpp:138, 43 *)
  Add KReadable (mk_bf "gomspace.output.output2" CBool (Some DBool) 0);  (* GomspaceController.cpp:139, 44 *)
  Add KReadable (mk_bf "gomspace.output.output3" CBool (Some DBool) 0);  (* GomspaceController.cpp:140, 45 *)
  Add KReadable (mk_bf "gomspace.output.output4" CBool (Some DBool) 0);  (* GomspaceController.cpp:141, 46 *)
  Add KReadable (mk_bf "gomspace.output.output5" CBool (Some DBool) 0);  (* GomspaceController.cpp:142, 47 *)
  Add KReadable (mk_bf "gomspace.output.output6" CBool (Some DBool) 0);  (* GomspaceController.cpp:143, 48 *)
  Add KReadable (mk_bf "gomspace.wdt_i2c_time_left" CUInt (Some (DInt UInt 0 99 None)) 0);  (* GomspaceController.cpp:145, 51 *)
  Add KReadable (mk_bf "gomspace.counter_wdt_i2c" CUInt (Some (DInt UInt 0 4294967295 None)) 0);  (* GomspaceController.cpp:147, 54 *)
  Add KReadable (mk_bf "gomspace.counter_boot" CUInt (Some (DInt UInt 0 4294967295 None)) 0);  (* GomspaceController.cpp:149, 57 *)
  Add KReadable (mk_bf "gomspace.temp.output1" CSInt (Some (DInt SInt (-40) 125 None)) 0);  (* GomspaceController.cpp:151, 60 *)
  Add KReadable (mk_bf "gomspace.temp.output2" CSInt (Some (DInt SInt (-40) 125 None)) 0);  (* GomspaceController.cpp:152, 61 *)
  Add KReadable (mk_bf "gomspace.temp.output3" CSInt (Some (DInt SInt (-40) 125 None)) 0);  (* GomspaceController.cpp:153, 62 *)
  Add KReadable (mk_bf "gomspace.temp.output4" CSInt (Some (DInt SInt (-40) 125 None)) 0);  (* GomspaceController.cpp:154, 63 *)
  Add KReadable (mk_bf "gomspace.bootcause" CUChar (Some (DInt UChar 0 8 None)) 0);  (* GomspaceController.cpp:156, 66 *)
  Add KReadable (mk_bf "gomspace.battmode" CUChar (Some (DInt UChar 0 4 None)) 0);  (* GomspaceController.cpp:158, 69 *)
  Add KReadable (mk_bf "gomspace.pptmode" CUChar (Some (DInt UChar 1 2 None)) 0);  (* GomspaceController.cpp:160, 72 *)
  Add KReadable (mk_bf "gomspace.heater" CBool (Some DBool) 0);  (* GomspaceController.cpp:162, 75 *)
  Add KWritable (mk_bf "gomspace.powercycle_period" CUInt (Some (DInt UInt 0 4294967295 None)) 0);  (* GomspaceController.cpp:166, 78 *)
  Add KWritable (mk_bf "gomspace.power_cycle_output1_cmd" CBool (Some DBool) 0);  (* GomspaceController.cpp:169, 81 *)
  Add KWritable (mk_bf "gomspace.power_cycle_output2_cmd" CBool (Some DBool) 0);  (* GomspaceController.cpp:170, 82 *)
  Add KWritable (mk_bf "gomspace.power_cycle_output3_cmd" CBool (Some DBool) 0);  (* GomspaceController.cpp:171, 83 *)
  Add KWritable (mk_bf "gomspace.power_cycle_output4_cmd" CBool (Some DBool) 0);  (* GomspaceController.cpp:172, 84 *)
  Add KWritable (mk_bf "gomspace.power_cycle_output5_cmd" CBool (Some DBool) 0);  (* GomspaceController.cpp:173, 85 *)
  Add KWritable (mk_bf "gomspace.power_cycle_output6_cmd" CBool (Some DBool) 0);  (* GomspaceController.cpp:174, 86 *)
  Add KWritable (mk_bf "gomspace.pv1_cmd" CUInt (Some (DInt UInt 0 8500 (Some 9%nat))) 0);  (* GomspaceController.cpp:176, 89 *)
  Add KWritable (mk_bf "gomspace.pv2_cmd" CUInt (Some (DInt UInt 0 8500 (Some 9%nat))) 0);  (* GomspaceController.cpp:177, 90 *)
  Add KWritable (mk_bf "gomspace.pv3_cmd" CUInt (Some (DInt UInt 0 8500 (Some 9%nat))) 0);  (* GomspaceController.cpp:178, 91 *)
  Add KWritable (mk_bf "gomspace.pptmode_cmd" CUChar (Some (DInt UChar 1 2 None)) 0);  (* GomspaceController.cpp:183, 94 *)
  Add KWritable (mk_bf "gomspace.heater_cmd" CBool (Some DBool) 0);  (* GomspaceController.cpp:186, 97 *)
  Add KWritable (mk_bf "gomspace.counter_reset_cmd" CBool (Some DBool) 0);  (* GomspaceController.cpp:188, 100 *)
  Add KWritable (mk_bf "gomspace.gs_reset_cmd" CBool (Some DBool) 0);  (* GomspaceController.cpp:190, 103 *)
  Add KWritable (mk_bf "gomspace.gs_reboot_cmd" CBool (Some DBool) 0);  (* GomspaceController.cpp:192, 106 *)
  Add KWritable (mk_bf "gomspace.piksi_off" CBool (Some DBool) 0);  (* GomspaceController.cpp:194, 109 *)
  Add KReadable (mk_bf "timing.docking_ct.num_lates" CUInt (Some (DInt UInt 0 4294967295 None)) 0);  (* TimedControlTask.hpp:194, DockingController.cpp:5 *)
  Add KReadable (mk_bf "timing.docking_ct.avg_wait" CFloat (Some (DFlt 18)) 0);  (* TimedControlTask.hpp:195, DockingController.cpp:5 *)
  Add KReadable (mk_bf "timing.docking_ct.duration" CUInt (Some (DInt UInt 0 4294967295 None)) 0);  (* TimedControlTask.hpp:196, DockingController.cpp:5 *)
  Add KReadable (mk_bf "docksys.docked" CBool (Some DBool) 0);  (* DockingController.cpp:12, 8 *)
  Add KReadable (mk_bf "docksys.dock_config" CBool (Some DBool) 0);  (* DockingController.cpp:13, 9 *)
  Add KReadable (mk_bf "docksys.is_turning" CBool (Some DBool) 0);  (* DockingController.cpp:14, 10 *)
  Add KWritable (mk_bf "docksys.step_angle" CFloat (Some (DFlt 16)) 0);  (* DockingController.cpp:16, 6 *)
  Add KWritable (mk_bf "docksys.step_delay" CUInt (Some (DInt UInt 0 4294967295 None)) 0);  (* DockingController.cpp:17, 7 *)
  Add KReadable (mk_bf "timing.downlink_ct.num_lates" CUInt (Some (DInt UInt 0 4294967295 None)) 0);  (* TimedControlTask.hpp:194, DownlinkProducer.cpp:5 *)
  Add KReadable (mk_bf "timing.downlink_ct.avg_wait" CFloat (Some (DFlt 18)) 0);  (* TimedControlTask.hpp:195, DownlinkProducer.cpp:5 *)
  Add KReadable (mk_bf "timing.downlink_ct.duration" CUInt (Some (DInt UInt 0 4294967295 None)) 0);  (* TimedControlTask.hpp:196, DownlinkProducer.cpp:5 *)
  Find KReadable "pan.cycle_no" CUInt;  (* DownlinkProducer.cpp:9 *)
  Add KInternal (mk_bf "downlink.ptr" CPtr None 0);  (* DownlinkProducer.cpp:12, 6 *)
  Add KInternal (mk_bf "downlink.snap_size" CSize None 0);  (* DownlinkProducer.cpp:13, 7 *)
  Add KReadable (mk_bf "timing.quake.num_lates" CUInt (Some (DInt UInt 0 4294967295 None)) 0);  (* TimedControlTask.hpp:194, QuakeManager.cpp:31 *)
  Add KReadable (mk_bf "timing.quake.avg_wait" CFloat (Some (DFlt 18)) 0);  (* TimedControlTask.hpp:195, QuakeManager.cpp:31 *)
  Add KReadable (mk_bf "timing.quake.duration" CUInt (Some (DInt UInt 0 4294967295 None)) 0);  (* TimedControlTask.hpp:196, QuakeManager.cpp:31 *)
  Add KWritable (mk_bf "radio.max_wait" CUInt (Some (DInt UInt 0 508235 None)) 0);  (* QuakeManager.cpp:44, 32 *)
  Add KWritable (mk_bf "radio.max_transceive" CUInt (Some (DInt UInt 0 508235 None)) 0);  (* QuakeManager.cpp:45, 33 *)
  Add KReadable (mk_bf "radio.err" CSInt (Some (DInt SInt (-90) 10 None)) 0);  (* QuakeManager.cpp:46, 34 *)
  Add KInternal (mk_bf "uplink.ptr" CPtr None 0);  (* QuakeManager.cpp:47, 35 *)
  Add KInternal (mk_bf "uplink.len" CSize None 0);  (* QuakeManager.cpp:48, 36 *)
  Add KReadable (mk_bf "radio.state" CUChar (Some (DInt UChar 0 255 None)) 0);  (* QuakeManager.cpp:49, 37 *)
  Add KReadable (mk_bf "radio.last_comms_ccno" CUInt (Some (DInt UInt 0 4294967295 None)) 0);  (* QuakeManager.cpp:50, 38 *)
  Add KWritable (mk_bf "telem.dump" CBool (Some DBool) 0);  (* QuakeManager.cpp:51, 39 *)
  Find KInternal "downlink.snap_size" CSize;  (* QuakeManager.cpp:54 *)
  Find KInternal "downlink.ptr" CPtr;  (* QuakeManager.cpp:55 *)
  Find KWritable "gomspace.power_cycle_output3_cmd" CBool;  (* QuakeManager.cpp:56 *)
  Add KReadable (mk_bf "timing.uplink_ct.num_lates" CUInt (Some (DInt UInt 0 4294967295 None)) 0);  (* TimedControlTask.hpp:194, UplinkConsumer.cpp:5 *)
  Add KReadable (mk_bf "timing.uplink_ct.avg_wait" CFloat (Some (DFlt 18)) 0);  (* TimedControlTask.hpp:195, UplinkConsumer.cpp:5 *)
  Add KReadable (mk_bf "timing.uplink_ct.duration" CUInt (Some (DInt UInt 0 4294967295 None)) 0);  (* TimedControlTask.hpp:196, UplinkConsumer.cpp:5 *)
  Find KInternal "uplink.len" CSize;  (* UplinkConsumer.cpp:7 *)
  Find KInternal "uplink.ptr" CPtr;  (* UplinkConsumer.cpp:8 *)
  Add KReadable (mk_bf "timing.dcdc_ct.num_lates" CUInt (Some (DInt UInt 0 4294967295 None)) 0);  (* TimedControlTask.hpp:194, DCDCController.cpp:5 *)
  Add KReadable (mk_bf "timing.dcdc_ct.avg_wait" CFloat (Some (DFlt 18)) 0);  (* TimedControlTask.hpp:195, DCDCController.cpp:5 *)
  Add KReadable (mk_bf "timing.dcdc_ct.duration" CUInt (Some (DInt UInt 0 4294967295 None)) 0);  (* TimedControlTask.hpp:196, DCDCController.cpp:5 *)
  Add KWritable (mk_bf "dcdc.ADCSMotor_cmd" CBool (Some DBool) 0);  (* DCDCController.cpp:13, 6 *)
  Add KWritable (mk_bf "dcdc.SpikeDock_cmd" CBool (Some DBool) 0);  (* DCDCController.cpp:14, 7 *)
  Add KWritable (mk_bf "dcdc.disable_cmd" CBool (Some DBool) 0);  (* DCDCController.cpp:15, 8 *)
  Add KWritable (mk_bf "dcdc.reset_cmd" CBool (Some DBool) 0);  (* DCDCController.cpp:16, 9 *)
  Add KReadable (mk_bf "dcdc.ADCSMotor" CBool (Some DBool) 0);  (* DCDCController.cpp:17, 10 *)
  Add KReadable (mk_bf "dcdc.SpikeDock" CBool (Some DBool) 0);  (* DCDCController.cpp:18, 11 *)
  Add KReadable (mk_bf "timing.eeprom_ct.num_lates" CUInt (Some (DInt UInt 0 4294967295 None)) 0);  (* TimedControlTask.hpp:194, EEPROMControllerTeensy.cpp:8 *)
  Add KReadable (mk_bf "timing.eeprom_ct.avg_wait" CFloat (Some (DFlt 18)) 0);  (* TimedControlTask.hpp:195, EEPROMControllerTeensy.cpp:8 *)
  Add KReadable (mk_bf "timing.eeprom_ct.duration" CUInt (Some (DInt UInt 0 4294967295 None)) 0);  (* TimedControlTask.hpp:196, EEPROMControllerTeensy.cpp:8 *)
  Add KReadable (mk_bf "timing.orbit_control_ct.num_lates" CUInt (Some (DInt UInt 0 4294967295 None)) 0);  (* TimedControlTask.hpp:194, OrbitController.cpp:16 *)
  Add KReadable (mk_bf "timing.orbit_control_ct.avg_wait" CFloat (Some (DFlt 18)) 0);  (* TimedControlTask.hpp:195, OrbitController.cpp:16 *)
  Add KReadable (mk_bf "timing.orbit_control_ct.duration" CUInt (Some (DInt UInt 0 4294967295 None)) 0);  (* TimedControlTask.hpp:196, OrbitController.cpp:16 *)
  Find KInternal "time.s" CDouble;  (* OrbitController.cpp:18 *)
  Find KReadable "time.valid" CBool;  (* OrbitController.cpp:19 *)
  Find KReadable "orbit.valid" CBool;  (* OrbitController.cpp:20 *)
  Find KReadable "rel_orbit.state" CUChar;  (* OrbitController.cpp:21 *)
  Find KReadable "orbit.pos" CVec3d;  (* OrbitController.cpp:22 *)
  Find KReadable "orbit.vel" CVec3d;  (* OrbitController.cpp:23 *)
  Find KReadable "rel_orbit.rel_pos" CVec3d;  (* OrbitController.cpp:24 *)
  Find KReadable "rel_orbit.rel_vel" CVec3d;  (* OrbitController.cpp:25 *)
  Find KReadable "attitude_estimator.valid" CBool;  (* OrbitController.cpp:26 *)
  Find KReadable "attitude_estimator.q_body_eci" CVec4f;  (* OrbitController.cpp:27 *)
  Add KWritable (mk_bf "orbit.control.valve1" CUInt (Some (DInt UInt 0 1000 None)) 0);  (* OrbitController.cpp:37, 28 *)
  Add KWritable (mk_bf "orbit.control.valve2" CUInt (Some (DInt UInt 0 1000 None)) 0);  (* OrbitController.cpp:38, 29 *)
  Add KWritable (mk_bf "orbit.control.valve3" CUInt (Some (DInt UInt 0 1000 None)) 0);  (* OrbitController.cpp:39, 30 *)
  Add KWritable (mk_bf "orbit.control.valve4" CUInt (Some (DInt UInt 0 1000 None)) 0);  (* OrbitController.cpp:40, 31 *)
  Add KWritable (mk_bf "orbit.control.J_ecef" CVec3d (Some (DVec 0 25 1000 10)) 0);  (* OrbitController.cpp:41, 32 *)
  Add KWritable (mk_bf "orbit.control.alpha" CDouble (Some (DFlt 10)) 0);  (* OrbitController.cpp:42, 33 *)
  Add KWritable (mk_bf "orbit.control.num_near_field_nodes" CUInt (Some (DInt UInt 0 300 None)) 0);  (* OrbitController.cpp:43, 34 *)
  Add KReadable (mk_bf "timing.prop.num_lates" CUInt (Some (DInt UInt 0 4294967295 None)) 0);  (* TimedControlTask.hpp:194, PropController.cpp:13 *)
  Add KReadable (mk_bf "timing.prop.avg_wait" CFloat (Some (DFlt 18)) 0);  (* TimedControlTask.hpp:195, PropController.cpp:13 *)
  Add KReadable (mk_bf "timing.prop.duration" CUInt (Some (DInt UInt 0 4294967295 None)) 0);  (* TimedControlTask.hpp:196, PropController.cpp:13 *)
  Find KWritable "orbit.control.valve1" CUInt;  (* PropController.cpp:16 *)
  Find KWritable "orbit.control.valve2" CUInt;  (* PropController.cpp:17 *)
  Find KWritable "orbit.control.valve3" CUInt;  (* PropController.cpp:18 *)
  Find KWritable "orbit.control.valve4" CUInt;  (* PropController.cpp:19 *)
  Add KWritable (mk_bf "prop.state" CUInt (Some (DInt UInt 0 9 None)) 0);  (* PropController.cpp:45, 14 *)
  Add KWritable (mk_bf "prop.cycles_until_firing" CUInt (Some (DInt UInt 0 33882 None)) 0);  (* PropController.cpp:46, 15 *)
  Add KWritable (mk_bf "prop.sched_intertank1" CUInt (Some (DInt UInt 0 2000 None)) 0);  (* PropController.cpp:47, 20 *)
  Add KWritable (mk_bf "prop.sched_intertank2" CUInt (Some (DInt UInt 0 2000 None)) 0);  (* PropController.cpp:48, 21 *)
  Add KWritable (mk_bf "prop.max_venting_cycles" CUInt (Some (DInt UInt 0 50 None)) 0);  (* PropController.cpp:50, 23 *)
  Add KWritable (mk_bf "prop.ctrl_cycles_per_closing" CUInt (Some (DInt UInt 0 50 None)) 0);  (* PropController.cpp:51, 24 *)
  Add KWritable (mk_bf "prop.max_pressurizing_cycles" CUInt (Some (DInt UInt 0 50 None)) 0);  (* PropController.cpp:53, 26 *)
  Add KWritable (mk_bf "prop.threshold_firing_pressure" CFloat (Some (DFlt 6)) 0);  (* PropController.cpp:54, 27 *)
  Add KWritable (mk_bf "prop.ctrl_cycles_per_filling" CUInt (Some (DInt UInt 0 25 None)) 0);  (* PropController.cpp:55, 28 *)
  Add KWritable (mk_bf "prop.ctrl_cycles_per_cooling" CUInt (Some (DInt UInt 0 100 None)) 0);  (* PropController.cpp:56, 29 *)
  Add KWritable (mk_bf "prop.tank1.valve_choice" CUInt (Some (DInt UInt 0 1 None)) 0);  (* PropController.cpp:57, 30 *)
  Add KReadable (mk_bf "prop.tank2.pressure" CFloat (Some (DFlt 8)) 0);  (* PropController.cpp:59, 31 *)
  Add KReadable (mk_bf "prop.tank2.temp" CFloat (Some (DFlt 8)) 0);  (* PropController.cpp:60, 33 *)
  Add KReadable (mk_bf "prop.tank1.temp" CFloat (Some (DFlt 8)) 0);  (* PropController.cpp:61, 34 *)
  Add KReadable (mk_bf "prop.num_prop_firings" CUInt (Some (DInt UInt 0 4294967295 None)) 0);  (* PropController.cpp:62, 35 *)
  AddFlt "prop.pressurize_fail";  (* PropController.cpp:64, 38 *)
  AddFlt "prop.overpressured";  (* PropController.cpp:65, 39 *)
  AddFlt "prop.tank2_temp_high";  (* PropController.cpp:66, 40 *)
  AddFlt "prop.tank1_temp_high";  (* PropController.cpp:67, 41 *)
  Add KReadable (mk_bf "timing.mission_ct.num_lates" CUInt (Some (DInt UInt 0 4294967295 None)) 0);  (* TimedControlTask.hpp:194, MissionManager.cpp:20 *)
  Add KReadable (mk_bf "timing.mission_ct.avg_wait" CFloat (Some (DFlt 18)) 0);  (* TimedControlTask.hpp:195, MissionManager.cpp:20 *)
  Add KReadable (mk_bf "timing.mission_ct.duration" CUInt (Some (DInt UInt 0 4294967295 None)) 0);  (* TimedControlTask.hpp:196, MissionManager.cpp:20 *)
  Add KWritable (mk_bf "fault_handler.enabled" CBool (Some DBool) 0);  (* MainFaultHandler.cpp:11, 9 *)
  FindFlt "gomspace.low_batt.base";  (* MissionManager.cpp:30 *)
  FindFlt "adcs_monitor.functional_fault.base";  (* MissionManager.cpp:31 *)
  FindFlt "adcs_monitor.wheel1_fault.base";  (* MissionManager.cpp:32 *)
  FindFlt "adcs_monitor.wheel2_fault.base";  (* MissionManager.cpp:33 *)
  FindFlt "adcs_monitor.wheel3_fault.base";  (* MissionManager.cpp:34 *)
  FindFlt "adcs_monitor.wheel_pot_fault.base";  (* MissionManager.cpp:35 *)
  FindFlt "prop.pressurize_fail.base";  (* MissionManager.cpp:36 *)
  Add KWritable (mk_bf "detumble_safety_factor" CDouble (Some (DFlt 7)) 0);  (* MissionManager.cpp:44, 21 *)
  Add KWritable (mk_bf "trigger_dist.close_approach" CDouble (Some (DFlt 13)) 0);  (* MissionManager.cpp:45, 22 *)
  Add KWritable (mk_bf "trigger_dist.docking" CDouble (Some (DFlt 14)) 0);  (* MissionManager.cpp:46, 23 *)
  Add KWritable (mk_bf "docking_timeout_limit" CUInt (Some (DInt UInt 0 1016470 (Some 6%nat))) 0);  (* MissionManager.cpp:47, 24 *)
  Add KWritable (mk_bf "adcs.state" CUChar (Some (DInt UChar 0 10 None)) 0);  (* MissionManager.cpp:48, 27 *)
  Add KWritable (mk_bf "docksys.config_cmd" CBool (Some DBool) 0);  (* MissionManager.cpp:49, 28 *)
  Add KInternal (mk_bf "docksys.enter_docking" CUInt None 0);  (* MissionManager.cpp:50, 29 *)
  Add KWritable (mk_bf "pan.state" CUChar (Some (DInt UChar 0 12 None)) 1);  (* MissionManager.cpp:51, 37 *)
  Add KReadable (mk_bf "pan.deployed" CBool (Some DBool) 1);  (* MissionManager.cpp:52, 38 *)
  Add KReadable (mk_bf "pan.deployment.elapsed" CUChar (Some (DInt UChar 0 255 None)) 1);  (* MissionManager.cpp:53, 39 *)
  Add KWritable (mk_bf "pan.sat_designation" CUChar (Some (DInt UChar 0 2 None)) 0);  (* MissionManager.cpp:54, 40 *)
  Add KInternal (mk_bf "pan.enter_close_approach_ccno" CUInt None 0);  (* MissionManager.cpp:55, 41 *)
  Add KWritable (mk_bf "pan.kill_switch" CUChar (Some (DInt UChar 0 255 None)) 100);  (* MissionManager.cpp:56, 42 *)
  Find KReadable "pan.bootcount" CUChar;  (* MissionManager.cpp:58 *)
  FindFlt "gomspace.low_batt.base";  (* MainFaultHandler.cpp:19 *)
  FindFlt "adcs_monitor.wheel1_fault.base";  (* MainFaultHandler.cpp:23 *)
  FindFlt "adcs_monitor.wheel2_fault.base";  (* MainFaultHandler.cpp:24 *)
  FindFlt "adcs_monitor.wheel3_fault.base";  (* MainFaultHandler.cpp:25 *)
  FindFlt "adcs_monitor.wheel_pot_fault.base";  (* MainFaultHandler.cpp:26 *)
  FindFlt "prop.pressurize_fail.base";  (* MainFaultHandler.cpp:30 *)
  FindFlt "attitude_estimator.fault.base";  (* MainFaultHandler.cpp:34 *)
  Find KWritable "pan.state" CUChar;  (* SimpleFaultHandler.cpp:12 *)
  Find KWritable "pan.state" CUChar;  (* SimpleFaultHandler.cpp:12 *)
  Find KWritable "pan.state" CUChar;  (* SimpleFaultHandler.cpp:12 *)
  Find KWritable "pan.state" CUChar;  (* SimpleFaultHandler.cpp:12 *)
  Find KWritable "pan.state" CUChar;  (* SimpleFaultHandler.cpp:12 *)
  Find KWritable "pan.state" CUChar;  (* SimpleFaultHandler.cpp:12 *)
  Find KWritable "pan.state" CUChar;  (* SimpleFaultHandler.cpp:12 *)
  Find KReadable "radio.state" CUChar;  (* QuakeFaultHandler.cpp:11 *)
  Find KReadable "radio.last_comms_ccno" CUInt;  (* QuakeFaultHandler.cpp:12 *)
  Find KWritable "gomspace.power_cycle_output3_cmd" CBool;  (* QuakeFaultHandler.cpp:15 *)
  Add KWritable (mk_bf "qfh.state" CUChar (Some (DInt UChar 0 5 None)) 0);  (* QuakeFaultHandler.cpp:20, 8 *)
  Add KWritable (mk_bf "qfh.enabled" CBool (Some DBool) 0);  (* QuakeFaultHandler.cpp:21, 9 *)
  Add KWritable (mk_bf "piksi_fh.no_cdpgs_max_wait" CUInt (Some (DInt UInt 0 508235 None)) 0);  (* PiksiFaultHandler.cpp:17, 11 *)
  Add KWritable (mk_bf "piksi_fh.cdpgs_delay_max_wait" CUInt (Some (DInt UInt 0 508235 None)) 0);  (* PiksiFaultHandler.cpp:18, 12 *)
  Add KWritable (mk_bf "piksi_fh.enabled" CBool (Some DBool) 0);  (* PiksiFaultHandler.cpp:19, 13 *)
  Add KInternal (mk_bf "piksi_fh.last_rtkfix_ccno" CUInt None 0);  (* PiksiFaultHandler.cpp:20, 14 *)
  AddFlt "piksi_fh.dead";  (* PiksiFaultHandler.cpp:21, 15 *)
  Find KReadable "piksi.state" CUChar;  (* PiksiFaultHandler.cpp:30 *)
  Find KWritable "pan.state" CUChar;  (* PiksiFaultHandler.cpp:31 *)
  Find KInternal "pan.enter_close_approach_ccno" CUInt;  (* PiksiFaultHandler.cpp:33 *)
  Find KWritable "prop.state" CUInt;  (* PropFaultHandler.cpp:26 *)
  Find KWritable "prop.max_venting_cycles" CUInt;  (* PropFaultHandler.cpp:27 *)
  FindFlt "prop.overpressured.base";  (* PropFaultHandler.cpp:30 *)
  FindFlt "prop.tank2_temp_high.base";  (* PropFaultHandler.cpp:31 *)
  FindFlt "prop.tank1_temp_high.base";  (* PropFaultHandler.cpp:32 *)
  Find KReadable "attitude_estimator.valid" CBool;  (* MissionManager.cpp:62 *)
  Find KReadable "attitude_estimator.L_body" CVec3f;  (* MissionManager.cpp:63 *)
  Find KReadable "radio.state" CUChar;  (* MissionManager.cpp:65 *)
  Find KReadable "radio.last_comms_ccno" CUInt;  (* MissionManager.cpp:66 *)
  Find KWritable "prop.state" CUInt;  (* MissionManager.cpp:68 *)
  Find KReadable "rel_orbit.state" CUChar;  (* MissionManager.cpp:70 *)
  Find KReadable "rel_orbit.rel_pos" CVec3d;  (* MissionManager.cpp:71 *)
  Find KWritable "gomspace.gs_reset_cmd" CBool;  (* MissionManager.cpp:73 *)
  Find KReadable "docksys.docked" CBool;  (* MissionManager.cpp:75 *)
  Find KWritable "dcdc.SpikeDock_cmd" CBool;  (* MissionManager.cpp:77 *)
  Find KWritable "dcdc.ADCSMotor_cmd" CBool;  (* MissionManager.cpp:78 *)
  Find KWritable "gomspace.piksi_off" CBool;  (* MissionManager.cpp:80 *)
  Find KWritable "gomspace.power_cycle_output1_cmd" CBool;  (* MissionManager.cpp:81 *)
  Add KReadable (mk_bf "timing.attitude_controller.num_lates" CUInt (Some (DInt UInt 0 4294967295 None)) 0);  (* TimedControlTask.hpp:194, AttitudeController.cpp:20 *)
  Add KReadable (mk_bf "timing.attitude_controller.avg_wait" CFloat (Some (DFlt 18)) 0);  (* TimedControlTask.hpp:195, AttitudeController.cpp:20 *)
  Add KReadable (mk_bf "timing.attitude_controller.duration" CUInt (Some (DInt UInt 0 4294967295 None)) 0);  (* TimedControlTask.hpp:196, AttitudeController.cpp:20 *)
  Find KReadable "adcs_monitor.rwa_speed_rd" CVec3f;  (* AttitudeController.cpp:21 *)
  Find KReadable "attitude_estimator.b_valid" CBool;  (* AttitudeController.cpp:22 *)
  Find KReadable "attitude_estimator.b_body" CVec3f;  (* AttitudeController.cpp:23 *)
  Find KReadable "attitude_estimator.valid" CBool;  (* AttitudeController.cpp:24 *)
  Find KReadable "attitude_estimator.q_body_eci" CVec4f;  (* AttitudeController.cpp:25 *)
  Find KInternal "attitude_estimator.w_body" CVec3f;  (* AttitudeController.cpp:26 *)
  Find KWritable "adcs.state" CUChar;  (* AttitudeController.cpp:27 *)
  Find KReadable "time.valid" CBool;  (* AttitudeController.cpp:28 *)
  Find KInternal "time.s" CDouble;  (* AttitudeController.cpp:29 *)
  Find KReadable "orbit.valid" CBool;  (* AttitudeController.cpp:30 *)
  Find KReadable "orbit.pos" CVec3d;  (* AttitudeController.cpp:31 *)
  Find KReadable "orbit.vel" CVec3d;  (* AttitudeController.cpp:32 *)
  Find KReadable "rel_orbit.state" CUChar;  (* AttitudeController.cpp:33 *)
  Find KReadable "rel_orbit.rel_pos" CVec3d;  (* AttitudeController.cpp:34 *)
  Add KReadable (mk_bf "attitude.pointer_vec1_current" CVec3f (Some (DVec 9999 10001 10000 0)) 0);  (* AttitudeController.cpp:49, 36 *)
  Add KReadable (mk_bf "attitude.pointer_vec2_current" CVec3f (Some (DVec 9999 10001 10000 0)) 0);  (* AttitudeController.cpp:50, 37 *)
  Add KWritable (mk_bf "attitude.pointer_vec1_desired" CVec3f (Some (DVec 9999 10001 10000 0)) 0);  (* AttitudeController.cpp:53, 38 *)
  Add KWritable (mk_bf "attitude.pointer_vec2_desired" CVec3f (Some (DVec 9999 10001 10000 0)) 0);  (* AttitudeController.cpp:54, 39 *)
  Add KWritable (mk_bf "pointer.rwa_torque_cmd" CVec3f (Some (DVec 0 1 1 8)) 0);  (* AttitudeController.cpp:56, 40 *)
  Add KWritable (mk_bf "pointer.mtr_cmd" CVec3f (Some (DVec 0 1 1 6)) 0);  (* AttitudeController.cpp:57, 42 *)
  Add KReadable (mk_bf "timing.adcs_commander.num_lates" CUInt (Some (DInt UInt 0 4294967295 None)) 0);  (* TimedControlTask.hpp:194, ADCSCommander.cpp:12 *)
  Add KReadable (mk_bf "timing.adcs_commander.avg_wait" CFloat (Some (DFlt 18)) 0);  (* TimedControlTask.hpp:195, ADCSCommander.cpp:12 *)
  Add KReadable (mk_bf "timing.adcs_commander.duration" CUInt (Some (DInt UInt 0 4294967295 None)) 0);  (* TimedControlTask.hpp:196, ADCSCommander.cpp:12 *)
  Add KWritable (mk_bf "adcs_cmd.rwa_mode" CUChar (Some (DInt UChar 0 2 None)) 0);  (* ADCSCommander.cpp:37, 14 *)
  Add KWritable (mk_bf "adcs_cmd.rwa_speed_cmd" CArr3f (Some (DVec (-680678) 680678 1000 48)) 0);  (* ADCSCommander.cpp:38, 15 *)
  Add KWritable (mk_bf "adcs_cmd.rwa_torque_cmd" CArr3f (Some (DVec (-418750020) 418750020 100000000000 48)) 0);  (* ADCSCommander.cpp:39, 17 *)
  Add KWritable (mk_bf "adcs_cmd.rwa_speed_filter" CFloat (Some (DFlt 8)) 0);  (* ADCSCommander.cpp:40, 19 *)
  Add KWritable (mk_bf "adcs_cmd.rwa_ramp_filter" CFloat (Some (DFlt 8)) 0);  (* ADCSCommander.cpp:41, 20 *)
  Add KWritable (mk_bf "adcs_cmd.mtr_mode" CUChar (Some (DInt UChar 0 2 None)) 0);  (* ADCSCommander.cpp:42, 21 *)
  Add KWritable (mk_bf "adcs_cmd.mtr_cmd" CArr3f (Some (DVec (-113337) 113337 2000000 48)) 0);  (* ADCSCommander.cpp:43, 22 *)
  Add KWritable (mk_bf "adcs_cmd.mtr_limit" CFloat (Some (DFlt 16)) 0);  (* ADCSCommander.cpp:44, 24 *)
  Add KWritable (mk_bf "adcs_cmd.ssa_voltage_filter" CFloat (Some (DFlt 8)) 0);  (* ADCSCommander.cpp:45, 26 *)
  Add KWritable (mk_bf "adcs_cmd.mag1_mode" CUChar (Some (DInt UChar 0 1 None)) 0);  (* ADCSCommander.cpp:46, 27 *)
  Add KWritable (mk_bf "adcs_cmd.mag2_mode" CUChar (Some (DInt UChar 0 1 None)) 0);  (* ADCSCommander.cpp:47, 28 *)
  Add KWritable (mk_bf "adcs_cmd.imu_mag_filter" CFloat (Some (DFlt 8)) 0);  (* ADCSCommander.cpp:48, 29 *)
  Add KWritable (mk_bf "adcs_cmd.imu_gyr_filter" CFloat (Some (DFlt 8)) 0);  (* ADCSCommander.cpp:49, 30 *)
  Add KWritable (mk_bf "adcs_cmd.imu_gyr_temp_filter" CFloat (Some (DFlt 8)) 0);  (* ADCSCommander.cpp:50, 31 *)
  Add KWritable (mk_bf "adcs_cmd.imu_gyr_temp_pwm" CUChar (Some (DInt UChar 0 255 None)) 0);  (* ADCSCommander.cpp:51, 32 *)
  Add KWritable (mk_bf "adcs_cmd.imu_gyr_temp_desired" CFloat (Some (DFlt 8)) 0);  (* ADCSCommander.cpp:52, 33 *)
  Add KWritable (mk_bf "adcs_cmd.havt_reset0" CBool (Some DBool) 0);  (* ADCSCommander.cpp:66 *)
  Add KWritable (mk_bf "adcs_cmd.havt_reset1" CBool (Some DBool) 0);  (* ADCSCommander.cpp:66 *)
  Add KWritable (mk_bf "adcs_cmd.havt_reset2" CBool (Some DBool) 0);  (* ADCSCommander.cpp:66 *)
  Add KWritable (mk_bf "adcs_cmd.havt_reset3" CBool (Some DBool) 0);  (* ADCSCommander.cpp:66 *)
  Add KWritable (mk_bf "adcs_cmd.havt_reset4" CBool (Some DBool) 0);  (* ADCSCommander.cpp:66 *)
  Add KWritable (mk_bf "adcs_cmd.havt_reset5" CBool (Some DBool) 0);  (* ADCSCommander.cpp:66 *)
  Add KWritable (mk_bf "adcs_cmd.havt_reset6" CBool (Some DBool) 0);  (* ADCSCommander.cpp:66 *)
  Add KWritable (mk_bf "adcs_cmd.havt_reset7" CBool (Some DBool) 0);  (* ADCSCommander.cpp:66 *)
  Add KWritable (mk_bf "adcs_cmd.havt_reset8" CBool (Some DBool) 0);  (* ADCSCommander.cpp:66 *)
  Add KWritable (mk_bf "adcs_cmd.havt_reset9" CBool (Some DBool) 0);  (* ADCSCommander.cpp:66 *)
  Add KWritable (mk_bf "adcs_cmd.havt_reset10" CBool (Some DBool) 0);  (* ADCSCommander.cpp:66 *)
  Add KWritable (mk_bf "adcs_cmd.havt_reset11" CBool (Some DBool) 0);  (* ADCSCommander.cpp:66 *)
  Add KWritable (mk_bf "adcs_cmd.havt_reset12" CBool (Some DBool) 0);  (* ADCSCommander.cpp:66 *)
  Add KWritable (mk_bf "adcs_cmd.havt_reset13" CBool (Some DBool) 0);  (* ADCSCommander.cpp:66 *)
  Add KWritable (mk_bf "adcs_cmd.havt_reset14" CBool (Some DBool) 0);  (* ADCSCommander.cpp:66 *)
  Add KWritable (mk_bf "adcs_cmd.havt_reset15" CBool (Some DBool) 0);  (* ADCSCommander.cpp:66 *)
  Add KWritable (mk_bf "adcs_cmd.havt_reset16" CBool (Some DBool) 0);  (* ADCSCommander.cpp:66 *)
  Add KWritable (mk_bf "adcs_cmd.havt_reset17" CBool (Some DBool) 0);  (* ADCSCommander.cpp:66 *)
  Add KWritable (mk_bf "adcs_cmd.havt_reset18" CBool (Some DBool) 0);  (* ADCSCommander.cpp:66 *)
  Add KWritable (mk_bf "adcs_cmd.havt_disable0" CBool (Some DBool) 0);  (* ADCSCommander.cpp:75 *)
  Add KWritable (mk_bf "adcs_cmd.havt_disable1" CBool (Some DBool) 0);  (* ADCSCommander.cpp:75 *)
  Add KWritable (mk_bf "adcs_cmd.havt_disable2" CBool (Some DBool) 0);  (* ADCSCommander.cpp:75 *)
  Add KWritable (mk_bf "adcs_cmd.havt_disable3" CBool (Some DBool) 0);  (* ADCSCommander.cpp:75 *)
  Add KWritable (mk_bf "adcs_cmd.havt_disable4" CBool (Some DBool) 0);  (* ADCSCommander.cpp:75 *)
  Add KWritable (mk_bf "adcs_cmd.havt_disable5" CBool (Some DBool) 0);  (* ADCSCommander.cpp:75 *)
  Add KWritable (mk_bf "adcs_cmd.havt_disable6" CBool (Some DBool) 0);  (* ADCSCommander.cpp:75 *)
  Add KWritable (mk_bf "adcs_cmd.havt_disable7" CBool (Some DBool) 0);  (* ADCSCommander.cpp:75 *)
  Add KWritable (mk_bf "adcs_cmd.havt_disable8" CBool (Some DBool) 0);  (* ADCSCommander.cpp:75 *)
  Add KWritable (mk_bf "adcs_cmd.havt_disable9" CBool (Some DBool) 0);  (* ADCSCommander.cpp:75 *)
  Add KWritable (mk_bf "adcs_cmd.havt_disable10" CBool (Some DBool) 0);  (* ADCSCommander.cpp:75 *)
  Add KWritable (mk_bf "adcs_cmd.havt_disable11" CBool (Some DBool) 0);  (* ADCSCommander.cpp:75 *)
  Add KWritable (mk_bf "adcs_cmd.havt_disable12" CBool (Some DBool) 0);  (* ADCSCommander.cpp:75 *)
  Add KWritable (mk_bf "adcs_cmd.havt_disable13" CBool (Some DBool) 0);  (* ADCSCommander.cpp:75 *)
  Add KWritable (mk_bf "adcs_cmd.havt_disable14" CBool (Some DBool) 0);  (* ADCSCommander.cpp:75 *)
  Add KWritable (mk_bf "adcs_cmd.havt_disable15" CBool (Some DBool) 0);  (* ADCSCommander.cpp:75 *)
  Add KWritable (mk_bf "adcs_cmd.havt_disable16" CBool (Some DBool) 0);  (* ADCSCommander.cpp:75 *)
  Add KWritable (mk_bf "adcs_cmd.havt_disable17" CBool (Some DBool) 0);  (* ADCSCommander.cpp:75 *)
  Add KWritable (mk_bf "adcs_cmd.havt_disable18" CBool (Some DBool) 0);  (* ADCSCommander.cpp:75 *)
  Find KWritable "adcs.state" CUChar;  (* ADCSCommander.cpp:80 *)
  Find KWritable "pointer.rwa_torque_cmd" CVec3f;  (* ADCSCommander.cpp:83 *)
  Find KWritable "pointer.mtr_cmd" CVec3f;  (* ADCSCommander.cpp:84 *)
  Add KReadable (mk_bf "timing.adcs_controller.num_lates" CUInt (Some (DInt UInt 0 4294967295 None)) 0);  (* TimedControlTask.hpp:194, ADCSBoxController.cpp:8 *)
  Add KReadable (mk_bf "timing.adcs_controller.avg_wait" CFloat (Some (DFlt 18)) 0);  (* TimedControlTask.hpp:195, ADCSBoxController.cpp:8 *)
  Add KReadable (mk_bf "timing.adcs_controller.duration" CUInt (Some (DInt UInt 0 4294967295 None)) 0);  (* TimedControlTask.hpp:196, ADCSBoxController.cpp:8 *)
  Find KWritable "adcs.state" CUChar;  (* ADCSBoxController.cpp:12 *)
  Find KWritable "adcs_cmd.rwa_mode" CUChar;  (* ADCSBoxController.cpp:14 *)
  Find KWritable "adcs_cmd.rwa_speed_cmd" CArr3f;  (* ADCSBoxController.cpp:15 *)
  Find KWritable "adcs_cmd.rwa_torque_cmd" CArr3f;  (* ADCSBoxController.cpp:16 *)
  Find KWritable "adcs_cmd.rwa_speed_filter" CFloat;  (* ADCSBoxController.cpp:17 *)
  Find KWritable "adcs_cmd.rwa_ramp_filter" CFloat;  (* ADCSBoxController.cpp:18 *)
  Find KWritable "adcs_cmd.mtr_mode" CUChar;  (* ADCSBoxController.cpp:20 *)
  Find KWritable "adcs_cmd.mtr_cmd" CArr3f;  (* ADCSBoxController.cpp:21 *)
  Find KWritable "adcs_cmd.mtr_limit" CFloat;  (* ADCSBoxController.cpp:22 *)
  Find KReadable "adcs_monitor.ssa_mode" CUChar;  (* ADCSBoxController.cpp:24 *)
  Find KWritable "adcs_cmd.ssa_voltage_filter" CFloat;  (* ADCSBoxController.cpp:25 *)
  Find KWritable "adcs_cmd.mag1_mode" CUChar;  (* ADCSBoxController.cpp:27 *)
  Find KWritable "adcs_cmd.mag2_mode" CUChar;  (* ADCSBoxController.cpp:28 *)
  Find KWritable "adcs_cmd.imu_mag_filter" CFloat;  (* ADCSBoxController.cpp:29 *)
  Find KWritable "adcs_cmd.imu_gyr_filter" CFloat;  (* ADCSBoxController.cpp:30 *)
  Find KWritable "adcs_cmd.imu_gyr_temp_filter" CFloat;  (* ADCSBoxController.cpp:31 *)
  Find KWritable "adcs_cmd.imu_gyr_temp_pwm" CUChar;  (* ADCSBoxController.cpp:32 *)
  Find KWritable "adcs_cmd.imu_gyr_temp_desired" CFloat;  (* ADCSBoxController.cpp:33 *)
  Find KWritable "adcs_cmd.havt_reset0" CBool;  (* ADCSBoxController.cpp:44 *)
  Find KWritable "adcs_cmd.havt_reset1" CBool;  (* ADCSBoxController.cpp:44 *)
  Find KWritable "adcs_cmd.havt_reset2" CBool;  (* ADCSBoxController.cpp:44 *)
  Find KWritable "adcs_cmd.havt_reset3" CBool;  (* ADCSBoxController.cpp:44 *)
  Find KWritable "adcs_cmd.havt_reset4" CBool;  (* ADCSBoxController.cpp:44 *)
  Find KWritable "adcs_cmd.havt_reset5" CBool;  (* ADCSBoxController.cpp:44 *)
  Find KWritable "adcs_cmd.havt_reset6" CBool;  (* ADCSBoxController.cpp:44 *)
  Find KWritable "adcs_cmd.havt_reset7" CBool;  (* ADCSBoxController.cpp:44 *)
  Find KWritable "adcs_cmd.havt_reset8" CBool;  (* ADCSBoxController.cpp:44 *)
  Find KWritable "adcs_cmd.havt_reset9" CBool;  (* ADCSBoxController.cpp:44 *)
  Find KWritable "adcs_cmd.havt_reset10" CBool;  (* ADCSBoxController.cpp:44 *)
  Find KWritable "adcs_cmd.havt_reset11" CBool;  (* ADCSBoxController.cpp:44 *)
  Find KWritable "adcs_cmd.havt_reset12" CBool;  (* ADCSBoxController.cpp:44 *)
  Find KWritable "adcs_cmd.havt_reset13" CBool;  (* ADCSBoxController.cpp:44 *)
  Find KWritable "adcs_cmd.havt_reset14" CBool;  (* ADCSBoxController.cpp:44 *)
  Find KWritable "adcs_cmd.havt_reset15" CBool;  (* ADCSBoxController.cpp:44 *)
  Find KWritable "adcs_cmd.havt_reset16" CBool;  (* ADCSBoxController.cpp:44 *)
  Find KWritable "adcs_cmd.havt_reset17" CBool;  (* ADCSBoxController.cpp:44 *)
  Find KWritable "adcs_cmd.havt_reset18" CBool;  (* ADCSBoxController.cpp:44 *)
  Find KWritable "adcs_cmd.havt_disable0" CBool;  (* ADCSBoxController.cpp:52 *)
  Find KWritable "adcs_cmd.havt_disable1" CBool;  (* ADCSBoxController.cpp:52 *)
  Find KWritable "adcs_cmd.havt_disable2" CBool;  (* ADCSBoxController.cpp:52 *)
  Find KWritable "adcs_cmd.havt_disable3" CBool;  (* ADCSBoxController.cpp:52 *)
  Find KWritable "adcs_cmd.havt_disable4" CBool;  (* ADCSBoxController.cpp:52 *)
  Find KWritable "adcs_cmd.havt_disable5" CBool;  (* ADCSBoxController.cpp:52 *)
  Find KWritable "adcs_cmd.havt_disable6" CBool;  (* ADCSBoxController.cpp:52 *)
  Find KWritable "adcs_cmd.havt_disable7" CBool;  (* ADCSBoxController.cpp:52 *)
  Find KWritable "adcs_cmd.havt_disable8" CBool;  (* ADCSBoxController.cpp:52 *)
  Find KWritable "adcs_cmd.havt_disable9" CBool;  (* ADCSBoxController.cpp:52 *)
  Find KWritable "adcs_cmd.havt_disable10" CBool;  (* ADCSBoxController.cpp:52 *)
  Find KWritable "adcs_cmd.havt_disable11" CBool;  (* ADCSBoxController.cpp:52 *)
  Find KWritable "adcs_cmd.havt_disable12" CBool;  (* ADCSBoxController.cpp:52 *)
  Find KWritable "adcs_cmd.havt_disable13" CBool;  (* ADCSBoxController.cpp:52 *)
  Find KWritable "adcs_cmd.havt_disable14" CBool;  (* ADCSBoxController.cpp:52 *)
  Find KWritable "adcs_cmd.havt_disable15" CBool;  (* ADCSBoxController.cpp:52 *)
  Find KWritable "adcs_cmd.havt_disable16" CBool;  (* ADCSBoxController.cpp:52 *)
  Find KWritable "adcs_cmd.havt_disable17" CBool;  (* ADCSBoxController.cpp:52 *)
  Find KWritable "adcs_cmd.havt_disable18" CBool;  (* ADCSBoxController.cpp:52 *)
  Find KWritable "adcs_cmd.mtr_cmd" CArr3f;  (* Estimators/AttitudeEstimator.cpp:82 *)
  Find KWritable "docksys.config_cmd" CBool;  (* DockingController.cpp:37 *)
  Find KWritable "prop.state" CUInt;  (* OrbitController.cpp:56 *)
  Find KWritable "prop.cycles_until_firing" CUInt;  (* OrbitController.cpp:57 *)
  Find KWritable "prop.max_pressurizing_cycles" CUInt;  (* OrbitController.cpp:58 *)
  Find KWritable "prop.ctrl_cycles_per_filling" CUInt;  (* OrbitController.cpp:59 *)
  Find KWritable "prop.ctrl_cycles_per_cooling" CUInt;  (* OrbitController.cpp:60 *)
  Find KWritable "pan.state" CUChar;  (* OrbitController.cpp:61 *)
  Add KReadable (mk_bf "sys.memory_use" CUInt (Some (DInt UInt 0 300000 None)) 0);  (* MainControlLoop.cpp:75, 45 *)
  Add KReadable (mk_bf "pan.one_day_ccno" CUInt (Some (DInt UInt 0 4294967295 None)) 0);  (* MainControlLoop.cpp:76, 46 *)
  Add KReadable (mk_bf "pan.cc_ms" CUInt (Some (DInt UInt 0 4294967295 None)) 0);  (* MainControlLoop.cpp:77, 47 *)
  Add KReadable (mk_bf "pan.cc_duration" CUInt (Some (DInt UInt 0 4294967295 None)) 0);  (* MainControlLoop.cpp:78, 48 *)
  Add KWritable (mk_bf "downlink.toggle_id" CUChar (Some (DInt UChar 0 43 None)) 0);  (* DownlinkProducer.cpp:20, 17 *)
  Add KWritable (mk_bf "downlink.shift_id1" CUChar (Some (DInt UChar 0 43 None)) 0);  (* DownlinkProducer.cpp:21, 18 *)
  Add KWritable (mk_bf "downlink.shift_id2" CUChar (Some (DInt UChar 0 43 None)) 0)  (* DownlinkProducer.cpp:22, 19 *)
].

(** Pointers: the [k]-th field of the [i]-th call is at address 5 i + k. *)
Definition fld_of (p : Z) (f : bfield) : fld := mk_fld p (bf_name f) (bf_period f).
Definition flt_of (p : Z) (n : string) : flt :=
  match fault_fields n with
  | [a; b; c; d; e] => mk_fltptr (fld_of p a) (fld_of (p + 1) b) (fld_of (p + 2) c) (fld_of (p + 3) d) (fld_of (p + 4) e)
  | _ => mk_fltptr (fld_of p (mk_bf n CBool None 0)) (fld_of p (mk_bf n CBool None 0)) (fld_of p (mk_bf n CBool None 0))
                   (fld_of p (mk_bf n CBool None 0)) (fld_of p (mk_bf n CBool None 0))
  end.

(** the list searched by find_internal_field, find_readable_field, find_writable_field (RegistryModel.find_in) *)
Definition area (k : kind) (r : registry) : list fld :=
  match k with KInternal => rg_internal r | KReadable => rg_readable r | KWritable => rg_writable r end.
Definition add_k (k : kind) : registry -> fld -> registry * bool :=
  match k with KInternal => add_internal | KReadable => add_readable | KWritable => add_writable end.

(** the objects a program puts at its addresses *)
Fixpoint heap (i : Z) (l : list bop) : list (Z * (kind * bfield)) :=
  match l with
  | [] => []
  | Add k f :: t => (5 * i, (k, f)) :: heap (i + 1) t
  | AddFlt n :: t => combine (map (fun k => 5 * i + Z.of_nat k) (seq 0 5)) (map (pair KWritable) (fault_fields n)) ++ heap (i + 1) t
  | _ :: t => heap (i + 1) t
  end.
Fixpoint obj_at (h : list (Z * (kind * bfield))) (p : Z) : option (kind * bfield) :=
  match h with [] => None | (q, o) :: t => if q =? p then Some o else obj_at t p end.

Scheme Equality for ctype.
(** whether dynamic_cast to a [k] field of type [t] succeeds: writable fields are also readable (StateField.hpp) *)
Definition kind_is (have want : kind) : bool :=
  match have, want with
  | KInternal, KInternal | KReadable, KReadable | KWritable, KReadable | KWritable, KWritable => true
  | _, _ => false
  end.
Definition cast_ok (o : option (kind * bfield)) (k : kind) (t : ctype) : bool :=
  match o with Some (k', f) => kind_is k' k && ctype_beq (bf_type f) t | None => false end.

(** Native and ground builds, ControlTask.hpp:43-69, 78-190: a refused registration, a name that is not there and a field of
    another type stop the program ([None]).  [ptrs] collects the pointers the lookups return. *)
Fixpoint boot_checked (h : list (Z * (kind * bfield))) (i : Z) (l : list bop) (r : registry) (ptrs : list Z)
  : option (registry * list Z) :=
  match l with
  | [] => Some (r, ptrs)
  | Add k f :: t => let '(r1, ok) := add_k k r (fld_of (5 * i) f) in
                    if ok then boot_checked h (i + 1) t r1 ptrs else None
  | AddFlt n :: t => let '(r1, ok) := add_fault r (flt_of (5 * i) n) in
                     if ok then boot_checked h (i + 1) t r1 ptrs else None
  | Find k n c :: t => match find_in (area k r) n with
                       | None => None
                       | Some x => if cast_ok (obj_at h (fd_ptr x)) k c
                                   then boot_checked h (i + 1) t r (ptrs ++ [fd_ptr x]) else None
                       end
  | FindFlt n :: t => match find_in (rg_faults r) n with
                      | None => None
                      | Some x => boot_checked h (i + 1) t r (ptrs ++ [fd_ptr x])
                      end
  end.

(** Flight build (no assertions, no RTTI: casts.hpp:5-13 make the casts static): nothing is checked.  A lookup of a missing
    name returns null ([None]); a lookup with the wrong type returns the pointer all the same. *)
Fixpoint boot_flight (i : Z) (l : list bop) (r : registry) (ptrs : list (option Z)) : registry * list (option Z) :=
  match l with
  | [] => (r, ptrs)
  | Add k f :: t => boot_flight (i + 1) t (fst (add_k k r (fld_of (5 * i) f))) ptrs
  | AddFlt n :: t => boot_flight (i + 1) t (fst (add_fault r (flt_of (5 * i) n))) ptrs
  | Find k n c :: t => boot_flight (i + 1) t r (ptrs ++ [option_map fd_ptr (find_in (area k r) n)])
  | FindFlt n :: t => boot_flight (i + 1) t r (ptrs ++ [option_map fd_ptr (find_in (rg_faults r) n)])
  end.

(** the registry after boot, and its writable fields in order with their types and serializers *)
Definition boot_registry : registry := fst (boot_flight 0 boot empty_registry []).
Definition described (h : list (Z * (kind * bfield))) (x : fld) : list bfield :=
  match obj_at h (fd_ptr x) with Some (_, f) => [f] | None => [] end.
Definition commandable : list bfield := flat_map (described (heap 0 boot)) (rg_writable boot_registry).
Definition saved : list bfield := flat_map (described (heap 0 boot)) (rg_eeprom boot_registry).

(** the width of a field's bit array (0 if its serializer could not be built) *)
Definition bf_width (f : bfield) : nat :=
  match bf_decl f with Some d => match width d with Some w => w | None => O end | None => O end.
Definition lens : list nat := map bf_width commandable.
