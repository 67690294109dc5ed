(** Model of [FloatDoubleSerializer<T>], /repo/src/common/SerializerTypes.inl:205-293, for [T] = float and double, in IEEE 754
    arithmetic (Flocq's formalisation, round to nearest even; the payload of a NaN is not kept).  Every operation is rounded to
    [T] (FLT_EVAL_METHOD 0).  Where the code is undefined the outcome is [None]: a conversion to unsigned long long of a NaN or
    of a value outside that type. *)
From Verif Require Import Base BitArrayModel.
From Flocq Require Import Core IEEE754.BinarySingleNaN.
Local Open Scope Z_scope.

(** float and double *)
Definition prec32 : Prec_gt_0 24 := eq_refl.
Definition emax32 : Prec_lt_emax 24 128 := eq_refl.
Definition prec64 : Prec_gt_0 53 := eq_refl.
Definition emax64 : Prec_lt_emax 53 1024 := eq_refl.

(** conversion of a floating point value to unsigned long long *)
Definition to_ull {prec emax} (x : binary_float prec emax) : option Z :=
  match x with
  | B754_nan | B754_infinity _ => None
  | _ => let t := Btrunc x in if (0 <=? t) && (t <? 2 ^ 64) then Some t else None
  end.

(** [num_intervals], :222 and :251: [std::pow(2, size) - 1] is a double *)
Definition num_intervals (size : nat) : option Z :=
  to_ull (Bminus (prec_gt_0_ := prec64) (prec_lt_emax_ := emax64) mode_NE
            (binary_normalize 53 1024 prec64 emax64 mode_NE 1 (Z.of_nat size) false)
            (binary_normalize 53 1024 prec64 emax64 mode_NE 1 0 false)).

Section Serializer.
Context (prec emax : Z) (Hp : Prec_gt_0 prec) (He : Prec_lt_emax prec emax).
Notation fl := (binary_float prec emax).

(** conversion of an unsigned long long to [T] *)
Definition of_ull (n : Z) : fl := binary_normalize prec emax Hp He mode_NE n 0 false.
Definition fsub (x y : fl) : fl := Bminus (prec_gt_0_ := Hp) (prec_lt_emax_ := He) mode_NE x y.
Definition fadd (x y : fl) : fl := Bplus (prec_gt_0_ := Hp) (prec_lt_emax_ := He) mode_NE x y.
Definition fmul (x y : fl) : fl := Bmult (prec_gt_0_ := Hp) (prec_lt_emax_ := He) mode_NE x y.
Definition fdiv (x y : fl) : fl := Bdiv (prec_gt_0_ := Hp) (prec_lt_emax_ := He) mode_NE x y.

Record fser := mk_fs { fs_min : fl; fs_max : fl; fs_bits : list bool }.

(** constructor, :213-222, with the assertion disabled *)
Definition fser_make (mn mx : fl) (size : nat) : fser :=
  mk_fs (if Bltb mx mn then mx else mn) mx (repeat false size).

(** [resolution], :232-233 and :258-264 *)
Definition fs_res (s : fser) : option fl :=
  match num_intervals (length (fs_bits s)) with
  | None => None
  | Some n => Some (if 0 <? n then fdiv (fsub (fs_max s) (fs_min s)) (of_ull n) else B754_zero false)
  end.

(** [src_copy], :228-230 *)
Definition fs_clamp (s : fser) (x : fl) : fl :=
  let x := if Bltb (fs_max s) x then fs_max s else x in
  if Bltb x (fs_min s) then fs_min s else x.

(** [serialize], :225-238 *)
Definition fserialize (s : fser) (src : fl) : option fser :=
  match fs_res s with
  | None => None
  | Some res =>
    match to_ull (fdiv (fsub (fs_clamp s src) (fs_min s)) res) with
    | None => None
    | Some c => match set_ullong (fs_bits s) c with
                | Some (_, b) => Some (mk_fs (fs_min s) (fs_max s) b)
                | None => None
                end
    end
  end.

(** [deserialize], :255-267 *)
Definition fdeserialize (s : fser) : option fl :=
  match fs_res s with
  | None => None
  | Some res => Some (fadd (fs_min s) (fmul res (of_ull (to_ullong (fs_bits s)))))
  end.

(** [set_bit_array], Serializer.hpp:188-191 *)
Definition fs_set_bits (s : fser) (b : list bool) : fser := mk_fs (fs_min s) (fs_max s) (assign (fs_bits s) b).

End Serializer.

Notation ser32 := (fser 24 128).
Notation ser64 := (fser 53 1024).
(** the decimal constants of declarations: the nearest value of the type to [m / d] *)
Definition f32 (m d : Z) : binary_float 24 128 := fdiv 24 128 prec32 emax32 (of_ull 24 128 prec32 emax32 m) (of_ull 24 128 prec32 emax32 d).
Definition f64 (m d : Z) : binary_float 53 1024 := fdiv 53 1024 prec64 emax64 (of_ull 53 1024 prec64 emax64 m) (of_ull 53 1024 prec64 emax64 d).

(** the value [m * 2^e] *)
Definition b32 (m e : Z) : binary_float 24 128 := binary_normalize 24 128 prec32 emax32 mode_NE m e false.

(** ** Declarations of the flight software: limits and number of bits.
    float: DockingController.cpp:6, ADCSCommander.cpp:13, :24-25, :33-34, PropController.cpp:27, :31, :33-34,
    TimedControlTask.hpp:191, ADCSBoxMonitor.cpp:11, :17, :26, :29, :36, :42, :48 with /repo/src/adcs/constants.hpp:94-180 *)
Definition flight32 : list (binary_float 24 128 * binary_float 24 128 * nat) :=
  [ (f32 0 1, f32 180 1, 16%nat);                         (* docksys.step_angle *)
    (f32 0 1, f32 1 1, 8%nat);                            (* adcs_cmd: the filter constants *)
    (b32 (-15211835) (-28), b32 15211835 (-28), 16%nat);  (* adcs_cmd.mtr_limit *)
    (f32 (-40) 1, f32 85 1, 8%nat);                       (* adcs_cmd.imu_gyr_temp_desired *)
    (f32 10 1, f32 50 1, 6%nat);                          (* prop.threshold_firing_pressure *)
    (f32 0 1, f32 150 1, 8%nat);                          (* prop.tank2.pressure *)
    (f32 (-60) 1, f32 155 1, 8%nat);                      (* prop.tank1.temp, prop.tank2.temp *)
    (f32 0 1, f32 170000 1, 18%nat);                      (* timing: the average waits *)
    (f32 (-10472) 10, f32 10472 10, 12%nat);              (* adcs_monitor.rwa_speed_rd components *)
    (b32 (-8992589) (-31), b32 8992589 (-31), 12%nat);    (* adcs_monitor.rwa_torque_rd components *)
    (f32 0 1, f32 33 10, 8%nat);                          (* adcs_monitor.ssa_voltage *)
    (f32 (-49152) 10000000, f32 49152 10000000, 16%nat);  (* adcs_monitor.mag1_vec components *)
    (f32 (-16) 10000, f32 16 10000, 16%nat);              (* adcs_monitor.mag2_vec components *)
    (b32 (-1143819) (-19), b32 1143819 (-19), 16%nat);    (* adcs_monitor.gyr_vec components *)
    (f32 (-103) 1, f32 153 1, 16%nat) ].                  (* adcs_monitor.gyr_temp *)
(** double: MissionManager.cpp:21-23, OrbitController.cpp:33 *)
Definition flight64 : list (binary_float 53 1024 * binary_float 53 1024 * nat) :=
  [ (f64 0 1, f64 5 100, 7%nat);                          (* detumble_safety_factor *)
    (f64 0 1, f64 5000 1, 13%nat);                        (* trigger_dist.close_approach *)
    (f64 0 1, f64 100 1, 14%nat);                         (* trigger_dist.docking *)
    (f64 0 1, f64 1 1, 10%nat) ].                         (* orbit.control.alpha *)
