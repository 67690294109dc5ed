(** * Filters and lost sensors of the attitude computer *)
From Verif Require Import Base AdcsModel AdcsSpec AdcsRefuteProofs AdcsEndProofs AdcsFilterSpec AdcsFilterProofs.
From Coq Require Import QArith Qabs.
Local Open Scope Q_scope.

(** * C110 A filter constant governs the reading it is named for *)
(** the fresh reading is what the constant one gives *)
Theorem C110_wheel_speed_partial : forall e f r h, smooths3 f (spd_rd h) (spd_rd (rwa_sense e 1 r h)) (spd_rd (rwa_sense e f r h)).
Proof. exact speed_filter. Qed.
Print Assumptions C110_wheel_speed_partial.
Theorem C110_gyroscope_partial : forall e f g g' w w' p p' t t' h,
  smooths3 f (gyr_rd h) (gyr_rd (gyr_update e 1 g w p h)) (gyr_rd (gyr_update e f g' w' p' h)) /\
  smooths t (tmp_rd h) (tmp_rd (gyr_update e g g 1 p h)) (tmp_rd (gyr_update e t' g' t p' h)).
Proof. exact gyr_filter. Qed.
Print Assumptions C110_gyroscope_partial.
Theorem C110_magnetometers_partial : forall e f m h, smooths3 f (b1_rd h) (b1_rd (mag1_update e 1 h)) (b1_rd (mag1_update e f h)) /\
  smooths3 f (b2_rd h) (b2_rd (mag2_update e m 1 h)) (b2_rd (mag2_update e m f h)).
Proof. exact mag_filter. Qed.
Print Assumptions C110_magnetometers_partial.
Theorem C110_sun_sensors_partial : forall e f h j, smooths f (volts h j) (volts (ssa_update e 1 h) j) (volts (ssa_update e f h) j).
Proof. exact ssa_filter. Qed.
Print Assumptions C110_sun_sensors_partial.
(** the constant for the wheels' ramps is not used *)
Theorem C110_ramp_refuted : exists e f h, ~ smooths3 0 (rmp_rd h) (rmp_rd (rwa_sense e 1 1 h)) (rmp_rd (rwa_sense e f 0 h)).
Proof. exact ramp_moves. Qed.
Print Assumptions C110_ramp_refuted.
Theorem C110_ramp_constant_unused : forall e f r r' h, rwa_sense e f r h = rwa_sense e f r' h.
Proof. exact ramp_constant_unused. Qed.
Print Assumptions C110_ramp_constant_unused.
Example C110_case : ~ spd_rd (rwa_sense se0 (1 # 2) 1 (hw0 all_up)) = spd_rd (hw0 all_up) /\ vx (spd_rd (rwa_sense se0 (1 # 2) 1 (hw0 all_up))) == (1 # 2) * vx (spd_rd (rwa_sense se0 1 1 (hw0 all_up))).
Proof. split; [vm_compute; discriminate|]. vm_compute. reflexivity. Qed.

(** * C111 A lost sensor leaves its last reading standing *)
Theorem C111_inertial_partial : forall e i h, (fn h 0%nat = false \/ e_gyr e = None) -> (fn h 1%nat = false \/ e_b1 e = None) -> (fn h 2%nat = false \/ e_b2 e = None) ->
  let h' := imu_update e i h in gyr_rd h' = gyr_rd h /\ tmp_rd h' = tmp_rd h /\ b1_rd h' = b1_rd h /\ b2_rd h' = b2_rd h.
Proof. exact lost_imu. Qed.
Print Assumptions C111_inertial_partial.
Theorem C111_sun_sensors_partial : forall e f h j, fn h (13 + j / 4)%nat = false \/ e_ssa e j = None -> volts (ssa_update e f h) j == volts h j.
Proof. exact lost_sun. Qed.
Print Assumptions C111_sun_sensors_partial.
(** the last wheel speed is taken for a voltage: from standstill the reading grows beyond all bounds *)
Theorem C111_wheel_speed_diverges_refuted : forall e r h, fn h 10%nat = false /\ fn h 11%nat = false /\ fn h 12%nat = false -> same3 (spd_rd h) (V 0 0 0) ->
  forall q, exists n, reaches q (spd_rd (passes n e 1 r h)).
Proof. exact lost_diverges. Qed.
Print Assumptions C111_wheel_speed_diverges_refuted.
(** booted without the converters, the computer reports full speed for wheels at rest *)
Theorem C111_full_speed_at_boot_refuted : exists b, reachable true b /\ (forall i, (10 <= i <= 12)%nat -> fn (dv b) i = false) /\
  vx (w_spd (r_rwa (rg b))) == - max_speed_read.
Proof. exact lost_at_boot. Qed.
Print Assumptions C111_full_speed_at_boot_refuted.
Example C111_case : (fn (hw0 no_adc) 10%nat = false /\ fn (hw0 no_adc) 11%nat = false /\ fn (hw0 no_adc) 12%nat = false) /\ same3 (spd_rd (hw0 no_adc)) (V 0 0 0) /\
  fn (hw0 (fun _ => false)) 0%nat = false /\ fn (hw0 (fun _ => false)) 1%nat = false /\ fn (hw0 (fun _ => false)) 2%nat = false /\ fn (hw0 (fun _ => false)) 14%nat = false.
Proof. vm_compute. repeat split. Qed.

(** * C72 The sun vector reported is one that was computed *)
(** the sensors used are different, lit, and on converters in use *)
Theorem C72_live_sensors_only : forall ld f l b, Forall asks_sun l -> brun ld (box0 f) l = Some b -> s_mode (r_ssa (rg b)) = 2%Z ->
  exists l1 e l2 b1 js, l = l1 ++ Step e :: l2 /\ brun ld (box0 f) l1 = Some b1 /\ (4 <= length js)%nat /\ lit_sensors (dv b1) js /\
    s_vec (r_ssa (rg b)) = Some (e_sun e).
Proof. exact sun_sensors. Qed.
Print Assumptions C72_live_sensors_only.
(** four such sensors are enough *)
Theorem C72_four_sensors_suffice : forall e h js, lit_sensors h js -> (4 <= length js)%nat -> sun_calc e h = (2%Z, Some (e_sun e)).
Proof. exact sun_found. Qed.
Print Assumptions C72_four_sensors_suffice.
