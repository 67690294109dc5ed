(** * Time, orbit, relative orbit and attitude estimates; pointing *)
From Verif Require Import Base GPSTimeModel GPSTimeSpec NavModel NavSpec NavProofs NavForgetProofs NavRelProofs NavCtlProofs SbpModel NavWitness.

(** * C124 The time estimate is valid exactly when a GPS reading arrived since the last reset *)
Theorem C124_time_valid : forall G epoch h, t_valid (v_t G (after G epoch h)) = true <-> time_known h.
Proof. exact time_valid_iff. Qed.
Print Assumptions C124_time_valid.
Example C124_case : time_known [idle; fix_at 170; idle] /\ t_valid (v_t toy (A [idle; fix_at 170; with_treset idle; idle])) = false.
Proof.
  split; [|reflexivity]. exists [idle], (fix_at 170), [idle]. repeat split; [left; reflexivity|discriminate|]. repeat constructor. discriminate.
Qed.

(** * C125 The time estimate is the last GPS time plus the time passed *)
Theorem C125_time_value : forall G epoch h1 i h2, gps_fix i -> fresh i -> Forall (fun j => ~ gps_fix j) h2 -> Forall (fun j => ~ resets_time j) (i :: h2) ->
  gtime_ns (n_time G i) + age i + 170000000 * Z.of_nat (length h2) < 2 ^ 64 ->
  let t := v_t G (after G epoch (h1 ++ i :: h2)) in
  t_valid t = true /\ g_set (t_gps t) = true /\ normal (t_gps t) /\
  gtime_ns (t_gps t) = gtime_ns (n_time G i) + age i + 170000000 * Z.of_nat (length h2) /\
  t_ns t = u64 (gtime_ns (t_gps t) - epoch).
Proof. exact time_value. Qed.
Print Assumptions C125_time_value.
(** the receiver's task lets no older data through *)
Theorem C125_receiver_fresh : forall x delta bytes k q, gps_cycle x (delta, bytes) = Some (k, q) -> q_state q <= 2 -> q_delta q = delta /\ delta <= 100000.
Proof. exact receiver_fresh. Qed.
Print Assumptions C125_receiver_fresh.
Example C125_case : gps_fix (rtk_at 170 90000 10) /\ fresh (rtk_at 170 90000 10) /\
  t_gps (v_t toy (A ([idle; rtk_at 170 90000 10] ++ repeat idle 10))) = gtime_make 2100 1960 0.
Proof. split; [right; left; reflexivity|]. split; [unfold fresh; cbn; lia|vm_compute; reflexivity]. Qed.

(** * C126 An estimate is never valid without the estimates and sensors it is built on *)
Theorem C126_dependence : forall G epoch h, let s := after G epoch h in
  (o_valid G (v_o G s) = true -> t_valid (v_t G s) = true) /\
  (r_state G (v_r G s) <> 0 -> o_valid G (v_o G s) = true) /\
  (a_valid G (v_a G s) = true -> o_valid G (v_o G s) = true).
Proof. exact after_chain. Qed.
Print Assumptions C126_dependence.
Theorem C126_attitude_sensors : forall G epoch h i, a_valid G (v_a G (after G epoch (h ++ [i]))) = true ->
  n_gyr_ok G i = true /\ (n_mag1_ok G i = true \/ n_mag2_ok G i = true).
Proof. exact after_attitude. Qed.
Print Assumptions C126_attitude_sensors.
Example C126_case : let s := A [fix_at 0; rtk_at 170 0 10; rtk_at 340 0 10] in
  t_valid (v_t toy s) = true /\ o_valid toy (v_o toy s) = true /\ r_state toy (v_r toy s) = 2 /\ a_valid toy (v_a toy s) = true.
Proof. vm_compute. repeat split. Qed.

(** * C127 A reset command is obeyed at once and what came before it is forgotten *)
Theorem C127_obeyed : forall G epoch h i, let s := after G epoch (h ++ [i]) in
  (resets_time i -> t_valid (v_t G s) = false /\ o_valid G (v_o G s) = false /\ r_state G (v_r G s) = 0 /\ a_valid G (v_a G s) = false) /\
  (resets_orbit i -> o_valid G (v_o G s) = false /\ r_state G (v_r G s) = 0 /\ a_valid G (v_a G s) = false) /\
  (resets_rel i -> r_state G (v_r G s) = 0) /\ (resets_att i -> a_valid G (v_a G s) = false).
Proof. exact reset_obeyed. Qed.
Print Assumptions C127_obeyed.
(** time, orbit and attitude; the relative orbit is missing, see below *)
Theorem C127_forgotten_partial : forall G epoch h h' i k, resets_time i ->
  let s := after G epoch (h ++ i :: k) in let s' := after G epoch (h' ++ i :: k) in
  (t_valid (v_t G s) = t_valid (v_t G s') /\
   (t_valid (v_t G s) = true -> t_gps (v_t G s) = t_gps (v_t G s') /\ t_ns (v_t G s) = t_ns (v_t G s'))) /\
  (o_valid G (v_o G s) = o_valid G (v_o G s') /\
   (o_valid G (v_o G s) = true -> o_pos G (v_o G s) = o_pos G (v_o G s') /\ o_vel G (v_o G s) = o_vel G (v_o G s'))) /\
  (a_valid G (v_a G s) = a_valid G (v_a G s') /\
   (a_valid G (v_a G s) = true -> a_q G (v_a G s) = a_q G (v_a G s') /\ a_w G (v_a G s) = a_w G (v_a G s'))).
Proof. exact forget_time. Qed.
Print Assumptions C127_forgotten_partial.
(** one baseline from before the reset and one from after it start the relative estimate *)
Theorem C127_relative_refuted : exists h h' i k, resets_time i /\
  r_state toy (v_r toy (after toy 0 (h ++ i :: k))) = 2 /\ r_rvel toy (v_r toy (after toy 0 (h ++ i :: k))) = Some (-100) /\
  r_state toy (v_r toy (after toy 0 (h' ++ i :: k))) = 0.
Proof. eexists _, _, _, _. exact reset_remembered. Qed.
Print Assumptions C127_relative_refuted.

(** * C128 Without RTK readings a relative estimate is given up after 5000 cycles, not before and not much later *)
Theorem C128_given_up : forall G epoch h k, Forall (fun j => ~ rtk j) k -> Z.of_nat (length k) >= 5002 ->
  r_state G (v_r G (after G epoch (h ++ k))) <> 2.
Proof. exact dropped_in_time. Qed.
Print Assumptions C128_given_up.
(** not before: if the last reading corrected an estimate that was already running, and the library keeps a valid estimate valid *)
Theorem C128_kept_partial : forall G epoch h i k, keeps G -> rtk i -> r_state G (v_r G (after G epoch h)) = 2 -> r_state G (v_r G (after G epoch (h ++ [i]))) = 2 ->
  Forall (fun j => ~ rtk j /\ ~ resets_rel j) k -> Z.of_nat (length k) <= 5000 ->
  (forall n, o_valid G (v_o G (after G epoch (h ++ [i] ++ firstn n k))) = true) ->
  r_state G (v_r G (after G epoch (h ++ [i] ++ k))) = 2.
Proof. exact survives. Qed.
Print Assumptions C128_kept_partial.
(** the estimate was started two cycles ago from two RTK readings; the count of an earlier estimate goes on *)
Theorem C128_early_refuted :
  let h := [fix_at 0; rtk_at 170 0 10; rtk_at 340 0 10] ++ long_idle ++ [with_rreset idle; rtk_at 850680 0 10] in
  let k := [rtk_at 850850 0 10; idle; idle] in
  r_state toy (v_r toy (after toy 0 (h ++ firstn 1 k))) = 2 /\ r_state toy (v_r toy (after toy 0 (h ++ firstn 2 k))) = 2 /\
  r_state toy (v_r toy (after toy 0 (h ++ k))) = 1 /\ o_valid toy (v_o toy (after toy 0 (h ++ k))) = true.
Proof. exact dropped_early. Qed.
Print Assumptions C128_early_refuted.
Example C128_case : let h := [fix_at 0; rtk_at 170 0 10; rtk_at 340 0 10] in let i := rtk_at 510 0 11 in
  keeps toy /\ rtk i /\ r_state toy (v_r toy (A h)) = 2 /\ r_state toy (v_r toy (A (h ++ [i]))) = 2 /\
  r_state toy (v_r toy (A (h ++ [i] ++ repeat idle 20))) = 2.
Proof.
  cbv zeta. split; [|vm_compute; repeat split; reflexivity].
  intros ns w p v [m|] [[a b]|] E; cbn in *; congruence.
Qed.

(** * C129 The relative velocity an estimate starts with is the change of the baseline over the time between the two readings *)
(** readings of consecutive cycles, the second of age 0 *)
Theorem C129_consecutive_partial : forall G epoch h i j, rtk i -> rtk j -> fresh i -> n_delta G j = 0 -> ~ resets_rel i -> o_valid G (v_o G (after G epoch (h ++ [i]))) = true ->
  r_state G (v_r G (after G epoch (h ++ [i]))) <> 2 -> r_state G (v_r G (after G epoch (h ++ [i; j]))) = 2 ->
  let s := after G epoch (h ++ [i; j]) in
  let e := re_init G (earth_w G (t_ns (v_t G s))) (o_pos G (v_o G s)) (o_vel G (v_o G s)) (vneg G (n_base G j))
             (vneg G (vrate G (n_base G j) (n_base G i) (elapsed i j))) (elapsed i j) in
  r_rpos G (v_r G s) = re_pos G e /\ r_rvel G (v_r G s) = re_vel G e.
Proof. exact started_elapsed. Qed.
Print Assumptions C129_consecutive_partial.
(** 17 metres in 17 seconds: the estimate starts with 100 m/s *)
Theorem C129_old_reading_refuted : let h := [fix_at 0; rtk_at 170 0 10] ++ repeat idle 99 in
  r_state toy (v_r toy (after toy 0 h)) <> 2 /\ r_state toy (v_r toy (after toy 0 (h ++ [rtk_at 17170 0 27]))) = 2 /\
  r_rvel toy (v_r toy (after toy 0 (h ++ [rtk_at 17170 0 27]))) = Some (-100).
Proof. exact old_baseline. Qed.
Print Assumptions C129_old_reading_refuted.
(** 7 metres in 70 milliseconds: the estimate starts with 41 m/s *)
Theorem C129_aged_reading_refuted : let h := [fix_at 0; rtk_at 170 0 10] in
  r_state toy (v_r toy (after toy 0 h)) <> 2 /\ r_state toy (v_r toy (after toy 0 (h ++ [rtk_at 240 100000 17]))) = 2 /\
  r_rvel toy (v_r toy (after toy 0 (h ++ [rtk_at 240 100000 17]))) = Some (-41).
Proof. exact late_baseline. Qed.
Print Assumptions C129_aged_reading_refuted.
Example C129_case : let h := [fix_at 0] in let i := rtk_at 170 0 10 in let j := rtk_at 340 0 27 in
  rtk i /\ rtk j /\ fresh i /\ o_valid toy (v_o toy (A (h ++ [i]))) = true /\ r_state toy (v_r toy (A (h ++ [i]))) = 0 /\
  r_state toy (v_r toy (A (h ++ [i; j]))) = 2 /\ r_rvel toy (v_r toy (A (h ++ [i; j]))) = Some (-100).
Proof. cbv zeta. split; [reflexivity|]. split; [reflexivity|]. split; [unfold fresh; cbn; lia|]. vm_compute. repeat split; reflexivity. Qed.

(** * C130 An orbit of the other satellite uplinked for a future time is used when that time comes *)
(** no RTK, other uplinks only for later times, before or after; the clock passes the time by less than two cycles.  What is
    missing: clock corrections of two cycles or more, and uplinks that come while one for an earlier time waits. *)
Theorem C130_used_partial : forall G epoch h i k j T r v,
  n_uplink G i = Some (T, r, v) -> g_set T = true ->
  Forall (later_uplink T) h -> Forall (later_uplink T) k ->
  Forall (fun x => ~ rtk x) (h ++ [i] ++ k ++ [j]) -> Forall (fun x => ~ resets_rel x) ([i] ++ k ++ [j]) ->
  (forall n, o_valid G (v_o G (after G epoch (h ++ [i] ++ firstn n (k ++ [j])))) = true) ->
  gtime_ns (t_gps (v_t G (after G epoch (h ++ [i])))) < gtime_ns T ->
  (forall n, gtime_ns (t_gps (v_t G (after G epoch (h ++ [i] ++ firstn n k)))) <= gtime_ns T) ->
  let s := after G epoch (h ++ [i] ++ k ++ [j]) in
  let late := gtime_ns (t_gps (v_t G s)) - gtime_ns T in
  0 < late < 340000000 ->
  let w := earth_w G (t_ns (v_t G s)) in
  let ob := ob_prop G (late - 170000000) w (ob_make G r v) in
  ob_ok G ob = true ->
  r_state G (v_r G s) = 1 /\ r_pos G (v_r G s) = ob_pos G (ob_prop G 170000000 w ob) /\ r_vel G (v_r G s) = ob_vel G (ob_prop G 170000000 w ob).
Proof. exact uplink_used. Qed.
Print Assumptions C130_used_partial.
(** which is the case whenever the clock runs freely *)
Theorem C130_not_missed_partial : forall G epoch h i k j T r v,
  n_uplink G i = Some (T, r, v) -> g_set T = true -> gtime_ns T + 170000000 < 2 ^ 64 ->
  Forall (later_uplink T) h -> Forall (later_uplink T) k ->
  Forall (fun x => ~ rtk x) (h ++ [i] ++ k ++ [j]) -> Forall (fun x => ~ resets_rel x) ([i] ++ k ++ [j]) ->
  (forall n, o_valid G (v_o G (after G epoch (h ++ [i] ++ firstn n (k ++ [j])))) = true) ->
  gtime_ns (t_gps (v_t G (after G epoch (h ++ [i])))) < gtime_ns T ->
  (forall n, gtime_ns (t_gps (v_t G (after G epoch (h ++ [i] ++ firstn n k)))) <= gtime_ns T) ->
  ~ gps_fix j ->
  let s := after G epoch (h ++ [i] ++ k ++ [j]) in
  let late := gtime_ns (t_gps (v_t G s)) - gtime_ns T in
  0 < late ->
  let w := earth_w G (t_ns (v_t G s)) in
  let ob := ob_prop G (late - 170000000) w (ob_make G r v) in
  ob_ok G ob = true ->
  r_state G (v_r G s) = 1 /\ r_pos G (v_r G s) = ob_pos G (ob_prop G 170000000 w ob) /\ r_vel G (v_r G s) = ob_vel G (ob_prop G 170000000 w ob).
Proof. exact uplink_not_missed. Qed.
Print Assumptions C130_not_missed_partial.
(** a GPS reading sets the clock forward by two cycles just then: the uplink is gone *)
Theorem C130_clock_step_refuted :
  let T := gtime_make 2100 1000 0 in
  let h := [fix_at 0; with_uplink T 7000500 7601 idle; idle; idle] in let k := [fix_at 1340; idle; idle] in
  o_valid toy (v_o toy (after toy 0 (h ++ k))) = true /\
  gtime_ns (t_gps (v_t toy (after toy 0 h))) < gtime_ns T < gtime_ns (t_gps (v_t toy (after toy 0 (h ++ firstn 1 k)))) /\
  r_state toy (v_r toy (after toy 0 (h ++ firstn 1 k))) = 0 /\ r_state toy (v_r toy (after toy 0 (h ++ k))) = 0.
Proof. exact uplink_lost. Qed.
Print Assumptions C130_clock_step_refuted.
(** an uplink that comes while one for an earlier time waits is dropped: when its time comes, nothing happens *)
Theorem C130_second_uplink_refuted :
  let T1 := gtime_make 2100 1000 0 in let T2 := gtime_make 2100 3000 0 in
  let h := [fix_at 0; with_uplink T1 7000500 7601 idle; with_uplink T2 9000500 7601 idle] in let k := repeat idle 30 in
  let pos n := r_pos toy (v_r toy (after toy 0 (h ++ firstn n k))) in
  let time n := gtime_ns (t_gps (v_t toy (after toy 0 (h ++ firstn n k)))) in
  time 15%nat < gtime_ns T2 < time 16%nat /\
  (exists x y, pos 15%nat = Some x /\ pos 16%nat = Some y /\ 0 <= y - x <= 1300) /\
  r_state toy (v_r toy (after toy 0 (h ++ firstn 16 k))) = 1.
Proof. exact uplink_dropped. Qed.
Print Assumptions C130_second_uplink_refuted.
(** an earlier one takes its place *)
Example C130_earlier_case : let h := [fix_at 0; with_uplink (gtime_make 2100 3000 0) 9000500 7601 idle] in
  let i := with_uplink (gtime_make 2100 1000 0) 7000500 7600 idle in
  Forall (later_uplink (gtime_make 2100 1000 0)) h /\
  r_pos toy (v_r toy (A (h ++ [i] ++ repeat idle 4))) = Some 7000652.
Proof. split; [repeat constructor|vm_compute; reflexivity]. Qed.
Example C130_case : let h := [fix_at 0] in let i := with_uplink (gtime_make 2100 1000 0) 7000500 7600 idle in let k := repeat idle 4 in let j := idle in
  n_uplink toy i = Some (gtime_make 2100 1000 0, Some 7000500, Some 7600) /\
  gtime_ns (t_gps (v_t toy (A (h ++ [i] ++ k)))) < gtime_ns (gtime_make 2100 1000 0) < gtime_ns (t_gps (v_t toy (A (h ++ [i] ++ k ++ [j])))) /\
  r_state toy (v_r toy (A (h ++ [i] ++ k ++ [j]))) = 1 /\ r_pos toy (v_r toy (A (h ++ [i] ++ k ++ [j]))) = Some 7000652.
Proof. vm_compute. repeat split; reflexivity. Qed.

(** * C131 Absolute and relative state published for the other satellite belong together *)
Theorem C131_consistent : forall G epoch h,
  let s := after G epoch h in let r := v_r G s in let o := v_o G s in
  (r_state G r = 0 \/ r_state G r = 1 \/ r_state G r = 2) /\
  (r_state G r = 2 -> r_pos G r = vadd G (o_pos G o) (r_rpos G r) /\ r_vel G r = vadd G (o_vel G o) (r_rvel G r)) /\
  (r_state G r = 1 -> r_rpos G r = vsub G (r_pos G r) (o_pos G o) /\ r_rvel G r = vsub G (r_vel G r) (o_vel G o)).
Proof. exact published_together. Qed.
Print Assumptions C131_consistent.
Example C131_case : let r := v_r toy (A [fix_at 0; rtk_at 170 0 10; rtk_at 340 0 27]) in r_state toy r = 2 /\ r_rpos toy r = Some (-27) /\ r_pos toy r = Some 6999973.
Proof. vm_compute. repeat split. Qed.

(** * C132 The magnetic field published is that of a working magnetometer, of the preferred one if it works *)
Theorem C132_magnetometer : forall G epoch h i,
  let a := v_a G (after G epoch (h ++ [i])) in
  (a_bvalid G a = true <-> n_mag1_ok G i = true \/ n_mag2_ok G i = true) /\
  (n_mag1_ok G i = true -> n_prefer1 G i = true \/ n_mag2_ok G i = false -> a_b G a = mag1_offset G (n_mag1 G i) (rods_before h)) /\
  (n_mag2_ok G i = true -> n_prefer1 G i = false \/ n_mag1_ok G i = false -> a_b G a = mag2_offset G (n_mag2 G i) (rods_before h)).
Proof. exact magnetometer. Qed.
Print Assumptions C132_magnetometer.
Example C132_case : a_b toy (v_a toy (A [idle])) = Some 22 /\ a_b toy (v_a toy (A [idle; idle])) = Some 20.
Proof. split; reflexivity. Qed.

(** * C133 Every cycle without attitude estimate counts for the attitude fault *)
Theorem C133_alarm : forall G epoch h i, a_alarm G (v_a G (after G epoch (h ++ [i]))) = negb (a_valid G (v_a G (after G epoch (h ++ [i])))).
Proof. exact alarm. Qed.
Print Assumptions C133_alarm.
Example C133_case : a_alarm toy (v_a toy (A [idle])) = true /\ a_alarm toy (v_a toy (A [fix_at 0; fix_at 170])) = false.
Proof. split; reflexivity. Qed.

(** * C134 The attitude controller never commands anything that is not a number *)
Theorem C134_finite : forall G epoch h, finite_cmd (v_c G (after G epoch h)).
Proof. exact always_finite. Qed.
Print Assumptions C134_finite.
Example C134_case : c_t toy (v_c toy (A (map (in_mode 7 true None) [fix_at 0; fix_at 170; fix_at 340]))) = Some 98.
Proof. reflexivity. Qed.

(** * C135 Without an attitude estimate the wheels are commanded no torque *)
(** every mode but manual and manual pointing *)
Theorem C135_still_partial : forall G epoch h i, 1 <= n_adcs G i <= 8 -> n_adcs G i <> 6 ->
  a_valid G (v_a G (after G epoch (h ++ [i]))) = false ->
  c_t G (v_c G (after G epoch (h ++ [i]))) = vzero G /\
  (n_adcs G i <> 2 -> n_adcs G i <> 5 -> c_m G (v_c G (after G epoch (h ++ [i]))) = vzero G) /\
  (a_bvalid G (v_a G (after G epoch (h ++ [i]))) = false -> c_m G (v_c G (after G epoch (h ++ [i]))) = vzero G).
Proof. exact still_without_attitude. Qed.
Print Assumptions C135_still_partial.
(** manual pointing, the gyro fails: the torque commanded last is commanded on and on *)
Theorem C135_manual_refuted : exists h, a_valid toy (v_a toy (after toy 0 h)) = false /\ Forall (fun i => n_adcs toy i = 6) (skipn 3 h) /\
  Forall (fun i => n_gyr_ok toy i = false) (skipn 4 h) /\ (50 < length (skipn 4 h))%nat /\ c_t toy (v_c toy (after toy 0 h)) = Some 99.
Proof.
  exists (map (in_mode 7 true None) [fix_at 0; fix_at 170; fix_at 340] ++ [in_mode 6 true (Some (1, 2)) (fix_at 510); in_mode 6 false None (fix_at 680)] ++ repeat (in_mode 6 false None idle) 50).
  destruct manual_keeps as (E1 & _ & E2). split; [exact E1|]. split; [repeat constructor|]. split; [repeat constructor|]. split; [|exact E2].
  cbn. lia.
Qed.
Print Assumptions C135_manual_refuted.
Example C135_case : let i := in_mode 7 false None (fix_at 510) in a_valid toy (v_a toy (A (map (in_mode 7 true None) [fix_at 0; fix_at 170; fix_at 340] ++ [i]))) = false.
Proof. reflexivity. Qed.

(** * C136 In manual pointing the satellite points as ground told it to *)
(** if an autonomous mode pointed before *)
Theorem C136_after_autonomous_partial : forall G epoch h i d1 d2, n_adcs G i = 6 -> n_des1 G i = Some d1 -> n_des2 G i = Some d2 -> vfin G d1 = true -> vfin G d2 = true ->
  let c := v_c G (after G epoch h) in let s := after G epoch (h ++ [i]) in
  vfin G (c_cur1 G c) = true -> vfin G (c_cur2 G c) = true -> a_valid G (v_a G s) = true ->
  exists p m rw, pointing G d1 (c_cur1 G c) d2 (c_cur2 G c) (n_wheels G i) (a_w G (v_a G s)) (a_b G (v_a G s)) (c_pst G c) = (p, (m, rw)) /\
    (vfin G m = true -> vfin G (vneg G rw) = true -> c_t G (v_c G s) = vneg G rw /\ c_m G (v_c G s) = m).
Proof. exact manual_points. Qed.
Print Assumptions C136_after_autonomous_partial.
(** from power-up, without an autonomous mode in between, nothing ground can write makes it point *)
Theorem C136_from_boot_refuted : forall G epoch h, Forall (fun i => n_adcs G i <> 7 /\ n_adcs G i <> 8) h ->
  c_cur1 G (v_c G (after G epoch h)) = vnan G /\ c_t G (v_c G (after G epoch h)) = vzero G /\
  (Forall (fun i => n_adcs G i <> 2 /\ n_adcs G i <> 5) h -> c_m G (v_c G (after G epoch h)) = vzero G).
Proof. exact manual_blind. Qed.
Print Assumptions C136_from_boot_refuted.
Example C136_case : let h := map (in_mode 7 true None) [fix_at 0; fix_at 170; fix_at 340] in let i := in_mode 6 true (Some (1, 2)) (fix_at 510) in
  vfin toy (c_cur1 toy (v_c toy (A h))) = true /\ a_valid toy (v_a toy (A (h ++ [i]))) = true /\ c_t toy (v_c toy (A (h ++ [i]))) = Some 99 /\
  let g := map (in_mode 6 true (Some (1, 2))) [fix_at 0; fix_at 170; fix_at 340] in a_valid toy (v_a toy (A g)) = true /\ c_t toy (v_c toy (A g)) = Some 0.
Proof. vm_compute. repeat split. Qed.

(** * C137 In docking mode the docking face is turned to the other satellite, and nothing is done if its place is not known *)
Theorem C137_unknown_still : forall G epoch h i, n_adcs G i = 8 -> r_state G (v_r G (after G epoch (h ++ [i]))) = 0 -> still (v_c G (after G epoch (h ++ [i]))).
Proof. exact docking_still. Qed.
Print Assumptions C137_unknown_still.
Theorem C137_objective : forall G epoch h i, n_adcs G i = 8 ->
  let s := after G epoch (h ++ [i]) in
  let dr := to_body G (t_ns (v_t G s)) (a_q G (v_a G s)) (r_rpos G (v_r G s)) in
  a_valid G (v_a G s) = true -> r_state G (v_r G s) <> 0 -> vfin G dr = true ->
  forall r_hat v_hat n_hat, hill G (t_ns (v_t G s)) (o_pos G (v_o G s)) (o_vel G (v_o G s)) (a_q G (v_a G s)) = Some (r_hat, v_hat, n_hat) ->
  c_cur1 G (v_c G s) = face_docking G /\ c_des1 G (v_c G s) = vunit G dr /\ c_cur2 G (v_c G s) = face_antenna G /\ c_des2 G (v_c G s) = r_hat.
Proof. exact docking_points. Qed.
Print Assumptions C137_objective.
Example C137_case : let h := map (in_mode 8 true None) [fix_at 0; rtk_at 170 0 10] in let i := in_mode 8 true None (rtk_at 340 0 10) in
  still (v_c toy (A h)) /\ a_valid toy (v_a toy (A (h ++ [i]))) = true /\ r_state toy (v_r toy (A (h ++ [i]))) = 2 /\ c_des1 toy (v_c toy (A (h ++ [i]))) = Some (-1).
Proof. vm_compute. repeat split. Qed.
