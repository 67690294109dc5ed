(** A library and histories for the examples: vectors are numbers, [None] a nan. *)
From Verif Require Import Base GPSTimeModel NavModel NavSpec NavProofs SbpModel.

Definition lift2 (f : Z -> Z -> Z) (a b : option Z) : option Z := match a, b with Some x, Some y => Some (f x y) | _, _ => None end.
Definition isSome {A} (o : option A) : bool := match o with Some _ => true | None => false end.
Definition fst_or (o : option (option Z * option Z)) : option Z := match o with Some (p, _) => p | None => None end.
Definition snd_or (o : option (option Z * option Z)) : option Z := match o with Some (_, v) => v | None => None end.

Definition toy : gnc := {|
  vec := option Z; vzero := Some 0; vnan := None; vfin := isSome;
  vadd := lift2 Z.add; vsub := lift2 Z.sub; vneg := option_map Z.opp;
  vrate := fun a b ns => lift2 (fun x y => 1000000000 * (x - y) / ns) a b;
  vunit := fun a => option_map Z.sgn a; face_antenna := Some 100; face_docking := Some 200;
  earth_w := fun _ => Some 0;
  oest := option (option Z * option Z); oe_none := None; oe_ok := isSome; oe_pos := fst_or; oe_vel := snd_or;
  oe_meas := fun p v => Some (p, v);
  oe_predict := fun ns _ e => match e with Some (Some p, Some v) => Some (Some (p + v * ns / 1000000000), Some v) | _ => e end;
  oe_update := fun _ _ m _ => m;
  rest := option (option Z * option Z); re_none := None; re_ok := isSome; re_pos := fst_or; re_vel := snd_or;
  re_init := fun _ _ _ p v _ => Some (p, v);
  re_update := fun _ _ _ _ m e => match e, m with Some (_, v), Some b => Some (b, v) | _, _ => e end;
  orb := option (option Z * option Z); ob_none := None; ob_ok := isSome; ob_pos := fst_or; ob_vel := snd_or;
  ob_make := fun p v => Some (p, v);
  ob_prop := fun ns _ e => match e with Some (Some p, Some v) => Some (Some (p + v * ns / 1000000000), Some v) | _ => e end;
  quat := Z; qzero := 0; ast := bool; as_none := false; as_ok := fun b => b;
  aest := bool; ae_none := false; ae_ok := fun b => b; ae_q := fun _ => 1; ae_bias := fun _ => Some 0;
  at_update := fun _ _ _ _ _ st _ => (st, true); at_reset := fun _ _ => true; at_reset_sun := fun _ _ _ _ _ => true;
  mag1_offset := fun m c => lift2 (fun x y => x - y) m c; mag2_offset := fun m c => lift2 (fun x y => x - 2 * y) m c;
  dst := unit; ds_new := tt; detumble := fun b d => (d, b);
  pst := unit; ps_new := tt; pointing := fun d1 c1 d2 c2 w ws b p => (p, (b, lift2 Z.sub d1 c1));
  hill := fun _ _ _ _ => Some (Some 1, Some 2, Some 3); to_body := fun _ _ v => v;
  fin_zero := eq_refl; fin_nan := eq_refl; oe_none_bad := eq_refl; re_none_bad := eq_refl; ob_none_bad := eq_refl;
  as_none_bad := eq_refl; ae_none_bad := eq_refl
|}.

(** a quiet cycle: every sensor works, no GPS, nothing commanded, ADCS state [st] *)
Definition base_in (mode delta : Z) (t : gtime) (pos vel base : Z) (st : Z) : nin toy :=
  mk_nin toy mode delta t (Some pos : vec toy) (Some vel : vec toy) (Some base : vec toy) None None None None None
    true true true (Some 0 : vec toy) (Some 11 : vec toy) (Some 22 : vec toy) true (Some 5 : vec toy) (Some 0 : vec toy) (Some 1 : vec toy)
    false false st None None.
Definition idle : nin toy := base_in 3 0 gtime_default 0 0 0 1.
Definition t0 : gtime := gtime_make 2100 0 0.
(** GPS position at [t0 + ms] *)
Definition fix_at (ms : Z) : nin toy := base_in 0 0 (gtime_make 2100 ms 0) 7000000 7600 0 1.
(** RTK reading of a baseline, data [delta] microseconds old *)
Definition rtk_at (ms delta base : Z) : nin toy := base_in 1 delta (gtime_make 2100 ms 0) 7000000 7600 base 1.
Definition with_treset (i : nin toy) : nin toy :=
  mk_nin toy (n_mode toy i) (n_delta toy i) (n_time toy i) (n_pos toy i) (n_vel toy i) (n_base toy i) (Some true) None None None None
    true true true (n_gyr toy i) (n_mag1 toy i) (n_mag2 toy i) true (n_sun toy i) (n_wheels toy i) (n_mtr toy i) false false (n_adcs toy i) None None.
Definition with_rreset (i : nin toy) : nin toy :=
  mk_nin toy (n_mode toy i) (n_delta toy i) (n_time toy i) (n_pos toy i) (n_vel toy i) (n_base toy i) None None (Some true) None None
    true true true (n_gyr toy i) (n_mag1 toy i) (n_mag2 toy i) true (n_sun toy i) (n_wheels toy i) (n_mtr toy i) false false (n_adcs toy i) None None.
Definition with_uplink (T : gtime) (r v : Z) (i : nin toy) : nin toy :=
  mk_nin toy (n_mode toy i) (n_delta toy i) (n_time toy i) (n_pos toy i) (n_vel toy i) (n_base toy i) None None None None (Some (T, Some r : vec toy, Some v : vec toy))
    true true true (n_gyr toy i) (n_mag1 toy i) (n_mag2 toy i) true (n_sun toy i) (n_wheels toy i) (n_mtr toy i) false false (n_adcs toy i) None None.
(** ADCS state [st], ground writing the desired vectors, gyro working or not *)
Definition in_mode (st : Z) (gyr : bool) (d : option (Z * Z)) (i : nin toy) : nin toy :=
  mk_nin toy (n_mode toy i) (n_delta toy i) (n_time toy i) (n_pos toy i) (n_vel toy i) (n_base toy i) None None None None None
    gyr true true (n_gyr toy i) (n_mag1 toy i) (n_mag2 toy i) true (n_sun toy i) (n_wheels toy i) (n_mtr toy i) false false st
    (match d with Some (x, _) => Some (Some x : vec toy) | None => None end) (match d with Some (_, y) => Some (Some y : vec toy) | None => None end).

Notation A := (after toy 0).

(** ** C127 *)
(** one baseline received before the reset, one after it: an estimate *)
Lemma reset_remembered :
  resets_time (with_treset idle) /\
  r_state toy (v_r toy (A ([fix_at 0; rtk_at 170 0 10] ++ with_treset idle :: [rtk_at 510 0 27]))) = 2 /\
  r_rvel toy (v_r toy (A ([fix_at 0; rtk_at 170 0 10] ++ with_treset idle :: [rtk_at 510 0 27]))) = Some (-100) /\
  r_state toy (v_r toy (A ([fix_at 0] ++ with_treset idle :: [rtk_at 510 0 27]))) = 0.
Proof. repeat split; vm_compute; reflexivity. Qed.

(** ** C128 *)
Definition long_idle : list (nin toy) := repeat idle 5000.
Lemma dropped_early :
  let h := [fix_at 0; rtk_at 170 0 10; rtk_at 340 0 10] ++ long_idle ++ [with_rreset idle; rtk_at 850680 0 10] in
  let k := [rtk_at 850850 0 10; idle; idle] in
  r_state toy (v_r toy (A (h ++ firstn 1 k))) = 2 /\ r_state toy (v_r toy (A (h ++ firstn 2 k))) = 2 /\
  r_state toy (v_r toy (A (h ++ k))) = 1 /\ o_valid toy (v_o toy (A (h ++ k))) = true.
Proof.
  cbv zeta. rewrite !(after_app toy 0 (_ ++ _ ++ _)).
  match goal with |- context [nav_run toy 0 ?s _] => pattern s end. vm_compute. repeat split; reflexivity.
Qed.

(** ** C129 *)
(** the baselines are 17 seconds and 17 metres apart *)
Lemma old_baseline :
  let h := [fix_at 0; rtk_at 170 0 10] ++ repeat idle 99 in
  r_state toy (v_r toy (A h)) <> 2 /\ r_state toy (v_r toy (A (h ++ [rtk_at 17170 0 27]))) = 2 /\
  r_rvel toy (v_r toy (A (h ++ [rtk_at 17170 0 27]))) = Some (-100).
Proof. vm_compute. repeat split; try reflexivity. discriminate. Qed.
(** two consecutive readings, the second 100 milliseconds old: 70 milliseconds and 7 metres apart *)
Lemma late_baseline :
  let h := [fix_at 0; rtk_at 170 0 10] in
  r_state toy (v_r toy (A h)) <> 2 /\ r_state toy (v_r toy (A (h ++ [rtk_at 240 100000 17]))) = 2 /\
  r_rvel toy (v_r toy (A (h ++ [rtk_at 240 100000 17]))) = Some (-41).
Proof. vm_compute. repeat split; try reflexivity. discriminate. Qed.

(** ** C130 *)
Lemma uplink_lost :
  let h := [fix_at 0; with_uplink (gtime_make 2100 1000 0) 7000500 7601 idle; idle; idle] in
  let k := [fix_at 1340; idle; idle] in
  o_valid toy (v_o toy (A (h ++ k))) = true /\ gtime_ns (t_gps (v_t toy (A h))) < gtime_ns (gtime_make 2100 1000 0) < gtime_ns (t_gps (v_t toy (A (h ++ firstn 1 k)))) /\
  r_state toy (v_r toy (A (h ++ firstn 1 k))) = 0 /\ r_state toy (v_r toy (A (h ++ k))) = 0.
Proof. vm_compute. repeat split; reflexivity. Qed.

Lemma uplink_dropped :
  let T1 := gtime_make 2100 1000 0 in let T2 := gtime_make 2100 3000 0 in
  let h := [fix_at 0; with_uplink T1 7000500 7601 idle; with_uplink T2 9000500 7601 idle] in let k := repeat idle 30 in
  let pos n := r_pos toy (v_r toy (after toy 0 (h ++ firstn n k))) in
  let time n := gtime_ns (t_gps (v_t toy (after toy 0 (h ++ firstn n k)))) in
  time 15%nat < gtime_ns T2 < time 16%nat /\
  (exists x y, pos 15%nat = Some x /\ pos 16%nat = Some y /\ 0 <= y - x <= 1300) /\
  r_state toy (v_r toy (after toy 0 (h ++ firstn 16 k))) = 1.
Proof.
  cbv zeta. split; [split; vm_compute; reflexivity|]. split; [|vm_compute; reflexivity].
  exists 7014863, 7016155. split; [vm_compute; reflexivity|]. split; [vm_compute; reflexivity|lia].
Qed.

(** ** C136 *)
(** pointing, then the gyro fails: the wheels' torque command stays *)
Lemma manual_keeps :
  let h := map (in_mode 7 true None) [fix_at 0; fix_at 170; fix_at 340] ++ [in_mode 6 true (Some (1, 2)) (fix_at 510); in_mode 6 false None (fix_at 680)] ++ repeat (in_mode 6 false None idle) 50 in
  a_valid toy (v_a toy (A h)) = false /\ a_valid toy (v_a toy (A (firstn 4 h))) = true /\ c_t toy (v_c toy (A h)) = Some 99.
Proof. vm_compute. repeat split; reflexivity. Qed.

(** ** the receiver *)
Lemma receiver_fresh x delta bytes k q : gps_cycle x (delta, bytes) = Some (k, q) -> q_state q <= 2 -> q_delta q = delta /\ delta <= 100000.
Proof.
  unfold gps_cycle. cbn [fst snd]. destruct (read_bytes _ _) as [[r k']|]; [|discriminate]. intros E. injection E as <- <-.
  unfold piksi_execute, md_threshold. cbv zeta. cbn [q_state q_time q_pos q_vel q_base q_delta].
  destruct ((100000 <? delta) && (r <? 2)) eqn:T; cbn [Z.eqb Pos.eqb]; [cbv; congruence|].
  destruct (r =? 5) eqn:E5; [cbv; congruence|]. destruct (r =? 4) eqn:E4; [cbv; congruence|]. destruct (r =? 3) eqn:E3; [cbv; congruence|].
  destruct (r =? 2) eqn:E2; [cbv; congruence|]. destruct ((r =? 1) || (r =? 0)) eqn:E1; [|cbv; congruence].
  assert (D : delta <= 100000) by lia.
  destruct (negb _); [cbv; congruence|]. destruct (_ <? 4); [cbv; congruence|]. destruct (r =? 0); [split; [reflexivity|exact D]|].
  destruct (base_flags k' =? 1); [split; [reflexivity|exact D]|]. destruct (base_flags k' =? 0); [split; [reflexivity|exact D]|cbv; congruence].
Qed.
