(** Model of the estimators and of the attitude controller: /repo/src/fsw/FCCode/Estimators/TimeEstimator.cpp,
    OrbitEstimator.cpp, RelativeOrbitEstimator.cpp, AttitudeEstimator.cpp and /repo/src/fsw/FCCode/AttitudeController.cpp, run
    in the order of MainControlLoop.cpp:153-156 (MainControlLoop.hpp: the four estimators in this order).

    The numerical work is done by the libraries gnc, orb and lin, whose sources are not in /repo.  They appear as a record of
    arbitrary functions, [gnc]; every theorem holds for all of them.  The only things assumed of them are that an estimate
    freshly constructed is invalid, that zeros are finite and that nans are not.  One type stands for the vectors of both
    precisions (conversions between them are part of the library functions).  The standard deviations published beside the
    estimates and the angular momentum are left out. *)
From Verif Require Import Base GPSTimeModel.

Record gnc := mk_gnc {
  vec : Type;
  vzero : vec; vnan : vec; vfin : vec -> bool;
  vadd : vec -> vec -> vec; vsub : vec -> vec -> vec; vneg : vec -> vec;
  vrate : vec -> vec -> Z -> vec;                       (* 1.0e9 * (a - b) / double(ns) *)
  vunit : vec -> vec;                                   (* v / lin::norm(v) *)
  face_antenna : vec; face_docking : vec;               (* {1,0,0} and {0,0,-1} *)
  earth_w : Z -> vec;                                   (* gnc::env::earth_angular_rate, of time.ns *)
  (* orb::OrbitEstimate *)
  oest : Type; oe_none : oest; oe_ok : oest -> bool; oe_pos : oest -> vec; oe_vel : oest -> vec;
  oe_meas : vec -> vec -> oest; oe_predict : Z -> vec -> oest -> oest; oe_update : Z -> vec -> oest -> oest -> oest;
  (* gnc::RelativeOrbitEstimate; [re_init] gets w, pos, vel, rel_pos, rel_vel and the ns its covariance is computed from *)
  rest : Type; re_none : rest; re_ok : rest -> bool; re_pos : rest -> vec; re_vel : rest -> vec;
  re_init : vec -> vec -> vec -> vec -> vec -> Z -> rest;
  re_update : Z -> vec -> vec -> vec -> option vec -> rest -> rest;
  (* orb::Orbit *)
  orb : Type; ob_none : orb; ob_ok : orb -> bool; ob_pos : orb -> vec; ob_vel : orb -> vec;
  ob_make : vec -> vec -> orb; ob_prop : Z -> vec -> orb -> orb;
  (* gnc::AttitudeEstimatorState, gnc::AttitudeEstimate; [ae_q], [ae_bias] the quaternion and the gyro bias *)
  quat : Type; qzero : quat;
  ast : Type; as_none : ast; as_ok : ast -> bool;
  aest : Type; ae_none : aest; ae_ok : aest -> bool; ae_q : aest -> quat; ae_bias : aest -> vec;
  at_update : Z -> vec -> vec -> vec -> vec -> ast -> aest -> ast * aest;   (* t r b s w *)
  at_reset : Z -> ast -> ast; at_reset_sun : Z -> vec -> vec -> vec -> ast -> ast;
  mag1_offset : vec -> vec -> vec; mag2_offset : vec -> vec -> vec;          (* AttitudeEstimator.cpp:141-147 *)
  (* controllers *)
  dst : Type; ds_new : dst; detumble : vec -> dst -> dst * vec;
  pst : Type; ps_new : pst; pointing : vec -> vec -> vec -> vec -> vec -> vec -> vec -> pst -> pst * (vec * vec);   (* mtr, rwa *)
  hill : Z -> vec -> vec -> quat -> option (vec * vec * vec);                (* rows 0,1,2; None when not finite *)
  to_body : Z -> quat -> vec -> vec;
  (* laws *)
  fin_zero : vfin vzero = true; fin_nan : vfin vnan = false;
  oe_none_bad : oe_ok oe_none = false; re_none_bad : re_ok re_none = false; ob_none_bad : ob_ok ob_none = false;
  as_none_bad : as_ok as_none = false; ae_none_bad : ae_ok ae_none = false
}.

(** constants.hpp:11-13 *)
Definition cycle_ns : Z := 170000000.
(** RelativeOrbitEstimator.cpp:310 *)
Definition predict_limit : Z := 5000.

Section Nav.
Context (G : gnc) (epoch : Z).
(** [epoch]: gps_epoch_ns, TimeEstimator.cpp:49-51, whose constants are in the library *)
Notation vec := (vec G). Notation vnan := (vnan G). Notation vfin := (vfin G). Notation vadd := (vadd G).
Notation vsub := (vsub G). Notation vneg := (vneg G).

(** What the rest of the satellite provides in one cycle.  Commands are what ground wrote in this cycle. *)
Record nin := mk_nin {
  (* piksi.state, microdelta, time, pos, vel, baseline_pos *)
  n_mode : Z; n_delta : Z; n_time : gtime; n_pos : vec; n_vel : vec; n_base : vec;
  (* writes of time.reset_cmd, orbit.reset_cmd, rel_orbit.reset_cmd, attitude_estimator.reset_cmd *)
  n_treset : option bool; n_oreset : option bool; n_rreset : option bool; n_areset : option bool;
  (* a write of rel_orbit.uplink.time, pos and vel *)
  n_uplink : option (gtime * vec * vec);
  (* adcs_monitor.havt_device0..2, gyr_vec, mag1_vec, mag2_vec, ssa_mode = SSA_COMPLETE, ssa_vec, rwa_speed_rd, adcs_cmd.mtr_cmd *)
  n_gyr_ok : bool; n_mag1_ok : bool; n_mag2_ok : bool;
  n_gyr : vec; n_mag1 : vec; n_mag2 : vec; n_sun_ok : bool; n_sun : vec; n_wheels : vec; n_mtr : vec;
  (* attitude_estimator.mag_flag, ignore_sun_vectors *)
  n_prefer1 : bool; n_ignore_sun : bool;
  (* adcs.state; writes of attitude.pointer_vec1_desired, pointer_vec2_desired *)
  n_adcs : Z; n_des1 : option vec; n_des2 : option vec
}.

(** piksi_mode_t.enum: spp, fixed_rtk and float_rtk are 0, 1 and 2 *)
Definition has_fix (i : nin) : bool := (n_mode i =? 0) || (n_mode i =? 1) || (n_mode i =? 2).
(** TimeEstimator.cpp:48, OrbitEstimator.cpp:73, RelativeOrbitEstimator.cpp:128: the product is one of unsigned ints *)
Definition dns (i : nin) : Z := u32 (1000 * n_delta i).
(** a field after ground may have written it *)
Definition written {A} (old : A) (w : option A) : A := match w with Some x => x | None => old end.

(** ** TimeEstimator *)
Record tst := mk_tst { t_valid : bool; t_gps : gtime; t_ns : Z; t_reset : bool }.
(** TimeEstimator.cpp:34-35; time.ns is never read before it was set, its initial value here is 0 *)
Definition t_boot : tst := mk_tst false gtime_default 0 false.
(** TimeEstimator.cpp:38-95 *)
Definition time_step (s : tst) (i : nin) : tst :=
  if written (t_reset s) (n_treset i) then mk_tst false (t_gps s) (t_ns s) false
  else
    let g := if has_fix i then add_n (n_time i) (dns i) else add_n (t_gps s) cycle_ns in
    let v := if has_fix i then true else t_valid s in
    mk_tst v g (if v then u64 (gtime_ns g - epoch) else t_ns s) false.

(** ** OrbitEstimator *)
Record ost := mk_ost { o_valid : bool; o_pos : vec; o_vel : vec; o_reset : bool; o_est : oest G }.
Definition o_boot : ost := mk_ost false (vzero G) (vzero G) false (oe_none G).
(** OrbitEstimator.cpp:58-124 *)
Definition orbit_step (t : tst) (s : ost) (i : nin) : ost :=
  if negb (t_valid t) || written (o_reset s) (n_oreset i) then mk_ost false (o_pos s) (o_vel s) false (oe_none G)
  else
    let w := earth_w G (t_ns t) in
    let e :=
      if has_fix i then
        let m := oe_meas G (n_pos i) (n_vel i) in
        let m := if dns i =? 0 then m else oe_predict G (dns i) w m in
        if oe_ok G (o_est s) then oe_update G cycle_ns w m (o_est s) else m
      else if oe_ok G (o_est s) then oe_predict G cycle_ns w (o_est s) else o_est s in
    if oe_ok G e then mk_ost true (oe_pos G e) (oe_vel G e) false e else mk_ost false (o_pos s) (o_vel s) false e.

(** ** RelativeOrbitEstimator *)
Record rst := mk_rst {
  r_state : Z;                                   (* rel_orbit.state: 0 invalid, 1 propagating, 2 estimating *)
  r_pos : vec; r_vel : vec; r_rpos : vec; r_rvel : vec; r_reset : bool;
  r_upt : gtime; r_upr : vec; r_upv : vec;       (* rel_orbit.uplink.time, pos, vel *)
  r_qt : gtime; r_qr : vec; r_qv : vec;          (* _uplink_t, _uplink_r, _uplink_v *)
  r_have : bool; r_prev : vec; r_prevns : Z;     (* _have_previous_baseline, _previous_baseline_pos, _previous_baseline_ns *)
  r_count : Z;                                   (* _cycles_without_rtk *)
  r_est : rest G; r_orb : orb G
}.
(** get_gps_zero, RelativeOrbitEstimator.cpp:37-40 *)
Definition gps_zero : gtime := gtime_make 0 0 0.
(** RelativeOrbitEstimator.cpp:71-97; members not initialised there are not read before they are written *)
Definition r_boot : rst :=
  mk_rst 0 (vzero G) (vzero G) (vzero G) (vzero G) false gps_zero (vzero G) (vzero G) gps_zero (vzero G) (vzero G)
         false (vzero G) 0 0 (re_none G) (ob_none G).

(** RelativeOrbitEstimator.cpp:151-177: the queued uplink; gives the queue's new time and the orbit *)
Definition take_uplink (now : gtime) (w : vec) (s : rst) : gtime * orb G :=
  if gt_g (r_qt s) gps_zero && gt_g now (r_qt s) then
    let ns := gtime_ns (sub_g now (r_qt s)) in
    (gps_zero,
     if ns <? 2 * cycle_ns then ob_prop G (ns - cycle_ns) w (ob_make G (r_qr s) (r_qv s)) else r_orb s)
  else (r_qt s, r_orb s).

(** RelativeOrbitEstimator.cpp:181-209: a new uplink into the queue [q]; gives the queue *)
Definition queue_uplink (now upt : gtime) (upr upv : vec) (q : gtime * vec * vec) : gtime * vec * vec :=
  let '(qt, _, _) := q in
  if gt_g upt gps_zero && (gt_g upt now && (negb (gt_g qt gps_zero) || lt_g upt qt)) then (upt, upr, upv) else q.

(** RelativeOrbitEstimator.cpp:218-278: gives have, prev, prevns, count and the estimate *)
Definition rel_update (w pos vel : vec) (s : rst) (i : nin) : bool * vec * Z * Z * rest G :=
  if n_mode i =? 1 then
    if re_ok G (r_est s) then
      (r_have s, r_prev s, r_prevns s, 0,
       re_update G (dns i) w pos vel None (re_update G (u64 (cycle_ns - dns i)) w pos vel (Some (vneg (n_base i))) (r_est s)))
    else
      let ns := u32 (r_prevns s + cycle_ns) in
      if r_have s && (ns <=? 10 * cycle_ns) then
        (false, r_prev s, ns, r_count s,
         re_init G w pos vel (vneg (n_base i)) (vneg (vrate G (n_base i) (r_prev s) ns)) ns)
      else (true, n_base i, dns i, r_count s, r_est s)
  else if re_ok G (r_est s) then (r_have s, r_prev s, r_prevns s, u32 (r_count s + 1), re_update G cycle_ns w pos vel None (r_est s))
  else (r_have s, r_prev s, r_prevns s, r_count s, r_est s).

(** RelativeOrbitEstimator.cpp:100-354 *)
Definition rel_step (t : tst) (o : ost) (s : rst) (i : nin) : rst :=
  let upt := match n_uplink i with Some (x, _, _) => x | None => r_upt s end in
  let upr := match n_uplink i with Some (_, x, _) => x | None => r_upr s end in
  let upv := match n_uplink i with Some (_, _, x) => x | None => r_upv s end in
  if negb (t_valid t) || negb (o_valid o) || written (r_reset s) (n_rreset i) then
    mk_rst 0 (r_pos s) (r_vel s) (r_rpos s) (r_rvel s) false upt upr upv gps_zero (r_qr s) (r_qv s)
           (r_have s) (r_prev s) (r_prevns s) (r_count s) (re_none G) (ob_none G)
  else
    let w := earth_w G (t_ns t) in
    let '(qt, ob) := take_uplink (t_gps t) w s in
    let '(qt, qr, qv) := queue_uplink (t_gps t) upt upr upv (qt, r_qr s, r_qv s) in
    let '(have, prev, prevns, count, est) := rel_update w (o_pos o) (o_vel o) s i in
    if re_ok G est then
      let rp := re_pos G est in let rv := re_vel G est in
      let p := vadd (o_pos o) rp in let v := vadd (o_vel o) rv in
      let drop := predict_limit <? count in
      mk_rst 2 p v rp rv false gps_zero upr upv (if drop then gps_zero else qt) qr qv
             have prev prevns (if drop then 0 else count) (if drop then re_none G else est) (ob_make G p v)
    else if ob_ok G ob then
      let ob := ob_prop G cycle_ns w ob in
      let p := ob_pos G ob in let v := ob_vel G ob in
      mk_rst 1 p v (vsub p (o_pos o)) (vsub v (o_vel o)) false gps_zero upr upv qt qr qv have prev prevns count est ob
    else mk_rst 0 (r_pos s) (r_vel s) (r_rpos s) (r_rvel s) false gps_zero upr upv qt qr qv have prev prevns count est ob.

(** ** AttitudeEstimator *)
Record atst := mk_atst {
  a_bvalid : bool; a_b : vec; a_valid : bool; a_q : quat G; a_w : vec; a_reset : bool;
  a_st : ast G; a_est : aest G; a_slip : vec;
  a_alarm : bool                                 (* argument of the last attitude_estimator_fault.evaluate *)
}.
(** AttitudeEstimator.cpp:62-77.  b_valid has no initial value there; it is set before it is read. *)
Definition a_boot : atst := mk_atst false (vzero G) false (qzero G) (vzero G) false (as_none G) (ae_none G) (vzero G) false.
(** AttitudeEstimator.cpp:85-243 *)
Definition att_step (t : tst) (o : ost) (s : atst) (i : nin) : atst :=
  let bvalid := n_mag1_ok i || n_mag2_ok i in
  let mag1 := mag1_offset G (n_mag1 i) (a_slip s) in
  let mag2 := mag2_offset G (n_mag2 i) (a_slip s) in
  let b := if bvalid then
             if n_prefer1 i then (if n_mag1_ok i then mag1 else mag2) else (if n_mag2_ok i then mag2 else mag1)
           else a_b s in
  if negb (t_valid t) || negb (o_valid o) || negb (n_gyr_ok i) || negb bvalid || written (a_reset s) (n_areset i) then
    mk_atst bvalid b false (a_q s) (a_w s) false (as_none G) (ae_none G) (n_mtr i) true
  else
    let sun := if negb (n_sun_ok i) || n_ignore_sun i then vnan else vunit G (n_sun i) in
    let '(st, est) :=
      if as_ok G (a_st s) then at_update G (t_ns t) (o_pos o) b sun (n_gyr i) (a_st s) (a_est s)
      else if n_ignore_sun i then (at_reset G (t_ns t) (a_st s), a_est s)
      else if n_sun_ok i then (at_reset_sun G (t_ns t) (o_pos o) b sun (a_st s), a_est s)
      else (a_st s, a_est s) in
    if ae_ok G est then mk_atst bvalid b true (ae_q G est) (vsub (n_gyr i) (ae_bias G est)) false st est (n_mtr i) false
    else mk_atst bvalid b false (a_q s) (a_w s) false st est (n_mtr i) true.

(** ** AttitudeController *)
Record cst := mk_cst {
  c_cur1 : vec; c_cur2 : vec; c_des1 : vec; c_des2 : vec;      (* attitude.pointer_vec1_current ... *)
  c_t : vec; c_m : vec;                                        (* pointer.rwa_torque_cmd, pointer.mtr_cmd *)
  c_dst : dst G; c_pst : pst G
}.
(** AttitudeController.cpp:44-60 *)
Definition c_boot : cst := mk_cst vnan vnan vnan vnan (vzero G) (vzero G) (ds_new G) (ps_new G).
(** adcs_state_t.enum *)
Definition ad_manual := 0. Definition ad_startup := 1. Definition ad_limited := 2. Definition ad_zero_torque := 3.
Definition ad_zero_L := 4. Definition ad_detumble := 5. Definition ad_point_manual := 6. Definition ad_point_standby := 7.
Definition ad_point_docking := 8.

(** AttitudeController.cpp:107-110 *)
Definition no_actuation (c : cst) : cst :=
  mk_cst (c_cur1 c) (c_cur2 c) (c_des1 c) (c_des2 c) (vzero G) (vzero G) (c_dst c) (c_pst c).
(** AttitudeController.cpp:112-117 *)
Definition no_objectives (c : cst) : cst := mk_cst vnan vnan vnan vnan (c_t c) (c_m c) (c_dst c) (c_pst c).
(** AttitudeController.cpp:119-132 *)
Definition run_detumble (a : atst) (c : cst) : cst :=
  if a_bvalid a then
    let '(d, m) := detumble G (a_b a) (c_dst c) in
    mk_cst (c_cur1 c) (c_cur2 c) (c_des1 c) (c_des2 c) (c_t c) (if vfin m then m else c_m c) d (c_pst c)
  else c.
(** AttitudeController.cpp:134-205 *)
Definition objectives (t : tst) (o : ost) (r : rst) (a : atst) (state : Z) (c : cst) : cst :=
  if t_valid t && a_valid a && o_valid o then
    match hill G (t_ns t) (o_pos o) (o_vel o) (a_q a) with
    | None => c
    | Some (r_hat, v_hat, n_hat) =>
      let dr := if r_state r =? 0 then vnan else to_body G (t_ns t) (a_q a) (r_rpos r) in
      if state =? ad_point_standby then
        mk_cst (face_antenna G) (face_docking G) v_hat n_hat (c_t c) (c_m c) (c_dst c) (c_pst c)
      else if (state =? ad_point_docking) && vfin dr then
        mk_cst (face_docking G) (face_antenna G) (vunit G dr) r_hat (c_t c) (c_m c) (c_dst c) (c_pst c)
      else c
    end
  else c.
(** AttitudeController.cpp:207-242 *)
Definition run_pointing (a : atst) (wheels : vec) (c : cst) : cst :=
  if a_valid a && a_bvalid a && vfin (c_des1 c) && vfin (c_cur1 c) && vfin (c_des2 c) && vfin (c_cur2 c) then
    let '(p, (m, rw)) := pointing G (c_des1 c) (c_cur1 c) (c_des2 c) (c_cur2 c) wheels (a_w a) (a_b a) (c_pst c) in
    let tq := vneg rw in
    if vfin m && vfin tq then mk_cst (c_cur1 c) (c_cur2 c) (c_des1 c) (c_des2 c) tq m (c_dst c) p
    else mk_cst (c_cur1 c) (c_cur2 c) (c_des1 c) (c_des2 c) (c_t c) (c_m c) (c_dst c) p
  else c.
(** AttitudeController.cpp:63-105; the desired vectors may have been written by ground *)
Definition ctl_step (t : tst) (o : ost) (r : rst) (a : atst) (c : cst) (i : nin) : cst :=
  let c := mk_cst (c_cur1 c) (c_cur2 c) (written (c_des1 c) (n_des1 i)) (written (c_des2 c) (n_des2 i)) (c_t c) (c_m c) (c_dst c) (c_pst c) in
  let st := n_adcs i in
  if (st =? ad_detumble) || (st =? ad_limited) then run_detumble a (no_actuation c)
  else if (st =? ad_point_standby) || (st =? ad_point_docking) then
    run_pointing a (n_wheels i) (objectives t o r a st (no_objectives (no_actuation c)))
  else if (st =? ad_point_manual) || (st =? ad_manual) then run_pointing a (n_wheels i) c
  else if (st =? ad_startup) || (st =? ad_zero_torque) || (st =? ad_zero_L) then no_actuation c
  else c.

(** ** One control cycle, MainControlLoop.cpp:153-156 *)
Record nav := mk_nav { v_t : tst; v_o : ost; v_r : rst; v_a : atst; v_c : cst }.
Definition nav_boot : nav := mk_nav t_boot o_boot r_boot a_boot c_boot.
Definition nav_step (s : nav) (i : nin) : nav :=
  let t := time_step (v_t s) i in
  let o := orbit_step t (v_o s) i in
  let r := rel_step t o (v_r s) i in
  let a := att_step t o (v_a s) i in
  mk_nav t o r a (ctl_step t o r a (v_c s) i).
Definition nav_run (s : nav) (h : list nin) : nav := fold_left nav_step h s.
(** what a satellite has computed after the cycles [h], from power-up *)
Definition after (h : list nin) : nav := nav_run nav_boot h.
End Nav.
