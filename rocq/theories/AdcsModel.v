(** Model of the attitude computer (src/adcs) and of the flight computer's side of the link to it
    (src/fsw/FCCode/Drivers/ADCS.cpp, ADCSBoxController.cpp, ADCSBoxMonitor.cpp, ADCSCommander.cpp).

    Simplifications, for the whole file.  float values are exact rationals: no rounding, no overflow to infinity; NaN occurs
    only where the flight computer writes it on purpose.  A conversion of an out-of-range value to an integer type, which is
    undefined behaviour in C++, is the outcome [None].  The interrupt handler that receives a bus message runs between any two
    steps of the main loop, see [bpc] for the steps. *)
From Verif Require Import Base.
From Coq Require Import QArith Qround Qabs.
Local Open Scope Z_scope.

(** * Conversions, src/adcs/utl/convert.inl and Drivers/ADCS.cpp:38-68 (the same text twice) *)

Definition Qtrunc (q : Q) : Z := Z.quot (Qnum q) (Zpos (Qden q)).

(** fp(unsigned short, min, max), convert.inl:30-32 *)
Definition fp16 (u : Z) (mn mx : Q) : Q := (mn + inject_Z u * (mx - mn) / 65535)%Q.
(** fp(unsigned char, min, max), convert.inl:22-24 *)
Definition fp8 (u : Z) (mn mx : Q) : Q := (mn + inject_Z u * (mx - mn) / 255)%Q.
(** fp(signed short, min, max), convert.inl:26-28 *)
Definition fps16 (s : Z) (mn mx : Q) : Q := (mn + (inject_Z s + 32768) * (mx - mn) / 65535)%Q.
(** us(float, min, max), convert.inl:42-44; undefined outside the range of unsigned short *)
Definition us (f mn mx : Q) : option Z :=
  let t := Qtrunc (65535 * (f - mn) / (mx - mn))%Q in
  if (0 <=? t) && (t <=? 65535) then Some t else None.
(** uc(float, min, max), convert.inl:34-36 *)
Definition uc (f mn mx : Q) : option Z :=
  let t := Qtrunc (255 * (f - mn) / (mx - mn))%Q in
  if (0 <=? t) && (t <=? 255) then Some t else None.

(** * Constants, src/adcs/constants.hpp:94-197 *)

Definition max_moment : Q := 113337 # 2000000.
Definition max_torque : Q := 418750020 # 100000000000.
Definition max_speed_command : Q := 680678 # 1000.
Definition max_speed_read : Q := 104720 # 100.
Definition max_omega : Q := 218166156375 # 100000000000.
Definition max_mag1 : Q := 49152 # 10000000.
Definition max_mag2 : Q := 16 # 10000.
Definition max_volt : Q := 33 # 10.

Record vec := V { vx : Q; vy : Q; vz : Q }.
Definition vnth (v : vec) (i : nat) : Q := match i with 0%nat => vx v | 1%nat => vy v | _ => vz v end.
Definition vmap (f : Q -> Q) (v : vec) : vec := V (f (vx v)) (f (vy v)) (f (vz v)).
Definition vmap2 (f : Q -> Q -> Q) (v w : vec) : vec := V (f (vx v) (vx w)) (f (vy v) (vy w)) (f (vz v) (vz w)).

(** body_to_rwa and rwa_to_body, rwa_config.hpp:76-88 *)
Definition body_to_rwa (v : vec) : vec := V (- vy v) (- vz v) (vx v).
Definition rwa_to_body (w : vec) : vec := V (vz w) (- vx w) (- vy w).
(** body_to_mtr, mtr_config.hpp:38-50; [ld] selects the leader's matrix *)
Definition body_to_mtr (ld : bool) (v : vec) : vec :=
  if ld then V (- vz v) (- vx v) (- vy v) else V (vz v) (- vx v) (vy v).
(** mag1_to_body, mag2_to_body, gyr_to_body, imu_config.hpp:50-72 *)
Definition mag1_to_body (v : vec) : vec := V (vx v) (- vz v) (- vy v).
Definition mag2_to_body (v : vec) : vec := V (vy v) (vz v) (- vx v).
Definition gyr_to_body (v : vec) : vec := V (vx v) (- vz v) (vy v).

(** * Registers, src/adcs/state.hpp:26-155 *)

Record rwr := mk_rw { w_mode : Z; w_cmd : vec; w_flg : bool; w_sflt : Q; w_rflt : Q; w_spd : vec; w_rmp : vec }.
Record mtrr := mk_mt { m_mode : Z; m_cmd : vec; m_lim : Q; m_flg : bool }.
(** [s_vec = None]: the registers hold indeterminate values *)
Record ssar := mk_ss { s_mode : Z; s_vec : option vec; s_flt : Q; s_volt : nat -> Q }.
Record imur := mk_im { i_m1 : Z; i_b1 : vec; i_m2 : Z; i_b2 : vec; i_gyr : vec; i_tmp : Q;
                       i_mflt : Q; i_gflt : Q; i_tflt : Q; i_pwm : Z; i_des : Q }.
Record havr := mk_ha { h_tab : Z; h_rst : Z; h_rflg : bool; h_dis : Z; h_dflg : bool }.
Record regs := mk_rg { r_mode : Z; r_ptr : Z; r_rwa : rwr; r_mtr : mtrr; r_ssa : ssar; r_imu : imur; r_hav : havr }.

Definition set_rwa r x := mk_rg (r_mode r) (r_ptr r) x (r_mtr r) (r_ssa r) (r_imu r) (r_hav r).
Definition set_mtr r x := mk_rg (r_mode r) (r_ptr r) (r_rwa r) x (r_ssa r) (r_imu r) (r_hav r).
Definition set_ssa r x := mk_rg (r_mode r) (r_ptr r) (r_rwa r) (r_mtr r) x (r_imu r) (r_hav r).
Definition set_imu r x := mk_rg (r_mode r) (r_ptr r) (r_rwa r) (r_mtr r) (r_ssa r) x (r_hav r).
Definition set_hav r x := mk_rg (r_mode r) (r_ptr r) (r_rwa r) (r_mtr r) (r_ssa r) (r_imu r) x.
Definition set_rmode r x := mk_rg x (r_ptr r) (r_rwa r) (r_mtr r) (r_ssa r) (r_imu r) (r_hav r).
Definition set_rptr r x := mk_rg (r_mode r) x (r_rwa r) (r_mtr r) (r_ssa r) (r_imu r) (r_hav r).

Definition rw_mode w x := mk_rw x (w_cmd w) (w_flg w) (w_sflt w) (w_rflt w) (w_spd w) (w_rmp w).
Definition rw_cmd w x := mk_rw (w_mode w) x true (w_sflt w) (w_rflt w) (w_spd w) (w_rmp w).
Definition rw_flg w x := mk_rw (w_mode w) (w_cmd w) x (w_sflt w) (w_rflt w) (w_spd w) (w_rmp w).
Definition rw_sflt w x := mk_rw (w_mode w) (w_cmd w) (w_flg w) x (w_rflt w) (w_spd w) (w_rmp w).
Definition rw_rflt w x := mk_rw (w_mode w) (w_cmd w) (w_flg w) (w_sflt w) x (w_spd w) (w_rmp w).
Definition rw_rd w x y := mk_rw (w_mode w) (w_cmd w) (w_flg w) (w_sflt w) (w_rflt w) x y.
Definition mt_mode w x := mk_mt x (m_cmd w) (m_lim w) (m_flg w).
Definition mt_cmd w x := mk_mt (m_mode w) x (m_lim w) true.
Definition mt_lim w x := mk_mt (m_mode w) (m_cmd w) x true.
Definition mt_flg w x := mk_mt (m_mode w) (m_cmd w) (m_lim w) x.
Definition ss_mode w x := mk_ss x (s_vec w) (s_flt w) (s_volt w).
Definition ss_flt w x := mk_ss (s_mode w) (s_vec w) x (s_volt w).
Definition ss_volt w x := mk_ss (s_mode w) (s_vec w) (s_flt w) x.
Definition ss_res w m v := mk_ss m v (s_flt w) (s_volt w).
Definition im_m1 w x := mk_im x (i_b1 w) (i_m2 w) (i_b2 w) (i_gyr w) (i_tmp w) (i_mflt w) (i_gflt w) (i_tflt w) (i_pwm w) (i_des w).
Definition im_m2 w x := mk_im (i_m1 w) (i_b1 w) x (i_b2 w) (i_gyr w) (i_tmp w) (i_mflt w) (i_gflt w) (i_tflt w) (i_pwm w) (i_des w).
Definition im_rd w a b c := mk_im (i_m1 w) a (i_m2 w) b c (i_tmp w) (i_mflt w) (i_gflt w) (i_tflt w) (i_pwm w) (i_des w).
Definition im_tmp w x := mk_im (i_m1 w) (i_b1 w) (i_m2 w) (i_b2 w) (i_gyr w) x (i_mflt w) (i_gflt w) (i_tflt w) (i_pwm w) (i_des w).
Definition im_mflt w x := mk_im (i_m1 w) (i_b1 w) (i_m2 w) (i_b2 w) (i_gyr w) (i_tmp w) x (i_gflt w) (i_tflt w) (i_pwm w) (i_des w).
Definition im_gflt w x := mk_im (i_m1 w) (i_b1 w) (i_m2 w) (i_b2 w) (i_gyr w) (i_tmp w) (i_mflt w) x (i_tflt w) (i_pwm w) (i_des w).
Definition im_tflt w x := mk_im (i_m1 w) (i_b1 w) (i_m2 w) (i_b2 w) (i_gyr w) (i_tmp w) (i_mflt w) (i_gflt w) x (i_pwm w) (i_des w).
Definition im_pwm w x := mk_im (i_m1 w) (i_b1 w) (i_m2 w) (i_b2 w) (i_gyr w) (i_tmp w) (i_mflt w) (i_gflt w) (i_tflt w) x (i_des w).
Definition im_des w x := mk_im (i_m1 w) (i_b1 w) (i_m2 w) (i_b2 w) (i_gyr w) (i_tmp w) (i_mflt w) (i_gflt w) (i_tflt w) (i_pwm w) x.
Definition ha_tab w x := mk_ha x (h_rst w) (h_rflg w) (h_dis w) (h_dflg w).
Definition ha_rst w x f := mk_ha (h_tab w) x f (h_dis w) (h_dflg w).
Definition ha_rflg w f := mk_ha (h_tab w) (h_rst w) f (h_dis w) (h_dflg w).
Definition ha_dis w x f := mk_ha (h_tab w) (h_rst w) (h_rflg w) x f.
Definition ha_dflg w f := mk_ha (h_tab w) (h_rst w) (h_rflg w) (h_dis w) f.

(** * Receiving a message, on_i2c_recieve, src/adcs/state_controller.cpp:97-353 *)

(** endian_read<unsigned short>, :63-69; [z] is what the bus library returns once the message is used up *)
Definition rd (z : Z) (l : list Z) : Z * list Z := match l with [] => (z, []) | b :: t => (b, t) end.
Definition rd16 (z : Z) (l : list Z) : Z * list Z :=
  let '(a, l) := rd z l in let '(b, l) := rd z l in (a + 256 * b, l).
(** endian_read<unsigned int> *)
Definition rd32 (z : Z) (l : list Z) : Z * list Z :=
  let '(a, l) := rd16 z l in let '(b, l) := rd16 z l in (a + 65536 * b, l).
(** endian_read<unsigned short, 3>, :78-81 *)
Definition rd16x3 (z : Z) (l : list Z) : (Z * Z * Z) * list Z :=
  let '(a, l) := rd16 z l in let '(b, l) := rd16 z l in let '(c, l) := rd16 z l in ((a, b, c), l).
Definition fp3 (t : Z * Z * Z) (mn mx : Q) : vec := let '(a, b, c) := t in V (fp16 a mn mx) (fp16 b mn mx) (fp16 c mn mx).

(** One definition per case label; a case without break continues with the next one.
    READ_POINTER :114-122 *)
Definition rx_ptr (l : list Z) (r : regs) : regs := match l with [] => r | b :: _ => set_rptr r b end.
(** ADCS_MODE :106-112, falls through *)
Definition rx_mode (l : list Z) (r : regs) : regs := match l with [] => r | b :: t => rx_ptr t (set_rmode r b) end.
(** RWA_COMMAND :132-155 *)
Definition rx_rwa_cmd (z : Z) (l : list Z) (r : regs) : regs :=
  if (length l <? 6)%nat then r else
  let '(t, _) := rd16x3 z l in
  if w_mode (r_rwa r) =? 2 then set_rwa r (rw_cmd (r_rwa r) (fp3 t (- max_torque) max_torque))
  else if w_mode (r_rwa r) =? 1 then set_rwa r (rw_cmd (r_rwa r) (fp3 t (- max_speed_command) max_speed_command))
  else r.
(** RWA_MODE :124-130, falls through *)
Definition rx_rwa_mode (z : Z) (l : list Z) (r : regs) : regs :=
  match l with [] => r | b :: t => rx_rwa_cmd z t (set_rwa r (rw_mode (r_rwa r) b)) end.
(** RWA_RAMP_FILTER :165-173 *)
Definition rx_rflt (l : list Z) (r : regs) : regs := match l with [] => r | b :: _ => set_rwa r (rw_rflt (r_rwa r) (fp8 b 0 1)) end.
(** RWA_SPEED_FILTER :157-163, falls through *)
Definition rx_sflt (l : list Z) (r : regs) : regs :=
  match l with [] => r | b :: t => rx_rflt t (set_rwa r (rw_sflt (r_rwa r) (fp8 b 0 1))) end.
(** MTR_LIMIT :198-208 *)
Definition rx_mtr_lim (z : Z) (l : list Z) (r : regs) : regs :=
  match l with [] => r | _ => let '(t, _) := rd16 z l in set_mtr r (mt_lim (r_mtr r) (fp16 t (- max_moment) max_moment)) end.
(** MTR_COMMAND :183-196, falls through *)
Definition rx_mtr_cmd (z : Z) (l : list Z) (r : regs) : regs :=
  if (length l <? 6)%nat then r else
  let '(t, l') := rd16x3 z l in
  rx_mtr_lim z l' (set_mtr r (mt_cmd (r_mtr r) (fp3 t (- max_moment) max_moment))).
(** MTR_MODE :175-181, falls through *)
Definition rx_mtr_mode (z : Z) (l : list Z) (r : regs) : regs :=
  match l with [] => r | b :: t => rx_mtr_cmd z t (set_mtr r (mt_mode (r_mtr r) b)) end.
(** SSA_MODE :210-221 *)
Definition rx_ssa_mode (l : list Z) (r : regs) : regs :=
  match l with
  | [] => r
  | b :: _ => if (s_mode (r_ssa r) =? 2) || (s_mode (r_ssa r) =? 0) then set_ssa r (ss_mode (r_ssa r) b) else r
  end.
(** SSA_VOLTAGE_FILTER :223-231 *)
Definition rx_ssa_flt (l : list Z) (r : regs) : regs := match l with [] => r | b :: _ => set_ssa r (ss_flt (r_ssa r) (fp8 b 0 1)) end.
(** IMU_MAG2_MODE :241-249 *)
Definition rx_m2 (l : list Z) (r : regs) : regs := match l with [] => r | b :: _ => set_imu r (im_m2 (r_imu r) b) end.
(** IMU_MAG1_MODE :233-239, falls through *)
Definition rx_m1 (l : list Z) (r : regs) : regs := match l with [] => r | b :: t => rx_m2 t (set_imu r (im_m1 (r_imu r) b)) end.
(** IMU_GYR_TEMP_FILTER :267-275 *)
Definition rx_tflt (l : list Z) (r : regs) : regs := match l with [] => r | b :: _ => set_imu r (im_tflt (r_imu r) (fp8 b 0 1)) end.
(** IMU_GYR_FILTER :259-265, falls through *)
Definition rx_gflt (l : list Z) (r : regs) : regs :=
  match l with [] => r | b :: t => rx_tflt t (set_imu r (im_gflt (r_imu r) (fp8 b 0 1))) end.
(** IMU_MAG_FILTER :251-257, falls through *)
Definition rx_mflt (l : list Z) (r : regs) : regs :=
  match l with [] => r | b :: t => rx_gflt t (set_imu r (im_mflt (r_imu r) (fp8 b 0 1))) end.
(** IMU_GYR_TEMP_PWM :277-285, IMU_GYR_TEMP_DESIRED :287-295 *)
Definition rx_pwm (l : list Z) (r : regs) : regs := match l with [] => r | b :: _ => set_imu r (im_pwm (r_imu r) b) end.
Definition rx_des (l : list Z) (r : regs) : regs := match l with [] => r | b :: _ => set_imu r (im_des (r_imu r) (fp8 b (-40) 85)) end.
(** HAVT_COMMAND_RESET :297-321, HAVT_COMMAND_DISABLE :322-346 *)
Definition rx_rst (z : Z) (l : list Z) (r : regs) : regs :=
  match l with [] => r | _ => set_hav r (ha_rst (r_hav r) (fst (rd32 z l)) true) end.
Definition rx_dis (z : Z) (l : list Z) (r : regs) : regs :=
  match l with [] => r | _ => set_hav r (ha_dis (r_hav r) (fst (rd32 z l)) true) end.

Definition recv (z : Z) (msg : list Z) (r : regs) : regs :=
  match msg with
  | [] => r
  | a :: l =>
    if a =? 1 then rx_mode l r
    else if a =? 2 then rx_ptr l r
    else if a =? 3 then rx_rwa_mode z l r
    else if a =? 4 then rx_rwa_cmd z l r
    else if a =? 6 then rx_sflt l r
    else if a =? 7 then rx_rflt l r
    else if a =? 10 then rx_mtr_mode z l r
    else if a =? 11 then rx_mtr_cmd z l r
    else if a =? 12 then rx_mtr_lim z l r
    else if a =? 14 then rx_ssa_mode l r
    else if a =? 16 then rx_ssa_flt l r
    else if a =? 19 then rx_m1 l r
    else if a =? 20 then rx_m2 l r
    else if a =? 22 then rx_mflt l r
    else if a =? 23 then rx_gflt l r
    else if a =? 24 then rx_tflt l r
    else if a =? 25 then rx_pwm l r
    else if a =? 26 then rx_des l r
    else if a =? 28 then rx_rst z l r
    else if a =? 29 then rx_dis z l r
    else r
  end.

(** * Answering a request, on_i2c_request, state_controller.cpp:355-522: the bytes sent *)

Definition le16 (t : Z) : list Z := [t mod 256; t / 256].
Definition le32 (t : Z) : list Z := [t mod 256; t / 256 mod 256; t / 65536 mod 256; t / 16777216].
Definition obind {A B} (o : option A) (f : A -> option B) : option B := match o with Some a => f a | None => None end.
Definition tx16 (f mn mx : Q) : option (list Z) := option_map le16 (us f mn mx).
Definition tx3 (v : vec) (mn mx : Q) : option (list Z) :=
  obind (tx16 (vx v) mn mx) (fun a => obind (tx16 (vy v) mn mx) (fun b => obind (tx16 (vz v) mn mx) (fun c => Some (a ++ b ++ c)))).
Fixpoint tx8s (n : nat) (i : nat) (f : nat -> Q) : option (list Z) :=
  match n with O => Some [] | S k => obind (uc (f i) 0 max_volt) (fun a => option_map (cons a) (tx8s k (S i) f)) end.

Definition request (r : regs) : option (list Z) :=
  let p := r_ptr r in
  if p =? 0 then Some [15]
  else if p =? 8 then
    obind (tx3 (w_spd (r_rwa r)) (- max_speed_read) max_speed_read)
      (fun a => obind (tx3 (w_rmp (r_rwa r)) 0 max_torque) (fun b => Some (a ++ b)))
  else if p =? 14 then Some [s_mode (r_ssa r)]
  else if p =? 15 then obind (s_vec (r_ssa r)) (fun v => tx3 v (-1) 1)
  else if p =? 17 then tx8s 20 0 (s_volt (r_ssa r))
  else if p =? 21 then
    obind (tx3 (i_b1 (r_imu r)) (- max_mag1) max_mag1)
      (fun a => obind (tx3 (i_b2 (r_imu r)) (- max_mag2) max_mag2)
      (fun b => obind (tx3 (i_gyr (r_imu r)) (- max_omega) max_omega)
      (fun c => obind (tx16 (i_tmp (r_imu r)) (-103) 153) (fun d => Some (a ++ b ++ c ++ d)))))
  else if p =? 27 then Some (le32 (h_tab (r_hav r)))
  else Some [].

(** * Hardware behind the registers *)

(** [fn i] is_functional of device [i] of the hardware table (havt_devices.hpp:22-44, order of havt.cpp:39-59).
    [rod i] signed duty cycle on the pin pair of rod [i]; [wcw], [wccw], [wus] the three outputs of wheel [i]; [wset], [wrmp]
    its stored speed and ramp; [rdac] the stored and [pot] the transmitted resistances; [heat] the gyroscope heater's duty
    cycle; the rest are the module variables holding filtered readings. *)
Record hw := mk_hw { fn : nat -> bool; rod : nat -> Z; wcw : nat -> bool; wccw : nat -> bool; wus : nat -> Z;
                     wset : nat -> Z; wrmp : nat -> Z; rdac : nat -> Z; pot : nat -> Z; heat : Z;
                     spd_rd : vec; rmp_rd : vec; volts : nat -> Q; tmp_rd : Q; b1_rd : vec; b2_rd : vec; gyr_rd : vec;
                     cal2 : nat }.

Definition fup {A} (f : nat -> A) (i : nat) (x : A) : nat -> A := fun j => if Nat.eqb j i then x else f j.

Definition hw_fn h x := mk_hw x (rod h) (wcw h) (wccw h) (wus h) (wset h) (wrmp h) (rdac h) (pot h) (heat h) (spd_rd h) (rmp_rd h) (volts h) (tmp_rd h) (b1_rd h) (b2_rd h) (gyr_rd h) (cal2 h).
Definition hw_rod h x := mk_hw (fn h) x (wcw h) (wccw h) (wus h) (wset h) (wrmp h) (rdac h) (pot h) (heat h) (spd_rd h) (rmp_rd h) (volts h) (tmp_rd h) (b1_rd h) (b2_rd h) (gyr_rd h) (cal2 h).
Definition hw_dir h x y := mk_hw (fn h) (rod h) x y (wus h) (wset h) (wrmp h) (rdac h) (pot h) (heat h) (spd_rd h) (rmp_rd h) (volts h) (tmp_rd h) (b1_rd h) (b2_rd h) (gyr_rd h) (cal2 h).
Definition hw_us h x := mk_hw (fn h) (rod h) (wcw h) (wccw h) x (wset h) (wrmp h) (rdac h) (pot h) (heat h) (spd_rd h) (rmp_rd h) (volts h) (tmp_rd h) (b1_rd h) (b2_rd h) (gyr_rd h) (cal2 h).
Definition hw_set h x y := mk_hw (fn h) (rod h) (wcw h) (wccw h) (wus h) x y (rdac h) (pot h) (heat h) (spd_rd h) (rmp_rd h) (volts h) (tmp_rd h) (b1_rd h) (b2_rd h) (gyr_rd h) (cal2 h).
Definition hw_rdac h x := mk_hw (fn h) (rod h) (wcw h) (wccw h) (wus h) (wset h) (wrmp h) x (pot h) (heat h) (spd_rd h) (rmp_rd h) (volts h) (tmp_rd h) (b1_rd h) (b2_rd h) (gyr_rd h) (cal2 h).
Definition hw_pot h x := mk_hw (fn h) (rod h) (wcw h) (wccw h) (wus h) (wset h) (wrmp h) (rdac h) x (heat h) (spd_rd h) (rmp_rd h) (volts h) (tmp_rd h) (b1_rd h) (b2_rd h) (gyr_rd h) (cal2 h).
Definition hw_heat h x := mk_hw (fn h) (rod h) (wcw h) (wccw h) (wus h) (wset h) (wrmp h) (rdac h) (pot h) x (spd_rd h) (rmp_rd h) (volts h) (tmp_rd h) (b1_rd h) (b2_rd h) (gyr_rd h) (cal2 h).
Definition hw_wrd h x y := mk_hw (fn h) (rod h) (wcw h) (wccw h) (wus h) (wset h) (wrmp h) (rdac h) (pot h) (heat h) x y (volts h) (tmp_rd h) (b1_rd h) (b2_rd h) (gyr_rd h) (cal2 h).
Definition hw_volts h x := mk_hw (fn h) (rod h) (wcw h) (wccw h) (wus h) (wset h) (wrmp h) (rdac h) (pot h) (heat h) (spd_rd h) (rmp_rd h) x (tmp_rd h) (b1_rd h) (b2_rd h) (gyr_rd h) (cal2 h).
Definition hw_gyr h t g := mk_hw (fn h) (rod h) (wcw h) (wccw h) (wus h) (wset h) (wrmp h) (rdac h) (pot h) (heat h) (spd_rd h) (rmp_rd h) (volts h) t (b1_rd h) (b2_rd h) g (cal2 h).
Definition hw_b1 h b := mk_hw (fn h) (rod h) (wcw h) (wccw h) (wus h) (wset h) (wrmp h) (rdac h) (pot h) (heat h) (spd_rd h) (rmp_rd h) (volts h) (tmp_rd h) b (b2_rd h) (gyr_rd h) (cal2 h).
Definition hw_b2 h b c := mk_hw (fn h) (rod h) (wcw h) (wccw h) (wus h) (wset h) (wrmp h) (rdac h) (pot h) (heat h) (spd_rd h) (rmp_rd h) (volts h) (tmp_rd h) (b1_rd h) b (gyr_rd h) c.

(** What the sensors and the internal buses do during one step of the loop.  A reading is [None] when the device was not
    ready or the transfer failed. *)
Record senv := mk_se { e_gyr : option (Z * (Z * Z * Z)); e_b1 : option (Z * Z * Z); e_b2 : option (Z * Z * Z);
                       e_spd : nat -> option Z; e_rmp : nat -> option Z; e_ssa : nat -> option Z; e_sun : vec;
                       e_reset : nat -> bool; e_pot : bool }.

(** ** Torque rods *)

(** Magnetorquer::actuate, dev/Magnetorquer.cpp:36-44: positive values on the forward pin, negative ones on the reverse pin *)
Definition rod_actuate (h : hw) (i : nat) (p : Z) : hw := hw_rod h (fup (rod h) i p).

(** the value passed on for one rod, mtr.cpp:91-95 *)
Definition rod_pwm (c lim : Q) : Z :=
  let cmd := if Qlt_le_dec lim c then lim else c in
  let cmd := if Qlt_le_dec c (- lim) then (- lim)%Q else c in
  Qtrunc (32768 * cmd / max_moment)%Q.

(** mtr::actuate, mtr.cpp:62-105.  Devices 3, 4, 5 are the rods. *)
Definition mtr_actuate (ld : bool) (mode : Z) (c : vec) (lim : Q) (h : hw) : hw :=
  let c := body_to_mtr ld c in
  let go f h := fold_left (fun h i => if fn h (3 + i)%nat then rod_actuate h i (f i) else h) [0; 1; 2]%nat h in
  if negb (mode =? 1) then go (fun _ => 0) h else go (fun i => rod_pwm (vnth c i) lim) h.

(** ** Reaction wheels *)

(** MaxonEC45::stop, dev/MaxonEC45.cpp:57-60 *)
Definition wheel_stop (h : hw) (i : nat) : hw := hw_dir h (fup (wcw h) i false) (fup (wccw h) i false).
(** set_speed and set_axl_ramp, MaxonEC45.hpp:40-44 *)
Definition wheel_set (h : hw) (i : nat) (s r : Z) : hw := hw_set h (fup (wset h) i s) (fup (wrmp h) i r).
(** MaxonEC45::actuate, MaxonEC45.cpp:44-55 *)
Definition wheel_actuate (h : hw) (i : nat) : hw :=
  let h := hw_rdac h (fup (rdac h) i (wrmp h i)) in
  if 0 <=? wset h i then hw_us (hw_dir h (fup (wcw h) i false) (fup (wccw h) i true)) (fup (wus h) i (wset h i))
  else hw_us (hw_dir h (fup (wcw h) i true) (fup (wccw h) i false)) (fup (wus h) i (- wset h i)).
(** AD5254::write_rdac, dev/AD5254.cpp:55-58; a failed transfer leaves the chip as it was *)
Definition pot_write (e : senv) (h : hw) : hw := if e_pot e then hw_pot h (rdac h) else h.

Definition wheels_actuate (h : hw) : hw :=
  fold_left (fun h i => if fn h (7 + i)%nat then wheel_actuate h i else h) [0; 1; 2]%nat h.

(** rwa::actuate, rwa.cpp:170-233.  Device 6 is the potentiometer, 7, 8, 9 are the wheels. *)
Definition rwa_actuate (e : senv) (mode : Z) (c : vec) (h : hw) : option hw :=
  let c := body_to_rwa c in
  if mode =? 2 then
    if negb (fn h 6) then Some h else
    let set h i :=
      obind h (fun h =>
        if Qlt_le_dec (vnth c i) 0 then option_map (wheel_set h i (-2000)) (uc (- vnth c i) 0 max_torque)
        else option_map (wheel_set h i 2000) (uc (vnth c i) 0 max_torque)) in
    option_map (fun h => pot_write e (wheels_actuate h)) (fold_left set [0; 1; 2]%nat (Some h))
  else if mode =? 1 then
    let set h i := if fn h (7 + i)%nat then wheel_set h i (Qtrunc (1000 * vnth c i / max_speed_command + 1000)%Q) 255 else h in
    let h := wheels_actuate (fold_left set [0; 1; 2]%nat h) in
    Some (if fn h 6 then pot_write e h else h)
  else Some (fold_left (fun h i => if fn h (7 + i)%nat then wheel_stop h i else h) [0; 1; 2]%nat h).

(** ADS1015::end_read, dev/ADS1015.cpp:80-85, from the two data bytes to the signed value *)
Definition adc_code (ub lb : Z) : Z :=
  let v := Z.shiftr (Z.lor lb (Z.shiftl ub 8)) 4 in
  if Z.testbit v 11 then swrap 16 (Z.lor v 61440) else v.

Definition adc_volt (c : Z) : Q := ((4096 # 1000) * inject_Z c / 2048)%Q.

(** rwa::update_sensors, rwa.cpp:101-168.  Devices 10, 11, 12 are the wheels' converters.  The ramp reading is filtered with
    the speed filter, as in the code (:158). *)
Definition rwa_sense (e : senv) (flt rflt : Q) (h : hw) : hw :=
  let get old (r : nat -> option Z) i :=
    if fn h (10 + i)%nat then match r i with Some c => adc_volt c | None => vnth old i end else vnth old i in
  let all old r := V (get old r 0%nat) (get old r 1%nat) (get old r 2%nat) in
  let s := vmap (fun x => (max_speed_read - - max_speed_read) * x / max_volt + - max_speed_read)%Q (all (spd_rd h) (e_spd e)) in
  let s := vmap2 (fun o n => o + flt * (n - o))%Q (spd_rd h) (rwa_to_body s) in
  let t := vmap (fun x => max_torque * x / max_volt + 0)%Q (all (rmp_rd h) (e_rmp e)) in
  let t := vmap2 (fun o n => o + flt * (n - o))%Q (rmp_rd h) (rwa_to_body t) in
  hw_wrd h s t.

(** ** Magnetometers, gyroscope, heater *)

Definition fps3 (t : Z * Z * Z) (mx : Q) : vec :=
  let '(a, b, c) := t in V (fps16 a (- mx) mx) (fps16 b (- mx) mx) (fps16 c (- mx) mx).
Definition filt (flt : Q) (o n : vec) : vec := vmap2 (fun o n => o + (n - o) * flt)%Q o n.

(** update_gyr, imu.cpp:119-203.  Device 0 is the gyroscope, 18 its heater.  calibrate (imu_calibration.cpp:88-95) is the identity. *)
Definition gyr_update (e : senv) (gflt target tflt : Q) (pwm : Z) (h : hw) : hw :=
  let rdg := if fn h 0%nat then e_gyr e else None in
  let h := match rdg with
           | Some (t, w) => hw_gyr h (tmp_rd h + (fps16 t (-103) 153 - tmp_rd h) * tflt)%Q (filt gflt (gyr_rd h) (gyr_to_body (fps3 w max_omega)))
           | None => h
           end in
  if negb (fn h 18%nat) then hw_heat h 0
  else if negb (fn h 0%nat) then hw_heat h 0
  else match rdg with
       | Some _ => if Qlt_le_dec (tmp_rd h) target then hw_heat h (pwm * 128) else hw_heat h 0
       | None => h
       end.

(** update_mag1 and update_mag2, imu.cpp:44-109.  Devices 1 and 2.  [cal2] counts calibrations of magnetometer two. *)
Definition mag1_update (e : senv) (flt : Q) (h : hw) : hw :=
  if negb (fn h 1%nat) then h else
  match e_b1 e with Some w => hw_b1 h (filt flt (b1_rd h) (mag1_to_body (fps3 w max_mag1))) | None => h end.
Definition mag2_update (e : senv) (mode : Z) (flt : Q) (h : hw) : hw :=
  if negb (fn h 2%nat) then h else
  let h := if mode =? 1 then hw_b2 h (b2_rd h) (S (cal2 h)) else h in
  match e_b2 e with Some w => hw_b2 h (filt flt (b2_rd h) (mag2_to_body (fps3 w max_mag2))) (cal2 h) | None => h end.

(** imu::update_sensors, imu.cpp:263-275 *)
Definition imu_update (e : senv) (i : imur) (h : hw) : hw :=
  mag2_update e (i_m2 i) (i_mflt i) (mag1_update e (i_mflt i) (gyr_update e (i_gflt i) (i_des i) (i_tflt i) (i_pwm i) h)).

(** ** Sun sensors *)

(** ssa::update_sensors, ssa.cpp:73-115: sensor [j] is read by converter [j / 4] (devices 13 to 17) *)
Definition ssa_update (e : senv) (flt : Q) (h : hw) : hw :=
  hw_volts h (fun j =>
    let old := volts h j in
    let r := if fn h (13 + j / 4)%nat then match e_ssa e j with Some c => adc_volt c | None => old end else old in
    (old + flt * (r - old))%Q).

(** sensors taking part in the least squares problem, ssa.cpp:123-136 *)
Definition ssa_lit (h : hw) : list nat :=
  filter (fun j => fn h (13 + j / 4)%nat && (if Qlt_le_dec 1 (volts h j) then true else false)) (seq 0 20).

(** calculate_sun_vector, ssa.cpp:117-147.  The solution of the least squares problem is [e_sun]; on failure the caller's
    vector stays uninitialised. *)
Definition sun_calc (e : senv) (h : hw) : Z * option vec :=
  if (length (ssa_lit h) <? 4)%nat then (0, None) else (2, Some (e_sun e)).

(** ** Hardware table *)

Definition n_dev : nat := 19.

(** update_read_table, havt.cpp:61-79, as an integer *)
Definition table_of (f : nat -> bool) : Z := bits_val (map f (seq 0 n_dev)).

Definition is_rod (i : nat) := (3 <=? i)%nat && (i <=? 5)%nat.
Definition is_wheel (i : nat) := (7 <=? i)%nat && (i <=? 9)%nat.

(** Device::reset of each kind: rods Magnetorquer.cpp:25-29, wheels MaxonEC45.cpp:29-35, heater GyroHeaterTransistor.cpp:25-29,
    potentiometer AD5254.cpp:23-32, other bus devices succeed or end up disabled *)
Definition dev_reset (e : senv) (h : hw) (i : nat) : hw :=
  if is_rod i then rod_actuate (hw_fn h (fup (fn h) i true)) (i - 3) 0
  else if is_wheel i then wheel_stop (wheel_set (hw_fn h (fup (fn h) i true)) (i - 7) 1000 0) (i - 7)
  else if Nat.eqb i 18 then hw_fn (hw_heat h 0) (fup (fn h) i true)
  else if Nat.eqb i 6 then
    let h := hw_rdac h (fun _ => 0) in
    hw_fn (if e_reset e i then hw_pot h (rdac h) else h) (fup (fn h) i (e_reset e i))
  else hw_fn h (fup (fn h) i (e_reset e i)).

(** Device::disable of each kind: Magnetorquer.cpp:31-34, MaxonEC45.cpp:37-42, GyroHeaterTransistor.cpp:31-34, AD5254.cpp:34-41 *)
Definition dev_disable (e : senv) (h : hw) (i : nat) : hw :=
  if is_rod i then rod_actuate (hw_fn h (fup (fn h) i false)) (i - 3) 0
  else if is_wheel i then wheel_stop (wheel_set (hw_fn h (fup (fn h) i false)) (i - 7) 1000 0) (i - 7)
  else if Nat.eqb i 18 then hw_fn (hw_heat h 0) (fup (fn h) i false)
  else if Nat.eqb i 6 then hw_fn (pot_write e (hw_rdac h (fun _ => 0))) (fup (fn h) i false)
  else hw_fn h (fup (fn h) i false).

(** execute_cmd_reset_table, havt.cpp:97-114, and execute_cmd_disable_table, :116-133 *)
Definition exec_reset (e : senv) (t : Z) (h : hw) : hw :=
  fold_left (fun h i => if Z.testbit t (Z.of_nat i) then dev_reset e h i else h) (seq 0 n_dev) h.
Definition exec_disable (e : senv) (t : Z) (h : hw) : hw :=
  fold_left (fun h i => if Z.testbit t (Z.of_nat i) then dev_disable e h i else h) (seq 0 n_dev) h.

(** * The main loop, src/adcs/main.cpp:246-252, as the interrupt handler sees it *)

(** Where the loop is: one constructor per point at which an access to a register the handler can write is about to happen.
    Blocks under InterruptSafe are one step. *)
Inductive bpc :=
| PImu | PImuPub | PImuM1 | PImuM2 | PImuTmp
| PMtrMode | PMtrFlag | PMtrClear | PMtrRdM | PMtrRd0 | PMtrRd1 | PMtrRd2 | PMtrChk | PMtrAct
| PRwaMode | PRwaFlag | PRwaClear | PRwaRdM | PRwaRd0 | PRwaRd1 | PRwaRd2 | PRwaChk | PRwaSense | PRwaPub
| PSsa | PSsaPub | PSsaMode | PSsaCalc
| PHavt | PRstFlag | PRstClear | PRstRd | PRstChk | PDisFlag | PDisClear | PDisRd | PDisChk.

(** [l_mode], [l_cmd] the local variables of update_mtr and update_rwa, [l_tab] the one of update_havt *)
Record box := mk_box { rg : regs; dv : hw; pc : bpc; l_mode : Z; l_cmd : vec; l_tab : Z }.

Definition at_pc b p := mk_box (rg b) (dv b) p (l_mode b) (l_cmd b) (l_tab b).
Definition b_rg b r p := mk_box r (dv b) p (l_mode b) (l_cmd b) (l_tab b).
Definition b_dv b h p := mk_box (rg b) h p (l_mode b) (l_cmd b) (l_tab b).
Definition b_lm b m p := mk_box (rg b) (dv b) p m (l_cmd b) (l_tab b).
Definition b_lc b c p := mk_box (rg b) (dv b) p (l_mode b) c (l_tab b).
Definition b_lt b t p := mk_box (rg b) (dv b) p (l_mode b) (l_cmd b) t.

(** update_imu :140-162, update_mtr :171-184, update_rwa :188-214, update_ssa :220-239, update_havt :108-138 *)
Definition bstep (ld : bool) (e : senv) (b : box) : option box :=
  let r := rg b in
  let h := dv b in
  match pc b with
  | PImu => Some (b_dv b (imu_update e (r_imu r) h) PImuPub)
  | PImuPub => Some (b_rg b (set_imu r (im_rd (r_imu r) (b1_rd h) (b2_rd h) (gyr_rd h))) PImuM1)
  | PImuM1 => Some (b_rg b (set_imu r (im_m1 (r_imu r) 0)) PImuM2)
  | PImuM2 => Some (b_rg b (set_imu r (im_m2 (r_imu r) 0)) PImuTmp)
  | PImuTmp => Some (b_rg b (set_imu r (im_tmp (r_imu r) (tmp_rd h))) PMtrMode)
  | PMtrMode => Some (at_pc b (if r_mode r =? 1 then PMtrFlag else PRwaMode))
  | PMtrFlag => Some (at_pc b (if m_flg (r_mtr r) then PMtrClear else PRwaMode))
  | PMtrClear => Some (b_rg b (set_mtr r (mt_flg (r_mtr r) false)) PMtrRdM)
  | PMtrRdM => Some (b_lm b (m_mode (r_mtr r)) PMtrRd0)
  | PMtrRd0 => Some (b_lc b (V (vx (m_cmd (r_mtr r))) (vy (l_cmd b)) (vz (l_cmd b))) PMtrRd1)
  | PMtrRd1 => Some (b_lc b (V (vx (l_cmd b)) (vy (m_cmd (r_mtr r))) (vz (l_cmd b))) PMtrRd2)
  | PMtrRd2 => Some (b_lc b (V (vx (l_cmd b)) (vy (l_cmd b)) (vz (m_cmd (r_mtr r)))) PMtrChk)
  | PMtrChk => Some (at_pc b (if m_flg (r_mtr r) then PRwaMode else PMtrAct))
  | PMtrAct => Some (b_dv b (mtr_actuate ld (l_mode b) (l_cmd b) (m_lim (r_mtr r)) h) PRwaMode)
  | PRwaMode => Some (at_pc b (if r_mode r =? 1 then PRwaFlag else PSsa))
  | PRwaFlag => Some (at_pc b (if w_flg (r_rwa r) then PRwaClear else PSsa))
  | PRwaClear => Some (b_rg b (set_rwa r (rw_flg (r_rwa r) false)) PRwaRdM)
  | PRwaRdM => Some (b_lm b (w_mode (r_rwa r)) PRwaRd0)
  | PRwaRd0 => Some (b_lc b (V (vx (w_cmd (r_rwa r))) (vy (l_cmd b)) (vz (l_cmd b))) PRwaRd1)
  | PRwaRd1 => Some (b_lc b (V (vx (l_cmd b)) (vy (w_cmd (r_rwa r))) (vz (l_cmd b))) PRwaRd2)
  | PRwaRd2 => Some (b_lc b (V (vx (l_cmd b)) (vy (l_cmd b)) (vz (w_cmd (r_rwa r)))) PRwaChk)
  | PRwaChk => if w_flg (r_rwa r) then Some (at_pc b PRwaSense)
               else option_map (fun h => b_dv b h PRwaSense) (rwa_actuate e (l_mode b) (l_cmd b) h)
  | PRwaSense => Some (b_dv b (rwa_sense e (w_sflt (r_rwa r)) (w_rflt (r_rwa r)) h) PRwaPub)
  | PRwaPub => Some (b_rg b (set_rwa r (rw_rd (r_rwa r) (spd_rd h) (rmp_rd h))) PSsa)
  | PSsa => Some (b_dv b (ssa_update e (s_flt (r_ssa r)) h) PSsaPub)
  | PSsaPub => Some (b_rg b (set_ssa r (ss_volt (r_ssa r) (volts h))) PSsaMode)
  | PSsaMode => Some (at_pc b (if s_mode (r_ssa r) =? 1 then PSsaCalc else PHavt))
  | PSsaCalc => let '(m, v) := sun_calc e h in Some (b_rg b (set_ssa r (ss_res (r_ssa r) m v)) PHavt)
  | PHavt => Some (b_rg b (set_hav r (ha_tab (r_hav r) (table_of (fn h)))) PRstFlag)
  | PRstFlag => Some (at_pc b (if h_rflg (r_hav r) then PRstClear else PDisFlag))
  | PRstClear => Some (b_rg b (set_hav r (ha_rflg (r_hav r) false)) PRstRd)
  | PRstRd => Some (b_lt b (h_rst (r_hav r)) PRstChk)
  | PRstChk => if h_rflg (r_hav r) then Some (at_pc b PDisFlag) else Some (b_dv b (exec_reset e (l_tab b) h) PDisFlag)
  | PDisFlag => Some (at_pc b (if h_dflg (r_hav r) then PDisClear else PImu))
  | PDisClear => Some (b_rg b (set_hav r (ha_dflg (r_hav r) false)) PDisRd)
  | PDisRd => Some (b_lt b (h_dis (r_hav r)) PDisChk)
  | PDisChk => if h_dflg (r_hav r) then Some (at_pc b PImu) else Some (b_dv b (exec_disable e (l_tab b) h) PImu)
  end.

(** Devices on the internal buses (everything but rods, wheels and heater) are switched off by repeated transfer errors,
    dev/I2CDevice.inl:37-46, at any moment *)
Definition bus_dev (i : nat) : bool := negb (is_rod i || is_wheel i || Nat.eqb i 18).

(** What happens next: a message arrives, a bus device gives up, or the loop advances *)
Inductive bev := Rx (z : Z) (msg : list Z) | Fail (i : nat) | Step (e : senv).

Definition bexec (ld : bool) (b : box) (v : bev) : option box :=
  match v with
  | Rx z m => Some (b_rg b (recv z m (rg b)) (pc b))
  | Fail i => Some (if bus_dev i then b_dv b (hw_fn (dv b) (fup (fn (dv b)) i false)) (pc b) else b)
  | Step e => bstep ld e b
  end.

Fixpoint brun (ld : bool) (b : box) (l : list bev) : option box :=
  match l with [] => Some b | v :: t => obind (bexec ld b v) (fun b => brun ld b t) end.

(** Register contents at power-on, src/adcs/state.cpp:17-71 (readings that the first pass of the loop overwrites before the
    bus is opened are given as in the source) *)
Definition regs0 : regs :=
  mk_rg 0 0 (mk_rw 0 (V 0 0 0) false 1 1 (V 400 (-300) 200) (V (1 # 1000) (2 # 1000) (-3 # 1000)))
    (mk_mt 0 (V 0 0 0) 1 false)
    (mk_ss 0 (Some (V (69 # 100) (42 # 100) (-88 # 100))) 1
       (fun j => match (j mod 5)%nat with 0%nat => 1 | 1%nat => 2 | 2%nat => 3 | _ => 0 end)%Q)
    (mk_im 0 (V (1 # 1000) (8 # 10000) (-6 # 10000)) 0 (V (1 # 1000) (8 # 10000) (-6 # 10000)) (V 3 (3 # 2) (-12 # 10)) 42 1 1 1 117 (-102))
    (mk_ha 4042268447 0 false 0 false).
(** module variables and outputs after the setup functions; [f] says which bus devices answered *)
Definition hw0 (f : nat -> bool) : hw :=
  mk_hw (fun i => if bus_dev i then f i else true) (fun _ => 0) (fun _ => false) (fun _ => false) (fun _ => 0)
    (fun _ => 1000) (fun _ => 0) (fun _ => 0) (fun _ => 0) 0 (V 0 0 0) (V 0 0 0) (fun _ => 0%Q) 0 (V 0 0 0) (V 0 0 0) (V 0 0 0) 1.
Definition box0 (f : nat -> bool) : box := mk_box regs0 (hw0 f) PImu 0 (V 0 0 0) 0.

(** * Driver calls of the flight computer, Drivers/ADCS.cpp:70-201: the messages each one sends *)

Inductive dcall :=
| SetMode (m : Z) | SetPtr (p : Z) | SetRwa (m : Z) (v : vec) | SetSFlt (f : Q) | SetRFlt (f : Q)
| SetMtrMode (m : Z) | SetMtrCmd (v : vec) | SetMtrLim (f : Q)
| SetSsaMode (m : Z) | SetSsaFlt (f : Q) | SetM1 (m : Z) | SetM2 (m : Z) | SetMFlt (f : Q) | SetGFlt (f : Q) | SetTFlt (f : Q)
| SetPwm (m : Z) | SetDes (f : Q) | SetReset (t : Z) | SetDisable (t : Z).

Definition enc3 (v : vec) (mn mx : Q) : option (list Z) := tx3 v mn mx.
Definition enc8 (f mn mx : Q) (a : Z) : option (list (list Z)) := option_map (fun t => [[a; t]]) (uc f mn mx).

Definition dmsgs (c : dcall) : option (list (list Z)) :=
  match c with
  | SetMode m => Some [[1; m]]
  | SetPtr p => Some [[2; p]]
  | SetRwa m v =>
      option_map (fun l => [[3; m]; 4 :: l])
        (if m =? 1 then enc3 v (- max_speed_command) max_speed_command
         else if m =? 2 then enc3 v (- max_torque) max_torque
         else Some [0; 0; 0; 0; 0; 0])
  | SetSFlt f => enc8 f 0 1 6
  | SetRFlt f => enc8 f 0 1 7
  | SetMtrMode m => Some [[10; m]]
  | SetMtrCmd v => option_map (fun l => [11 :: l]) (enc3 v (- max_moment) max_moment)
  | SetMtrLim f => option_map (fun l => [12 :: l]) (tx16 f (- max_moment) max_moment)
  | SetSsaMode m => Some [[14; m]]
  | SetSsaFlt f => enc8 f 0 1 16
  | SetM1 m => Some [[19; m]]
  | SetM2 m => Some [[20; m]]
  | SetMFlt f => enc8 f 0 1 22
  | SetGFlt f => enc8 f 0 1 23
  | SetTFlt f => enc8 f 0 1 24
  | SetPwm m => Some [[25; m]]
  | SetDes f => enc8 f (-40) 85 26
  | SetReset t => Some [28 :: le32 t]
  | SetDisable t => Some [29 :: le32 t]
  end.

(** * ADCSCommander::execute, ADCSCommander.cpp:105-174, and ADCSBoxController::execute, ADCSBoxController.cpp:56-135 *)

(** The attitude state and the command fields *)
Record acmd := mk_ac { a_state : Z; a_wmode : Z; a_wspd : vec; a_wtrq : vec; a_sflt : Q; a_rflt : Q;
                       a_mmode : Z; a_mcmd : vec; a_mlim : Q; a_vflt : Q; a_m1 : Z; a_m2 : Z; a_mflt : Q; a_gflt : Q; a_tflt : Q;
                       a_pwm : Z; a_des : Q; a_rst : nat -> bool; a_dis : nat -> bool }.

(** adcs_state_t.enum *)
Definition st_manual := 0. Definition st_startup := 1. Definition st_limited := 2. Definition st_zero_torque := 3.
Definition st_zero_L := 4. Definition st_detumble := 5. Definition st_point_manual := 6. Definition st_point_standby := 7.
Definition st_point_docking := 8.

Definition ac_out (a : acmd) (wm : Z) (ws wt : vec) (mm : Z) (mc : vec) : acmd :=
  mk_ac (a_state a) wm ws wt (a_sflt a) (a_rflt a) mm mc (a_mlim a) (a_vflt a) (a_m1 a) (a_m2 a) (a_mflt a) (a_gflt a) (a_tflt a)
        (a_pwm a) (a_des a) (a_rst a) (a_dis a).
Definition v0 : vec := V 0 0 0.

(** [pt], [pm]: the pointing controller's wheel torque and rod moment *)
Definition commander (pt pm : vec) (a : acmd) : acmd :=
  let s := a_state a in
  if s =? st_startup then ac_out a (a_wmode a) (a_wspd a) v0 (a_mmode a) v0
  else if s =? st_manual then a
  else if (s =? st_limited) || (s =? st_detumble) then ac_out a 0 (a_wspd a) v0 1 pm
  else if s =? st_zero_torque then ac_out a 2 (a_wspd a) v0 0 v0
  else if s =? st_zero_L then ac_out a 0 v0 (a_wtrq a) 1 pm
  else if (s =? st_point_manual) || (s =? st_point_standby) || (s =? st_point_docking) then ac_out a 2 (a_wspd a) pt 1 pm
  else a.

(** the two loops of ADCSBoxController.cpp:95-134 over one scratch table that is not cleared in between *)
Definition or_table (f : nat -> bool) (t : Z) : Z :=
  fold_left (fun t i => if f i then Z.lor t (2 ^ Z.of_nat i) else t) (seq 0 n_dev) t.
Definition any_dev (f : nat -> bool) : bool := existsb f (seq 0 n_dev).
Definition clear_dev (f : nat -> bool) : nat -> bool := fun i => if (i <? n_dev)%nat then false else f i.

(** driver calls of one cycle, in order; [sm] is the sun sensor mode the monitor read in this cycle *)
Definition controller_calls (sm : Z) (a : acmd) : list dcall :=
  let t1 := or_table (a_rst a) 0 in
  let t2 := or_table (a_dis a) t1 in
  [SetMode (if a_state a =? st_startup then 0 else 1)] ++
  (if a_wmode a =? 1 then [SetRwa 1 (a_wspd a)] else if a_wmode a =? 2 then [SetRwa 2 (a_wtrq a)]
   else if a_wmode a =? 0 then [SetRwa 0 v0] else []) ++
  [SetSFlt (a_sflt a); SetRFlt (a_rflt a); SetMtrMode (a_mmode a); SetMtrCmd (a_mcmd a); SetMtrLim (a_mlim a)] ++
  (if sm =? 1 then [] else [SetSsaMode 1]) ++
  [SetSsaFlt (a_vflt a); SetM1 (a_m1 a); SetM2 (a_m2 a); SetMFlt (a_mflt a); SetGFlt (a_gflt a); SetTFlt (a_tflt a);
   SetPwm (a_pwm a); SetDes (a_des a)] ++
  (if any_dev (a_rst a) then [SetReset t1] else []) ++
  (if any_dev (a_dis a) then [SetDisable t2] else []).

(** the command fields afterwards *)
Definition controller_fields (a : acmd) : acmd :=
  mk_ac (a_state a) (a_wmode a) (a_wspd a) (a_wtrq a) (a_sflt a) (a_rflt a) (a_mmode a) (a_mcmd a) (a_mlim a) (a_vflt a) (a_m1 a) (a_m2 a)
        (a_mflt a) (a_gflt a) (a_tflt a) (a_pwm a) (a_des a) (clear_dev (a_rst a)) (clear_dev (a_dis a)).

(** what goes over the bus *)
Fixpoint msgs_of (l : list dcall) : option (list (list Z)) :=
  match l with [] => Some [] | c :: t => obind (dmsgs c) (fun m => option_map (fun r => m ++ r) (msgs_of t)) end.

(** * Reading back, Drivers/ADCS.cpp:203-337 and ADCSBoxMonitor::execute, ADCSBoxMonitor.cpp:164-274 *)

(** i2c_point_and_read, Drivers/ADCS.cpp:32-37: move the read pointer, then ask for [n] bytes.  [ans] is what the attitude
    computer sends, [None] when it does not answer at all; missing bytes read as [z]. *)
Definition fill (z : Z) (n : nat) (ans : option (list Z)) : list Z :=
  match ans with Some l => firstn n (l ++ repeat z n) | None => repeat z n end.
Definition at16 (l : list Z) (i : nat) : Z := nth i l 0 + 256 * nth (S i) l 0.
Definition dec3 (l : list Z) (o : nat) (mn mx : Q) : vec :=
  V (fp16 (at16 l o) mn mx) (fp16 (at16 l (o + 2)) mn mx) (fp16 (at16 l (o + 4)) mn mx).

(** the readings the monitor publishes; [o_sun = None] stands for a vector of NaNs *)
Record aread := mk_ar { o_ok : bool; o_spd : vec; o_rmp : vec; o_b1 : vec; o_b2 : vec; o_gyr : vec; o_tmp : Q;
                        o_smode : Z; o_sun : option vec; o_volt : list Q; o_dev : nat -> bool;
                        o_fspd : bool; o_frmp : bool; o_fb1 : bool; o_fb2 : bool; o_fgyr : bool; o_ftmp : bool }.

(** exceed_bounds, ADCSBoxMonitor.cpp:141-154 *)
Definition beyond (x mn mx : Q) : bool := if Qlt_le_dec x mn then true else if Qlt_le_dec mx x then true else false.
Definition beyond3 (v : vec) (mn mx : Q) : bool := beyond (vx v) mn mx || beyond (vy v) mn mx || beyond (vz v) mn mx.

(** ADCSBoxMonitor::execute.  [ans p] is the answer to the request with read pointer [p], see [fill]; the order of the
    requests is :184-240.  Not modelled here: the fault signals. *)
Definition monitor (z : Z) (ans : Z -> option (list Z)) : aread :=
  let who := fill z 1 (ans 0) in
  let w := fill z 12 (ans 8) in
  let v := fill z 20 (ans 17) in
  let i := fill z 20 (ans 21) in
  let sm := nth 0 (fill z 1 (ans 14)) 0 in
  let h := fill z 4 (ans 27) in
  let spd := dec3 w 0 (- max_speed_read) max_speed_read in
  let rmp := dec3 w 6 0 max_torque in
  let b1 := dec3 i 0 (- max_mag1) max_mag1 in
  let b2 := dec3 i 6 (- max_mag2) max_mag2 in
  let g := dec3 i 12 (- max_omega) max_omega in
  let t := fp16 (at16 i 18) (-103) 153 in
  let tab := at16 h 0 + 65536 * at16 h 2 in
  mk_ar (nth 0 who 0 =? 15) spd rmp b1 b2 g t sm
    (if sm =? 2 then Some (dec3 (fill z 6 (ans 15)) 0 (-1) 1) else None)
    (map (fun c => fp8 c 0 max_volt) v) (fun k => Z.testbit tab (Z.of_nat k))
    (beyond3 spd (- max_speed_read) (max_speed_read - 1)) (beyond3 rmp (- max_torque) (max_torque - 1))
    (beyond3 b1 (- max_mag1) (max_mag1 - 1)) (beyond3 b2 (- max_mag1) (max_mag1 - 1))
    (beyond3 g (- max_omega) (max_omega - 1)) (beyond t (-103) (153 - 1)).

(** the answers of a box whose registers are [r] and do not change meanwhile *)
Definition answers (r : regs) (p : Z) : option (list Z) := request (set_rptr r p).
