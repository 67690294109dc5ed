(** Vocabulary for the claims about the attitude computer and its link, independent of how the code computes things. *)
From Verif Require Import Base AdcsModel.
From Coq Require Import QArith Qabs.
Local Open Scope Z_scope.

(** ** Registers by name *)

Inductive rname :=
| NMode | NPtr
| NWMode | NWCmd | NWFlag | NWSpeedFilter | NWRampFilter | NWSpeed | NWRamp
| NMMode | NMCmd | NMLimit | NMFlag
| NSMode | NSVector | NSFilter | NSVolt
| NI1Mode | NI1 | NI2Mode | NI2 | NIGyr | NITemp | NIMagFilter | NIGyrFilter | NITempFilter | NIPwm | NIDesired
| NHTable | NHReset | NHResetFlag | NHDisable | NHDisableFlag.

(** register [n] has the same contents in [r] and [r'] *)
Definition same_reg (n : rname) (r r' : regs) : Prop :=
  match n with
  | NMode => r_mode r' = r_mode r
  | NPtr => r_ptr r' = r_ptr r
  | NWMode => w_mode (r_rwa r') = w_mode (r_rwa r)
  | NWCmd => w_cmd (r_rwa r') = w_cmd (r_rwa r)
  | NWFlag => w_flg (r_rwa r') = w_flg (r_rwa r)
  | NWSpeedFilter => w_sflt (r_rwa r') = w_sflt (r_rwa r)
  | NWRampFilter => w_rflt (r_rwa r') = w_rflt (r_rwa r)
  | NWSpeed => w_spd (r_rwa r') = w_spd (r_rwa r)
  | NWRamp => w_rmp (r_rwa r') = w_rmp (r_rwa r)
  | NMMode => m_mode (r_mtr r') = m_mode (r_mtr r)
  | NMCmd => m_cmd (r_mtr r') = m_cmd (r_mtr r)
  | NMLimit => m_lim (r_mtr r') = m_lim (r_mtr r)
  | NMFlag => m_flg (r_mtr r') = m_flg (r_mtr r)
  | NSMode => s_mode (r_ssa r') = s_mode (r_ssa r)
  | NSVector => s_vec (r_ssa r') = s_vec (r_ssa r)
  | NSFilter => s_flt (r_ssa r') = s_flt (r_ssa r)
  | NSVolt => s_volt (r_ssa r') = s_volt (r_ssa r)
  | NI1Mode => i_m1 (r_imu r') = i_m1 (r_imu r)
  | NI1 => i_b1 (r_imu r') = i_b1 (r_imu r)
  | NI2Mode => i_m2 (r_imu r') = i_m2 (r_imu r)
  | NI2 => i_b2 (r_imu r') = i_b2 (r_imu r)
  | NIGyr => i_gyr (r_imu r') = i_gyr (r_imu r)
  | NITemp => i_tmp (r_imu r') = i_tmp (r_imu r)
  | NIMagFilter => i_mflt (r_imu r') = i_mflt (r_imu r)
  | NIGyrFilter => i_gflt (r_imu r') = i_gflt (r_imu r)
  | NITempFilter => i_tflt (r_imu r') = i_tflt (r_imu r)
  | NIPwm => i_pwm (r_imu r') = i_pwm (r_imu r)
  | NIDesired => i_des (r_imu r') = i_des (r_imu r)
  | NHTable => h_tab (r_hav r') = h_tab (r_hav r)
  | NHReset => h_rst (r_hav r') = h_rst (r_hav r)
  | NHResetFlag => h_rflg (r_hav r') = h_rflg (r_hav r)
  | NHDisable => h_dis (r_hav r') = h_dis (r_hav r)
  | NHDisableFlag => h_dflg (r_hav r') = h_dflg (r_hav r)
  end.

(** the registers a driver call is meant to write *)
Definition names (c : dcall) : list rname :=
  match c with
  | SetMode _ => [NMode]
  | SetPtr _ => [NPtr]
  | SetRwa _ _ => [NWMode; NWCmd; NWFlag]
  | SetSFlt _ => [NWSpeedFilter]
  | SetRFlt _ => [NWRampFilter]
  | SetMtrMode _ => [NMMode]
  | SetMtrCmd _ => [NMCmd; NMFlag]
  | SetMtrLim _ => [NMLimit; NMFlag]
  | SetSsaMode _ => [NSMode]
  | SetSsaFlt _ => [NSFilter]
  | SetM1 _ => [NI1Mode]
  | SetM2 _ => [NI2Mode]
  | SetMFlt _ => [NIMagFilter]
  | SetGFlt _ => [NIGyrFilter]
  | SetTFlt _ => [NITempFilter]
  | SetPwm _ => [NIPwm]
  | SetDes _ => [NIDesired]
  | SetReset _ => [NHReset; NHResetFlag]
  | SetDisable _ => [NHDisable; NHDisableFlag]
  end.

(** registers after a list of messages *)
Definition recv_all (z : Z) (ms : list (list Z)) (r : regs) : regs := fold_left (fun r m => recv z m r) ms r.

(** [x] is represented by [y] with less than one step of an [n]-step scale from [mn] to [mx], never above *)
Definition within_step (n : Z) (mn mx x y : Q) : Prop := (0 <= x - y /\ x - y < (mx - mn) / inject_Z n)%Q.
Definition within_step3 (n : Z) (mn mx : Q) (v w : vec) : Prop :=
  within_step n mn mx (vx v) (vx w) /\ within_step n mn mx (vy v) (vy w) /\ within_step n mn mx (vz v) (vz w).
Definition in_range (mn mx x : Q) : Prop := (mn <= x <= mx)%Q.
Definition in_range3 (mn mx : Q) (v : vec) : Prop := in_range mn mx (vx v) /\ in_range mn mx (vy v) /\ in_range mn mx (vz v).

(** ** Devices *)

(** what can be seen of device [i]: whether it is in use, and what its outputs do *)
Definition dev_view (i : nat) (h : hw) : bool * Z * (bool * bool) * Z :=
  (fn h i, if is_rod i then rod h (i - 3) else 0, if is_wheel i then (wcw h (i - 7), wccw h (i - 7)) else (false, false),
   if Nat.eqb i 18 then heat h else 0).
(** in use or not, and idle *)
Definition idle_view (f : bool) : bool * Z * (bool * bool) * Z := (f, 0, (false, false), 0).

(** magnetic moment of rod [i] *)
Definition moment (h : hw) (i : nat) : Q := (inject_Z (rod h i) * max_moment / 32768)%Q.

(** wheel [i] coasts *)
Definition stopped (h : hw) (i : nat) : Prop := wcw h i = false /\ wccw h i = false.

(** ** Runs *)

(** number of steps of the loop in the run *)
Definition n_steps (l : list bev) : nat := length (filter (fun v => match v with Step _ => true | _ => false end) l).
(** register address of a message *)
Definition addr (m : list Z) : Z := match m with [] => 0 | a :: _ => a end.
(** not a message to one of the addresses [l] *)
Definition avoids (l : list Z) (v : bev) : Prop := match v with Rx _ m => ~ In (addr m) l | _ => True end.
(** messages belong to driver calls satisfying [P] *)
Definition calls_only (P : dcall -> Prop) (v : bev) : Prop :=
  match v with Rx _ m => exists c ms, P c /\ dmsgs c = Some ms /\ In m ms | _ => True end.
(** the events of a driver call whose messages arrive without delay *)
Definition sent (c : dcall) : list bev := match dmsgs c with Some ms => map (Rx 0) ms | None => [] end.
(** the run contains a step that applies [f] to the hardware *)
Definition applies ld (b : box) (l : list bev) (f : senv -> hw -> hw) : Prop :=
  exists l1 e l2 b1 b2, l = l1 ++ Step e :: l2 /\ brun ld b l1 = Some b1 /\ bstep ld e b1 = Some b2 /\ dv b2 = f e (dv b1).
(** the run contains a step that does what [f] says to the hardware *)
Definition does ld (b : box) (l : list bev) (f : senv -> box -> option hw) : Prop :=
  exists l1 e l2 b1 b2, l = l1 ++ Step e :: l2 /\ brun ld b l1 = Some b1 /\ bstep ld e b1 = Some b2 /\ f e b1 = Some (dv b2).
(** reachable from power-on *)
Definition reachable ld (b : box) : Prop := exists f l, brun ld (box0 f) l = Some b.

(** driver calls of a flight computer that keeps the wheels disabled and commands no device table *)
Definition wheels_idle_call (c : dcall) : Prop := match c with SetRwa m _ => m = 0 | SetReset _ | SetDisable _ => False | _ => True end.
(** driver calls of a flight computer that keeps the attitude computer passive and commands no device table *)
Definition passive_call (c : dcall) : Prop := match c with SetMode m => m = 0 | SetReset _ | SetDisable _ => False | _ => True end.

(** nobody writes "complete" into the sun sensor mode *)
Definition asks_sun (v : bev) : Prop := match v with Rx _ m => addr m = 14 -> nth 1 m 0 <> 2 | _ => True end.
(** the gyroscope never has new data *)
Definition no_gyr (v : bev) : Prop := match v with Step e => e_gyr e = None | Rx _ m => ~ In (addr m) [28; 29] | Fail i => i <> 0%nat end.
(** values the hardware can produce *)
Definition short (x : Z) : Prop := -32768 <= x <= 32767.
Definition short3 (t : Z * Z * Z) : Prop := let '(a, b, c) := t in short a /\ short b /\ short c.
Definition env_ok (e : senv) : Prop :=
  (forall t w, e_gyr e = Some (t, w) -> short t /\ short3 w) /\ (forall w, e_b1 e = Some w -> short3 w) /\ (forall w, e_b2 e = Some w -> short3 w).
Definition bytes (l : list Z) : Prop := Forall (fun x => 0 <= x < 256) l.
Definition real_ev (v : bev) : Prop := match v with Rx z m => 0 <= z < 256 /\ bytes m | Step e => env_ok e | Fail _ => True end.

(** ** The flight computer's side *)

(** the wheel and rod calls among the driver calls *)
Definition actuator_calls (l : list dcall) : list dcall :=
  filter (fun c => match c with SetRwa _ _ | SetMtrMode _ | SetMtrCmd _ => true | _ => false end) l.
(** what each automatic attitude state asks of the actuators *)
Definition state_actuation (s : Z) (pt pm : vec) : list dcall :=
  if s =? st_zero_torque then [SetRwa 2 v0; SetMtrMode 0; SetMtrCmd v0]
  else if (s =? st_point_manual) || (s =? st_point_standby) || (s =? st_point_docking) then [SetRwa 2 pt; SetMtrMode 1; SetMtrCmd pm]
  else [SetRwa 0 v0; SetMtrMode 1; SetMtrCmd pm].
