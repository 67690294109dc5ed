(** Models of src/fsw/FCCode/DCDCController.cpp, DockingController.cpp, GomspaceController.cpp and their drivers
    (flight build). *)
From Verif Require Import Base.
From Coq Require Import QArith Qround.
Local Open Scope Z_scope.

(** * DC-DC converters *)

(** the two enable pins, the four command fields and the two reported states *)
Record dcdc := mk_dc { dc_a : bool; dc_s : bool; dc_ca : bool; dc_cs : bool; dc_dis : bool; dc_rst : bool; dc_ra : bool; dc_rs : bool }.

(** DCDCController::execute, DCDCController.cpp:29-77, with the pins of Drivers/DCDC.cpp:23-78 *)
Definition dcdc_exec (d : dcdc) : dcdc :=
  let a := if dc_ca d && negb (dc_a d) then true else if negb (dc_ca d) && dc_a d then false else dc_a d in
  let s := if dc_cs d && negb (dc_s d) then true else if negb (dc_cs d) && dc_s d then false else dc_s d in
  let '(a, s, ca, cs) :=
    if dc_dis d then (if a || s then (false, false, false, false) else (a, s, dc_ca d, dc_cs d)) else (a, s, dc_ca d, dc_cs d) in
  let '(a, s, ca, cs, r) :=
    if dc_rst d then (if a || s then (false, false, false, false, true) else (true, true, true, true, false)) else (a, s, ca, cs, false) in
  mk_dc a s ca cs false r a s.

(** * Docking motor *)

(** Controller fields and driver state.  [dk_pos] is the number of step pulses the motor got while awake, [dk_awake] the
    sleep pin, [dk_timer] whether the interval timer runs step_motor.  Simplified: timer.begin is taken to succeed for every
    step delay, and the motor supply (the spike-and-dock converter) is taken to be on. *)
Record dock := mk_dk { dk_config : bool; dk_turning : bool; dk_steps : Z; dk_high : bool; dk_timer : bool; dk_awake : bool; dk_pos : Z }.

(** step_motor, Drivers/DockingSystem.cpp:98-114, called by the timer *)
Definition dock_tick (d : dock) : dock :=
  if dk_timer d then
    if 1 <=? dk_steps d then
      if dk_high d then mk_dk (dk_config d) (dk_turning d) (dk_steps d) false (dk_timer d) (dk_awake d) (dk_pos d)
      else mk_dk (dk_config d) (dk_turning d) (dk_steps d - 1) true (dk_timer d) (dk_awake d) (if dk_awake d then dk_pos d + 1 else dk_pos d)
    else d
  else d.
(** set_turn_angle, DockingSystem.cpp:120-122: [steps = angle / step_angle] from float to unsigned int, undefined when the
    quotient does not fit; the quotient is taken exactly *)
Definition halfturn_steps (angle : Q) : option Z :=
  if Qle_bool angle (0 # 1) then None else let n := Qfloor (Qdiv (180 # 1) angle) in if n <? 2 ^ 32 then Some n else None.
(** start_halfturn and cancel, DockingSystem.cpp:82-95 *)
Definition dock_start (angle : Q) (d : dock) : option dock :=
  match halfturn_steps angle with None => None | Some n => Some (mk_dk (dk_config d) (dk_turning d) n (dk_high d) true true (dk_pos d)) end.
Definition dock_cancel (d : dock) : dock := mk_dk (dk_config d) (dk_turning d) (dk_steps d) (dk_high d) false false (dk_pos d).
Definition dock_set_turning (d : dock) (b : bool) : dock := mk_dk (dk_config d) b (dk_steps d) (dk_high d) (dk_timer d) (dk_awake d) (dk_pos d).
Definition dock_set_config (d : dock) (b : bool) : dock := mk_dk b (dk_turning d) (dk_steps d) (dk_high d) (dk_timer d) (dk_awake d) (dk_pos d).
(** DockingController::execute, DockingController.cpp:53-84; [None] is undefined behaviour *)
Definition dock_exec (cmd : bool) (angle : Q) (d : dock) : option dock :=
  if negb (Bool.eqb cmd (dk_config d)) then
    match (if dk_turning d then Some d else match dock_start angle d with None => None | Some d1 => Some (dock_set_turning d1 true) end) with
    | None => None
    | Some d1 => Some (if dk_steps d1 =? 0 then dock_set_turning (dock_cancel (dock_set_config d1 (negb (dk_config d1)))) false else d1)
    end
  else Some (dock_set_turning (dock_cancel d) false).
(** constructor, DockingController.cpp:20-22, with DockingSystem.cpp:9,97 and setup :32: the motor is taken to be in the docking position *)
Definition dock_init : dock := mk_dk true false 0 false false false 0.

(** * Power supply *)

(** What the bus does in one cycle: housekeeping is received, the command for output [i] is received, likewise the panel
    voltage, tracker mode and heater commands; the heater answers the query. *)
Record genv := mk_ge { ge_hk : bool; ge_out : nat -> bool; ge_pv : bool; ge_ppt : bool; ge_query : bool; ge_heat : bool }.
(** The supply ([p_]: outputs, heater, tracker mode, panel voltages), the last housekeeping ([k_]), the readable fields
    ([f_]) and the command fields ([c_]). *)
Record gom := mk_g {
  p_out : nat -> bool; p_heat : bool; p_ppt : Z; p_vb : nat -> Z;
  k_out : nat -> bool; k_ppt : Z; k_vb : nat -> Z;
  f_out : nat -> bool; f_ppt : Z; f_vb : nat -> Z;
  c_cyc : nat -> bool; c_pv : nat -> Z; c_ppt : Z; c_heat : bool; c_off : bool; c_period : Z }.

Definition fset {A} (f : nat -> A) (i : nat) (v : A) : nat -> A := fun j => if Nat.eqb j i then v else f j.
Definition bswap16 (v : Z) : Z := (v mod 256) * 256 + v / 256 mod 256.

(** set_single_output, Drivers/Gomspace.cpp:232-253 *)
Definition set_single (e : genv) (i : nat) (v : bool) (g : gom) : gom :=
  if Nat.ltb 5 i then g
  else mk_g (if ge_out e i then fset (p_out g) i v else p_out g) (p_heat g) (p_ppt g) (p_vb g) (k_out g) (k_ppt g) (k_vb g) (f_out g) (f_ppt g) (f_vb g)
    (c_cyc g) (c_pv g) (c_ppt g) (c_heat g) (c_off g) (c_period g).
Definition set_cyc (g : gom) (i : nat) (v : bool) : gom :=
  mk_g (p_out g) (p_heat g) (p_ppt g) (p_vb g) (k_out g) (k_ppt g) (k_vb g) (f_out g) (f_ppt g) (f_vb g)
    (fset (c_cyc g) i v) (c_pv g) (c_ppt g) (c_heat g) (c_off g) (c_period g).
(** powercycle_logic, GomspaceController.cpp:325-341; the commands sent are recorded *)
Definition cycle_one (e : genv) (s : gom * list (nat * bool)) (i : nat) : gom * list (nat * bool) :=
  let '(g, tr) := s in
  if c_cyc g i then
    if f_out g i then (set_single e i false g, tr ++ [(i, false)])
    else (set_cyc (set_single e i true g) i false, tr ++ [(i, true)])
  else (g, tr).
(** power_cycle_outputs, :324-353 *)
Definition cycle_outputs (e : genv) (g : gom) : gom * list (nat * bool) :=
  fold_left (cycle_one e) ((if c_off g then [] else [0%nat]) ++ [1; 2; 3; 4; 5]%nat) (g, []).

(** get_hk, Drivers/Gomspace.cpp:46-88, including the byte swaps *)
Definition get_hk (e : genv) (g : gom) : gom :=
  if ge_hk e then mk_g (p_out g) (p_heat g) (p_ppt g) (p_vb g) (p_out g) (p_ppt g) (p_vb g) (f_out g) (f_ppt g) (f_vb g)
    (c_cyc g) (c_pv g) (c_ppt g) (c_heat g) (c_off g) (c_period g) else g.
(** get_heater, Drivers/Gomspace.cpp:338-359: 2 on error *)
Definition get_heater (e : genv) (g : gom) : Z := if ge_query e then (if p_heat g then 1 else 0) else 2.
(** first cycle, GomspaceController.cpp:209-226 (the reset commands are not modelled); heater_cmd_f.set converts 2 to true *)
Definition first_cycle (e : genv) (g : gom) : gom :=
  mk_g (p_out g) (p_heat g) (p_ppt g) (p_vb g) (k_out g) (k_ppt g) (k_vb g) (f_out g) (f_ppt g) (f_vb g)
    (fun _ => false) (fun i => if Nat.ltb i 3 then k_vb g i else c_pv g i) (c_ppt g) (negb (get_heater e g =? 0)) (c_off g) (c_period g).
(** panel voltages, :233-238; set_pv_volt, Drivers/Gomspace.cpp:255-284: on the little-endian flight computer the bytes are
    swapped and then sent high byte first, the supply reads big-endian *)
Definition pv_step (e : genv) (g : gom) : gom :=
  if (f_ppt g =? 2) && (negb (f_vb g 0 =? c_pv g 0) || negb (f_vb g 1 =? c_pv g 1) || negb (f_vb g 2 =? c_pv g 2)) then
    mk_g (p_out g) (p_heat g) (p_ppt g) (if ge_pv e then (fun i => if Nat.ltb i 3 then bswap16 (c_pv g i) else p_vb g i) else p_vb g) (k_out g) (k_ppt g) (k_vb g)
      (f_out g) (f_ppt g) (f_vb g) (c_cyc g) (c_pv g) (c_ppt g) (c_heat g) (c_off g) (c_period g)
  else g.
(** tracker mode, :241-243; set_ppt_mode, Drivers/Gomspace.cpp:286-302 *)
Definition ppt_step (e : genv) (g : gom) : gom :=
  if negb (f_ppt g =? c_ppt g) && (c_ppt g <=? 2) && ge_ppt e then
    mk_g (p_out g) (p_heat g) (c_ppt g) (p_vb g) (k_out g) (k_ppt g) (k_vb g) (f_out g) (f_ppt g) (f_vb g)
      (c_cyc g) (c_pv g) (c_ppt g) (c_heat g) (c_off g) (c_period g)
  else g.
(** heater, :246-251 *)
Definition heater_step (e : genv) (g : gom) : gom :=
  let h := get_heater e g in
  if (if c_heat g then h =? 0 else h =? 1) && ge_heat e then
    mk_g (p_out g) (c_heat g) (p_ppt g) (p_vb g) (k_out g) (k_ppt g) (k_vb g) (f_out g) (f_ppt g) (f_vb g)
      (c_cyc g) (c_pv g) (c_ppt g) (c_heat g) (c_off g) (c_period g)
  else g.
(** readable fields, :270-315 *)
Definition publish (g : gom) : gom :=
  mk_g (p_out g) (p_heat g) (p_ppt g) (p_vb g) (k_out g) (k_ppt g) (k_vb g) (k_out g) (k_ppt g) (k_vb g)
    (c_cyc g) (c_pv g) (c_ppt g) (c_heat g) (c_off g) (c_period g).
(** execute, :198-322; [None] is the division by zero at :229 *)
Definition gom_exec (cc : Z) (e : genv) (g : gom) : option (gom * list (nat * bool)) :=
  let g := get_hk e g in
  let g := if cc =? 1 then first_cycle e g else g in
  if c_period g =? 0 then None else
  let '(g, tr) := if cc mod c_period g =? 0 then cycle_outputs e g else (g, []) in
  let g := publish (heater_step e (ppt_step e (pv_step e g))) in
  Some (if c_off g then (set_single e 0 false g, tr ++ [(0%nat, false)]) else (g, tr)).
