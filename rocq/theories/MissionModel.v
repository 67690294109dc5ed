(** Model of src/fsw/FCCode/MissionManager.cpp, one control cycle at a time, together with the fault handlers it runs
    (FaultHandlerModel).  Floating-point comparisons of the attitude momentum and of the distance to the other
    satellite with their ground-set thresholds are inputs of the cycle: the theorems quantify over every outcome. *)
From Verif Require Import Base FaultModel FaultHandlerModel.

(** adcs_state_t.enum *)
Definition a_startup : Z := 1.
Definition a_zero_torque : Z := 3.
Definition a_detumble : Z := 5.
Definition a_point_standby : Z := 7.
Definition a_point_docking : Z := 8.
(** sat_designation_t.enum *)
Definition d_undecided : Z := 0.
Definition d_leader : Z := 1.
Definition d_follower : Z := 2.

(** MissionManager.hpp:36-57 *)
Definition deployment_wait_batch_size : Z := 100.
Definition deployment_wait : Z := one_day / (24 * 2).
Definition deployment_wait_batch_thresh : Z := deployment_wait / deployment_wait_batch_size + 1.
(** MissionManager.hpp:213 *)
Definition kill_switch_value : Z := 127.

(** MissionManager's own variables and the fields only it and other tasks outside the model touch *)
Record mission := mk_m {
  mm_adcs : Z;            (* adcs.state *)
  mm_desig : Z;           (* pan.sat_designation *)
  mm_adcs_dcdc : bool;    (* dcdc.ADCSMotor_cmd *)
  mm_sph_dcdc : bool;     (* dcdc.SpikeDock_cmd *)
  mm_dock_cmd : bool;     (* docksys.config_cmd *)
  mm_enter_docking : Z;   (* docksys.enter_docking *)
  mm_dock_limit : Z;      (* docking_timeout_limit *)
  mm_elapsed : Z;         (* pan.deployment.elapsed, unsigned char *)
  mm_deployed : bool;     (* pan.deployed *)
  mm_reset : bool;        (* gomspace.gs_reset_cmd *)
  mm_piksi_off : bool;    (* gomspace.piksi_off *)
  mm_piksi_pc : bool;     (* gomspace.power_cycle_output1_cmd *)
  mm_kill : Z;            (* pan.kill_switch *)
  mm_safehold_begin : Z;  (* safehold_begin_ccno, private *)
  mm_have_entry : bool    (* static have_set_docking_entry_ccno, :311 *)
}.

Record world := mk_world { wh : hworld; wm : mission }.

(** what the mission manager reads from the estimators and the dock switch *)
Record inputs := mk_in {
  i_att_valid : bool;      (* attitude_estimator.valid *)
  i_slow : bool;           (* fro(L_body) <= threshold^2, :228-231 *)
  i_rel_valid : bool;      (* rel_orbit.state nonzero *)
  i_close : bool;          (* norm(rel_pos) < trigger_dist.close_approach *)
  i_dock : bool;           (* norm(rel_pos) < trigger_dist.docking *)
  i_docked : bool          (* docksys.docked *)
}.

Definition with_h (w : world) (h : hworld) : world := mk_world h (wm w).
Definition with_m (w : world) (m : mission) : world := mk_world (wh w) m.

Definition m_set_adcs (m : mission) (v : Z) : mission :=
  mk_m v (mm_desig m) (mm_adcs_dcdc m) (mm_sph_dcdc m) (mm_dock_cmd m) (mm_enter_docking m) (mm_dock_limit m) (mm_elapsed m)
    (mm_deployed m) (mm_reset m) (mm_piksi_off m) (mm_piksi_pc m) (mm_kill m) (mm_safehold_begin m) (mm_have_entry m).
Definition m_set_desig (m : mission) (v : Z) : mission :=
  mk_m (mm_adcs m) v (mm_adcs_dcdc m) (mm_sph_dcdc m) (mm_dock_cmd m) (mm_enter_docking m) (mm_dock_limit m) (mm_elapsed m)
    (mm_deployed m) (mm_reset m) (mm_piksi_off m) (mm_piksi_pc m) (mm_kill m) (mm_safehold_begin m) (mm_have_entry m).
Definition m_set_adcs_dcdc (m : mission) (v : bool) : mission :=
  mk_m (mm_adcs m) (mm_desig m) v (mm_sph_dcdc m) (mm_dock_cmd m) (mm_enter_docking m) (mm_dock_limit m) (mm_elapsed m)
    (mm_deployed m) (mm_reset m) (mm_piksi_off m) (mm_piksi_pc m) (mm_kill m) (mm_safehold_begin m) (mm_have_entry m).
Definition m_set_sph_dcdc (m : mission) (v : bool) : mission :=
  mk_m (mm_adcs m) (mm_desig m) (mm_adcs_dcdc m) v (mm_dock_cmd m) (mm_enter_docking m) (mm_dock_limit m) (mm_elapsed m)
    (mm_deployed m) (mm_reset m) (mm_piksi_off m) (mm_piksi_pc m) (mm_kill m) (mm_safehold_begin m) (mm_have_entry m).
Definition m_set_enter_docking (m : mission) (v : Z) : mission :=
  mk_m (mm_adcs m) (mm_desig m) (mm_adcs_dcdc m) (mm_sph_dcdc m) (mm_dock_cmd m) v (mm_dock_limit m) (mm_elapsed m)
    (mm_deployed m) (mm_reset m) (mm_piksi_off m) (mm_piksi_pc m) (mm_kill m) (mm_safehold_begin m) (mm_have_entry m).
Definition m_set_elapsed (m : mission) (v : Z) : mission :=
  mk_m (mm_adcs m) (mm_desig m) (mm_adcs_dcdc m) (mm_sph_dcdc m) (mm_dock_cmd m) (mm_enter_docking m) (mm_dock_limit m) v
    (mm_deployed m) (mm_reset m) (mm_piksi_off m) (mm_piksi_pc m) (mm_kill m) (mm_safehold_begin m) (mm_have_entry m).
Definition m_set_deployed (m : mission) (v : bool) : mission :=
  mk_m (mm_adcs m) (mm_desig m) (mm_adcs_dcdc m) (mm_sph_dcdc m) (mm_dock_cmd m) (mm_enter_docking m) (mm_dock_limit m) (mm_elapsed m)
    v (mm_reset m) (mm_piksi_off m) (mm_piksi_pc m) (mm_kill m) (mm_safehold_begin m) (mm_have_entry m).
Definition m_set_reset (m : mission) (v : bool) : mission :=
  mk_m (mm_adcs m) (mm_desig m) (mm_adcs_dcdc m) (mm_sph_dcdc m) (mm_dock_cmd m) (mm_enter_docking m) (mm_dock_limit m) (mm_elapsed m)
    (mm_deployed m) v (mm_piksi_off m) (mm_piksi_pc m) (mm_kill m) (mm_safehold_begin m) (mm_have_entry m).
Definition m_set_piksi (m : mission) (off pc : bool) : mission :=
  mk_m (mm_adcs m) (mm_desig m) (mm_adcs_dcdc m) (mm_sph_dcdc m) (mm_dock_cmd m) (mm_enter_docking m) (mm_dock_limit m) (mm_elapsed m)
    (mm_deployed m) (mm_reset m) off pc (mm_kill m) (mm_safehold_begin m) (mm_have_entry m).
Definition m_set_begin (m : mission) (v : Z) : mission :=
  mk_m (mm_adcs m) (mm_desig m) (mm_adcs_dcdc m) (mm_sph_dcdc m) (mm_dock_cmd m) (mm_enter_docking m) (mm_dock_limit m) (mm_elapsed m)
    (mm_deployed m) (mm_reset m) (mm_piksi_off m) (mm_piksi_pc m) (mm_kill m) v (mm_have_entry m).
Definition m_set_have_entry (m : mission) (v : bool) : mission :=
  mk_m (mm_adcs m) (mm_desig m) (mm_adcs_dcdc m) (mm_sph_dcdc m) (mm_dock_cmd m) (mm_enter_docking m) (mm_dock_limit m) (mm_elapsed m)
    (mm_deployed m) (mm_reset m) (mm_piksi_off m) (mm_piksi_pc m) (mm_kill m) (mm_safehold_begin m) v.

Definition wcc (w : world) : Z := hc (wh w).
Definition wmission (w : world) : Z := b_mission (hb (wh w)).
Definition wprop (w : world) : Z := b_prop (hb (wh w)).
Definition wradio (w : world) : Z := b_radio (hb (wh w)).
Definition upd_bus (w : world) (f : bus -> bus) : world := with_h w (with_b (wh w) (f (hb (wh w)))).
Definition upd_m (w : world) (f : mission -> mission) : world := with_m w (f (wm w)).

(** set(mission_state_t), :366-377 *)
Definition set_mission_state (s : Z) (w : world) : world :=
  let w1 := if s =? m_safehold then upd_m w (fun m => m_set_begin m (wcc w)) else w in
  let w2 := if (s =? m_leader_close_approach) || (s =? m_follower_close_approach)
            then upd_bus w1 (fun b => set_enter_ca b (wcc w1)) else w1 in
  upd_bus w2 (fun b => set_mission b s).

(** transition_to with two arguments, :399-410 *)
Definition transition2 (s a : Z) (w : world) : world :=
  let w1 := if s =? m_safehold then upd_m w (fun m => m_set_adcs_dcdc m false) else w in
  upd_m (set_mission_state s w1) (fun m => m_set_adcs m a).

(** transition_to with three arguments, :412-427 *)
Definition transition3 (s a p : Z) (w : world) : world :=
  let w1 := upd_m w (fun m => m_set_sph_dcdc m (negb (p =? p_disabled))) in
  upd_bus (transition2 s a w1) (fun b => set_prop b p).

(** check_adcs_hardware_faults, :171-174, with the short circuit of [||] *)
Fixpoint any_faulted (l : list fid) (h : hworld) : hworld * bool :=
  match l with
  | [] => (h, false)
  | i :: t => let '(h', b) := is_faulted i h in if b then (h', true) else any_faulted t h'
  end.
Definition hardware_faults : list fid := [Functional; Wheel1; Wheel2; Wheel3; WheelPot].

(** dispatch_startup, :176-221; [None] is the deliberate infinite loop of the kill switch *)
Definition dispatch_startup (w : world) : option world :=
  if mm_kill (wm w) =? kill_switch_value then None
  else if mm_elapsed (wm w) <? deployment_wait_batch_thresh then
    if wcc w mod deployment_wait_batch_size =? 0 then Some (upd_m w (fun m => m_set_elapsed m (u8 (mm_elapsed m + 1)))) else Some w
  else
    let w1 := upd_m w (fun m => m_set_piksi m false true) in
    let w2 := if wradio w1 =? r_disabled then upd_bus w1 (fun b => set_radio b r_config) else w1 in
    let '(h, faulty) := any_faulted hardware_faults (wh w2) in
    let w3 := with_h w2 h in
    if faulty then Some (transition3 m_initialization_hold a_detumble p_idle w3)
    else Some (transition3 m_detumble a_detumble p_idle (upd_m w3 (fun m => m_set_deployed m true))).

(** dispatch_detumble, :223-240 *)
Definition dispatch_detumble (i : inputs) (w : world) : world :=
  if i_att_valid i && i_slow i then
    if negb (mm_adcs_dcdc (wm w)) then upd_m w (fun m => m_set_adcs_dcdc m true)
    else transition2 m_standby a_point_standby w
  else w.

(** dispatch_standby, :248-267 *)
Definition dispatch_standby (w : world) : world :=
  if mm_desig (wm w) =? d_follower then transition2 m_follower a_point_standby w
  else if mm_desig (wm w) =? d_leader then transition2 m_leader a_point_standby w
  else w.

(** distance_to_other_sat compared with a trigger, :271, :280, :289, :298, :355-358: without a relative orbit the
    distance is NaN and the comparison false *)
Definition nearer (i : inputs) (cmp : bool) : bool := i_rel_valid i && cmp.

(** dispatch_follower, dispatch_leader, :269-285 *)
Definition dispatch_far (i : inputs) (next : Z) (w : world) : world :=
  if nearer i (i_close i) then transition2 next a_point_docking w else w.

(** dispatch_follower_close_approach, dispatch_leader_close_approach, :287-303 *)
Definition dispatch_close_approach (i : inputs) (w : world) : world :=
  if nearer i (i_dock i) && mm_dock_cmd (wm w) then transition2 m_docking a_zero_torque w else w.

(** too_long_in_docking, :360-364 *)
Definition too_long_in_docking (w : world) : bool :=
  mm_dock_limit (wm w) <? u32 (wcc w - mm_enter_docking (wm w)).

(** dispatch_docking, :313-337 *)
Definition dispatch_docking (i : inputs) (w : world) : world :=
  let w1 := if negb (mm_have_entry (wm w))
            then upd_m w (fun m => m_set_have_entry (m_set_enter_docking m (wcc w)) true) else w in
  if i_docked i then
    upd_m (transition2 m_docked a_zero_torque (upd_m w1 (fun m => m_set_have_entry m false))) (fun m => m_set_desig m d_undecided)
  else if too_long_in_docking w1 then
    transition2 m_standby a_point_standby (upd_m w1 (fun m => m_set_have_entry m false))
  else w1.

(** dispatch_safehold, :344-348 *)
Definition dispatch_safehold (w : world) : world :=
  if one_day <=? u32 (wcc w - mm_safehold_begin (wm w)) then upd_m w (fun m => m_set_reset m true) else w.

(** execute, step 2, :125-168 *)
Definition dispatch (i : inputs) (s : Z) (w : world) : option world :=
  if s =? m_startup then dispatch_startup w
  else if s =? m_detumble then Some (dispatch_detumble i w)
  else if s =? m_initialization_hold then Some w
  else if s =? m_standby then Some (dispatch_standby w)
  else if s =? m_follower then Some (dispatch_far i m_follower_close_approach w)
  else if s =? m_leader then Some (dispatch_far i m_leader_close_approach w)
  else if s =? m_follower_close_approach then Some (dispatch_close_approach i w)
  else if s =? m_leader_close_approach then Some (dispatch_close_approach i w)
  else if s =? m_docking then Some (dispatch_docking i w)
  else if s =? m_docked then Some w
  else if s =? m_safehold then Some (dispatch_safehold w)
  else if s =? m_manual then Some w
  else Some (transition2 m_safehold a_startup w).

(** execute, :102-169 *)
Definition mission_execute (i : inputs) (w : world) : option world :=
  let s := wmission w in
  let '(h, r) := main_execute main_machines (wh w) in
  let w1 := with_h w h in
  if negb ((s =? m_startup) || (s =? m_manual)) then
    match r with
    | RSafehold =>
      Some (upd_m (transition3 m_safehold a_startup p_disabled w1) (fun m => m_set_desig m d_undecided))
    | RStandby =>
      if negb (s =? m_safehold) && negb (s =? m_initialization_hold) && negb (s =? m_detumble) && negb (s =? m_standby) then
        Some (upd_m (transition2 m_standby a_point_standby w1) (fun m => m_set_desig m d_undecided))
      else dispatch i s w1
    | RNone => dispatch i s w1
    end
  else dispatch i s w1.

(** The constructor, :19-96, over any prior contents: "starting" transition, flags cleared.  [begin] of safehold is 0
    (MissionManager.hpp:118) and the cycle count 0. *)
Definition mission_construct (bootcount : Z) (w : world) : world :=
  let w1 := transition3 m_startup a_startup p_disabled w in
  let m := wm w1 in
  with_m w1 (mk_m (mm_adcs m) d_undecided (mm_adcs_dcdc m) (mm_sph_dcdc m) true 0 one_day 0 (1 <? bootcount)
                  (mm_reset m) (mm_piksi_off m) (mm_piksi_pc m) (mm_kill m) 0 false).

(** Everything outside the mission manager between two of its executions: the clock ticks (ClockManager.cpp:16-20) and
    the other tasks and the ground change what they may.  The mission manager's and the handlers' private variables
    stay; the mission state changes only by ground command ([ground]).  pan.deployment.elapsed is readable only, so no
    one else writes it. *)
Definition environment (ground : bool) (w w' : world) : Prop :=
  wcc w' = u32 (wcc w + 1) /\
  (ground = false -> wmission w' = wmission w) /\
  mm_safehold_begin (wm w') = mm_safehold_begin (wm w) /\
  mm_have_entry (wm w') = mm_have_entry (wm w) /\
  mm_enter_docking (wm w') = mm_enter_docking (wm w) /\
  b_enter_ca (hb (wh w')) = b_enter_ca (hb (wh w)) /\
  mm_elapsed (wm w') = mm_elapsed (wm w) /\
  q_entry (hq (wh w')) = q_entry (hq (wh w)) /\
  k_last_rtk (hk (wh w')) = k_last_rtk (hk (wh w)) /\
  hv (wh w') = hv (wh w).

(** one cycle: the environment, then the mission manager *)
Definition cycle (ground : bool) (i : inputs) (w w' : world) : Prop :=
  exists w1, environment ground w w1 /\ mission_execute i w1 = Some w'.

(** histories of cycles of any length; the list says for each cycle whether the ground commanded the mission state *)
Inductive history : list bool -> world -> world -> Prop :=
| h_nil w : history [] w w
| h_snoc l w w1 g i w2 : history l w w1 -> cycle g i w1 w2 -> history (l ++ [g]) w w2.
