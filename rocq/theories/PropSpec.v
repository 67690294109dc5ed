(** Specification vocabulary for the propulsion system. *)
From Verif Require Import Base FaultModel FaultHandlerModel PropModel.

(** ** Valve timing, in terms of the schedule (milliseconds per valve) only *)

(** the turn of valve [i]: how many valves before it are due to open at all (3 ms or more) *)
Fixpoint turn (l : list Z) (i : nat) : Z :=
  match i, l with
  | S j, s :: t => (if 3 <=? s then 1 else 0) + turn t j
  | _, _ => 0
  end.
(** valve [i] is open after [n] ticks of the 3 ms loop *)
Definition open_after (l : list Z) (n : Z) (i : nat) : bool :=
  match nth_error l i with
  | Some s => (3 <=? s) && (turn l i <? n) && (n <=? turn l i + s / 3)
  | None => false
  end.
(** what remains of its schedule *)
Definition left_after (l : list Z) (n : Z) (i : nat) : Z :=
  match nth_error l i with
  | Some s =>
    if 3 <=? s then
      if n <=? turn l i then s else if n <=? turn l i + s / 3 then s - 3 * (n - turn l i) else 0
    else if n =? 0 then s else 0
  | None => 0
  end.
(** in how many of the first [N] tick intervals valve [i] is open *)
Definition ticks_open (l : list Z) (N i : nat) : nat :=
  length (filter (fun n => open_after l (Z.of_nat n) i) (seq 0 N)).

(** the driver after [n] ticks *)
Fixpoint after_ticks (n : nat) (d : drv) : drv := match n with O => d | S k => drv_tick (after_ticks k d) end.

(** ** Driver calls *)
Inductive dcall := DReset | DDisable | DStart | DClear | DSchedule (l : list Z) | DTick | DValve (t : tank) (i : nat) (b : bool).
Definition dcall_run (d : drv) (c : dcall) : drv :=
  match c with
  | DReset => drv_reset d | DDisable => drv_disable d | DStart => drv_start d | DClear => drv_clear d
  | DSchedule l => fst (drv_set_schedule l d) | DTick => drv_tick d | DValve t i b => drv_valve t i b d
  end.
(** a call that opens a thruster valve by hand *)
Definition opens_thruster (c : dcall) : Prop := exists i, c = DValve T2 i true.

Definition all_closed (l : list bool) : Prop := Forall (fun b => b = false) l.
Definition safe (d : drv) : Prop := all_closed (d_t1 d) /\ all_closed (d_t2 d) /\ Forall (fun s => s = 0) (d_sched d) /\ d_on d = false.

(** ** Runs of the controller *)

(** The mission manager writes the state only to disable propulsion, and to idle when it leaves startup, where propulsion
    is still disabled unless the ground moved it (MissionManager.cpp).

    Between two executions: the interrupt ticks any number of times; the ground (or the mission manager) may write the
    fields, including the state ([who]); faults change by ground command. The state objects and the driver are private. *)
Inductive writer := Nobody | Manager | Ground.
Definition between (who : writer) (p p' : pst) : Prop :=
  (exists n, ps_drv p' = after_ticks n (ps_drv p)) /\
  ps_press p' = ps_press p /\ ps_vent p' = ps_vent p /\ ps_fired p' = ps_fired p /\
  match who with
  | Nobody => ps_state p' = ps_state p
  | Manager => ps_state p' = p_disabled \/ (ps_state p' = p_idle /\ (ps_state p = p_disabled \/ ps_state p = p_idle))
  | Ground => True
  end.

(** one controller cycle with everything it saw *)
Record pcycle := mk_pc { y_who : writer; y_cc : Z; y_cfg : pcfg; y_sens : sens; y_before : pst; y_after : pst }.

(** runs, most recent cycle first *)
Inductive prun (p0 : pst) : list pcycle -> pst -> Prop :=
| prun_nil : prun p0 [] p0
| prun_cons l p who p1 cc c s : prun p0 l p -> between who p p1 ->
    prun p0 (mk_pc who cc c s p1 (prop_ctrl cc c s p1) :: l) (prop_ctrl cc c s p1).

(** what a schedule must satisfy, and what a cycle saw *)
Definition valid_schedule (c : pcfg) (until : Z) : Prop := Forall (fun v => v <= 1000) (c_sched c) /\ 1 < until.

(** what a cycle that ends the pressurization saw *)
Definition pressurized (y : pcycle) : Prop :=
  ps_state (y_before y) = p_pressurizing /\ ps_state (y_after y) = p_await_firing /\ s_func (y_sens y) = true /\
  valid_schedule (y_cfg y) (ps_until (y_after y)) /\
  (s_threshold (y_sens y) = true \/
   (c_max_press (y_cfg y) <= a_count (ps_press (y_before y)) /\ snd (fault_read (ps_faults (y_after y) PressurizeFail)) = false)).

(** the disabled state, and every value that names no state *)
Definition is_disabled (s : Z) : Prop := ~ (1 <= s <= 8).

(** the only valve of a tank that may be open *)
Definition none_open (l : list bool) : Prop := forall j, nth_error l j <> Some true.
Definition only_open (l : list bool) (i : nat) : Prop := forall j, nth_error l j = Some true -> j = i.

(** a pressurization attempt under fixed parameters, [n] evaluations after it was entered with [u] cycles to the firing *)
Inductive pressing (fill cool mx u : Z) : Z -> pst -> Prop :=
| pressing_enter p : ps_state p = p_pressurizing -> a_count (ps_press p) = 0 -> a_timer (ps_press p) = 0 ->
    d_t1 (ps_drv p) = [false; false] -> d_on (ps_drv p) = false -> ps_until p = u -> pressing fill cool mx u 0 p
| pressing_step n p p1 cc c s : pressing fill cool mx u n p -> between Nobody p p1 -> ps_until p1 = ps_until p ->
    c_fill c = fill -> c_cool c = cool -> c_max_press c = mx -> (c_t1_valve c < 2)%nat ->
    ps_state (prop_ctrl cc c s p1) = p_pressurizing -> pressing fill cool mx u (n + 1) (prop_ctrl cc c s p1).

(** a firing of schedule [l], [n] ticks after it was started *)
Inductive firing_for (l : list Z) : nat -> pst -> Prop :=
| firing_start p cc c s : d_on (ps_drv p) = false -> none_open (d_t2 (ps_drv p)) -> length (d_t2 (ps_drv p)) = 4%nat ->
    fst (drv_set_schedule (c_sched c) (ps_drv p)) = mk_d (d_t1 (ps_drv p)) (d_t2 (ps_drv p)) l false -> length l = 4%nat ->
    Forall (fun v => 0 <= v <= 999) l ->
    ps_fired (prop_ctrl cc c s p) <> ps_fired p -> firing_for l 0 (prop_ctrl cc c s p)
| firing_step n k p p1 cc c s : firing_for l n p -> ps_drv p1 = after_ticks k (ps_drv p) -> ps_state p1 = ps_state p ->
    ps_state (prop_ctrl cc c s p1) = p_firing -> firing_for l (k + n) (prop_ctrl cc c s p1).
