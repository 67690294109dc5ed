(** Model of src/fsw/FCCode/Drivers/PropulsionSystem.cpp and src/fsw/FCCode/PropController.cpp (flight build).

    Sensor readings enter only through the comparisons the controller makes with them; the spike-and-hold converter
    pin (is_functional) is sampled once per execution.  The 3 ms interrupt runs between controller executions, not in
    the middle of one.  The valve pins and [is_valve_opened] are always written together, so one list stands for both.
    [size_t] is 32 bits on the flight computer; no counter here gets near its end except [saved], which wraps. *)
From Verif Require Import Base FaultModel FaultHandlerModel.

(** ** The driver *)

(** valves of the two tanks, Tank2.schedule, is_interval_enabled *)
Record drv := mk_d { d_t1 : list bool; d_t2 : list bool; d_sched : list Z; d_on : bool }.
Definition drv_init : drv := mk_d (repeat false 2) (repeat false 4) (repeat 0 4) false.

(** the loop body of thrust_valve_loop, PropulsionSystem.cpp:300-334, on the valves from some index on; [did] is
    did_open_valve *)
Fixpoint valve_loop (did : bool) (vs : list bool) (ss : list Z) : list bool * list Z :=
  match vs, ss with
  | v :: vs', s :: ss' =>
    if s <? 3 then
      let '(v1, s1) := if v || negb (s =? 0) then (false, 0) else (v, s) in
      let '(a, b) := valve_loop did vs' ss' in (v1 :: a, s1 :: b)
    else
      let '(v1, did1) := if negb v && negb did then (true, true) else (v, did) in
      let s1 := if v1 then s - 3 else s in
      let '(a, b) := valve_loop did1 vs' ss' in (v1 :: a, s1 :: b)
  | _, _ => (vs, ss)
  end.
Definition thrust_valve_loop (d : drv) : drv :=
  let '(v, s) := valve_loop false (d_t2 d) (d_sched d) in mk_d (d_t1 d) v s (d_on d).

(** the interval timer fires only while enabled *)
Definition drv_tick (d : drv) : drv := if d_on d then thrust_valve_loop d else d.

(** disable, :215-225 (closes Tank2 only) *)
Definition drv_disable (d : drv) : drv := mk_d (d_t1 d) (map (fun _ => false) (d_t2 d)) (d_sched d) false.
(** clear_schedule, :262-269 *)
Definition drv_clear (d : drv) : drv :=
  if d_on d then d else mk_d (d_t1 d) (d_t2 d) (map (fun _ => 0) (d_sched d)) (d_on d).
(** reset, :190-199 *)
Definition drv_reset (d : drv) : drv :=
  let d1 := drv_disable d in
  drv_clear (mk_d (map (fun _ => false) (d_t1 d1)) (d_t2 d1) (d_sched d1) (d_on d1)).
(** start_firing, :201-213 *)
Definition drv_start (d : drv) : drv :=
  if d_on d then drv_disable d else mk_d (d_t1 d) (d_t2 d) (d_sched d) true.
(** set_schedule, :245-260 *)
Definition drv_set_schedule (l : list Z) (d : drv) : drv * bool :=
  if d_on d then (d, false)
  else if existsb (fun a => 1000 <=? a) l then (d, false)
  else (mk_d (d_t1 d) (d_t2 d) (map (fun a => if 10 <=? a then a else 0) l) (d_on d), true).

(** which tank *)
Inductive tank := T1 | T2.
Definition set_nth {A} (l : list A) (i : nat) (x : A) : list A := match upd l i x with Some l' => l' | None => l end.
(** open_valve and close_valve, :271-298: an index past the tank's valves does nothing *)
Definition drv_valve (t : tank) (i : nat) (b : bool) (d : drv) : drv :=
  match t with
  | T1 => mk_d (set_nth (d_t1 d) i b) (d_t2 d) (d_sched d) (d_on d)
  | T2 => mk_d (d_t1 d) (set_nth (d_t2 d) i b) (d_sched d) (d_on d)
  end.
(** is_valve_open, :133-142 *)
Definition drv_is_open (t : tank) (i : nat) (d : drv) : bool :=
  match nth_error (match t with T1 => d_t1 d | T2 => d_t2 d end) i with Some b => b | None => false end.

(** ** The controller *)

(** prop_state_t.enum; the values not already in FaultHandlerModel *)
Definition p_await_pressurizing : Z := 2.
Definition p_pressurizing : Z := 3.
Definition p_firing : Z := 5.
Definition p_await_firing : Z := 6.
Definition p_manual : Z := 8.

(** the ground-writable parameters and the schedule, PropController.hpp:46-69 *)
Record pcfg := mk_pcfg {
  c_sched : list Z;        (* orbit.control.valve1..4 *)
  c_inter1 : Z; c_inter2 : Z;
  c_max_vent : Z; c_close : Z; c_max_press : Z; c_fill : Z; c_cool : Z; c_t1_valve : nat }.

(** sensor comparisons, PropController.hpp:119-137, and is_functional *)
Record sens := mk_sens { s_threshold : bool; s_over : bool; s_t1_hot : bool; s_t2_hot : bool; s_func : bool }.

(** ActionCycleOpenClose: cycle_count, cur_valve_index, countdown *)
Record act := mk_a { a_count : Z; a_valve : nat; a_timer : Z }.
(** PropState_Venting: p_tank, tank_choice, saved_tank2_valve_choice *)
Record vent := mk_vt { vt_act : act; vt_tank : tank; vt_choice : Z; vt_saved : Z }.

Record pst := mk_ps {
  ps_state : Z; ps_until : Z; ps_fired : Z; ps_faults : fid -> fault; ps_press : act; ps_vent : vent; ps_drv : drv }.

Definition ps_set_state (p : pst) (s : Z) : pst := mk_ps s (ps_until p) (ps_fired p) (ps_faults p) (ps_press p) (ps_vent p) (ps_drv p).
Definition ps_set_until (p : pst) (n : Z) : pst := mk_ps (ps_state p) n (ps_fired p) (ps_faults p) (ps_press p) (ps_vent p) (ps_drv p).
Definition ps_set_fired (p : pst) (n : Z) : pst := mk_ps (ps_state p) (ps_until p) n (ps_faults p) (ps_press p) (ps_vent p) (ps_drv p).
Definition ps_set_faults (p : pst) (f : fid -> fault) : pst := mk_ps (ps_state p) (ps_until p) (ps_fired p) f (ps_press p) (ps_vent p) (ps_drv p).
Definition ps_set_press (p : pst) (a : act) : pst := mk_ps (ps_state p) (ps_until p) (ps_fired p) (ps_faults p) a (ps_vent p) (ps_drv p).
Definition ps_set_vent (p : pst) (v : vent) : pst := mk_ps (ps_state p) (ps_until p) (ps_fired p) (ps_faults p) (ps_press p) v (ps_drv p).
Definition ps_set_drv (p : pst) (d : drv) : pst := mk_ps (ps_state p) (ps_until p) (ps_fired p) (ps_faults p) (ps_press p) (ps_vent p) d.

(** PropController.cpp:12-83 and the static state objects *)
Definition pst_init (s : Z) : pst :=
  mk_ps s 0 0 (fun i => fault_make (match i with PressurizeFail => 0 | _ => 10 end))
        (mk_a 0 0 0) (mk_vt (mk_a 0 0 0) T1 1 0) drv_init.

(** reading and evaluating a fault *)
Definition ps_read (i : fid) (p : pst) : pst * bool :=
  let '(f, b) := fault_read (ps_faults p i) in (ps_set_faults p (fupd (ps_faults p) i f), b).
Definition ps_eval (cc : Z) (i : fid) (b : bool) (p : pst) : pst :=
  ps_set_faults p (fupd (ps_faults p) i (fault_evaluate cc b (ps_faults p i))).

(** check_faults, :133-138 *)
Definition check_faults (cc : Z) (s : sens) (p : pst) : pst :=
  ps_eval cc Tank1Hot (s_t1_hot s) (ps_eval cc Tank2Hot (s_t2_hot s) (ps_eval cc Overpressure (s_over s) p)).

(** is_valid_schedule, :181-188 *)
Definition is_valid_schedule (l : list Z) (n : Z) : bool := forallb (fun v => v <=? 1000) l && (1 <? n).
Definition validate_schedule (c : pcfg) (p : pst) : bool := is_valid_schedule (c_sched c) (ps_until p).

(** min_cycles_needed, :190-196 *)
Definition min_cycles_needed (c : pcfg) : Z := u32 (u32 (c_max_press c * u32 (c_fill c + c_cool c)) + 4).

(** the can_enter functions *)
Definition was (p : pst) (s : Z) : bool := ps_state p =? s.

(** PropState_HandlingFault::can_enter, :515-532 *)
Definition can_handling_fault (s : sens) (p : pst) : pst * bool :=
  if was p p_disabled then (p, false) else
  let '(p1, b1) := ps_read PressurizeFail p in
  let '(p2, b2) := ps_read Overpressure p1 in
  let '(p3, b3) := ps_read Tank2Hot p2 in
  let '(p4, b4) := ps_read Tank1Hot p3 in
  (p4, s_func s && (b1 || b2 || b3 || b4)).
(** PropState_Venting::can_enter, :574-583 *)
Definition can_venting (s : sens) (p : pst) : pst * bool :=
  let '(p2, b2) := ps_read Overpressure p in
  let '(p3, b3) := ps_read Tank2Hot p2 in
  let '(p4, b4) := ps_read Tank1Hot p3 in
  (p4, s_func s && (b2 || b3 || b4)).
(** PropState_Pressurizing::can_enter, :383-397 *)
Definition can_pressurizing (c : pcfg) (s : sens) (p : pst) : bool :=
  (was p p_await_pressurizing || was p p_idle) && (ps_until p <=? u32 (min_cycles_needed c - 1)) && validate_schedule c p && s_func s.
(** PropState_AwaitPressurizing::can_enter, :280-287 *)
Definition can_await_pressurizing (c : pcfg) (s : sens) (p : pst) : bool := was p p_idle && validate_schedule c p && s_func s.
(** PropState_AwaitFiring::can_enter, :433-438 *)
Definition can_await_firing (c : pcfg) (s : sens) (p : pst) : bool := validate_schedule c p && was p p_pressurizing && s_func s.
(** PropState_Firing::can_enter, :467-473 *)
Definition can_firing (s : sens) (p : pst) : bool := was p p_await_firing && (ps_until p =? 0) && s_func s.

(** can_enter_state, :140-143, 145-170; an undefined state is the disabled one *)
Definition can_enter (c : pcfg) (s : sens) (st : Z) (p : pst) : pst * bool :=
  if st =? p_idle then (p, s_func s)
  else if st =? p_await_pressurizing then (p, can_await_pressurizing c s p)
  else if st =? p_pressurizing then (p, can_pressurizing c s p)
  else if st =? p_await_firing then (p, can_await_firing c s p)
  else if st =? p_firing then (p, can_firing s p)
  else if st =? p_venting then can_venting s p
  else if st =? p_handling_fault then can_handling_fault s p
  else (p, true).

(** determine_faulted_tank, :585-606, with the short circuits of [&&] and [||] *)
Definition tank2_wants (p : pst) : pst * bool :=
  let '(p1, b1) := ps_read Tank2Hot p in if b1 then (p1, true) else ps_read Overpressure p1.
Definition determine_faulted_tank (p : pst) : pst * Z :=
  let '(p1, w1) := ps_read Tank1Hot p in
  let '(p2, both) := if w1 then tank2_wants p1 else (p1, false) in
  if both then (p2, if vt_choice (ps_vent p2) =? 1 then 2 else 1)
  else let '(p3, w) := ps_read Tank1Hot p2 in (p3, if w then 1 else 2).

(** the enter functions, :232-237, 307-312, 377-381, 475-480, 559-572, 656-659 *)
Definition enter (st : Z) (p : pst) : pst :=
  if st =? p_pressurizing then ps_set_press p (mk_a 0 (a_valve (ps_press p)) 0)
  else if st =? p_firing then ps_set_fired (ps_set_drv p (drv_start (ps_drv p))) (u32 (ps_fired p + 1))
  else if st =? p_venting then
    let '(p1, t) := determine_faulted_tank p in
    let v := ps_vent p1 in
    let a := vt_act v in
    ps_set_vent p1 (if t =? 2 then mk_vt (mk_a 0 (Z.to_nat (vt_saved v)) 0) T2 t (vt_saved v)
                    else mk_vt (mk_a 0 (a_valve a) 0) T1 t (vt_saved v))
  else if (st =? p_idle) || (st =? p_await_pressurizing) || (st =? p_await_firing) || (st =? p_handling_fault) then p
  else ps_set_drv p (drv_reset (ps_drv p)).

(** CountdownTimer::tick, :212-216 *)
Definition timer_tick (n : Z) : Z := if 0 <? n then n - 1 else n.

(** ActionCycleOpenClose::evaluate on the driver, :314-371, for the values of its virtual functions: tank, valve to use
    next, open and close periods, limit.  [None]: out of cycles. *)
Definition act_run (t : tank) (next_valve : nat) (fill close mx : Z) (a : act) (d : drv) : option (act * drv) * bool :=
  if drv_is_open t (a_valve a) d then
    if a_timer a =? 0 then (Some (mk_a (a_count a) (a_valve a) close, drv_valve t (a_valve a) false d), false) else (Some (a, d), false)
  else if a_timer a =? 0 then
    if mx <=? a_count a then (None, false)
    else (Some (mk_a (u32 (a_count a + 1)) next_valve fill, drv_valve t next_valve true d), true)
  else (Some (a, d), false).

(** PropState_Pressurizing::evaluate with handle_out_of_cycles, :399-427 *)
Definition eval_pressurizing (cc : Z) (c : pcfg) (s : sens) (p : pst) : pst * Z :=
  if ps_until p <=? 1 then (ps_set_drv p (drv_reset (ps_drv p)), p_idle) else
  let '(p1, hf) := can_handling_fault s p in
  if hf then (ps_set_drv p1 (drv_reset (ps_drv p1)), p_handling_fault) else
  let a0 := ps_press p1 in
  let a := mk_a (a_count a0) (a_valve a0) (timer_tick (a_timer a0)) in
  let p2 := ps_set_press p1 a in
  if s_threshold s then (ps_set_drv p2 (drv_valve T1 (a_valve a) false (ps_drv p2)), p_await_firing)
  else if negb (validate_schedule c p2) then (p2, p_disabled)
  else match fst (act_run T1 (c_t1_valve c) (c_fill c) (c_cool c) (c_max_press c) a (ps_drv p2)) with
       | Some (a', d') => (ps_set_drv (ps_set_press p2 a') d', p_pressurizing)
       | None =>
         let p3 := ps_set_faults p2 (fupd (ps_faults p2) PressurizeFail (fault_signal cc (ps_faults p2 PressurizeFail))) in
         let '(p4, b) := ps_read PressurizeFail p3 in
         if b then (ps_set_drv p4 (drv_reset (ps_drv p4)), p_handling_fault) else (p4, p_await_firing)
       end.

(** PropState_Venting::has_succeeded, :608-615; [&&] reads the overpressure fault only if tank 2 is not hot *)
Definition vent_succeeded (p : pst) : pst * bool :=
  if vt_choice (ps_vent p) =? 1 then let '(p1, b) := ps_read Tank1Hot p in (p1, negb b)
  else let '(p1, b) := tank2_wants p in (p1, negb b).

(** PropState_Venting: evaluate of the base class with select_valve_index and handle_out_of_cycles, :617-645 *)
Definition eval_venting (c : pcfg) (p : pst) : pst * Z :=
  let v0 := ps_vent p in
  let a0 := vt_act v0 in
  let a := mk_a (a_count a0) (a_valve a0) (timer_tick (a_timer a0)) in
  let p1 := ps_set_vent p (mk_vt a (vt_tank v0) (vt_choice v0) (vt_saved v0)) in
  let '(p2, ok) := vent_succeeded p1 in
  if ok then (ps_set_drv p2 (drv_valve (vt_tank v0) (a_valve a) false (ps_drv p2)), p_idle)
  else
    let first := vt_choice v0 =? 1 in
    let next_valve := if first then c_t1_valve c else Z.to_nat (vt_saved v0 mod 4) in
    match act_run (vt_tank v0) next_valve (c_fill c) (c_close c) (c_max_vent c) a (ps_drv p2) with
    | (Some (a', d'), started) =>
      let saved := if started && negb first then u32 (vt_saved v0 + 1) else vt_saved v0 in
      (ps_set_drv (ps_set_vent p2 (mk_vt a' (vt_tank v0) (vt_choice v0) saved)) d', p_venting)
    | (None, _) =>
      if c_max_vent c =? 1 then (p2, p_handling_fault)
      else
        let '(p3, x) := if first then tank2_wants p2 else (p2, false) in
        let '(p4, y) := if vt_choice v0 =? 2 then ps_read Tank1Hot p3 else (p3, false) in
        if x || y then (p4, p_handling_fault) else (p4, p_disabled)
    end.

(** PropState_Manual::evaluate, :661-687 *)
Definition eval_manual (c : pcfg) (p : pst) : pst :=
  let o := fun t i v d => drv_valve t i (0 <? v) d in
  let sv := fun k => nth k (c_sched c) 0 in
  ps_set_drv p (o T1 1%nat (c_inter2 c) (o T1 0%nat (c_inter1 c) (o T2 3%nat (sv 3%nat) (o T2 2%nat (sv 2%nat)
     (o T2 1%nat (sv 1%nat) (o T2 0%nat (sv 0%nat) (ps_drv p))))))).

(** the evaluate functions: new state object contents and the state asked for, :239-245, 265-274, 294-301, 445-456,
    482-509, 539-554, 678-687 *)
Definition evaluate (cc : Z) (c : pcfg) (s : sens) (st : Z) (p : pst) : pst * Z :=
  if st =? p_idle then
    let '(p1, hf) := can_handling_fault s p in
    if hf then (p1, p_handling_fault)
    else if can_pressurizing c s p1 then (p1, p_pressurizing)
    else if can_await_pressurizing c s p1 then (p1, p_await_pressurizing) else (p1, p_idle)
  else if st =? p_await_pressurizing then
    let '(p1, hf) := can_handling_fault s p in
    if hf then (p1, p_handling_fault)
    else if can_pressurizing c s p1 then (p1, p_pressurizing) else (p1, p_await_pressurizing)
  else if st =? p_pressurizing then eval_pressurizing cc c s p
  else if st =? p_await_firing then
    let '(p1, hf) := can_handling_fault s p in
    if hf then (p1, p_handling_fault)
    else if ps_until p1 =? 0 then (ps_set_drv p1 (fst (drv_set_schedule (c_sched c) (ps_drv p1))), p_firing)
    else (p1, p_await_firing)
  else if st =? p_firing then
    let '(p1, hf) := can_handling_fault s p in
    if hf then (ps_set_drv p1 (drv_reset (ps_drv p1)), p_handling_fault)
    else if u32 (fold_right Z.add 0 (d_sched (ps_drv p1))) =? 0 then (ps_set_drv p1 (drv_disable (ps_drv p1)), p_idle)
    else (p1, p_firing)
  else if st =? p_venting then eval_venting c p
  else if st =? p_handling_fault then
    let '(p1, v) := can_venting s p in
    if v then (p1, p_venting)
    else let '(p2, hf) := can_handling_fault s p1 in if hf then (p2, p_handling_fault) else (p2, p_idle)
  else if st =? p_manual then (eval_manual c p, p_manual)
  else (ps_set_drv p (drv_reset (ps_drv p)), p_disabled).

(** execute, :96-131 *)
Definition prop_ctrl (cc : Z) (c : pcfg) (s : sens) (p : pst) : pst :=
  let p1 := check_faults cc s p in
  let p2 := if 0 <? ps_until p1 then ps_set_until p1 (ps_until p1 - 1) else p1 in
  let '(p3, next) := evaluate cc c s (ps_state p2) p2 in
  if next =? ps_state p2 then p3
  else
    let '(p4, ok) := can_enter c s next p3 in
    if ok then enter next (ps_set_state p4 next) else ps_set_state p4 p_disabled.
