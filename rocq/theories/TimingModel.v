(** Timing of control tasks: /repo/src/fsw/FCCode/TimedControlTask.hpp, ClockManager.cpp:16-20 and the task list of
    MainControlLoop.cpp:116-174, for the flight computer build (no DESKTOP).

    The clock is a list of the real times, in microseconds, at which the program reads it, in order; [micros()] is the
    real time modulo 2^32.  The time a task's body takes is whatever passes between two readings.  The average wait is
    a float in the code; here it is an exact rational. *)
From Verif Require Import Base.
From Coq Require Import QArith.
Local Open Scope Z_scope.

(** get_system_time, TimedControlTask.hpp:56-62 *)
Definition micros (t : Z) : Z := u32 t.

(** the loop of wait_duration, :95-99: the readings up to the first at which the time is over; [None] if the list ends
    before *)
Fixpoint wait_loop (start delta : Z) (ts : list Z) : option (Z * list Z) :=
  match ts with
  | [] => None
  | r :: rest => if u32 (micros r - micros start) <? delta then wait_loop start delta rest else Some (r, rest)
  end.
(** wait_duration, :92-100 *)
Definition wait_duration (delta : Z) (ts : list Z) : option (Z * list Z) :=
  match ts with [] => None | s :: rest => wait_loop s delta rest end.

(** the timing fields of a task, :117-131 *)
Record tstat := mk_ts { num_lates : Z; avg_wait : Q; ct_duration : Z }.

(** wait_until_time, :160-172.  [cnt] is control_cycle_count.  Result: new fields, time waited, remaining readings. *)
Definition wait_until_time (e cnt : Z) (st : tstat) (ts : list Z) : option (tstat * Z * list Z) :=
  match ts with
  | [] => None
  | t :: rest =>
    let delta := s32 (u32 (e - micros t)) in
    let lates := if delta <? 0 then u32 (num_lates st + 1) else num_lates st in
    let wait := Z.max delta 0 in
    let avg := ((avg_wait st * inject_Z cnt + inject_Z wait) / inject_Z (u32 (cnt + 1)))%Q in
    match wait_duration wait rest with
    | None => None
    | Some (_, rest') => Some (mk_ts lates avg (ct_duration st), wait, rest')
    end
  end.

(** what one task did: when its body began and ended, and how long it was held back *)
Record trun := mk_tr { tr_begin : Z; tr_end : Z; tr_wait : Z; tr_stat : tstat }.

(** execute_on_time, :139-151.  Result: the record, the new control_task_end_time, the remaining readings. *)
Definition execute_on_time (e cnt duration : Z) (st : tstat) (ts : list Z) : option (trun * Z * list Z) :=
  match wait_until_time e cnt st ts with
  | None => None
  | Some (st1, w, rest) =>
    match rest with
    | now :: later :: rest' =>
      Some (mk_tr now later w (mk_ts (num_lates st1) (avg_wait st1) (u32 (micros later - micros now))), u32 (e + duration), rest')
    | _ => None
    end
  end.

(** the tasks of a control cycle one after the other, MainControlLoop.cpp:146-170 *)
Fixpoint run_tasks (e cnt : Z) (tasks : list (Z * tstat)) (ts : list Z) : option (list trun * list Z) :=
  match tasks with
  | [] => Some ([], ts)
  | (d, st) :: more =>
    match execute_on_time e cnt d st ts with
    | None => None
    | Some (r, e', rest) =>
      match run_tasks e' cnt more rest with None => None | Some (rs, rest') => Some (r :: rs, rest') end
    end
  end.

(** one control cycle: ClockManager::execute (ClockManager.cpp:16-20), then the tasks.  [cnt] is the count before. *)
Definition control_cycle (cnt : Z) (tasks : list (Z * tstat)) (ts : list Z) : option (list trun * Z * list Z) :=
  match ts with
  | [] => None
  | t :: rest =>
    let cnt' := u32 (cnt + 1) in
    match run_tasks (u32 (micros t + 1100)) cnt' tasks rest with
    | None => None
    | Some (rs, rest') => Some (rs, cnt', rest')
    end
  end.

(** the durations of MainControlLoop.cpp:126-142 in the order of :146-168 *)
Definition durations : list Z :=
  [6400; 15000; 28000; 16400; 10000; 5000; 1000; 1000; 1000; 1000; 10000; 5000; 28000; 1000; 30000; 10000; 16600].
