(** Model of src/common/Fault.cpp.  [cc] is *Fault::cc, the control cycle count, 32 bits, incremented at
    the start of each cycle by ClockManager::execute (src/fsw/FCCode/ClockManager.cpp:16-20). *)
From Verif Require Import Base.

Record fault := mk_flt {
  ft_flag : bool;          (* the state field's own value *)
  ft_num : Z;              (* num_consecutive_signals *)
  ft_last : Z;             (* last_fault_time *)
  ft_prev_o : bool; ft_prev_s : bool;
  ft_override : bool; ft_suppress : bool; ft_unsignal : bool; ft_persistence : Z
}.

(** Fault::Fault, Fault.cpp:5-21 *)
Definition fault_make (persistence : Z) : fault := mk_flt false 0 0 false false false false false (u32 persistence).

Definition with_num (f : fault) (n l : Z) : fault :=
  mk_flt (ft_flag f) n l (ft_prev_o f) (ft_prev_s f) (ft_override f) (ft_suppress f) (ft_unsignal f) (ft_persistence f).
Definition with_flag (f : fault) (b : bool) : fault :=
  mk_flt b (ft_num f) (ft_last f) (ft_prev_o f) (ft_prev_s f) (ft_override f) (ft_suppress f) (ft_unsignal f) (ft_persistence f).

(** Fault::signal, Fault.cpp:28-38 *)
Definition fault_signal (cc : Z) (f : fault) : fault :=
  let f1 := if (ft_last f <? cc) || (cc =? 0) then with_num f (u32 (ft_num f + 1)) cc else f in
  with_flag f1 (ft_persistence f1 <? ft_num f1).

(** Fault::unsignal, Fault.cpp:40-42 *)
Definition fault_unsignal (f : fault) : fault := with_num f 0 (ft_last f).

(** Fault::evaluate, Fault.cpp:23-26 *)
Definition fault_evaluate (cc : Z) (flag : bool) (f : fault) : fault :=
  if flag then fault_signal cc f else fault_unsignal f.

(** Fault::process_commands, Fault.cpp:77-91 *)
Definition fault_commands (f : fault) : fault :=
  let f1 := if negb (ft_prev_o f) && ft_override f then with_num f 0 (ft_last f) else f in
  let f2 := if negb (ft_prev_s f1) && ft_suppress f1 then with_num f1 0 (ft_last f1) else f1 in
  let f3 := mk_flt (ft_flag f2) (ft_num f2) (ft_last f2) (ft_override f2) (ft_suppress f2)
                   (ft_override f2) (ft_suppress f2) (ft_unsignal f2) (ft_persistence f2) in
  if ft_unsignal f3 then
    mk_flt (ft_flag f3) 0 (ft_last f3) (ft_prev_o f3) (ft_prev_s f3) (ft_override f3) (ft_suppress f3) false (ft_persistence f3)
  else f3.

(** Fault::is_faulted, Fault.cpp:59-75 *)
Definition fault_read (f : fault) : fault * bool :=
  let f1 := fault_commands f in
  let f2 := with_flag f1 (ft_persistence f1 <? ft_num f1) in
  (f2, if ft_override f2 then true else if ft_suppress f2 then false else ft_flag f2).

(** What can happen to a fault: the clock, its owner, and ground writing its writable fields (the fault's own
    value "<name>.base" is writable too). *)
Inductive fop := Tick | Signal | Unsignal | Read
  | SetBase (b : bool) | SetOverride (b : bool) | SetSuppress (b : bool) | SetUnsignal (b : bool) | SetPersistence (p : Z).

Definition fault_op (cf : Z * fault) (o : fop) : Z * fault :=
  let '(cc, f) := cf in
  match o with
  | Tick => (u32 (cc + 1), f)
  | Signal => (cc, fault_signal cc f)
  | Unsignal => (cc, fault_unsignal f)
  | Read => (cc, fst (fault_read f))
  | SetBase b => (cc, with_flag f b)
  | SetOverride b => (cc, mk_flt (ft_flag f) (ft_num f) (ft_last f) (ft_prev_o f) (ft_prev_s f) b (ft_suppress f) (ft_unsignal f) (ft_persistence f))
  | SetSuppress b => (cc, mk_flt (ft_flag f) (ft_num f) (ft_last f) (ft_prev_o f) (ft_prev_s f) (ft_override f) b (ft_unsignal f) (ft_persistence f))
  | SetUnsignal b => (cc, mk_flt (ft_flag f) (ft_num f) (ft_last f) (ft_prev_o f) (ft_prev_s f) (ft_override f) (ft_suppress f) b (ft_persistence f))
  | SetPersistence p => (cc, mk_flt (ft_flag f) (ft_num f) (ft_last f) (ft_prev_o f) (ft_prev_s f) (ft_override f) (ft_suppress f) (ft_unsignal f) p)
  end.

(** a history, most recent operation first, from boot: cycle count 0 *)
Fixpoint fault_after (p : Z) (h : list fop) : Z * fault :=
  match h with
  | [] => (0, fault_make p)
  | o :: t => fault_op (fault_after p t) o
  end.
