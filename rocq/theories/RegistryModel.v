(** Model of src/common/StateFieldRegistry.cpp.  A field is a pointer: its identity [fd_ptr], the name it
    reports and its EEPROM save period. *)
From Verif Require Import Base.
From Coq Require Import String.

Record fld := mk_fld { fd_ptr : Z; fd_name : string; fd_period : Z }.

(** a Fault: the base field and its four command fields *)
Record flt := mk_fltptr { fp_base : fld; fp_suppress : fld; fp_override : fld; fp_unsignal : fld; fp_persistence : fld }.

(** StateFieldRegistry.hpp:18-23 *)
Record registry := mk_reg {
  rg_internal : list fld; rg_readable : list fld; rg_writable : list fld; rg_eeprom : list fld;
  rg_events : list fld; rg_faults : list fld }.
Definition empty_registry : registry := mk_reg [] [] [] [] [] [].

(** find_internal_field, find_readable_field, ..., StateFieldRegistry.cpp:5-59: all six are this search *)
Fixpoint find_in (l : list fld) (name : string) : option fld :=
  match l with
  | [] => None
  | f :: t => if String.eqb name (fd_name f) then Some f else find_in t name
  end.
Definition present (l : list fld) (name : string) : bool :=
  match find_in l name with Some _ => true | None => false end.

(** StateFieldRegistry.cpp:61-65 *)
Definition add_internal (r : registry) (f : fld) : registry * bool :=
  if present (rg_internal r) (fd_name f) then (r, false)
  else (mk_reg (rg_internal r ++ [f]) (rg_readable r) (rg_writable r) (rg_eeprom r) (rg_events r) (rg_faults r), true).

(** StateFieldRegistry.cpp:67-75 *)
Definition add_readable (r : registry) (f : fld) : registry * bool :=
  if present (rg_readable r) (fd_name f) then (r, false)
  else if 0 <? fd_period f then
    if present (rg_eeprom r) (fd_name f) then (r, false)
    else (mk_reg (rg_internal r) (rg_readable r ++ [f]) (rg_writable r) (rg_eeprom r ++ [f]) (rg_events r) (rg_faults r), true)
  else (mk_reg (rg_internal r) (rg_readable r ++ [f]) (rg_writable r) (rg_eeprom r) (rg_events r) (rg_faults r), true).

(** StateFieldRegistry.cpp:77-82 *)
Definition add_writable (r : registry) (f : fld) : registry * bool :=
  let '(r1, ok) := add_readable r f in
  if ok then
    if present (rg_writable r1) (fd_name f) then (r1, false)
    else (mk_reg (rg_internal r1) (rg_readable r1) (rg_writable r1 ++ [f]) (rg_eeprom r1) (rg_events r1) (rg_faults r1), true)
  else (r1, false).

(** StateFieldRegistry.cpp:84-88 *)
Definition add_event (r : registry) (f : fld) : registry * bool :=
  if present (rg_events r) (fd_name f) then (r, false)
  else (mk_reg (rg_internal r) (rg_readable r) (rg_writable r) (rg_eeprom r) (rg_events r ++ [f]) (rg_faults r), true).

Fixpoint add_writables (r : registry) (l : list fld) : registry * bool :=
  match l with
  | [] => (r, true)
  | f :: t => let '(r1, ok) := add_writable r f in if ok then add_writables r1 t else (r1, false)
  end.

(** StateFieldRegistry.cpp:90-100 *)
Definition add_fault (r : registry) (x : flt) : registry * bool :=
  if present (rg_faults r) (fd_name (fp_base x)) then (r, false)
  else
    let '(r1, ok) := add_writables r [fp_base x; fp_suppress x; fp_override x; fp_unsignal x; fp_persistence x] in
    if ok then (mk_reg (rg_internal r1) (rg_readable r1) (rg_writable r1) (rg_eeprom r1) (rg_events r1) (rg_faults r1 ++ [fp_base x]), true)
    else (r1, false).

Inductive rop := AddInternal (f : fld) | AddReadable (f : fld) | AddWritable (f : fld) | AddEvent (f : fld) | AddFault (x : flt).
Definition reg_op (r : registry) (o : rop) : registry * bool :=
  match o with
  | AddInternal f => add_internal r f
  | AddReadable f => add_readable r f
  | AddWritable f => add_writable r f
  | AddEvent f => add_event r f
  | AddFault x => add_fault r x
  end.
Definition reg_run (l : list rop) : registry := fold_left (fun r o => fst (reg_op r o)) l empty_registry.
