(** What a fault's history means, without counters.  Histories are read backwards: the head is the
    most recent operation. *)
From Verif Require Import Base FaultModel.

Fixpoint overridden (h : list fop) : bool :=
  match h with [] => false | SetOverride b :: _ => b | _ :: t => overridden t end.
Fixpoint suppressed (h : list fop) : bool :=
  match h with [] => false | SetSuppress b :: _ => b | _ :: t => suppressed t end.
Fixpoint threshold (p : Z) (h : list fop) : Z :=
  match h with [] => p | SetPersistence q :: _ => q | _ :: t => threshold p t end.
(** an unsignal command not yet consumed by a reading *)
Fixpoint unsignal_pending (h : list fop) : bool :=
  match h with [] => false | SetUnsignal b :: _ => b | Read :: _ => false | _ :: t => unsignal_pending t end.
(** what held at the previous reading *)
Fixpoint at_previous_read (P : list fop -> bool) (h : list fop) : bool :=
  match h with [] => false | Read :: t => P t | _ :: t => at_previous_read P t end.

(** does the most recent operation clear the count? *)
Definition clears (h : list fop) : bool :=
  match h with
  | Unsignal :: _ => true
  | Read :: t => (overridden t && negb (at_previous_read overridden t))
                 || (suppressed t && negb (at_previous_read suppressed t)) || unsignal_pending t
  | _ => false
  end.
Fixpoint signalled_this_cycle (h : list fop) : bool :=
  match h with [] => false | Tick :: _ => false | Signal :: _ => true | _ :: t => signalled_this_cycle t end.
(** cycles whose first signal came after the last clearing *)
Fixpoint signalled_cycles (h : list fop) : Z :=
  match h with
  | [] => 0
  | o :: t => if clears (o :: t) then 0
              else match o with
                   | Signal => if signalled_this_cycle t then signalled_cycles t else 1 + signalled_cycles t
                   | _ => signalled_cycles t
                   end
  end.
Fixpoint cycles (h : list fop) : Z :=
  match h with [] => 0 | Tick :: t => 1 + cycles t | _ :: t => cycles t end.

Definition faulted_after_read (p : Z) (h : list fop) : bool :=
  if overridden h then true else if suppressed h then false
  else threshold p h <? signalled_cycles (Read :: h).
