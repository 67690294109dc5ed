(** The deployment wait across reboots: the mission manager's cycles (MissionModel) over the saved fields (SavedModel). *)
From Verif Require Import Base EEPROMModel FaultModel FaultHandlerModel MissionModel.
Open Scope Z_scope.

(** The saved values of successive cycles of one boot that starts in world [w0] and stays in startup.  The EEPROM controller runs last
    in a cycle (/repo/src/fsw/FCCode/MainControlLoop.cpp:154-168), so the row of cycle k holds what the mission manager left after
    k cycles; pan.deployment.elapsed is the eighth saved field (SavedModel.flight_saved).  Simplification: one history per row, the
    inputs of different rows need not agree (this allows more boots than exist). *)
Definition waiting (w0 : world) (rows : list (list Z)) : Prop :=
  forall k row, nth_error rows k = Some row -> exists l w, length l = S k /\ Forall (fun g => g = false) l /\ history l w0 w /\
    wmission w = m_startup /\ nth_error row 7 = Some (mm_elapsed (wm w)).

(** Boots one after another, each ended by a power cut while the satellite is still waiting; the complete cycles of each.
    A boot reads the EEPROM (MainControlLoop.cpp:82) and begins in startup at cycle 0 (MissionManager.cpp:88, TimedControlTask.cpp:5). *)
Inductive wait_boots (fs : list pfield) (defaults : list Z) : list Z -> list nat -> list Z -> Prop :=
| wb_none e : wait_boots fs defaults e [] e
| wb_more e l e1 r w0 hist vals j e2 : wait_boots fs defaults e l e1 ->
    eeprom_init fs defaults e1 = Some r -> nth_error r 7 = Some (mm_elapsed (wm w0)) -> wmission w0 = m_startup -> wcc w0 = 0 ->
    Forall (fun row => length row = length fs) (hist ++ [vals]) -> waiting w0 (hist ++ [vals]) ->
    eeprom_crash fs hist vals j e1 = Some e2 -> wait_boots fs defaults e (l ++ [length hist]) e2.

(** cycles begun in those boots *)
Definition cycles_begun (l : list nat) : Z := fold_right (fun k s => Z.of_nat k + 1 + s) 0 l.
