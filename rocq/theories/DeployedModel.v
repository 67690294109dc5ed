(** pan.deployed across reboots: the mission manager's cycles (MissionModel) over the saved fields (SavedModel). *)
From Verif Require Import Base EEPROMModel FaultModel FaultHandlerModel MissionModel.
Open Scope Z_scope.

(** One cycle.  pan.deployed is readable only and looked up by no other task (/repo/src/fsw/FCCode/MissionManager.cpp:38, 52; no other
    use in /repo/src/fsw/FCCode), so outside the mission manager it stays. *)
Definition dcycle (w w' : world) : Prop :=
  exists g i w1, environment g w w1 /\ mm_deployed (wm w1) = mm_deployed (wm w) /\ mission_execute i w1 = Some w'.
(** the worlds after successive cycles *)
Fixpoint dtrace (w : world) (ws : list world) : Prop :=
  match ws with [] => True | w' :: t => dcycle w w' /\ dtrace w' t end.
Definition flag (b : bool) : Z := if b then 1 else 0.
(** One boot: the EEPROM is read (MainControlLoop.cpp:82), pan.deployed being the seventh saved field (SavedModel.flight_saved); cycles follow, in each of which the EEPROM
    controller runs after the mission manager (MainControlLoop.cpp:154-168); in the last the power is cut after [j] fields. *)
Inductive dboot (fs : list pfield) (defaults : list Z) (e : list Z) : list world -> list (list Z) -> list Z -> Prop :=
| dboot_run r w0 ws hist vals j e' :
    eeprom_init fs defaults e = Some r -> nth_error r 6 = Some (flag (mm_deployed (wm w0))) -> dtrace w0 ws ->
    Forall2 (fun w row => length row = length fs /\ nth_error row 6 = Some (flag (mm_deployed (wm w)))) ws (hist ++ [vals]) ->
    eeprom_crash fs hist vals j e = Some e' -> dboot fs defaults e ws hist e'.
(** boots one after another, and all their worlds *)
Inductive dboots (fs : list pfield) (defaults : list Z) : list Z -> list world -> list Z -> Prop :=
| dboots_none e : dboots fs defaults e [] e
| dboots_more e l e1 ws hist e2 : dboots fs defaults e l e1 -> dboot fs defaults e1 ws hist e2 -> dboots fs defaults e (l ++ ws) e2.
