(** From a condition on board to the response of the mission manager: the tasks that watch the conditions, the faults they
    evaluate, and the mission manager, run one after the other in every control cycle (MainControlLoop.cpp:139-152).

    The watching tasks are reduced to what they tell their fault in a cycle:
    - GomspaceController.cpp:200-205 and :268, the battery fault.  It is evaluated on the battery field before the field is
      refreshed from the housekeeping data of this cycle; a failed reading leaves the old data in place (Gomspace.cpp, get_hk);
    - ADCSBoxMonitor.cpp:181 and 233-236, attitude computer and wheel faults;
    - Estimators/AttitudeEstimator.cpp:176 and 230, the attitude fault (see also NavModel and C133).
    Faults of the propulsion system and of the GPS receiver are left to the environment. *)
From Verif Require Import Base FaultModel FaultHandlerModel MissionModel.

(** what is observed in one cycle: housekeeping data if they could be read, the threshold in force (a ground-writable field), and
    the conditions of the other faults *)
Record obs := mk_obs { o_hk : option Z; o_threshold : Z; o_cond : fid -> bool }.

(** the battery field beside everything else *)
Record craft := mk_craft { c_vbatt : Z; c_world : world }.

Definition owned : list fid := [LowBatt; Functional; Wheel1; Wheel2; Wheel3; WheelPot; AttEstimator].

Definition told (o : obs) (vbatt : Z) (i : fid) : bool :=
  match i with LowBatt => vbatt <? o_threshold o | _ => o_cond o i end.

(** one cycle in which ground commands none of these faults; [w1] is the state the mission manager finds *)
Definition craft_cycle (ground : bool) (o : obs) (inp : inputs) (c : craft) (w1 : world) (c' : craft) : Prop :=
  environment ground (c_world c) w1 /\
  (forall i, In i owned -> hf (wh w1) i = fault_evaluate (wcc w1) (told o (c_vbatt c) i) (hf (wh (c_world c)) i)) /\
  mission_execute inp w1 = Some (c_world c') /\
  c_vbatt c' = match o_hk o with Some v => v | None => c_vbatt c end.

(** a boot: the mission manager is constructed, the cycle count is zero and the faults are as constructed; [p] gives their
    persistences, the battery field is whatever [v] is *)
Definition booted (p : fid -> Z) (v : Z) (c : craft) : Prop :=
  (exists bootcount w, c_world c = mission_construct bootcount w) /\
  wcc (c_world c) = 0 /\ c_vbatt c = v /\ forall i, In i owned -> hf (wh (c_world c)) i = fault_make (p i).

(** cycles of any number since the boot, most recent first; persistences are not changed *)
Inductive flight (p : fid -> Z) (v : Z) : list obs -> craft -> Prop :=
| fl_boot c : booted p v c -> flight p v [] c
| fl_cycle os c g o inp w1 c' : flight p v os c -> craft_cycle g o inp c w1 c' -> flight p v (o :: os) c'.
