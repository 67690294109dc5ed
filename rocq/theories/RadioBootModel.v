(** A boot in which the ground cannot be heard, the radio being off. *)
From Verif Require Import Base FaultModel FaultHandlerModel MissionModel.
Open Scope Z_scope.

(** [n] cycles of the mission manager without ground commands.  A radio that is off stays off by itself: the radio manager only counts
    cycles then (/repo/src/fsw/FCCode/QuakeManager.cpp:121-123, 149-152), and radio.state is readable only (:49), written elsewhere
    only by the mission manager and the radio's fault handler, which MissionModel includes.  qfh.state is written by the ground and
    that handler alone (QuakeFaultHandler.cpp:20-24, 53-57). *)
Inductive silent : nat -> world -> world -> Prop :=
| silent_0 w : silent 0 w w
| silent_S n w w1 w2 i w3 : silent n w w1 -> environment false w1 w2 -> (wradio w1 = r_disabled -> wradio w2 = r_disabled) ->
    q_state (hq (wh w2)) = q_state (hq (wh w1)) -> mission_execute i w2 = Some w3 -> silent (S n) w w3.
(** the radio and its fault handler as the constructors leave them, QuakeManager.cpp:67, QuakeFaultHandler.cpp:20 *)
Definition radio_at_boot (w : world) : Prop := wradio w = r_disabled /\ q_state (hq (wh w)) = q_unfaulted.
