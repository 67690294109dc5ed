(** The published concept of operations and what the safety responses are to do. *)
From Verif Require Import Base FaultModel FaultHandlerModel FaultHandlerSpec MissionModel.

Definition response_safehold (w : world) : Prop := h_enabled (wh w) = true /\ wants_safehold (wh w).
Definition response_standby (w : world) : Prop := h_enabled (wh w) = true /\ ~ wants_safehold (wh w) /\ wants_standby (wh w).
Definition no_response (w : world) : Prop := ~ response_safehold w /\ ~ response_standby w.

(** edges of the state graph, with what must hold at the start of the cycle that takes them *)
Inductive conops (i : inputs) (w : world) : Z -> Z -> Prop :=
| edge_stay s : conops i w s s
| edge_deploy_ok : deployment_wait <= 100 * mm_elapsed (wm w) -> conops i w m_startup m_detumble
| edge_deploy_hold : deployment_wait <= 100 * mm_elapsed (wm w) -> conops i w m_startup m_initialization_hold
| edge_detumbled : i_att_valid i = true -> i_slow i = true -> conops i w m_detumble m_standby
| edge_follower : mm_desig (wm w) = d_follower -> conops i w m_standby m_follower
| edge_leader : mm_desig (wm w) = d_leader -> conops i w m_standby m_leader
| edge_follower_near : i_rel_valid i = true -> i_close i = true -> conops i w m_follower m_follower_close_approach
| edge_leader_near : i_rel_valid i = true -> i_close i = true -> conops i w m_leader m_leader_close_approach
| edge_dock s : In s [m_follower_close_approach; m_leader_close_approach] -> i_rel_valid i = true -> i_dock i = true ->
    mm_dock_cmd (wm w) = true -> conops i w s m_docking
| edge_docked : i_docked i = true -> conops i w m_docking m_docked
| edge_dock_timeout : i_docked i = false -> conops i w m_docking m_standby
| edge_fault_standby s : In s [m_follower; m_leader; m_follower_close_approach; m_leader_close_approach; m_docking; m_docked] ->
    response_standby w -> conops i w s m_standby
| edge_fault_safehold s : s <> m_startup -> s <> m_manual -> response_safehold w -> conops i w s m_safehold
| edge_undefined s t : ~ (0 <= s <= 11) -> t = m_safehold \/ (t = m_standby /\ response_standby w) -> conops i w s t.

(** disarmed: what a safehold response must leave behind *)
Definition disarmed (w : world) : Prop :=
  wmission w = m_safehold /\ wprop w = p_disabled /\ mm_adcs (wm w) = a_startup /\
  mm_adcs_dcdc (wm w) = false /\ mm_sph_dcdc (wm w) = false /\ mm_desig (wm w) = d_undecided.

(** a stay in docking that began with [docking_entry_ccno] not yet recorded: [k] cycles spent in docking so far *)
Inductive docking_stay : Z -> world -> Prop :=
| stay_enter w : wmission w = m_docking -> mm_have_entry (wm w) = false -> docking_stay 0 w
| stay_more k w w1 i w2 : docking_stay k w -> environment false w w1 -> mission_execute i w1 = Some w2 ->
    wmission w2 = m_docking -> docking_stay (k + 1) w2.

(** a stay in safehold without further safehold responses, [k] cycles after the response that started it *)
Inductive safehold_stay : Z -> world -> Prop :=
| safe_enter i w w' : response_safehold w -> wmission w <> m_startup -> wmission w <> m_manual ->
    mission_execute i w = Some w' -> safehold_stay 0 w'
| safe_more k w w1 i w2 : safehold_stay k w -> environment false w w1 -> ~ response_safehold w1 ->
    mission_execute i w1 = Some w2 -> safehold_stay (k + 1) w2.

(** flights from boot in which docking is never left by a fault response or by a ground command *)
Inductive orderly : world -> Prop :=
| ord_boot n w : orderly (mission_construct n w)
| ord_cycle g i w w1 w2 : orderly w -> environment g w w1 -> (g = true -> wmission w <> m_docking) ->
    (wmission w1 = m_docking -> no_response w1) -> mission_execute i w1 = Some w2 -> orderly w2.

(** the satellite went into docking by itself [k] cycles ago and is still there *)
Inductive in_docking_for : Z -> world -> Prop :=
| id_enter i w w1 : orderly w -> wmission w <> m_docking -> cycle false i w w1 -> wmission w1 = m_docking -> in_docking_for 0 w1
| id_more k i w w1 : in_docking_for k w -> cycle false i w w1 -> wmission w1 = m_docking -> in_docking_for (k + 1) w1.
