(** When a condition calls for a response. *)
From Verif Require Import Base FaultModel FaultHandlerModel MissionModel ChainModel.

(** the battery voltage last read before the present cycle *)
Fixpoint last_read (v : Z) (os : list obs) : Z :=
  match os with
  | [] => v
  | o :: os => match o_hk o with Some x => x | None => last_read v os end
  end.
(** the condition of a fault in the most recent cycle of a history *)
Definition present (v : Z) (i : fid) (os : list obs) : bool :=
  match os with
  | [] => false
  | o :: os => match i with LowBatt => last_read v os <? o_threshold o | _ => o_cond o i end
  end.
(** for how many cycles it has been present without a break *)
Fixpoint present_for (v : Z) (i : fid) (os : list obs) : Z :=
  match os with
  | [] => 0
  | o :: t => if present v i (o :: t) then 1 + present_for v i t else 0
  end.

(** the mission states in which a fault leads to safehold *)
Definition guarded (i : fid) : list Z :=
  match i with
  | LowBatt => [m_detumble; m_initialization_hold; m_standby; m_follower; m_leader; m_follower_close_approach; m_leader_close_approach; m_docked]
  | Wheel1 | Wheel2 | Wheel3 | WheelPot => [m_detumble; m_standby; m_follower; m_leader; m_follower_close_approach; m_leader_close_approach; m_docked]
  | AttEstimator => [m_standby; m_follower; m_leader; m_follower_close_approach; m_leader_close_approach]
  | _ => []
  end.
(** three radio power cycles without success *)
Definition radio_lost (w : world) : Prop :=
  let h := wh w in q_enabled (hq h) = true /\ q_state (hq h) = q_safehold /\ b_radio (hb h) <> r_disabled /\
  one_day <= (hc h - b_last_comms (hb h)) mod 2 ^ 32.
(** hardware checked before the satellite starts to move by itself *)
Definition hardware : list fid := [Functional; Wheel1; Wheel2; Wheel3; WheelPot].
Definition safe (w : world) : Prop :=
  wmission w = m_safehold /\ mm_adcs (wm w) = a_startup /\ wprop w = p_disabled /\ mm_adcs_dcdc (wm w) = false /\ mm_sph_dcdc (wm w) = false.
