(** What the fault handlers are to answer, in terms of the fields they read.  Independent of the handlers' code. *)
From Verif Require Import Base FaultModel FaultHandlerModel.

(** all constituents run one after the other *)
Fixpoint responses (ms : list machine) (h : hworld) : list resp :=
  match ms with
  | [] => []
  | m :: t => snd (m h) :: responses t (fst (m h))
  end.

Definition is_safehold (r : resp) : bool := match r with RSafehold => true | _ => false end.
Definition is_standby (r : resp) : bool := match r with RStandby => true | _ => false end.
Definition most_severe (rs : list resp) : resp :=
  if existsb is_safehold rs then RSafehold else if existsb is_standby rs then RStandby else RNone.

(** the fault reads as faulted: overridden, or not suppressed and past its persistence *)
Definition faulted (h : hworld) (i : fid) : Prop := snd (fault_read (hf h i)) = true.

(** elapsed cycles on the wrapping counter *)
Definition silent_for (h : hworld) : Z := (hc h - b_last_comms (hb h)) mod 2 ^ 32.
Definition in_stage_for (h : hworld) : Z := (hc h - q_entry (hq h)) mod 2 ^ 32.
Definition radio_off (h : hworld) : Prop := b_radio (hb h) = r_disabled.

(** conditions for a safehold recommendation *)
Definition wants_safehold (h : hworld) : Prop :=
  let m := b_mission (hb h) in
  (* low battery, anywhere past startup except docking *)
  (In m [m_detumble; m_initialization_hold; m_standby; m_follower; m_leader; m_follower_close_approach;
         m_leader_close_approach; m_docked] /\ faulted h LowBatt) \/
  (* wheel faults, not in initialization hold *)
  (In m [m_detumble; m_standby; m_follower; m_leader; m_follower_close_approach; m_leader_close_approach; m_docked] /\
   exists i, In i [Wheel1; Wheel2; Wheel3; WheelPot] /\ faulted h i) \/
  (* lost attitude *)
  (In m [m_standby; m_follower; m_leader; m_follower_close_approach; m_leader_close_approach] /\ faulted h AttEstimator) \/
  (* three radio power cycles without success *)
  (q_enabled (hq h) = true /\ q_state (hq h) = q_safehold /\ ~ radio_off h /\ one_day <= silent_for h).

(** the radio handler asks for standby *)
Definition quake_wants_standby (h : hworld) : Prop :=
  q_enabled (hq h) = true /\
  ( (q_state (hq h) = q_unfaulted /\ ~ radio_off h /\ one_day <= silent_for h) \/
    (q_state (hq h) = q_forced_standby /\ (one_day <= in_stage_for h \/ (~ radio_off h /\ one_day <= silent_for h))) \/
    (q_powercycle_1 <= q_state (hq h) <= q_powercycle_3 /\ (one_day / 3 <= in_stage_for h \/ one_day <= silent_for h)) ).

(** the GPS handler asks for standby: [dead] is its fault after this cycle's evaluation; in close approach the time
    without an RTK fix, counted from entering close approach or from the last fix, exceeds the ground-set wait *)
Definition piksi_bad (h : hworld) : bool :=
  let m := b_mission (hb h) in let p := b_piksi (hb h) in
  negb (existsb (Z.eqb m) [m_startup; m_detumble; m_initialization_hold])
  && existsb (Z.eqb p) [k_crc_error; k_data_error; k_no_data_error].
Definition piksi_dead_now (h : hworld) : Prop :=
  snd (fault_read (fault_evaluate (hc h) (piksi_bad h) (hf h PiksiDead))) = true.
Definition last_fix (h : hworld) : Z := if b_piksi (hb h) =? k_fixed_rtk then hc h else k_last_rtk (hk h).
Definition piksi_wants_standby (h : hworld) : Prop :=
  k_enabled (hk h) = true /\
  (piksi_dead_now h \/
   (In (b_mission (hb h)) [m_follower_close_approach; m_leader_close_approach] /\
    ( (last_fix h <= b_enter_ca (hb h) /\ k_no_cdgps_wait (hk h) < (hc h - b_enter_ca (hb h)) mod 2 ^ 32) \/
      (b_enter_ca (hb h) < last_fix h /\ k_delay_wait (hk h) < (hc h - last_fix h) mod 2 ^ 32) ))).

Definition prop_wants_standby (h : hworld) : Prop := b_prop (hb h) = p_handling_fault \/ b_prop (hb h) = p_venting.

Definition wants_standby (h : hworld) : Prop :=
  (In (b_mission (hb h)) [m_standby; m_follower; m_leader; m_follower_close_approach; m_leader_close_approach; m_docked] /\
   faulted h PressurizeFail) \/
  quake_wants_standby h \/ piksi_wants_standby h \/ prop_wants_standby h.

(** ** Loss of communication, as a function of the number of cycles since the last exchange *)
Definition third : Z := one_day / 3.
Definition stage (n : Z) : Z :=
  if n <? one_day then q_unfaulted
  else if n <? 2 * one_day then q_forced_standby
  else if n <? 2 * one_day + third then q_powercycle_1
  else if n <? 2 * one_day + 2 * third then q_powercycle_2
  else if n <? 2 * one_day + 3 * third then q_powercycle_3
  else q_safehold.
Definition stage_response (n : Z) : resp :=
  if n <? one_day then RNone else if n <=? 2 * one_day + 3 * third then RStandby else RSafehold.
Definition power_cycle_at (n : Z) : bool :=
  (n =? 2 * one_day) || (n =? 2 * one_day + third) || (n =? 2 * one_day + 2 * third).

(** cycle [n] after the last exchange, at cycle [L]: the handler is run with the clock at [L + n], whatever else
    changed, but the radio is on whenever the handler waits for messages *)
Inductive silence (L : Z) : Z -> hworld -> resp -> Prop :=
| silence_start h : hc h = u32 L -> b_last_comms (hb h) = u32 L -> q_enabled (hq h) = true ->
    q_state (hq h) = q_unfaulted -> silence L 0 h RNone
| silence_step n h r h1 h2 r2 : silence L n h r ->
    hq h1 = hq h -> hc h1 = u32 (L + (n + 1)) -> b_last_comms (hb h1) = u32 L ->
    (q_state (hq h1) = q_unfaulted \/ q_state (hq h1) = q_forced_standby \/ q_state (hq h1) = q_safehold -> ~ radio_off h1) ->
    quake_execute h1 = (h2, r2) -> silence L (n + 1) h2 r2.
