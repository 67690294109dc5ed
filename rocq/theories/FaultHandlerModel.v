(** Model of the fault handling layer of the flight computer: SimpleFaultHandler.cpp, QuakeFaultHandler.cpp,
    PiksiFaultHandler.cpp, PropFaultHandler.cpp and MainFaultHandler.cpp (all in src/fsw/FCCode).

    State fields shared through the registry are collected in [bus]; variables private to a handler stay in its own
    record.  [unsigned int], [unsigned char] and the 32-bit [size_t] of the flight computer are integers reduced
    explicitly with [u32].  Enumerations are their integer codes ( *_t.enum ); values outside an enumeration are
    possible since the fields are ground-writable integers. *)
From Verif Require Import Base FaultModel.

(** constants.hpp:8-38 (flight values: 170 ms per cycle) *)
Definition one_day : Z := 24 * 60 * 60 * 1000 / 170.

(** mission_state_t.enum *)
Definition m_startup : Z := 0.
Definition m_detumble : Z := 1.
Definition m_initialization_hold : Z := 2.
Definition m_standby : Z := 3.
Definition m_follower : Z := 4.
Definition m_leader : Z := 5.
Definition m_follower_close_approach : Z := 6.
Definition m_leader_close_approach : Z := 7.
Definition m_docking : Z := 8.
Definition m_docked : Z := 9.
Definition m_safehold : Z := 10.
Definition m_manual : Z := 11.
(** radio_state_t.enum *)
Definition r_config : Z := 4.
Definition r_disabled : Z := 5.
(** qfh_state_t.enum *)
Definition q_unfaulted : Z := 0.
Definition q_forced_standby : Z := 1.
Definition q_powercycle_1 : Z := 2.
Definition q_powercycle_2 : Z := 3.
Definition q_powercycle_3 : Z := 4.
Definition q_safehold : Z := 5.
(** prop_state_t.enum *)
Definition p_disabled : Z := 0.
Definition p_idle : Z := 1.
Definition p_venting : Z := 4.
Definition p_handling_fault : Z := 7.
(** piksi_mode_t.enum *)
Definition k_fixed_rtk : Z := 1.
Definition k_crc_error : Z := 6.
Definition k_data_error : Z := 8.
Definition k_no_data_error : Z := 9.

(** fault_response_t.enum *)
Inductive resp := RNone | RSafehold | RStandby.

(** The faults consulted by the handlers and by MissionManager. *)
Inductive fid := LowBatt | Functional | Wheel1 | Wheel2 | Wheel3 | WheelPot | PressurizeFail | AttEstimator
  | PiksiDead | Tank1Hot | Tank2Hot | Overpressure.
Definition fid_eq (a b : fid) : bool :=
  match a, b with
  | LowBatt, LowBatt | Functional, Functional | Wheel1, Wheel1 | Wheel2, Wheel2 | Wheel3, Wheel3 | WheelPot, WheelPot
  | PressurizeFail, PressurizeFail | AttEstimator, AttEstimator | PiksiDead, PiksiDead | Tank1Hot, Tank1Hot
  | Tank2Hot, Tank2Hot | Overpressure, Overpressure => true
  | _, _ => false
  end.

(** registry fields used by more than one of the modelled tasks *)
Record bus := mk_bus {
  b_mission : Z;      (* pan.state *)
  b_prop : Z;         (* prop.state *)
  b_radio : Z;        (* radio.state *)
  b_radio_pc : bool;  (* gomspace.power_cycle_output3_cmd *)
  b_last_comms : Z;   (* radio.last_comms_ccno *)
  b_max_vent : Z;     (* prop.max_venting_cycles *)
  b_piksi : Z;        (* piksi.state *)
  b_enter_ca : Z      (* pan.enter_close_approach_ccno *)
}.
Definition set_mission (b : bus) (v : Z) : bus :=
  mk_bus v (b_prop b) (b_radio b) (b_radio_pc b) (b_last_comms b) (b_max_vent b) (b_piksi b) (b_enter_ca b).
Definition set_prop (b : bus) (v : Z) : bus :=
  mk_bus (b_mission b) v (b_radio b) (b_radio_pc b) (b_last_comms b) (b_max_vent b) (b_piksi b) (b_enter_ca b).
Definition set_radio (b : bus) (v : Z) : bus :=
  mk_bus (b_mission b) (b_prop b) v (b_radio_pc b) (b_last_comms b) (b_max_vent b) (b_piksi b) (b_enter_ca b).
Definition set_radio_pc (b : bus) (v : bool) : bus :=
  mk_bus (b_mission b) (b_prop b) (b_radio b) v (b_last_comms b) (b_max_vent b) (b_piksi b) (b_enter_ca b).
Definition set_max_vent (b : bus) (v : Z) : bus :=
  mk_bus (b_mission b) (b_prop b) (b_radio b) (b_radio_pc b) (b_last_comms b) v (b_piksi b) (b_enter_ca b).
Definition set_enter_ca (b : bus) (v : Z) : bus :=
  mk_bus (b_mission b) (b_prop b) (b_radio b) (b_radio_pc b) (b_last_comms b) (b_max_vent b) (b_piksi b) v.

(** QuakeFaultHandler.hpp:78-92: cur_state ("qfh.state"), cur_state_entry_ccno, qfh_enable_f *)
Record quake := mk_q { q_state : Z; q_entry : Z; q_enabled : bool }.
(** PiksiFaultHandler.hpp:47-66: the two ground-set waits, the enable flag, last_rtkfix_ccno_f *)
Record piksi := mk_k { k_enabled : bool; k_no_cdgps_wait : Z; k_delay_wait : Z; k_last_rtk : Z }.
(** PropFaultHandler.h:20-37: saved_max_venting_cycles, num_cycles_both_venting, has_not_init *)
Record propfh := mk_v { v_saved : Z; v_num : Z; v_not_init : bool }.

(** what the handlers work on; [hc] is the control cycle count *)
Record hworld := mk_h {
  hc : Z; hb : bus; hf : fid -> fault; hq : quake; hk : piksi; hv : propfh; h_enabled : bool }.
Definition with_b (h : hworld) (b : bus) : hworld := mk_h (hc h) b (hf h) (hq h) (hk h) (hv h) (h_enabled h).
Definition with_f (h : hworld) (f : fid -> fault) : hworld := mk_h (hc h) (hb h) f (hq h) (hk h) (hv h) (h_enabled h).
Definition with_q (h : hworld) (q : quake) : hworld := mk_h (hc h) (hb h) (hf h) q (hk h) (hv h) (h_enabled h).
Definition with_k (h : hworld) (k : piksi) : hworld := mk_h (hc h) (hb h) (hf h) (hq h) k (hv h) (h_enabled h).
Definition with_v (h : hworld) (v : propfh) : hworld := mk_h (hc h) (hb h) (hf h) (hq h) (hk h) v (h_enabled h).

Definition fupd (fs : fid -> fault) (i : fid) (f : fault) : fid -> fault := fun j => if fid_eq i j then f else fs j.

(** reading a fault, Fault::is_faulted: answers and updates the fault's bookkeeping (FaultModel.fault_read) *)
Definition is_faulted (i : fid) (h : hworld) : hworld * bool :=
  let '(f, b) := fault_read (hf h i) in (with_f h (fupd (hf h) i f), b).

Definition machine := hworld -> hworld * resp.

(** SimpleFaultHandler::active_state_lists, SimpleFaultHandler.cpp:32-71 *)
Definition active_list_0 : list Z :=
  [m_initialization_hold; m_detumble; m_standby; m_follower; m_leader; m_follower_close_approach; m_leader_close_approach; m_docked].
Definition active_list_1 : list Z :=
  [m_standby; m_detumble; m_follower; m_leader; m_follower_close_approach; m_leader_close_approach; m_docked].
Definition active_list_2 : list Z :=
  [m_standby; m_follower; m_leader; m_follower_close_approach; m_leader_close_approach; m_docked].
Definition active_list_3 : list Z :=
  [m_standby; m_follower; m_leader; m_follower_close_approach; m_leader_close_approach].

(** SuperSimpleFaultHandler::execute and SimpleFaultHandler::determine_recommended_state,
    SimpleFaultHandler.cpp:15-30, 77-79.  [recommended] is safehold or standby (the assert at :11). *)
Definition simple_execute (i : fid) (active : list Z) (recommended : resp) : machine := fun h =>
  if existsb (Z.eqb (b_mission (hb h))) active then
    let '(h', b) := is_faulted i h in (h', if b then recommended else RNone)
  else (h, RNone).

(** ** QuakeFaultHandler.cpp *)

(** less_than_one_day_since_successful_comms, :143-146 *)
Definition recent_comms (h : hworld) : bool := u32 (hc h - b_last_comms (hb h)) <? one_day.
(** in_state_for_more_than_time, :148-151 *)
Definition in_state_for (h : hworld) (t : Z) : bool := t <=? u32 (hc h - q_entry (hq h)).
(** radio_is_disabled, :158-161 *)
Definition radio_is_disabled (h : hworld) : bool := b_radio (hb h) =? r_disabled.

(** transition_to, :53-57 *)
Definition q_to (h : hworld) (s : Z) : hworld := with_q h (mk_q s (hc h) (q_enabled (hq h))).

(** dispatch_unfaulted, :59-70 *)
Definition q_disp_unfaulted : machine := fun h =>
  if radio_is_disabled h || recent_comms h then (h, RNone) else (q_to h q_forced_standby, RStandby).

(** dispatch_forced_standby, :72-88 *)
Definition q_disp_forced : machine := fun h =>
  if in_state_for h one_day then
    (q_to (with_b h (set_radio_pc (set_radio (hb h) r_disabled) true)) q_powercycle_1, RStandby)
  else if radio_is_disabled h || recent_comms h then (q_to h q_unfaulted, RNone)
  else (h, RStandby).

(** dispatch_powercycle, :90-113 *)
Definition q_disp_powercycle (next : Z) : machine := fun h =>
  let h1 := if hc h <=? u32 (q_entry (hq h) + 1) then with_b h (set_radio (hb h) r_config) else h in
  if in_state_for h1 (one_day / 3) then
    let h2 := if negb (next =? q_safehold) then with_b h1 (set_radio_pc (set_radio (hb h1) r_disabled) true) else h1 in
    (q_to h2 next, RStandby)
  else if recent_comms h1 then (q_to h1 q_unfaulted, RNone)
  else (h1, RStandby).

(** dispatch_safehold, :130-141 *)
Definition q_disp_safehold : machine := fun h =>
  if radio_is_disabled h || recent_comms h then (q_to h q_unfaulted, RNone) else (h, RSafehold).

(** execute, :26-51 *)
Definition quake_execute : machine := fun h =>
  if negb (q_enabled (hq h)) then (h, RNone) else
  let s := q_state (hq h) in
  if s =? q_unfaulted then q_disp_unfaulted h
  else if s =? q_forced_standby then q_disp_forced h
  else if s =? q_powercycle_1 then q_disp_powercycle q_powercycle_2 h
  else if s =? q_powercycle_2 then q_disp_powercycle q_powercycle_3 h
  else if s =? q_powercycle_3 then q_disp_powercycle q_safehold h
  else if s =? q_safehold then q_disp_safehold h
  else (q_to h q_unfaulted, RNone).

(** ** PiksiFaultHandler.cpp *)

(** check_cdgps, :70-89 *)
Definition check_cdgps (h : hworld) : resp :=
  let close := b_enter_ca (hb h) in
  let last := k_last_rtk (hk h) in
  let duration := u32 (hc h - Z.max close last) in
  if (last <=? close) && (k_no_cdgps_wait (hk h) <? duration) then RStandby
  else if (close <? last) && (k_delay_wait (hk h) <? duration) then RStandby
  else RNone.

(** execute, :36-68 *)
Definition piksi_execute : machine := fun h =>
  if negb (k_enabled (hk h)) then (h, RNone) else
  let p := b_piksi (hb h) in
  let m := b_mission (hb h) in
  let should_fault :=
    negb (m =? m_startup) && negb (m =? m_detumble) && negb (m =? m_initialization_hold)
    && ((p =? k_crc_error) || (p =? k_no_data_error) || (p =? k_data_error)) in
  let h1 := with_f h (fupd (hf h) PiksiDead (fault_evaluate (hc h) should_fault (hf h PiksiDead))) in
  let '(h2, dead) := is_faulted PiksiDead h1 in
  if dead then (h2, RStandby) else
  let h3 := if p =? k_fixed_rtk then
              with_k h2 (mk_k (k_enabled (hk h2)) (k_no_cdgps_wait (hk h2)) (k_delay_wait (hk h2)) (hc h2)) else h2 in
  if (m =? m_follower_close_approach) || (m =? m_leader_close_approach) then (h3, check_cdgps h3) else (h3, RNone).

(** ** PropFaultHandler.cpp *)

(** both_tanks_want_to_vent, :63-69; [||] reads the overpressure fault only when tank 2 is not hot *)
Definition both_tanks (h : hworld) : hworld * bool :=
  let '(h1, t1) := is_faulted Tank1Hot h in
  let '(h2, t2) := is_faulted Tank2Hot h1 in
  let '(h3, t2') := if t2 then (h2, true) else is_faulted Overpressure h2 in
  (h3, t1 && t2').

(** handle_restore_values, :102-107 *)
Definition v_restore (h : hworld) : hworld :=
  with_v (with_b h (set_max_vent (hb h) (v_saved (hv h)))) (mk_v (v_saved (hv h)) 0 (v_not_init (hv h))).

(** handle_both_tanks_want_to_vent, :71-100 *)
Definition v_both (h : hworld) : hworld :=
  if v_num (hv h) =? 0 then
    with_v (with_b h (set_max_vent (hb h) 1)) (mk_v (b_max_vent (hb h)) (u32 (v_num (hv h) + 1)) (v_not_init (hv h)))
  else if b_prop (hb h) =? p_handling_fault then
    let h1 := with_v h (mk_v (v_saved (hv h)) (u32 (v_num (hv h) + 1)) (v_not_init (hv h))) in
    if v_saved (hv h1) <? v_num (hv h1) then v_restore (with_b h1 (set_prop (hb h1) p_disabled)) else h1
  else h.

(** execute, :38-61, and init, :23-36.  PropState::controller is taken to be set: the flight main loop constructs the
    PropController before its first cycle. *)
Definition prop_execute : machine := fun h =>
  let h0 := if v_not_init (hv h) then with_v h (mk_v (b_max_vent (hb h)) (v_num (hv h)) false) else h in
  let s := b_prop (hb h0) in
  if negb (s =? p_handling_fault) && negb (s =? p_venting) then (h0, RNone) else
  let '(h1, both) := both_tanks h0 in
  ((if both then v_both h1 else v_restore h1), RStandby).

(** ** MainFaultHandler.cpp *)

(** init, :15-70 *)
Definition main_machines : list machine :=
  [ simple_execute LowBatt active_list_0 RSafehold;
    simple_execute Wheel1 active_list_1 RSafehold;
    simple_execute Wheel2 active_list_1 RSafehold;
    simple_execute Wheel3 active_list_1 RSafehold;
    simple_execute WheelPot active_list_1 RSafehold;
    simple_execute PressurizeFail active_list_2 RStandby;
    simple_execute AttEstimator active_list_3 RSafehold;
    quake_execute; piksi_execute; prop_execute ].

(** the loop of execute, :79-95 *)
Fixpoint run_machines (ms : list machine) (h : hworld) (ret : resp) : hworld * resp :=
  match ms with
  | [] => (h, ret)
  | m :: t =>
    let '(h', r) := m h in
    match r with
    | RNone => run_machines t h' ret
    | RSafehold => (h', RSafehold)
    | RStandby => run_machines t h' RStandby
    end
  end.

(** execute, :72-96, for any list of constituent handlers *)
Definition main_execute (ms : list machine) : machine := fun h =>
  if negb (h_enabled h) then (h, RNone) else run_machines ms h RNone.
