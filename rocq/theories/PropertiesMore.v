(** Further theorems for properties stated in other files, and C180. *)
From Coq Require Import QArith String.
From Verif Require Import Base MoreProofs.
From Verif Require GPSTimeModel GPSTimeSpec BitstreamModel BitstreamSpec BitstreamProofs TimingModel TimingSpec
  AdcsModel AdcsSpec AdcsRefuteProofs AdcsRefuteProofs FaultModel FaultHandlerModel FaultHandlerSpec MissionModel MissionSpec MissionWitness FaultHandlerMoreProofs ConsoleModel ConsoleSpec ConsoleWitness.
Local Open Scope string_scope. Local Open Scope list_scope. Local Open Scope Z_scope.

Section C03.
Import GPSTimeModel.
(** C03.  A time compared with a count of nanoseconds: a time that is not set is later than every count. *)
Theorem C03_compare_with_count : forall g t,
  (eq_n g t = true <-> g_set g = true /\ gtime_ns g = t) /\ (ne_n g t = true <-> ~ (g_set g = true /\ gtime_ns g = t)) /\
  (lt_n g t = true <-> g_set g = true /\ gtime_ns g < t) /\ (ge_n g t = true <-> ~ (g_set g = true /\ gtime_ns g < t)) /\
  (le_n g t = true <-> g_set g = true /\ gtime_ns g <= t) /\ (gt_n g t = true <-> ~ (g_set g = true /\ gtime_ns g <= t)).
Proof. exact compare_count. Qed.
Print Assumptions C03_compare_with_count.
Example C03_count_case : let g := mk_gtime 1 2 3 true in let t := gtime_ns g in
  t = 604800002000003 /\ (eq_n g t, ne_n g t, lt_n g t, ge_n g t, le_n g t, gt_n g t) = (true, false, false, true, true, false) /\
  gt_n (mk_gtime 1 2 3 false) (2 ^ 62) = true.
Proof. vm_compute. auto. Qed.
End C03.

Section C05.
Import BitstreamModel BitstreamSpec BitstreamProofs.
(** C05.  Appending a stream to another copies all bits it has left, and no others. *)
Theorem C05_append_stream : forall s o, wf_bs s -> wf_bs o -> (remaining o <= remaining s)%nat ->
  exists s' o', bs_write_bs o s = Some (s', o', remaining o) /\ remaining o' = 0%nat /\
    position s' = (position s + remaining o)%nat /\ bs_buf o' = bs_buf o /\
    all_bits s' = overwrite (all_bits s) (position s) (skipn (position o) (all_bits o)).
Proof. exact append_stream. Qed.
Print Assumptions C05_append_stream.
Example C05_append_case : let s := mk_bs (repeat (repeat false 8) 3) 0 2 in let o := mk_bs (repeat (repeat true 8) 2) 0 3 in
  wf_bs s /\ wf_bs o /\ remaining o = 13%nat /\ remaining s = 22%nat /\
  match bs_write_bs o s with Some (s', _, n) => n = 13%nat /\ all_bits s' = repeat false 2 ++ repeat true 13 ++ repeat false 9 | None => False end.
Proof. cbv zeta. repeat split; try (repeat constructor; fail); try (vm_compute; lia); vm_compute; reflexivity. Qed.
End C05.

Section C84.
Import TimingModel TimingSpec.
(** C84.  The slots of the flight program: the seventeen tasks from the clock to the EEPROM do not start before these
    offsets (microseconds) into the cycle. *)
Theorem C84_flight_slots : forall cnt tasks t ts rs cnt' rest, map fst tasks = durations -> steady t ts ->
  control_cycle cnt tasks (t :: ts) = Some (rs, cnt', rest) ->
  Forall2 (fun s r => t + s <= tr_begin r)
    [1100; 7500; 22500; 50500; 66900; 76900; 81900; 82900; 83900; 84900; 85900; 95900; 100900; 128900; 129900; 159900; 169900] rs.
Proof. exact flight_slots. Qed.
Print Assumptions C84_flight_slots.
(** those offsets are 1100 microseconds and the time given to the tasks before; the last number is the end of the last task's time *)
Theorem C84_slot_table : map (fun k => 1100 + fold_right Z.add 0 (firstn k durations)) (seq 0 18) =
    [1100; 7500; 22500; 50500; 66900; 76900; 81900; 82900; 83900; 84900; 85900; 95900; 100900; 128900; 129900; 159900; 169900; 186500] /\
  List.length durations = 17%nat.
Proof. vm_compute. auto. Qed.
Print Assumptions C84_slot_table.
Example C84_flight_case : let ts := map (fun n => 1000 * Z.of_nat n) (seq 1 300) in steady 0 ts /\
  match control_cycle 5 (map (fun d => (d, mk_ts 0 0 0)) durations) (0 :: ts) with
  | Some (rs, c, _) => List.length rs = 17%nat /\ c = 6 | None => False end.
Proof.
  cbv zeta. split; [|vm_compute; auto]. split.
  - vm_compute. repeat (apply Sorted.Sorted_cons; [|first [apply Sorted.HdRel_nil | apply Sorted.HdRel_cons; discriminate]]). apply Sorted.Sorted_nil.
  - apply Forall_forall. intros t H. apply in_map_iff in H as (n & <- & H). apply in_seq in H. lia.
Qed.
End C84.

Section Adcs.
Import AdcsModel AdcsSpec AdcsRefuteProofs AdcsRefuteProofs.
(** C73.  The box is reported functional by the monitor whenever it answers, whatever its registers hold. *)
Theorem C73_functional_partial : forall z r, o_ok (monitor z (answers r)) = true.
Proof. exact says_who. Qed.
Print Assumptions C73_functional_partial.
(** C79.  Two millivolts per step of the converter. *)
Theorem C79_volts : forall c, (adc_volt c == (2 # 1000) * inject_Z c)%Q.
Proof. exact code_volts. Qed.
Print Assumptions C79_volts.
(** C68.  The size of a torque command is what the torque potentiometer of the wheel is told, if the transfer succeeds; else
    it keeps what it had. *)
Theorem C68_torque_size_partial : forall e c h h' i, (i < 3)%nat -> fn h 6%nat = true -> fn h (7 + i)%nat = true -> rwa_actuate e 2 c h = Some h' ->
  let t := vnth (body_to_rwa c) i in
  (e_pot e = false -> pot h' = pot h) /\
  (e_pot e = true -> uc (if Qlt_le_dec t 0 then - t else t) 0 max_torque = Some (pot h' i)).
Proof. exact torque_ramp. Qed.
Print Assumptions C68_torque_size_partial.
Example C68_size_case : e_pot se0 = true /\
  (match rwa_actuate se0 2 torque1 (hw0 all_up) with Some h => Z.ltb 0 (pot h 0%nat) | None => false end) = true.
Proof. vm_compute. auto. Qed.
End Adcs.

Section C22.
Import FaultModel FaultHandlerModel FaultHandlerSpec MissionModel MissionSpec MissionWitness FaultHandlerMoreProofs.
(** C22.  Out of detumble: in the first cycle with a valid and slow enough rotation the wheels' supply is switched on, in the
    next such cycle the satellite goes to standby, where the wheels are used; otherwise nothing changes. *)
Theorem C22_detumbled : forall i w, wmission w = m_detumble -> ~ response_safehold w ->
  exists w', mission_execute i w = Some w' /\
    (i_att_valid i = true -> i_slow i = true -> mm_adcs_dcdc (wm w') = true /\
      if mm_adcs_dcdc (wm w) then wmission w' = m_standby /\ mm_adcs (wm w') = a_point_standby else wmission w' = m_detumble) /\
    (~ (i_att_valid i = true /\ i_slow i = true) -> wmission w' = m_detumble /\ wm w' = wm w).
Proof. exact slowed_down. Qed.
Print Assumptions C22_detumbled.
Example C22_detumbled_case :
  let w0 := mk_world (mk_h 50 (wit_bus m_detumble p_idle 0 0 20) no_faults (mk_q 0 0 true) (mk_k true one_day 100 0) (mk_v 20 0 false) true)
             (mk_m a_detumble d_undecided false true true 0 one_day 106 true false false false 0 0 false) in
  let i := mk_in true true false false false false in
  snd (main_execute main_machines (wh w0)) = RNone /\
  match mission_execute i w0 with
  | Some w1 => wmission w1 = m_detumble /\ mm_adcs_dcdc (wm w1) = true /\
      match mission_execute i w1 with Some w2 => wmission w2 = m_standby | None => False end
  | None => False end.
Proof. vm_compute. auto. Qed.
End C22.

Section C180.
Import ConsoleModel ConsoleSpec ConsoleWitness.
(** C180.  A message that names a field and cannot be acted on is answered by one error with the reason, and changes
    nothing else.  [wrong] (MoreProofs.v) lists the reasons. *)
Theorem C180_refused_partial : forall pl buf i d c n m e,
  as_cstr buf (j_field d) = Some (Some n) -> wrong buf (find_cf (c_reg c)) n d m e ->
  do_message pl buf i d c = Some (mk_con (c_reg c) (c_mt c) (c_len c) (c_out c ++ [RError (Some n) m e]), i).
Proof. exact refused_with_reason. Qed.
Print Assumptions C180_refused_partial.
(** a message without a field is not answered at all *)
Theorem C180_no_field_refuted : forall pl buf i d c, j_field d = JNull -> j_mode d = JNum 114 \/ j_mode d = JNum 119 ->
  do_message pl buf i d c = Some (c, i).
Proof. intros pl buf i d c F [M|M]; unfold do_message; rewrite F, M; reflexivity. Qed.
Print Assumptions C180_no_field_refuted.
(** a field given as a number is looked up by a null pointer *)
Theorem C180_field_number_refuted : forall pl buf i d c z, j_field d = JNum z -> j_mode d = JNum 114 -> do_message pl buf i d c = None.
Proof. intros pl buf i d c z F M. unfold do_message. rewrite F, M. reflexivity. Qed.
Print Assumptions C180_field_number_refuted.
(** on a line: an unknown name, an unknown mode, a mode given as a string, no value, no mode *)
Example C180_case :
  let out l := match process_line 6 teensy mini [] (tx l) c0 with Returned c => Some (c_out c) | _ => None end in
  out "{""mode"":114,""field"":""a.c""}" = Some [RError (Some (tx "a.c")) ReadMode InvalidFieldName] /\
  out "{""mode"":115,""field"":""a.b""}" = Some [RError (Some (tx "a.b")) ReadMode InvalidMode] /\
  out "{""mode"":""r"",""field"":""a.b""}" = Some [RError (Some (tx "a.b")) Unspecified InvalidModeNotChar] /\
  out "{""mode"":119,""field"":""a.b""}" = Some [RError (Some (tx "a.b")) WriteMode MissingFieldVal] /\
  out "{""field"":""a.b""}" = Some [RError (Some (tx "a.b")) Unspecified MissingMode] /\ out "{""mode"":114}" = Some [].
Proof. vm_compute. repeat split. Qed.
(** the names the stepping of cycles (C152) looks for *)
Example C152_names : cycle_start = tx "cycle.start" /\ cycle_auto = tx "cycle.auto" /\ true_text = tx "true" /\ false_text = tx "false".
Proof. vm_compute. auto. Qed.
End C180.
