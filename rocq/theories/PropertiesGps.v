(** * The link to the GPS receiver *)
From Verif Require Import Base SbpModel SbpSpec SbpCrcProofs SbpParseProofs SbpStreamProofs SbpProofs SbpTaskProofs SbpPortProofs SbpWitness SbpMoreProofs.

(** * C116 Messages of the GPS receiver are recognised however the bytes are grouped *)
Theorem C116_messages_delivered : forall s reads, parser_boot s -> Forall (Forall is_byte) reads ->
  exists s' l, delivered s reads = Some (s', l) /\ length l = length reads /\ messages (concat reads) (map view (concat l)).
Proof. exact delivered_messages. Qed.
Print Assumptions C116_messages_delivered.
Theorem C116_contents_determined : forall l a b, Forall is_byte l -> messages l a -> messages l b -> a = b.
Proof. exact messages_unique. Qed.
Print Assumptions C116_contents_determined.
(** a message sent by the library is one the specification knows *)
Theorem C116_sent_is_message : forall ty sender payload, two ty -> two sender -> (length payload < 256)%nat ->
  Forall is_byte ty -> Forall is_byte sender -> Forall is_byte payload ->
  sbp_send ty sender payload = framed ty sender payload (remainder (body ty sender payload)) /\ Forall is_byte (sbp_send ty sender payload).
Proof. exact sent_message. Qed.
Print Assumptions C116_sent_is_message.
Example C116_case : exists s' l, delivered some_parser [firstn 5 burst; firstn 40 (skipn 5 burst); []; skipn 45 burst] = Some (s', l) /\
  map (map view) l = [[]; [Good ty_time me pay_time]; []; [Good ty_pos me pay_pos; Good ty_vel me pay_vel; Good ty_base me pay_base]].
Proof. eexists _, _. split; vm_compute; reflexivity. Qed.

(** * C117 A damaged GPS message is never used *)
(** any change confined to 16 consecutive bits of type, sender and payload *)
Theorem C117_burst_noticed_partial : forall s ty sender payload ty' sender' payload' a w w' z,
  parser_boot s -> two ty -> two sender -> two ty' -> two sender' -> length payload' = length payload ->
  Forall is_byte (body ty sender payload) -> Forall is_byte (body ty' sender' payload') ->
  bits (body ty sender payload) = a ++ w ++ z -> bits (body ty' sender' payload') = a ++ w' ++ z ->
  length w = 16%nat -> length w' = 16%nat -> w <> w' ->
  let c := remainder (body ty sender payload) in
  exists s', delivered s [framed ty' sender' payload' c] = Some (s', [[Corrupt]]).
Proof. exact burst_noticed. Qed.
Print Assumptions C117_burst_noticed_partial.
(** any change confined to the checksum *)
Theorem C117_checksum_noticed_partial : forall s ty sender payload c0 c1,
  parser_boot s -> two ty -> two sender -> Forall is_byte (body ty sender payload) -> is_byte c0 -> is_byte c1 ->
  c0 + 256 * c1 <> remainder (body ty sender payload) ->
  exists s', delivered s [0x55 :: body ty sender payload ++ [c0; c1]] = Some (s', [[Corrupt]]).
Proof. exact checksum_noticed. Qed.
Print Assumptions C117_checksum_noticed_partial.
(** a cycle in which a damaged message ended changes no data *)
Theorem C117_cycle_unchanged_partial : forall k0 q0 cs, piksi_boot k0 -> Forall (Forall is_byte) (map snd cs) ->
  exists k q items0, gps_cycles (k0, q0) cs = Some (k, q) /\ messages (concat (map snd cs)) items0 /\
    forall delta bytes, Forall is_byte bytes ->
    exists k' q' items, gps_cycle (k, q) (delta, bytes) = Some (k', q') /\ messages (concat (map snd cs) ++ bytes) (items0 ++ items) /\
      (In Bad items -> data q' = data q /\ q_state q' = 6).
Proof. exact damaged_unchanged. Qed.
Print Assumptions C117_cycle_unchanged_partial.
(** the last byte of the payload and the byte after it, the low byte of the checksum, can change together unnoticed *)
Theorem C117_adjacent_bytes_refuted : forall s ty sender payload b, parser_boot s -> two ty -> two sender ->
  Forall is_byte (body ty sender (payload ++ [b])) ->
  let c := remainder (body ty sender (payload ++ [b])) in
  let damaged := 0x55 :: body ty sender (payload ++ [Z.lxor b 0x89]) ++ [Z.lxor (c mod 256) 0xA1; c / 256] in
  exists s' e, delivered s [damaged] = Some (s', [[e]]) /\ view e = Good ty sender (payload ++ [Z.lxor b 0x89]) /\ Z.lxor b 0x89 <> b.
Proof. exact adjacent_unnoticed. Qed.
Print Assumptions C117_adjacent_bytes_refuted.
Example C117_case : exists a w w' z, bits (body ty_vel me pay_vel) = a ++ w ++ z /\ bits (body ty_vel me (pay_vel ++ [])) = a ++ w ++ z /\
  bits (body ty_vel me ([1] ++ tl pay_vel)) = a ++ w' ++ z /\ length w = 16%nat /\ length w' = 16%nat /\ w <> w'.
Proof.
  exists (firstn 40 (bits (body ty_vel me pay_vel))), (firstn 16 (skipn 40 (bits (body ty_vel me pay_vel)))),
    (firstn 16 (skipn 40 (bits (body ty_vel me ([1] ++ tl pay_vel))))), (skipn 56 (bits (body ty_vel me pay_vel))).
  repeat split; try (vm_compute; reflexivity). vm_compute. discriminate.
Qed.

(** * C118 Reading the GPS receiver ends and stays inside its buffers *)
Theorem C118_no_overrun : forall k q steps, piksi_boot k -> Forall byte_step steps -> gps_run (port_boot, (k, q)) steps <> None.
Proof. exact gps_never_overruns. Qed.
Print Assumptions C118_no_overrun.
Example C118_case : exists p k q, gps_run (port_boot, (gps0, gps_boot)) (map Byte burst ++ [Interrupt; Cycle]) = Some (p, (k, q)) /\ q_state q = 1.
Proof. eexists _, _, _. split; [vm_compute; reflexivity|reflexivity]. Qed.

(** * C119 A message shorter than its format is not used *)
(** every message at least as long as its format: what is published stands in the messages *)
Theorem C119_full_messages_partial : forall k0 q0 cs, piksi_boot k0 -> Forall (Forall is_byte) (map snd cs) ->
  exists k q items0, gps_cycles (k0, q0) cs = Some (k, q) /\ messages (concat (map snd cs)) items0 /\
    forall delta bytes, Forall is_byte bytes ->
    exists k' q' items, gps_cycle (k, q) (delta, bytes) = Some (k', q') /\ messages (concat (map snd cs) ++ bytes) (items0 ++ items) /\
      (full_length items -> published q delta items q').
Proof. exact full_published. Qed.
Print Assumptions C119_full_messages_partial.
(** a position of which only the time was sent: the coordinates are those of an older, unrelated message *)
Theorem C119_short_message_refuted : exists k q, gps_cycles (gps0, gps_boot) [(500, msg_log ++ msg_time ++ msg_short ++ msg_vel)] = Some (k, q) /\
  messages (msg_log ++ msg_time ++ msg_short ++ msg_vel) [Good [0x01; 0x04] me (repeat 7 40); Good ty_time me pay_time; Good ty_pos me tow4; Good ty_vel me pay_vel] /\
  q_state q = 0 /\ q_pos q = Some [504684633242211481; 506381209866536711; 506381209866536711].
Proof. exact short_message_used. Qed.
Print Assumptions C119_short_message_refuted.

(** * C120 Published GPS time, position, velocity and baseline belong to one instant *)
Theorem C120_same_instant : forall k0 q0 cs, piksi_boot k0 -> Forall (Forall is_byte) (map snd cs) ->
  exists k q items0, gps_cycles (k0, q0) cs = Some (k, q) /\ messages (concat (map snd cs)) items0 /\
    forall delta bytes, Forall is_byte bytes ->
    exists k' q' items, gps_cycle (k, q) (delta, bytes) = Some (k', q') /\ messages (concat (map snd cs) ++ bytes) (items0 ++ items) /\
      (full_length items ->
       (3 <= q_state q' /\ data q' = data q) \/
       exists pt pp pv, ~ In Bad items /\ delta <= 100000 /\
         last_payload ty_time items = Some pt /\ last_payload ty_pos items = Some pp /\ last_payload ty_vel items = Some pv /\
         tow_time pt = tow pp /\ tow_time pt = tow pv /\ 4 <= sats_used pp /\
         q_time q' = Some (time_value pt) /\ q_pos q' = Some (doubles pp) /\ q_vel q' = Some (ints pv) /\
         (q_state q' = 0 /\ q_base q' = q_base q \/
          exists pb, last_payload ty_base items = Some pb /\ tow pb = tow_time pt /\ q_base q' = Some (ints pb) /\
            (q_state q' = 1 /\ fix_mode pb = 1 \/ q_state q' = 2 /\ fix_mode pb = 0))).
Proof. exact same_instant. Qed.
Print Assumptions C120_same_instant.
Example C120_case : exists k q, gps_cycles (gps0, gps_boot) [(500, burst)] = Some (k, q) /\ q_state q = 1 /\ q_time q = Some (2128, 345618432, 0) /\
  full_length [Good ty_time me pay_time; Good ty_pos me pay_pos; Good ty_vel me pay_vel; Good ty_base me pay_base].
Proof. exact burst_case. Qed.

(** * C121 Velocity and baseline are published in metres per second and metres *)
(** the receiver sends millimetres; the number published is the number sent *)
Theorem C121_velocity_refuted : exists k q, gps_cycles (gps0, gps_boot) [(500, burst)] = Some (k, q) /\
  ints pay_vel = [7600 * 1000; 0; 0] /\ q_vel q <> Some [7600; 0; 0].
Proof. exact velocity_unit. Qed.
Print Assumptions C121_velocity_refuted.
Theorem C121_baseline_refuted : exists k q, gps_cycles (gps0, gps_boot) [(500, burst)] = Some (k, q) /\
  ints pay_base = [1000 * 1000; 0; 0] /\ q_base q <> Some [1000; 0; 0].
Proof. exact baseline_unit. Qed.
Print Assumptions C121_baseline_refuted.
(** whatever is published is a thousand times the number of metres, for every history *)
Theorem C121_thousandfold_partial : forall k0 q0 cs, piksi_boot k0 -> Forall (Forall is_byte) (map snd cs) ->
  exists k q items0, gps_cycles (k0, q0) cs = Some (k, q) /\ messages (concat (map snd cs)) items0 /\
    forall delta bytes, Forall is_byte bytes ->
    exists k' q' items, gps_cycle (k, q) (delta, bytes) = Some (k', q') /\ messages (concat (map snd cs) ++ bytes) (items0 ++ items) /\
      (full_length items ->
        (q_vel q' = q_vel q \/ exists pv, last_payload ty_vel items = Some pv /\ q_vel q' = Some (ints pv)) /\
        (q_base q' = q_base q \/ exists pb, last_payload ty_base items = Some pb /\ q_base q' = Some (ints pb))).
Proof. exact thousandfold. Qed.
Print Assumptions C121_thousandfold_partial.

(** * C122 The published delay is the age of the data *)
Theorem C122_single_burst_partial : forall p bs l, i_queue p = [] -> i_last_bytes p = 0 -> bs <> [] ->
  100 < u32 (u32 (i_count p + 1) - i_last_count p) -> small_gaps 0 l ->
  (length (bs ++ concat l) <= 1023)%nat -> Z.of_nat (length l) * 100 < 4294967296 ->
  exists p', take_bytes (ticks p (bs :: l)) = Some (bs ++ concat l, p') /\ i_delta p' = 100 * Z.of_nat (length l) /\ i_queue p' = [] /\ i_last_bytes p' = 0.
Proof. exact delay_of_burst. Qed.
Print Assumptions C122_single_burst_partial.
(** the first byte was seen 11 milliseconds before the reading, the delay says 0.8 *)
Theorem C122_pause_refuted : exists p l p', i_queue p = [] /\ i_last_bytes p = 0 /\ 100 < u32 (u32 (i_count p + 1) - i_last_count p) /\
  length l = 110%nat /\ take_bytes (ticks p (msg_time :: l)) = Some (msg_time ++ concat l, p') /\ i_delta p' = 800.
Proof. exact pause_delay. Qed.
Print Assumptions C122_pause_refuted.
(** less than 100 interrupts of silence before the burst: the delay counts from the burst before it *)
Theorem C122_early_burst_refuted : exists p l p', i_queue p = [] /\ i_last_bytes p = 0 /\
  length l = 10%nat /\ take_bytes (ticks p (msg_time :: l)) = Some (msg_time ++ concat l, p') /\ i_delta p' = 6000.
Proof. exact early_delay. Qed.
Print Assumptions C122_early_burst_refuted.
Example C122_case : let p := mk_port [] 0 1700 30 0 in i_queue p = [] /\ i_last_bytes p = 0 /\ 100 < u32 (u32 (i_count p + 1) - i_last_count p) /\
  small_gaps 0 ([msg_pos] ++ repeat [] 50 ++ [msg_vel] ++ repeat [] 300).
Proof. vm_compute. repeat split; repeat constructor. Qed.

(** * C123 A complete set of navigation messages is used *)
Theorem C123_one_reading_partial : forall k0 q0 cs, piksi_boot k0 -> Forall (Forall is_byte) (map snd cs) ->
  exists k q items0, gps_cycles (k0, q0) cs = Some (k, q) /\ messages (concat (map snd cs)) items0 /\
    forall delta bytes, Forall is_byte bytes ->
    exists k' q' items, gps_cycle (k, q) (delta, bytes) = Some (k', q') /\ messages (concat (map snd cs) ++ bytes) (items0 ++ items) /\
      (full_length items -> forall pt pp pv, usable delta items pt pp pv ->
         (last_payload ty_base items = None -> q_state q' = 0) /\
         (forall pb, last_payload ty_base items = Some pb -> tow pb = tow_time pt ->
            (fix_mode pb = 1 -> q_state q' = 1) /\ (fix_mode pb = 0 -> q_state q' = 2))).
Proof. exact complete_used. Qed.
Print Assumptions C123_one_reading_partial.
(** the set arrives in two readings *)
Theorem C123_two_readings_refuted : exists k q, gps_cycles (gps0, gps_boot) [(500, msg_time ++ msg_pos); (500, msg_vel ++ msg_base)] = Some (k, q) /\
  messages ((msg_time ++ msg_pos) ++ msg_vel ++ msg_base) [Good ty_time me pay_time; Good ty_pos me pay_pos; Good ty_vel me pay_vel; Good ty_base me pay_base] /\
  q_state q = 3 /\ data q = (None, None, None, None).
Proof. exact two_readings. Qed.
Print Assumptions C123_two_readings_refuted.
(** an unrelated message is damaged *)
Theorem C123_unrelated_damage_refuted : exists k q, gps_cycles (gps0, gps_boot) [(500, burst ++ 0x55 :: body [0x01; 0x04] me [7] ++ [0; 0])] = Some (k, q) /\
  messages (burst ++ 0x55 :: body [0x01; 0x04] me [7] ++ [0; 0]) [Good ty_time me pay_time; Good ty_pos me pay_pos; Good ty_vel me pay_vel; Good ty_base me pay_base; Bad] /\
  q_state q = 6 /\ data q = (None, None, None, None).
Proof. exact unrelated_damage. Qed.
Print Assumptions C123_unrelated_damage_refuted.
