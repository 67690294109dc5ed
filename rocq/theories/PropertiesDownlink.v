From Verif Require Import Base IntSerModel DownlinkModel DownlinkSpec DownlinkProofs DownlinkGroundProofs DownlinkTableProofs.

(** Tables the constructor builds: every flow carries its id and fits (32 + 1 + 527 bits = a packet). *)
Theorem C09_constructed_tables : forall fds flows,
  (1 <= length fds <= 255)%nat -> Forall (fun fd => 0 <= fst (fst fd)) fds ->
  make_flows (length fds) fds = Done flows ->
  Forall2 (has_id (length fds)) flows (map (fun fd => fst (fst fd)) fds) /\
  Forall (fun f => packet_size f <= 527) flows.
Proof. intros fds flows H1 H2 H3. destruct (make_flows_spec _ _ _ H1 H2 H3) as (A & B & _). split; assumption. Qed.
Print Assumptions C09_constructed_tables.

(** C09.  A frame of one packet: marker 1, cycle count, active flows in order, zeros up to a byte;
    the rest of the buffer is untouched; whatever the buffer held. *)
Theorem C09_single_packet_frame : forall cc d d',
  length cc = 32%nat -> Forall (fun f => packet_size f <= 527) (ds_flows d) ->
  let telemetry := cc ++ flat_map (fun f => if fl_active f then fl_idbits f ++ concat (fl_fields f) else []) (ds_flows d) in
  (length telemetry <= 559)%nat ->
  dl_execute cc d = Done d' ->
  let used := (8 * ((length telemetry + 1) / 8) + 8)%nat in
  firstn used (ds_buf d') = true :: telemetry ++ repeat false (used - 1 - length telemetry) /\
  (forall p, (used <= p)%nat -> nth_error (ds_buf d') p = nth_error (ds_buf d) p) /\
  ds_size d' = Z.of_nat ((length telemetry + 8) / 8).
Proof.
  intros cc d d' HC HF telemetry HL HE used. unfold dl_execute in HE.
  destruct (build_frame cc (ds_flows d) (ds_buf d)) as [fs|] eqn:EB; [|discriminate].
  assert (ED : ds_buf d' = fs_buf fs /\ ds_size d' = compute_downlink_size false (ds_flows d)).
  { revert HE. cbn [ds_shift1 ds_shift2 ds_toggle ds_flows ds_buf ds_size].
    destruct (_ && _); [destruct (shift_flow_priorities _ _ _); cbn [obind]; try discriminate|cbn [obind]];
    cbn [ds_toggle ds_flows ds_buf ds_size]; (destruct (0 <? ds_toggle d); [destruct (toggle_flow _ _); cbn [obind]; try discriminate|]);
    intros HE; injection HE as <-; split; reflexivity. }
  destruct ED as [-> ->]. destruct (single_frame cc (ds_flows d) (ds_buf d) fs HC HF EB HL) as [A B].
  split; [exact A|]. split; [exact B|].
  rewrite (size_spec cc) by assumption. change (payload cc (ds_flows d)) with telemetry.
  assert (1 <= length telemetry)%nat by (unfold telemetry; rewrite app_length; lia).
  replace ((Z.of_nat (length telemetry) + 559) / 560) with 1 by lia. lia.
Qed.
Print Assumptions C09_single_packet_frame.

(** two active flows around an inactive one; ids 2 bits wide *)
Definition C09_table : list flow :=
  match make_flows 3 [(2, true, [val_bits 5 21; [true]]); (3, false, [val_bits 9 500]); (1, true, [val_bits 12 1234])] with
  | Done l => l | _ => [] end.
Example C09_case :
  let d := mk_ds C09_table (repeat true 80) 0 0 0 0 in
  let cc := val_bits 32 70000 in
  match dl_execute cc d with
  | Done d' => firstn 56 (ds_buf d') =
      [true] ++ cc ++ (val_bits 2 2 ++ val_bits 5 21 ++ [true]) ++ (val_bits 2 1 ++ val_bits 12 1234) ++ repeat false 1
      /\ skipn 56 (ds_buf d') = repeat true 24 /\ ds_size d' = 7
  | _ => False
  end /\ Forall (fun f => packet_size f <= 527) C09_table.
Proof. cbv zeta. split; [vm_compute; auto|]. repeat constructor; vm_compute; discriminate. Qed.

(** C10 (what does hold).  In a frame of any length every telemetry bit is at its place, except
    that position [64*k] is cleared for each continuation packet [k], and the markers themselves are
    left as they were.  Missing: the marker at [560*k] is not written (line 99 addresses byte
    offset/70). *)
Theorem C10_multi_packet_frame_partial : forall cc flows buf st,
  length cc = 32%nat -> Forall (fun f => packet_size f <= 527) flows ->
  build_frame cc flows buf = Some st ->
  let P := payload cc flows in
  let n := Z.of_nat (length P) in
  let damaged p := exists k, 1 <= k <= continuations n /\ p = 64 * k in
  bit_at (fs_buf st) 0 = Some true /\
  (forall j, 0 <= j < n -> ~ damaged (slot j) -> bit_at (fs_buf st) (slot j) = nth_error P (Z.to_nat j)) /\
  (forall p, damaged p -> bit_at (fs_buf st) p = Some false) /\
  (forall k, 1 <= k <= continuations n -> ~ damaged (marker k) -> bit_at (fs_buf st) (marker k) = bit_at buf (marker k)).
Proof.
  intros cc flows buf st HC HF HB P n damaged.
  destruct (build_frame_ok cc flows buf st HC HF HB) as (L & _ & FIT & BITS). fold P n in FIT, BITS.
  assert (Hn : 32 <= n) by (unfold n, P; rewrite payload_app, app_length; lia).
  assert (CE : continuations n = (n - 1) / 559) by (unfold continuations; destruct (Z.leb_spec n 0); lia).
  assert (FE : frame_length n = n + 1 + (n - 1) / 559) by (unfold frame_length; lia).
  assert (HD : forall p, 0 <= p -> (hit (continuations n) p = true <-> damaged p)).
  { intros p Hp. unfold hit, damaged. rewrite !andb_true_iff, Z.eqb_eq, !Z.leb_le. split.
    - intros [[A B] C]. exists (p / 64). lia.
    - intros (k & A & ->). rewrite (Z.mul_comm 64), Z.mod_mul, Z.div_mul by lia. lia. }
  split; [rewrite BITS by lia; unfold frame_bit; destruct (Z.leb_spec (frame_length n) 0); [lia|]; reflexivity|].
  split; [|split].
  - intros j Hj ND. unfold slot in *. assert (S1 : 0 <= j / 559 <= (n - 1) / 559) by (split; [lia|apply Z.div_le_mono; lia]).
    rewrite BITS by lia. unfold frame_bit. fold n.
    destruct (Z.leb_spec (frame_length n) (j + 1 + j / 559)); [lia|]. cbn [andb].
    destruct (Z.eqb_spec (j + 1 + j / 559) 0); [lia|].
    destruct (hit (continuations n) (j + 1 + j / 559)) eqn:EH; [exfalso; apply ND; apply HD; [lia|assumption]|].
    assert (DV : (j + 1 + j / 559) / 560 = j / 559) by lia.
    destruct (Z.eqb_spec ((j + 1 + j / 559) mod 560) 0); [lia|].
    destruct (Z.ltb_spec (j + 1 + j / 559) (frame_length n)); [|lia]. rewrite DV. f_equal. lia.
  - intros p Dp. pose proof Dp as (k & Hk & E).
    rewrite BITS by lia. unfold frame_bit. fold n.
    destruct (Z.leb_spec (frame_length n) p); [lia|]. cbn [andb]. destruct (Z.eqb_spec p 0); [lia|].
    replace (hit (continuations n) p) with true by (symmetry; apply HD; [lia|assumption]). reflexivity.
  - intros k Hk ND. unfold marker in *.
    rewrite BITS by lia. unfold frame_bit. fold n.
    destruct (Z.leb_spec (frame_length n) (560 * k)); [lia|]. cbn [andb]. destruct (Z.eqb_spec (560 * k) 0); [lia|].
    destruct (hit (continuations n) (560 * k)) eqn:EH; [exfalso; apply ND; apply HD; [lia|assumption]|].
    replace ((560 * k) mod 560) with 0 by lia. reflexivity.
Qed.
Print Assumptions C10_multi_packet_frame_partial.

(** C10 is false: a two-packet frame of ones loses telemetry bit 63 and has no marker. *)
Theorem C10_continuation_marker_refuted :
  exists cc flows buf st, length cc = 32%nat /\ Forall (fun f => packet_size f <= 527) flows /\
    build_frame cc flows buf = Some st /\ continuations (Z.of_nat (length (payload cc flows))) = 1 /\
    bit_at (fs_buf st) (marker 1) = Some true /\
    nth_error (payload cc flows) 63 = Some true /\ bit_at (fs_buf st) (slot 63) = Some false.
Proof.
  pose (fl := match make_flows 2 [(1, true, [repeat true 500]); (2, true, [repeat true 500])] with Done l => l | _ => [] end).
  pose (st := match build_frame (repeat true 32) fl (repeat true 1056) with Some s => s | None => mk_fs [] 0 0 end).
  exists (repeat true 32), fl, (repeat true 1056), st.
  split; [reflexivity|]. split; [repeat constructor; vm_compute; discriminate|].
  split; [vm_compute; reflexivity|]. split; [vm_compute; reflexivity|]. split; [vm_compute; reflexivity|].
  split; vm_compute; reflexivity.
Qed.
Print Assumptions C10_continuation_marker_refuted.

(** C11.  Exact condition: a frame stays in its buffer iff the buffer has a byte beyond the whole
    bytes of the frame. *)
Theorem C11_frame_in_buffer_exactly_when : forall cc flows buf,
  length cc = 32%nat -> Forall (fun f => packet_size f <= 527) flows -> (length buf mod 8 = 0)%nat ->
  let bits := frame_length (Z.of_nat (length (payload cc flows))) in
  ((exists st, build_frame cc flows buf = Some st) <-> bits / 8 < Z.of_nat (length buf) / 8).
Proof.
  intros cc flows buf HC HF HB bits. rewrite build_frame_safe_iff by assumption. fold bits.
  assert (M : Z.of_nat (length buf) mod 8 = 0) by lia. lia.
Qed.
Print Assumptions C11_frame_in_buffer_exactly_when.

(** C11 (what does hold).  With the buffer sized by the code for all flows, a frame is safe as long
    as one flow is inactive.  Missing: all flows active. *)
Theorem C11_one_inactive_flow_is_safe_partial : forall cc flows buf f,
  length cc = 32%nat -> Forall (fun f => packet_size f <= 527) flows ->
  length buf = (8 * Z.to_nat (compute_downlink_size true flows))%nat ->
  In f flows -> fl_active f = false -> 2 <= packet_size f ->
  Z.of_nat (length (payload cc flows)) <= 313040 ->
  exists st, build_frame cc flows buf = Some st.
Proof. exact headroom_safe. Qed.
Print Assumptions C11_one_inactive_flow_is_safe_partial.

Example C11_safe_case :
  length (repeat true 72) = (8 * Z.to_nat (compute_downlink_size true C09_table))%nat /\
  Forall (fun f => packet_size f <= 527) C09_table /\
  match nth_error C09_table 1 with Some f => fl_active f = false /\ packet_size f = 11 | None => False end.
Proof. split; [vm_compute; reflexivity|]. split; [repeat constructor; vm_compute; discriminate|vm_compute; auto]. Qed.

(** C11 is false: one flow of 7 bits, active. The frame is 40 bits, the buffer 5 bytes, and the zero
    fill writes byte 5. *)
Theorem C11_all_flows_active_refuted :
  exists fds flows junk d cc, length cc = 32%nat /\ make_flows (length fds) fds = Done flows /\
    init_flows fds junk = Done d /\ ds_flows d = flows /\ dl_execute cc d = Undef.
Proof.
  pose (fl := match make_flows 1 [(1, true, [repeat true 6])] with Done l => l | _ => [] end).
  pose (d := match init_flows [(1, true, [repeat true 6])] [] with Done d => d | _ => mk_ds [] [] 0 0 0 0 end).
  exists [(1, true, [repeat true 6])], fl, [], d, (repeat true 32).
  split; [reflexivity|]. split; [vm_compute; reflexivity|]. split; [vm_compute; reflexivity|].
  split; vm_compute; reflexivity.
Qed.
Print Assumptions C11_all_flows_active_refuted.

(** C11 is false also for long frames that need more markers than were counted: 4480 telemetry bits
    take 4489, the code counts 4488 and reserves 561 bytes. *)
Theorem C11_marker_count_refuted : exists n, 0 < n /\
  8 * ((n + (n + 559) / 560 + 7) / 8) < frame_length n.
Proof. exists 4480. split; [lia|vm_compute; reflexivity]. Qed.
Print Assumptions C11_marker_count_refuted.

(** C12 (what does hold).  A one-packet frame of less than 70 bytes containing flows 1 and 2, as sent
    by the spacecraft, is read back exactly, whatever the parser had collected before.  The report is
    flagged [IdIncomplete] when the last byte has some spare bits, but fewer than an id.
    Missing: packets of exactly 70 bytes, frames of several packets (see the refutations). *)
Theorem C12_short_frame_read_back_partial : forall eoe cc flows ids buf st recent f1 f2,
  length cc = 32%nat -> Forall (fun f => packet_size f <= 527) flows ->
  Forall2 (has_id (length flows)) flows ids -> NoDup ids ->
  In (f1, 1) (combine flows ids) -> fl_active f1 = true -> In (f2, 2) (combine flows ids) -> fl_active f2 = true ->
  build_frame cc flows buf = Some st -> compute_downlink_size false flows < 70 ->
  let sent := firstn (8 * Z.to_nat (compute_downlink_size false flows)) (fs_buf st) in
  exists err, process_packet eoe flows recent sent =
    Some (sent, mk_pr cc (map (fun p => (snd p, fl_fields (fst p))) (filter (fun p => fl_active (fst p)) (combine flows ids))) err) /\
    (err = NoError \/ err = IdIncomplete).
Proof.
  intros eoe cc flows ids buf st recent f1 f2 HC HF F2 ND I1 A1 I2 A2 HB HS sent.
  assert (HL : (length (payload cc flows) <= 559)%nat).
  { rewrite (size_spec cc) in HS by assumption. set (n := Z.of_nat (length (payload cc flows))) in *.
    assert (n + (n + 559) / 560 <= 552) by lia. lia. }
  destruct (single_frame_sent cc flows buf st HC HF HB HL) as (pad & HP & HLEN & ES). fold sent in ES.
  assert (NE : flows <> []) by (intros ->; destruct ids; contradiction).
  assert (PF : exists err, parse_frame eoe flows sent = Some (mk_pr cc (report (combine flows ids)) err) /\ (err = NoError \/ err = IdIncomplete)).
  { destruct (parse_frame_single eoe flows ids cc pad true F2 ND NE HC) as (s0 & _ & P).
    - cbn [length]. rewrite app_length, repeat_length. rewrite (size_spec cc) in * by assumption.
      set (n := length (payload cc flows)) in *. lia.
    - rewrite <- ES in P. rewrite P. eexists. split; [reflexivity|]. destruct (_ && _); auto. }
  destruct PF as (err & P & HE). exists err. split; [|exact HE].
  unfold process_packet, is_first_packet. rewrite P. cbn [bind pr_flows].
  assert (EX : forall f i, In (f, i) (combine flows ids) -> fl_active f = true ->
    existsb (fun pf : Z * list (list bool) => fst pf =? i) (report (combine flows ids)) = true).
  { intros f i HI HA. apply existsb_exists. exists (i, fl_fields f). split; [|apply Z.eqb_refl].
    unfold report. apply in_map_iff. exists (f, i). split; [reflexivity|]. apply filter_In. split; assumption. }
  rewrite (EX f1 1), (EX f2 2) by assumption. cbn [andb app]. rewrite P. reflexivity.
Qed.
Print Assumptions C12_short_frame_read_back_partial.

(** C12.  The same for a frame padded with zeros to a whole 70-byte radio packet, on a library whose
    [vector<bool>::erase(end())] drops the last element. *)
Theorem C12_full_packet_read_back_if_erase_end_pops_partial : forall cc flows ids recent f1 f2 pad m,
  length cc = 32%nat -> Forall2 (has_id (length flows)) flows ids -> NoDup ids ->
  In (f1, 1) (combine flows ids) -> fl_active f1 = true -> In (f2, 2) (combine flows ids) -> fl_active f2 = true ->
  let packet := m :: payload cc flows ++ repeat false (S pad) in
  Z.of_nat (length packet) = 560 ->
  exists err, process_packet (fun l => Some (removelast l)) flows recent packet =
    Some (packet, mk_pr cc (map (fun p => (snd p, fl_fields (fst p))) (filter (fun p => fl_active (fst p)) (combine flows ids))) err) /\
    (err = NoError \/ err = IdIncomplete).
Proof.
  intros cc flows ids recent f1 f2 pad m HC F2 ND I1 A1 I2 A2 packet HL.
  assert (NE : flows <> []) by (intros ->; destruct ids; contradiction).
  destruct (parse_frame_full flows ids cc pad m F2 ND NE HC HL) as (s0 & _ & P). fold packet in P.
  match type of P with _ = Some (mk_pr _ _ ?e) => set (err := e) in *; exists err; assert (HE : err = NoError \/ err = IdIncomplete)
    by (unfold err; destruct (_ && _); auto); clearbody err end.
  split; [|exact HE].
  unfold process_packet, is_first_packet. rewrite P. cbn [bind pr_flows].
  assert (EX : forall f i, In (f, i) (combine flows ids) -> fl_active f = true ->
    existsb (fun pf : Z * list (list bool) => fst pf =? i) (report (combine flows ids)) = true).
  { intros f i HI HA. apply existsb_exists. exists (i, fl_fields f). split; [|apply Z.eqb_refl].
    unfold report. apply in_map_iff. exists (f, i). split; [reflexivity|]. apply filter_In. split; assumption. }
  rewrite (EX f1 1), (EX f2 2) by assumption. cbn [andb app]. rewrite P. reflexivity.
Qed.
Print Assumptions C12_full_packet_read_back_if_erase_end_pops_partial.

(** C12.  The packets of a frame put together: whole packets, each a marker and 559 bits, and a last one of less than
    560 bits.  Whatever the markers, the telemetry in them is reported. *)
Theorem C12_frame_of_packets_partial : forall eoe flows ids cc pad packets mark tail,
  Forall2 (has_id (length flows)) flows ids -> NoDup ids -> flows <> [] -> length cc = 32%nat ->
  Forall (fun p => length (snd p) = 559%nat) packets -> (length tail < 559)%nat ->
  concat (map snd packets) ++ tail = payload cc flows ++ repeat false pad ->
  exists err, parse_frame eoe flows (concat (map (fun p => fst p :: snd p) packets) ++ mark :: tail) =
    Some (mk_pr cc (map (fun p => (snd p, fl_fields (fst p))) (filter (fun p => fl_active (fst p)) (combine flows ids))) err) /\
    (err = NoError \/ err = IdIncomplete).
Proof. exact parse_frame_packets. Qed.
Print Assumptions C12_frame_of_packets_partial.
Example C12_packets_case :
  let flows := match make_flows 4 [(1, true, [repeat true 300]); (2, true, [repeat false 300]); (3, true, [repeat true 300]); (4, true, [repeat false 300])] with Done l => l | _ => [] end in
  let bits := payload (repeat true 32) flows in
  let packets := [(true, firstn 559 bits); (false, firstn 559 (skipn 559 bits))] in
  concat (map snd packets) ++ skipn 1118 bits = bits ++ repeat false 0 /\ Forall (fun p => length (snd p) = 559%nat) packets /\
  (0 < length (skipn 1118 bits) < 559)%nat /\
  match parse_frame (fun _ => None) flows (concat (map (fun p => fst p :: snd p) packets) ++ false :: skipn 1118 bits) with
  | Some r => pr_flows r = [(1, [repeat true 300]); (2, [repeat false 300]); (3, [repeat true 300]); (4, [repeat false 300])] | None => False end.
Proof.
  intros flows bits packets. split; [vm_compute; reflexivity|]. split; [unfold packets; repeat (apply Forall_cons || apply Forall_nil); vm_compute; reflexivity|].
  split; [split; apply Nat.ltb_lt; vm_compute; reflexivity|vm_compute; reflexivity].
Qed.

Example C12_case :
  let cc := val_bits 32 70000 in
  match build_frame cc C09_table (repeat true 80) with
  | Some st => process_packet (fun _ => None) C09_table (repeat true 24)
      (firstn (8 * Z.to_nat (compute_downlink_size false C09_table)) (fs_buf st)) =
      Some (firstn 56 (fs_buf st), mk_pr cc [(2, [val_bits 5 21; [true]]); (1, [val_bits 12 1234])] IdIncomplete)
  | None => False
  end.
Proof. vm_compute. reflexivity. Qed.

Lemma strip_full eoe l : Z.of_nat (length l) mod 560 = 0 -> eoe l = None ->
  strip_headers eoe (Z.to_nat (Z.of_nat (length l) / 560)) l = None.
Proof.
  intros H E. destruct (Z.to_nat (Z.of_nat (length l) / 560)) eqn:EK; cbn [strip_headers]; unfold erase_at, num_bits_in_packet.
  - replace (Z.of_nat 0 * 560 <? Z.of_nat (length l)) with false by lia.
    replace (Z.of_nat 0 * 560 =? Z.of_nat (length l)) with true by lia. rewrite E. reflexivity.
  - replace (Z.of_nat (S n) * 560 <? Z.of_nat (length l)) with false by lia.
    replace (Z.of_nat (S n) * 560 =? Z.of_nat (length l)) with true by lia. rewrite E. reflexivity.
Qed.

(** C12 is false of every whole radio packet: erasing at the end is undefined, whatever its content. *)
Theorem C12_whole_packet_refuted : forall flows recent packet,
  length packet = (70 * 8)%nat -> process_packet (fun _ => None) flows recent packet = None.
Proof.
  intros flows recent packet H. unfold process_packet, is_first_packet, parse_frame, num_bits_in_packet.
  rewrite strip_full; [reflexivity| |reflexivity]. rewrite H. reflexivity.
Qed.
Print Assumptions C12_whole_packet_refuted.

(** C12 is false of frames of several packets even with the lenient library: the first packet is
    parsed alone, and its last flow is read past the end. *)
Theorem C12_split_frame_refuted :
  exists cc fds flows buf st, length cc = 32%nat /\ make_flows (length fds) fds = Done flows /\
    NoDup (map (fun fd => fst (fst fd)) fds) /\ build_frame cc flows buf = Some st /\
    process_packet (fun l => Some (removelast l)) flows [] (firstn 560 (fs_buf st)) = None.
Proof.
  pose (fds := [(1, true, [repeat true 300]); (2, true, [repeat true 300])]).
  pose (fl := match make_flows 2 fds with Done l => l | _ => [] end).
  pose (st := match build_frame (repeat true 32) fl (repeat true 656) with Some s => s | None => mk_fs [] 0 0 end).
  exists (repeat true 32), fds, fl, (repeat true 656), st.
  split; [reflexivity|]. split; [vm_compute; reflexivity|].
  split; [repeat constructor; cbn; intuition discriminate|]. split; vm_compute; reflexivity.
Qed.
Print Assumptions C12_split_frame_refuted.

(** C12 is false when flow 1 or 2 is switched off: the packet is appended to the previous frame and
    the old telemetry is reported again. *)
Theorem C12_needs_flows_1_and_2_refuted :
  exists cc fds flows buf st recent r, length cc = 32%nat /\ make_flows (length fds) fds = Done flows /\
    NoDup (map (fun fd => fst (fst fd)) fds) /\ build_frame cc flows buf = Some st /\
    process_packet (fun _ => None) flows recent
      (firstn (8 * Z.to_nat (compute_downlink_size false flows)) (fs_buf st)) = Some r /\
    pr_cc (snd r) <> cc.
Proof.
  pose (fds := [(1, false, [val_bits 5 7]); (2, true, [val_bits 5 9])]).
  pose (fl := match make_flows 2 fds with Done l => l | _ => [] end).
  pose (st := match build_frame (val_bits 32 5) fl (repeat true 64) with Some s => s | None => mk_fs [] 0 0 end).
  pose (old := [true] ++ val_bits 32 4 ++ val_bits 2 2 ++ val_bits 5 31).
  pose (r := match process_packet (fun _ => None) fl old (firstn (8 * Z.to_nat (compute_downlink_size false fl)) (fs_buf st)) with Some r => r | None => ([], mk_pr [] [] NoError) end).
  exists (val_bits 32 5), fds, fl, (repeat true 64), st, old, r.
  split; [reflexivity|]. split; [vm_compute; reflexivity|].
  split; [repeat constructor; cbn; intuition discriminate|]. split; [vm_compute; reflexivity|].
  split; [vm_compute; reflexivity|]. vm_compute. discriminate.
Qed.
Print Assumptions C12_needs_flows_1_and_2_refuted.

(** C13 (what does hold).  Moving flow [id1] to the place of flow [id2], later or earlier in the
    table: the flow lands on that index, the others keep their order; provided the flows passed have
    the same number of fields.  Otherwise the step is undefined. *)
Theorem C13_shift_later_partial : forall pre x mid y post i0 id1 im id2 ip,
  let l := pre ++ x :: (mid ++ [y]) ++ post in
  let ids := i0 ++ id1 :: (im ++ [id2]) ++ ip in
  Forall2 (has_id (length l)) l ids -> NoDup ids -> length pre = length i0 -> length mid = length im ->
  ((forall f, In f (mid ++ [y]) -> length (fl_fields f) = length (fl_fields x)) ->
     shift_flow_priorities l id1 id2 = Done (pre ++ (mid ++ [y]) ++ x :: post)) /\
  (~ (forall f, In f (mid ++ [y]) -> length (fl_fields f) = length (fl_fields x)) ->
     shift_flow_priorities l id1 id2 = Undef).
Proof.
  intros pre x mid y post i0 id1 im id2 ip l ids F2 ND L1 L2.
  unfold l. rewrite (shift_later pre x mid y post i0 id1 im id2 ip F2 ND L1 L2).
  destruct (forallb (same_count x) (mid ++ [y])) eqn:E.
  - split; [reflexivity|]. intros N. exfalso. apply N. intros f HI. rewrite forallb_forall in E.
    specialize (E f HI). unfold same_count in E. apply Nat.eqb_eq in E. congruence.
  - split; [|reflexivity]. intros H. exfalso. apply not_true_iff_false in E. apply E. apply forallb_forall.
    intros f HI. unfold same_count. apply Nat.eqb_eq. symmetry. apply H. assumption.
Qed.
Print Assumptions C13_shift_later_partial.

Theorem C13_shift_earlier_partial : forall pre y mid x post i0 id2 im id1 ip,
  let l := pre ++ (y :: mid) ++ x :: post in
  let ids := i0 ++ (id2 :: im) ++ id1 :: ip in
  Forall2 (has_id (length l)) l ids -> NoDup ids -> length pre = length i0 -> length mid = length im ->
  ((forall f, In f (y :: mid) -> length (fl_fields f) = length (fl_fields x)) ->
     shift_flow_priorities l id1 id2 = Done (pre ++ x :: (y :: mid) ++ post)) /\
  (~ (forall f, In f (y :: mid) -> length (fl_fields f) = length (fl_fields x)) ->
     shift_flow_priorities l id1 id2 = Undef).
Proof.
  intros pre y mid x post i0 id2 im id1 ip l ids F2 ND L1 L2.
  unfold l. rewrite (shift_earlier pre y mid x post i0 id2 im id1 ip F2 ND L1 L2).
  destruct (forallb (same_count x) (y :: mid)) eqn:E.
  - split; [reflexivity|]. intros N. exfalso. apply N. intros f HI. rewrite forallb_forall in E.
    specialize (E f HI). unfold same_count in E. apply Nat.eqb_eq in E. congruence.
  - split; [|reflexivity]. intros H. exfalso. apply not_true_iff_false in E. apply E. apply forallb_forall.
    intros f HI. unfold same_count. apply Nat.eqb_eq. symmetry. apply H. assumption.
Qed.
Print Assumptions C13_shift_earlier_partial.

(** C13.  Toggling flips the active bit of that flow and nothing else, in any table. *)
Theorem C13_toggle_flips_one : forall l1 f l2 i1 id i2,
  let l := l1 ++ f :: l2 in
  Forall2 (has_id (length l)) l (i1 ++ id :: i2) -> NoDup (i1 ++ id :: i2) -> length l1 = length i1 ->
  toggle_flow l id = Done (l1 ++ mk_flow (fl_sr f) (negb (fl_active f)) (fl_fields f) :: l2).
Proof.
  intros l1 f l2 i1 id i2 l F2 ND L1.
  pose proof F2 as F2a. apply Forall2_app_split in F2a; [|assumption]. destruct F2a as [FP F2b].
  inversion F2b as [|? ? ? ? HX FPO]; subst. pose proof HX as (_ & RX & _).
  unfold toggle_flow. destruct (Z.ltb_spec (Z.of_nat (length l)) id); [unfold l in *; lia|].
  unfold l. rewrite (toggle_spec (length l) l1 i1); [reflexivity|assumption|assumption|].
  apply NoDup_remove_2 in ND. intros X. apply ND. apply in_or_app. left. assumption.
Qed.
Print Assumptions C13_toggle_flips_one.

Theorem C13_shift_onto_itself : forall pre x post i0 id ip,
  let l := pre ++ x :: post in
  Forall2 (has_id (length l)) l (i0 ++ id :: ip) -> NoDup (i0 ++ id :: ip) -> length pre = length i0 ->
  shift_flow_priorities l id id = Done l.
Proof. exact shift_same. Qed.
Print Assumptions C13_shift_onto_itself.

Definition C13_fds := [(2, true, [[true]; [false]]); (3, false, [[true]; [true]]); (1, true, [[false]; [false]])].
Definition C13_table : list flow := match make_flows 3 C13_fds with Done l => l | _ => [] end.
Example C13_hypotheses : Forall2 (has_id (length C13_table)) C13_table [2; 3; 1] /\ NoDup [2; 3; 1].
Proof.
  split; [|repeat constructor; cbn; intuition discriminate].
  apply (C09_constructed_tables C13_fds C13_table); [cbn; lia|repeat constructor; cbn; lia|vm_compute; reflexivity].
Qed.
Example C13_cases :
  match C13_table with
  | [a; b; c] =>
      shift_flow_priorities [a; b; c] 2 1 = Done [b; c; a] /\ shift_flow_priorities [a; b; c] 1 2 = Done [c; a; b] /\
      toggle_flow [a; b; c] 3 = Done [a; mk_flow (fl_sr b) true (fl_fields b); c]
  | _ => False
  end.
Proof. vm_compute. auto. Qed.

(** C13 is false when a passed flow has a different number of fields: the field list is written past
    its end. *)
Theorem C13_shift_refuted :
  exists fds flows, make_flows (length fds) fds = Done flows /\ NoDup (map (fun fd => fst (fst fd)) fds) /\
    shift_flow_priorities flows 2 1 = Undef.
Proof.
  pose (fds := [(2, true, [[true]; [false]]); (3, false, [[true]]); (1, true, [[false]; [false]])]).
  pose (fl := match make_flows 3 fds with Done l => l | _ => [] end).
  exists fds, fl. split; [vm_compute; reflexivity|]. split; [repeat constructor; cbn; intuition discriminate|]. vm_compute. reflexivity.
Qed.
Print Assumptions C13_shift_refuted.

(** C147.  Which tables the producer accepts: exactly those in which every id lies between 1 and the
    number of flows and every flow fits a packet (32 bits of cycle count and a marker beside it).
    Missing for the full claim: that ids are distinct. *)
Theorem C147_accepted_partial : forall fds junk,
  (1 <= length fds <= 255)%nat -> Forall (fun fd => 0 <= fst (fst fd)) fds ->
  ((exists st, init_flows fds junk = Done st) <->
   Forall (fun fd => 1 <= fst (fst fd) <= Z.of_nat (length fds) /\
     1 + 32 + (Z.log2 (Z.of_nat (length fds)) + 1) + Z.of_nat (length (concat (snd fd))) <= 560) fds).
Proof.
  intros fds junk HN HP. pose proof (make_flows_accepts (length fds) fds HN HP) as M. unfold init_flows. split.
  - intros [st H]. destruct (make_flows (length fds) fds) as [l| |] eqn:E; try discriminate.
    eapply Forall_impl; [|apply M; exists l; reflexivity]. cbv beta. intros. lia.
  - intros H. destruct M as [_ M]. destruct M as [l ->]; [|cbn [obind]; eexists; reflexivity].
    eapply Forall_impl; [|exact H]. cbv beta. intros. lia.
Qed.
Print Assumptions C147_accepted_partial.

(** C147.  An accepted table keeps the ids, the active flags and the fields it was given, in order. *)
Theorem C147_kept : forall fds junk st,
  (1 <= length fds <= 255)%nat -> Forall (fun fd => 0 <= fst (fst fd)) fds ->
  init_flows fds junk = Done st ->
  map (fun f => deserialize (fl_sr f)) (ds_flows st) = map (fun fd => Some (fst (fst fd))) fds /\
  map fl_active (ds_flows st) = map (fun fd => snd (fst fd)) fds /\
  map fl_fields (ds_flows st) = map snd fds.
Proof.
  intros fds junk st HN HP H. unfold init_flows in H.
  destruct (make_flows (length fds) fds) as [l| |] eqn:E; try discriminate. cbn [obind] in H. injection H as <-.
  cbn [ds_flows]. destruct (make_flows_spec _ _ _ HN HP E) as (A & _ & C & D). split; [|split; assumption].
  destruct (id_serializer_spec _ HN) as (s0 & E0 & _).
  clear C D E HP. revert E0 A. generalize (length fds) as n. intros n E0.
  replace (map (fun fd => Some (fst (fst fd))) fds) with (map Some (map (fun fd : Z * bool * list (list bool) => fst (fst fd)) fds))
    by (rewrite map_map; reflexivity).
  generalize (map (fun fd : Z * bool * list (list bool) => fst (fst fd)) fds) as ids.
  intros ids. revert ids. induction l as [|f l IH]; intros ids A; inversion A as [|? id ? ids' HA HB]; subst; [reflexivity|].
  cbn [map]. destruct (has_id_spec n f id s0 HA E0) as (-> & _). f_equal. apply IH. exact HB.
Qed.
Print Assumptions C147_kept.
(** the table flown (src/flow_data.cpp): 43 flows numbered 1 to 43, here with one field of 300 bits each *)
Example C147_flown_ids : exists st, init_flows (map (fun k => (Z.of_nat (S k), true, [repeat true 300])) (seq 0 43)) [] = Done st.
Proof. eexists. vm_compute. reflexivity. Qed.

(** C147 is false: two flows with the same id are accepted ([ids] is never added to), and ground then
    reads the second as the first (the first being off), or stops at it and loses all that follows. *)
Theorem C147_duplicate_refuted :
  exists fds l, make_flows (length fds) fds = Done l /\ ~ NoDup (map (fun fd => fst (fst fd)) fds) /\
    exists buf st cc r, length cc = 32%nat /\ build_frame cc l buf = Some st /\
      parse_frame (fun _ => None) l (firstn (8 * Z.to_nat (compute_downlink_size false l)) (fs_buf st)) = Some r /\
      pr_flows r <> map (fun fd => (fst (fst fd), snd fd)) (filter (fun fd => snd (fst fd)) fds) /\ pr_err r = NoError.
Proof.
  pose (fds := [(1, true, [val_bits 5 7]); (2, true, [val_bits 5 9]); (3, false, [val_bits 4 9; val_bits 3 7]); (3, true, [val_bits 7 100])]).
  pose (l := match make_flows 4 fds with Done l => l | _ => [] end).
  pose (st := match build_frame (val_bits 32 5) l (repeat true 96) with Some s => s | None => mk_fs [] 0 0 end).
  pose (r := match parse_frame (fun _ => None) l (firstn (8 * Z.to_nat (compute_downlink_size false l)) (fs_buf st)) with
             | Some r => r | None => mk_pr [] [] IdIncomplete end).
  exists fds, l. split; [vm_compute; reflexivity|]. split.
  { cbn. intros H. apply NoDup_cons_iff in H. destruct H as [_ H]. apply NoDup_cons_iff in H. destruct H as [_ H].
    apply NoDup_cons_iff in H. destruct H as [X _]. apply X. left. reflexivity. }
  exists (repeat true 96), st, (val_bits 32 5), r.
  split; [reflexivity|]. split; [vm_compute; reflexivity|]. split; [vm_compute; reflexivity|].
  split; [vm_compute; discriminate|vm_compute; reflexivity].
Qed.
Print Assumptions C147_duplicate_refuted.

Theorem C147_rest_lost_refuted :
  exists fds l, make_flows (length fds) fds = Done l /\ Forall (fun fd => snd (fst fd) = true) fds /\
    exists buf st cc r, length cc = 32%nat /\ build_frame cc l buf = Some st /\
      parse_frame (fun _ => None) l (firstn (8 * Z.to_nat (compute_downlink_size false l)) (fs_buf st)) = Some r /\
      (length (pr_flows r) + 2 = length fds)%nat /\ pr_err r = DuplicateId 2.
Proof.
  pose (fds := [(1, true, [val_bits 5 7]); (2, true, [val_bits 5 9]); (2, true, [val_bits 7 100]); (3, true, [val_bits 7 101])]).
  pose (l := match make_flows 4 fds with Done l => l | _ => [] end).
  pose (st := match build_frame (val_bits 32 5) l (repeat true 96) with Some s => s | None => mk_fs [] 0 0 end).
  pose (r := match parse_frame (fun _ => None) l (firstn (8 * Z.to_nat (compute_downlink_size false l)) (fs_buf st)) with
             | Some r => r | None => mk_pr [] [] IdIncomplete end).
  exists fds, l. split; [vm_compute; reflexivity|]. split; [repeat constructor|].
  exists (repeat true 96), st, (val_bits 32 5), r.
  split; [reflexivity|]. split; [vm_compute; reflexivity|]. split; [vm_compute; reflexivity|].
  split; vm_compute; reflexivity.
Qed.
Print Assumptions C147_rest_lost_refuted.
