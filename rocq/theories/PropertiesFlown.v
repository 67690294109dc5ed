From Coq Require Import String List.
From Verif Require Import Base IntSerModel GPSTimeModel GPSTimeProofs DownlinkModel DownlinkGroundProofs FlownModel FlownSpec FlownProofs FlownGroundProofs
  FlownReportProofs FlownMoreProofs FlownFlightProofs.
Open Scope string_scope.
Open Scope list_scope.
Open Scope Z_scope.

(** contents for the examples: all fields zero but the cycle number *)
Definition contents (c : Z) (n : string) : list bool :=
  if String.eqb n "pan.cycle_no" then val_bits 32 c
  else match lookup registry n with Some d => match width d with Some w => repeat false w | None => [] end | None => [] end.
Lemma contents_fit c : fits (contents c).
Proof.
  intros n d w E W. unfold contents. destruct (String.eqb_spec n "pan.cycle_no") as [->|].
  - apply (f_equal (fun o => match o with Some d => width d | None => None end)) in E. rewrite W in E. vm_compute in E. injection E as <-. apply val_bits_length.
  - rewrite E, W. apply repeat_length.
Qed.

(** ** C166: the telemetry table that flies is accepted, and never overruns its buffer *)

(** The serializer of every declared field leaves a bit array of the declared size, whatever it serialized. *)
Theorem C166_declared_widths : forall val, (forall n d, lookup registry n = Some d -> written d (val n)) -> fits val.
Proof. exact written_fits. Qed.
Print Assumptions C166_declared_widths.

Example C166_every_field_can_be_written : forall n d, lookup registry n = Some d -> exists b, written d b.
Proof. exact written_possible. Qed.

(** At boot every field of every flow is found and the table of 43 flows is accepted, with a buffer of 554 bytes; through any
    number of cycles, with any contents and any flows toggled, every cycle succeeds and the flows that are on are those that the
    commands say. *)
Theorem C166_boots_and_flies : forall val junk, fits val ->
  exists d0, flown_boot val junk = Done d0 /\ length (ds_buf d0) = (8 * 554)%nat /\
  forall l, Forall (fun c => fits (fst c) /\ 0 <= snd c <= 43) l ->
  exists d, flown_run l d0 = Done d /\ length (ds_buf d) = (8 * 554)%nat /\
    map fl_active (ds_flows d) = map (fun row => on_after l (fst (fst row))) flown.
Proof. exact flies. Qed.
Print Assumptions C166_boots_and_flies.

(** The size published with a frame is that of its telemetry and its packets' headers. *)
Theorem C166_published_size : forall val0 junk l v tog d0 d,
  fits val0 -> Forall (fun c => fits (fst c) /\ 0 <= snd c <= 43) l -> fits v /\ 0 <= tog <= 43 ->
  flown_boot val0 junk = Done d0 -> flown_run (l ++ [(v, tog)]) d0 = Done d ->
  let n := telemetry_bits (on_after l) in ds_size d = (n + (n + 559) / 560 + 7) / 8.
Proof. intros val0 junk l v tog d0 d F L LV E0 E1. destruct (last_cycle _ _ _ _ _ _ _ F L LV E0 E1) as (buf & st & _ & _ & H). exact H. Qed.
Print Assumptions C166_published_size.

(** a flight of three cycles that toggles flow 3, then flow 3 again *)
Example C166_a_flight : match flown_boot (contents 0) [] with
  | Done d0 => match flown_run [(contents 1, 3); (contents 2, 3); (contents 3, 0)] d0 with
               | Done d => (Z.of_nat (length (ds_flows d)), ds_size d, on_after [(contents 1, 3)] 3, default_on flown 3) = (43, 140, true, false)
               | _ => False end
  | _ => False end /\ telemetry_bits (default_on flown) = 1114 /\ telemetry_bits (fun _ => true) = 4417.
Proof. vm_compute. repeat split; reflexivity. Qed.

(** ** C167: the ground reads the telemetry of a satellite whose flows are as at boot *)

(** False of every frame: the first of its two packets, handed to the parser alone, is read past its end, whether or not the
    library lets the parser erase past the end. *)
Theorem C167_first_packet_refuted : forall val0 junk l v tog d0 d gval gjunk g recent,
  fits val0 -> Forall (fun c => fits (fst c) /\ 0 <= snd c <= 43) l -> fits v /\ 0 <= tog <= 43 ->
  flown_boot val0 junk = Done d0 -> flown_run (l ++ [(v, tog)]) d0 = Done d ->
  fits gval -> flown_boot gval gjunk = Done g -> (forall id, 1 <= id <= 43 -> on_after l id = default_on flown id) ->
  process_packet (fun bits => Some (removelast bits)) (ds_flows g) recent (firstn 560 (ds_buf d)) = None /\
  process_packet (fun _ => None) (ds_flows g) recent (firstn 560 (ds_buf d)) = None /\ ds_size d = 140.
Proof. exact first_lost. Qed.
Print Assumptions C167_first_packet_refuted.

(** Both packets together, on a library that drops the last element instead: everything is reported, but the bit of weight 4 of
    the cycle number in flow 1 is always reported as 0. *)
Theorem C167_both_packets_partial : forall val0 junk l v tog d0 d gval gjunk g,
  fits val0 -> Forall (fun c => fits (fst c) /\ 0 <= snd c <= 43) l -> fits v /\ 0 <= tog <= 43 ->
  flown_boot val0 junk = Done d0 -> flown_run (l ++ [(v, tog)]) d0 = Done d ->
  fits gval -> flown_boot gval gjunk = Done g -> (forall id, 1 <= id <= 43 -> on_after l id = default_on flown id) ->
  exists err, parse_frame (fun bits => Some (removelast bits)) (ds_flows g) (firstn (8 * 140) (ds_buf d)) =
    Some (mk_pr (v "pan.cycle_no") (should_report (default_on flown) (with_cleared "pan.cycle_no" 2 v)) err) /\
    (err = NoError \/ err = IdIncomplete).
Proof. exact default_read. Qed.
Print Assumptions C167_both_packets_partial.

(** so a cycle number is reported too low by 4 whenever that bit is set, beside the correct one of the frame's header *)
Theorem C167_cycle_number_refuted : forall c, 0 <= c < 2 ^ 32 ->
  clear 2 (val_bits 32 c) = val_bits 32 (if Z.testbit c 2 then c - 4 else c).
Proof. exact cc_arriving. Qed.
Print Assumptions C167_cycle_number_refuted.

Definition read_back (l : list ((string -> list bool) * Z)) : option (Z * list Z * list bool) :=
  match flown_boot (contents 0) [] with
  | Done d0 => match flown_run l d0 with
               | Done d => match parse_frame lenient (ds_flows d0) (firstn (8 * Z.to_nat (ds_size d)) (ds_buf d)) with
                           | Some r => Some (bits_val (pr_cc r), map fst (pr_flows r), nth 5 (snd (nth 0 (pr_flows r) (0, []))) [])
                           | None => None
                           end
               | _ => None end
  | _ => None end.
Example C167_cycle_13 : read_back [(contents 12, 0); (contents 13, 0)] =
  Some (13, map (fun row => fst (fst row)) (filter (fun row => default_on flown (fst (fst row))) flown), val_bits 32 9).
Proof. vm_compute. reflexivity. Qed.
Example C167_hypotheses_met : (exists d0 d, flown_boot (contents 0) [] = Done d0 /\ flown_run ([(contents 12, 0)] ++ [(contents 13, 0)]) d0 = Done d) /\
  Forall (fun c => fits (fst c) /\ 0 <= snd c <= 43) [(contents 12, 0)] /\ (forall id, 1 <= id <= 43 -> on_after [(contents 12, 0)] id = default_on flown id).
Proof.
  assert (L : Forall legal [(contents 12, 0)]) by (constructor; [split; [apply contents_fit|cbn; lia]|constructor]). split; [|split].
  - destruct (flies (contents 0) [] (contents_fit 0)) as (d0 & E & _ & H). destruct (H ([(contents 12, 0)] ++ [(contents 13, 0)])) as (d & R & _).
    + apply Forall_app. split; [exact L|]. constructor; [split; [apply contents_fit|cbn; lia]|constructor].
    + exists d0, d. split; [exact E|exact R].
  - exact L.
  - intros id H. unfold on_after. cbn [map snd switched]. destruct (Z.eqb_spec id 0); [lia|reflexivity].
Qed.

(** ** C168: switching on another flow leaves the telemetry of the other flows as it was *)

(** False of every flow that is off at boot: with it on there is a third packet, and bit 25 of the time in flow 2 is always
    reported as 0. *)
Theorem C168_one_more_flow_refuted : forall val0 junk l v tog d0 d gval gjunk g id,
  fits val0 -> Forall (fun c => fits (fst c) /\ 0 <= snd c <= 43) l -> fits v /\ 0 <= tog <= 43 ->
  flown_boot val0 junk = Done d0 -> flown_run (l ++ [(v, tog)]) d0 = Done d ->
  fits gval -> flown_boot gval gjunk = Done g -> 1 <= id <= 43 -> default_on flown id = false ->
  (forall i, 1 <= i <= 43 -> on_after l i = if i =? id then true else default_on flown i) ->
  exists err, parse_frame (fun bits => Some (removelast bits)) (ds_flows g) (firstn (8 * Z.to_nat (ds_size d)) (ds_buf d)) =
    Some (mk_pr (v "pan.cycle_no") (should_report (on_after l) (with_cleared "time.gps" 25 (with_cleared "pan.cycle_no" 2 v))) err) /\
    (err = NoError \/ err = IdIncomplete).
Proof. exact one_more_read. Qed.
Print Assumptions C168_one_more_flow_refuted.

(** The time then reported is 16.384 seconds early whenever that bit is set. *)
Theorem C168_time_refuted : forall s g s' dest, gser_reach s -> in_telemetry g -> gserialize s g = Some s' ->
  gdeserialize (mk_gser (gs_wn s) (gs_tow s) (gs_ns s) (clear 25 (gs_bits s'))) dest =
  Some (mk_gtime (g_wn g) (if Z.testbit (g_tow g) 14 then g_tow g - 16384 else g_tow g) (g_ns g) true).
Proof. exact time_arriving. Qed.
Print Assumptions C168_time_refuted.

(** Any flows on, flows 1 and 2 among them, that take more than one packet and at most three: all is reported but those bits. *)
Theorem C168_everything_else_partial : forall val0 junk l v tog d0 d gval gjunk g,
  fits val0 -> Forall (fun c => fits (fst c) /\ 0 <= snd c <= 43) l -> fits v /\ 0 <= tog <= 43 ->
  flown_boot val0 junk = Done d0 -> flown_run (l ++ [(v, tog)]) d0 = Done d ->
  fits gval -> flown_boot gval gjunk = Done g -> on_after l 1 = true -> on_after l 2 = true ->
  let n := telemetry_bits (on_after l) in
  559 < n < 1677 -> n <> 1118 ->
  let arrives := if 1118 <? n then with_cleared "time.gps" 25 (with_cleared "pan.cycle_no" 2 v) else with_cleared "pan.cycle_no" 2 v in
  exists err, parse_frame (fun bits => Some (removelast bits)) (ds_flows g) (firstn (8 * Z.to_nat (ds_size d)) (ds_buf d)) =
    Some (mk_pr (v "pan.cycle_no") (should_report (on_after l) arrives) err) /\ (err = NoError \/ err = IdIncomplete).
Proof. exact several_read. Qed.
Print Assumptions C168_everything_else_partial.

Example C168_flow_9 : default_on flown 9 = false /\ on_after [(contents 1, 9)] 9 = true /\ on_after [(contents 1, 9)] 1 = true /\
  telemetry_bits (on_after [(contents 1, 9)]) = 1168 /\
  option_map (fun r => fst r) (read_back [(contents 1, 9); (contents 2, 0)]) =
    Some (2, map (fun row => fst (fst row)) (filter (fun row => on_after [(contents 1, 9)] (fst (fst row))) flown)).
Proof. vm_compute. repeat split; reflexivity. Qed.
Example C168_a_time : exists s s', gser_make = Some s /\ in_telemetry (mk_gtime 2100 20000 5 true) /\ gserialize s (mk_gtime 2100 20000 5 true) = Some s' /\
  gdeserialize (mk_gser (gs_wn s) (gs_tow s) (gs_ns s) (clear 25 (gs_bits s'))) gtime_default = Some (mk_gtime 2100 3616 5 true).
Proof.
  destruct gser_make_shape as (s & E & SH).
  assert (G : in_telemetry (mk_gtime 2100 20000 5 true)) by (unfold in_telemetry; cbn; lia).
  destruct (gser_roundtrip_set s (mk_gtime 2100 20000 5 true) gtime_default SH eq_refl) as (s' & E' & _).
  exists s, s'. split; [exact E|]. split; [exact G|]. split; [exact E'|].
  exact (time_arriving s _ s' gtime_default (gr_init s E) G E').
Qed.

(** ** C169: the ground may use any value of the command fields that move and toggle flows *)

(** False of 896 of the 903 pairs of flows: the vectors of fields of different lengths are copied over one another.  Exactly the seven
    pairs of [exchange_pairs], neighbours with equally many fields, can be exchanged, and then the flows that are on are sent in
    the new order. *)
Theorem C169_moves_partial : forall val0 junk l d0 d v a b,
  fits val0 -> Forall (fun c => fits (fst c) /\ 0 <= snd c <= 43) l -> fits v ->
  flown_boot val0 junk = Done d0 -> flown_run l d0 = Done d ->
  1 <= a <= 43 -> 1 <= b <= 43 -> a <> b ->
  match dl_execute (v "pan.cycle_no") (mk_ds (reload v (ds_flows d)) (ds_buf d) (ds_size d) a b 0) with
  | Done d' => exchangeable a b = true /\
      report (combine (ds_flows d') (map (fun row => fst (fst row)) (exchanged (Z.min a b) (Z.max a b) flown))) =
      rows_report (exchanged (Z.min a b) (Z.max a b) flown) (on_after l) v
  | Undef => exchangeable a b = false
  | Abort => False
  end.
Proof. exact move_command. Qed.
Print Assumptions C169_moves_partial.

(** The fields have six bits: 44 to 63 can be uplinked.  Built with assertions (the simulation on the ground), the program ends. *)
Theorem C169_high_ids_refuted : forall val0 junk l d0 d v a b t,
  fits val0 -> Forall (fun c => fits (fst c) /\ 0 <= snd c <= 43) l -> fits v ->
  flown_boot val0 junk = Done d0 -> flown_run l d0 = Done d ->
  (0 < a /\ 0 < b /\ (43 < a \/ 43 < b)) \/ (a = 0 /\ b = 0 /\ 43 < t) ->
  dl_execute (v "pan.cycle_no") (mk_ds (reload v (ds_flows d)) (ds_buf d) (ds_size d) a b t) = Abort.
Proof. exact high_ids. Qed.
Print Assumptions C169_high_ids_refuted.

Example C169_examples : exchangeable 3 4 = true /\ exchangeable 1 2 = false /\
  match flown_boot (contents 0) [] with
  | Done d => match dl_execute (contents 1 "pan.cycle_no") (mk_ds (reload (contents 1) (ds_flows d)) (ds_buf d) (ds_size d) 4 3 0) with Done _ => true | _ => false end &&
              match dl_execute (contents 1 "pan.cycle_no") (mk_ds (reload (contents 1) (ds_flows d)) (ds_buf d) (ds_size d) 2 1 0) with Undef => true | _ => false end &&
              match dl_execute (contents 1 "pan.cycle_no") (mk_ds (reload (contents 1) (ds_flows d)) (ds_buf d) (ds_size d) 0 0 44) with Abort => true | _ => false end
  | _ => false
  end = true /\
  option_map (fun s => (length (is_bits s), deserialize (set_bits s (val_bits 6 44)))) (id_serializer 43) = Some (6%nat, Some 44).
Proof. vm_compute. repeat split; reflexivity. Qed.

(** The flight build has no assertions.  Where none fails it does the same. *)
Theorem C169_flight_same : forall cc d, dl_execute cc d <> Abort -> dl_execute_flight cc d = dl_execute cc d.
Proof. exact flight_same. Qed.
Print Assumptions C169_flight_same.

(** Elsewhere a value that names no flow counts as flow 1 when flows are moved: almost always undefined again. *)
Theorem C169_flight_moves_partial : forall val0 junk l d0 d v a b,
  fits val0 -> Forall (fun c => fits (fst c) /\ 0 <= snd c <= 43) l -> fits v ->
  flown_boot val0 junk = Done d0 -> flown_run l d0 = Done d -> 0 < a -> 0 < b ->
  match dl_execute_flight (v "pan.cycle_no") (mk_ds (reload v (ds_flows d)) (ds_buf d) (ds_size d) a b 0) with
  | Done d' => (named a = named b \/ exchangeable (named a) (named b) = true) /\
      report (combine (ds_flows d') (map (fun row => fst (fst row)) (moved a b))) = rows_report (moved a b) (on_after l) v
  | Undef => named a <> named b /\ exchangeable (named a) (named b) = false
  | Abort => False
  end.
Proof. exact flight_command. Qed.
Print Assumptions C169_flight_moves_partial.

(** A value that names no flow toggles nothing. *)
Theorem C169_flight_toggle : forall val0 junk l d0 d v t,
  fits val0 -> Forall (fun c => fits (fst c) /\ 0 <= snd c <= 43) l -> fits v ->
  flown_boot val0 junk = Done d0 -> flown_run l d0 = Done d -> 43 < t ->
  dl_execute_flight (v "pan.cycle_no") (mk_ds (reload v (ds_flows d)) (ds_buf d) (ds_size d) 0 0 t) =
  dl_execute_flight (v "pan.cycle_no") (mk_ds (reload v (ds_flows d)) (ds_buf d) (ds_size d) 0 0 0).
Proof. exact flight_toggle. Qed.
Print Assumptions C169_flight_toggle.
Example C169_flight_examples : named 44 = 1 /\ named 43 = 43 /\ exchangeable (named 44) (named 2) = false /\ moved 50 60 = flown /\ moved 4 3 <> flown.
Proof. repeat split; vm_compute; congruence. Qed.

(** ** C147: which tables of flows are accepted, in flight *)
(** All of them: the checks are assertions.  A wrong id becomes the number of flows (or stays 0) and may then be shared. *)
Theorem C147_flight_refuted : forall fds junk, (1 <= length fds <= 255)%nat -> Forall (fun fd => 0 <= fst (fst fd) <= 255) fds ->
  exists st, init_flows_flight fds junk = Done st /\
    map (fun f => deserialize (fl_sr f)) (ds_flows st) = map (fun fd => Some (Z.min (fst (fst fd)) (Z.of_nat (length fds)))) fds /\
    map fl_active (ds_flows st) = map (fun fd => snd (fst fd)) fds /\ map fl_fields (ds_flows st) = map snd fds /\
    length (ds_buf st) = (8 * Z.to_nat (ds_size st))%nat.
Proof. exact flight_accepts. Qed.
Print Assumptions C147_flight_refuted.
Example C147_flight_clash : match init_flows_flight [(1, true, [[true]]); (2, true, [[false]]); (0, true, []); (9, true, [repeat true 700]); (4, false, [])] [] with
  | Done st => map (fun f => deserialize (fl_sr f)) (ds_flows st) = [Some 1; Some 2; Some 0; Some 5; Some 4] | _ => False end.
Proof. vm_compute. reflexivity. Qed.
