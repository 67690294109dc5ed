From Coq Require Import String List.
From Verif Require Import Base BitArrayModel IntSerModel IntSerSpec IntSerProofs GPSTimeModel GPSTimeProofs
  DownlinkModel DownlinkSpec DownlinkProofs DownlinkGroundProofs DownlinkTableProofs FlownModel FlownSpec FlownProofs FlownGroundProofs FlownReportProofs
  FlownMoreProofs.
Open Scope string_scope.
Open Scope list_scope.
Open Scope Z_scope.
Opaque flown registry.

(** a run and one more cycle *)
Lemma run_app l1 : forall l2 d, flown_run (l1 ++ l2) d = obind (flown_run l1 d) (flown_run l2).
Proof.
  induction l1 as [|[v t] l1 IH]; intros l2 d; [reflexivity|]. cbn [app flown_run]. destruct (flown_cycle v t d); cbn [obind]; [apply IH|reflexivity|reflexivity].
Qed.

Lemma last_cycle val0 junk l v tog d0 d : fits val0 -> Forall legal l -> legal (v, tog) ->
  flown_boot val0 junk = Done d0 -> flown_run (l ++ [(v, tog)]) d0 = Done d ->
  exists buf st, build_frame (v "pan.cycle_no") (flows_of (on_after l) v) buf = Some st /\ ds_buf d = fs_buf st /\
    ds_size d = (telemetry_bits (on_after l) + (telemetry_bits (on_after l) + 559) / 560 + 7) / 8.
Proof.
  intros F L [FV T] E0 E1. cbn [fst snd] in FV, T. rewrite run_app in E1. destruct (flown_run l d0) as [d1| |] eqn:R; [|discriminate|discriminate].
  cbn [obind flown_run] in E1. destruct (flight val0 junk l d0 d1 F L E0 R) as [[val1 D1] B1].
  destruct (cycle_ok (on_after l) val1 d1 v tog D1 B1 FV T) as (st & E & d' & E' & _ & BB & _ & S).
  rewrite E' in E1. cbn [obind] in E1. injection E1 as <-. exists (ds_buf d1), st. split; [exact E|]. split; [exact BB|exact S].
Qed.

Lemma ground_table val0 junk g : fits val0 -> flown_boot val0 junk = Done g -> ds_flows g = flows_of (default_on flown) val0.
Proof. intros F E. destruct (boot_ok val0 junk F) as (d & E' & D & _). rewrite E in E'. injection E' as <-. exact D. Qed.

Lemma flies val junk : fits val -> exists d0, flown_boot val junk = Done d0 /\ length (ds_buf d0) = (8 * 554)%nat /\
  forall l, Forall legal l -> exists d, flown_run l d0 = Done d /\ length (ds_buf d) = (8 * 554)%nat /\
    map fl_active (ds_flows d) = map (fun row => on_after l (fst (fst row))) flown.
Proof.
  intros F. destruct (boot_ok val junk F) as (d0 & E & D & B). exists d0. split; [exact E|]. split; [exact B|]. intros l L.
  destruct (run_ok l _ _ d0 L D B) as (d & v & R & D' & B'). exists d. split; [exact R|]. split; [exact B'|]. rewrite D'. unfold flows_of.
  rewrite map_map. reflexivity.
Qed.

(** the whole frame, on the ground *)
Lemma frame_read val0 junk l v tog d0 d gval gjunk g :
  fits val0 -> Forall legal l -> legal (v, tog) -> flown_boot val0 junk = Done d0 -> flown_run (l ++ [(v, tog)]) d0 = Done d ->
  fits gval -> flown_boot gval gjunk = Done g ->
  on_after l 1 = true -> on_after l 2 = true ->
  let n := telemetry_bits (on_after l) in
  559 < n < 1677 -> n <> 1118 ->
  exists err, parse_frame lenient (ds_flows g) (firstn (8 * Z.to_nat (ds_size d)) (ds_buf d)) =
    Some (mk_pr (v "pan.cycle_no") (should_report (on_after l) (arriving n v)) err) /\ (err = NoError \/ err = IdIncomplete).
Proof.
  intros F L LV E0 E1 FG EG H1 H2 n HN HN2. destruct (last_cycle _ _ _ _ _ _ _ F L LV E0 E1) as (buf & st & E & -> & ->).
  rewrite (ground_table _ _ _ FG EG). destruct LV as [FV _]. exact (read_frame _ _ _ _ _ _ FV FG H1 H2 E HN HN2).
Qed.

Lemma default_facts : telemetry_bits (default_on flown) = 1114 /\ default_on flown 1 = true /\ default_on flown 2 = true.
Proof. vm_compute. auto. Qed.

Lemma telemetry_ext on on' : (forall id, 1 <= id <= 43 -> on id = on' id) -> telemetry_bits on = telemetry_bits on'.
Proof.
  intros H. unfold telemetry_bits. apply (f_equal (Z.add 32)). 
  assert (X : forall m k w, (k + m <= 43)%nat -> fold_right (fun (p : Z * Z) acc => if on (fst p) then snd p + acc else acc) 0 (combine (map (fun i => Z.of_nat i + 1) (seq k m)) w) =
     fold_right (fun (p : Z * Z) acc => if on' (fst p) then snd p + acc else acc) 0 (combine (map (fun i => Z.of_nat i + 1) (seq k m)) w)).
  { induction m as [|m IH]; intros k w HK; [reflexivity|]. destruct w as [|x w]; [reflexivity|]. cbn [seq map combine fold_right fst snd].
    rewrite (IH (S k) w ltac:(lia)), (H (Z.of_nat k + 1) ltac:(lia)). reflexivity. }
  apply X. lia.
Qed.

Lemma report_ext on on' v : (forall id, 1 <= id <= 43 -> on id = on' id) -> should_report on v = should_report on' v.
Proof.
  intros H. unfold should_report. f_equal. apply filter_ext_in. intros row HR. apply H. apply ids_range. unfold ids. apply in_map_iff. exists row. auto.
Qed.

Lemma first_lost val0 junk l v tog d0 d gval gjunk g recent :
  fits val0 -> Forall legal l -> legal (v, tog) -> flown_boot val0 junk = Done d0 -> flown_run (l ++ [(v, tog)]) d0 = Done d ->
  fits gval -> flown_boot gval gjunk = Done g -> (forall id, 1 <= id <= 43 -> on_after l id = default_on flown id) ->
  process_packet lenient (ds_flows g) recent (firstn 560 (ds_buf d)) = None /\
  process_packet (fun _ => None) (ds_flows g) recent (firstn 560 (ds_buf d)) = None /\ ds_size d = 140.
Proof.
  intros F L LV E0 E1 FG EG HON. assert (LB : length (ds_buf d) = (8 * 554)%nat).
  { destruct (flight val0 junk (l ++ [(v, tog)]) d0 d F) as [_ X]; try assumption. apply Forall_app. split; [exact L|constructor; [exact LV|constructor]]. }
  destruct (last_cycle _ _ _ _ _ _ _ F L LV E0 E1) as (buf & st & E & BB & SZ).
  rewrite (ground_table _ _ _ FG EG). destruct LV as [FV _]. split.
  - rewrite BB. exact (first_packet_lost _ _ _ _ _ _ recent FV FG HON E).
  - split.
    + assert (LP : length (firstn 560 (ds_buf d)) = 560%nat) by (rewrite firstn_length, LB; reflexivity). revert LP. generalize (firstn 560 (ds_buf d)).
      intros pk LP. unfold process_packet, is_first_packet, parse_frame, num_bits_in_packet. rewrite LP. change (Z.to_nat (Z.of_nat 560 / 560)) with 1%nat.
      cbn [strip_headers]. unfold erase_at. rewrite LP. reflexivity.
    + rewrite SZ. rewrite (telemetry_ext _ _ HON). rewrite (proj1 default_facts). reflexivity.
Qed.

(** default flows: both packets together *)
Lemma default_read val0 junk l v tog d0 d gval gjunk g :
  fits val0 -> Forall legal l -> legal (v, tog) -> flown_boot val0 junk = Done d0 -> flown_run (l ++ [(v, tog)]) d0 = Done d ->
  fits gval -> flown_boot gval gjunk = Done g -> (forall id, 1 <= id <= 43 -> on_after l id = default_on flown id) ->
  exists err, parse_frame lenient (ds_flows g) (firstn (8 * 140) (ds_buf d)) =
    Some (mk_pr (v "pan.cycle_no") (should_report (default_on flown) (with_cleared "pan.cycle_no" 2 v)) err) /\ (err = NoError \/ err = IdIncomplete).
Proof.
  intros F L LV E0 E1 FG EG HON. destruct (first_lost _ _ _ _ _ _ _ _ _ _ [] F L LV E0 E1 FG EG HON) as (_ & _ & SZ).
  destruct default_facts as (N & D1 & D2).
  pose proof (frame_read _ _ _ _ _ _ _ _ _ _ F L LV E0 E1 FG EG) as X. cbv zeta in X. rewrite !HON, D1, D2, (telemetry_ext _ _ HON), N in X by lia.
  specialize (X eq_refl eq_refl ltac:(lia) ltac:(lia)). rewrite SZ in X. change (Z.to_nat 140) with 140%nat in X.
  rewrite (report_ext _ _ _ HON) in X. exact X.
Qed.

(** one more flow *)
Definition plus (id : Z) (on : Z -> bool) : Z -> bool := fun i => if i =? id then true else on i.
Lemma plus_facts : forallb (fun i => let id := Z.of_nat i + 1 in default_on flown id ||
  ((1118 <? telemetry_bits (plus id (default_on flown))) && (telemetry_bits (plus id (default_on flown)) <? 1677))) (seq 0 43) = true.
Proof. vm_compute. reflexivity. Qed.

Lemma one_more_size id on : 1 <= id <= 43 -> default_on flown id = false -> (forall i, 1 <= i <= 43 -> on i = if i =? id then true else default_on flown i) ->
  1118 < telemetry_bits on < 1677.
Proof.
  intros HI ND HON. pose proof plus_facts as P. rewrite forallb_forall in P. specialize (P (Z.to_nat (id - 1)) ltac:(apply in_seq; lia)). cbv zeta in P.
  replace (Z.of_nat (Z.to_nat (id - 1)) + 1) with id in P by lia. apply orb_true_iff in P. destruct P as [P|P]; [congruence|]. apply andb_true_iff in P. destruct P as [P1 P2].
  apply Z.ltb_lt in P1, P2. rewrite (telemetry_ext on (plus id (default_on flown))); [split; assumption|]. intros i H. unfold plus. apply HON. exact H.
Qed.
Lemma arriving_all n v : 1118 < n -> arriving n v = with_cleared "time.gps" 25 (with_cleared "pan.cycle_no" 2 v).
Proof.
  intros H. unfold arriving. cbv zeta. replace (559 <? n) with true by (symmetry; apply Z.ltb_lt; lia).
  replace (1118 <? n) with true by (symmetry; apply Z.ltb_lt; lia). reflexivity.
Qed.

Lemma one_more_read val0 junk l v tog d0 d gval gjunk g id :
  fits val0 -> Forall legal l -> legal (v, tog) -> flown_boot val0 junk = Done d0 -> flown_run (l ++ [(v, tog)]) d0 = Done d ->
  fits gval -> flown_boot gval gjunk = Done g -> 1 <= id <= 43 -> default_on flown id = false ->
  (forall i, 1 <= i <= 43 -> on_after l i = if i =? id then true else default_on flown i) ->
  exists err, parse_frame lenient (ds_flows g) (firstn (8 * Z.to_nat (ds_size d)) (ds_buf d)) =
    Some (mk_pr (v "pan.cycle_no") (should_report (on_after l) (with_cleared "time.gps" 25 (with_cleared "pan.cycle_no" 2 v))) err) /\
    (err = NoError \/ err = IdIncomplete).
Proof.
  intros F L LV E0 E1 FG EG HI ND HON. destruct default_facts as (_ & D1 & D2).
  pose proof (one_more_size id (on_after l) HI ND HON) as N.
  assert (O1 : on_after l 1 = true) by (rewrite (HON 1 ltac:(lia)); destruct (1 =? id); [reflexivity|exact D1]).
  assert (O2 : on_after l 2 = true) by (rewrite (HON 2 ltac:(lia)); destruct (2 =? id); [reflexivity|exact D2]).
  revert N. generalize (eq_refl (telemetry_bits (on_after l))). generalize (telemetry_bits (on_after l)) at 1 3 4. intros n EN N.
  pose proof (frame_read _ _ _ _ _ _ _ _ _ _ F L LV E0 E1 FG EG O1 O2) as X. cbv zeta in X. rewrite <- EN in X.
  specialize (X ltac:(lia) ltac:(lia)). rewrite (arriving_all n v (proj1 N)) in X. exact X.
Qed.

Lemma arriving_some n v : 559 < n ->
  arriving n v = if 1118 <? n then with_cleared "time.gps" 25 (with_cleared "pan.cycle_no" 2 v) else with_cleared "pan.cycle_no" 2 v.
Proof. intros H. unfold arriving. cbv zeta. replace (559 <? n) with true by (symmetry; apply Z.ltb_lt; lia). reflexivity. Qed.
Lemma several_read val0 junk l v tog d0 d gval gjunk g :
  fits val0 -> Forall legal l -> legal (v, tog) -> flown_boot val0 junk = Done d0 -> flown_run (l ++ [(v, tog)]) d0 = Done d ->
  fits gval -> flown_boot gval gjunk = Done g -> on_after l 1 = true -> on_after l 2 = true ->
  let n := telemetry_bits (on_after l) in
  559 < n < 1677 -> n <> 1118 ->
  let arrives := if 1118 <? n then with_cleared "time.gps" 25 (with_cleared "pan.cycle_no" 2 v) else with_cleared "pan.cycle_no" 2 v in
  exists err, parse_frame lenient (ds_flows g) (firstn (8 * Z.to_nat (ds_size d)) (ds_buf d)) =
    Some (mk_pr (v "pan.cycle_no") (should_report (on_after l) arrives) err) /\ (err = NoError \/ err = IdIncomplete).
Proof.
  intros F L LV E0 E1 FG EG H1 H2. cbv zeta. intros N1 N2.
  pose proof (frame_read _ _ _ _ _ _ _ _ _ _ F L LV E0 E1 FG EG H1 H2) as X. cbv zeta in X. specialize (X N1 N2).
  rewrite (arriving_some _ v (proj1 N1)) in X. exact X.
Qed.

(** the cycle number and the time that arrive *)
Lemma cc_arriving c : 0 <= c < 2 ^ 32 -> clear 2 (val_bits 32 c) = val_bits 32 (if Z.testbit c 2 then c - 4 else c).
Proof.
  intros H. rewrite clear_val_bits by lia. change (Z.of_nat 2) with 2. rewrite clearbit_sub by lia. destruct (Z.testbit c 2); cbn [Z.b2z]; f_equal; lia.
Qed.

Lemma time_arriving s g s' dest : gser_reach s -> in_telemetry g -> gserialize s g = Some s' ->
  gdeserialize (mk_gser (gs_wn s) (gs_tow s) (gs_ns s) (clear 25 (gs_bits s'))) dest =
  Some (mk_gtime (g_wn g) (if Z.testbit (g_tow g) 14 then g_tow g - 16384 else g_tow g) (g_ns g) true).
Proof.
  intros R G E. pose proof (gser_reach_shape s R) as SH. destruct (gser_bits s g SH G) as (s2 & E2 & EB & _). rewrite E in E2. injection E2 as <-. rewrite EB.
  destruct (gbits_clear g G) as [-> G']. rewrite gbits_read by assumption. do 2 f_equal.
  destruct G as (_ & _ & HT & _). rewrite clearbit_sub by lia. change (2 ^ 14) with 16384. destruct (Z.testbit (g_tow g) 14); cbn [Z.b2z]; lia.
Qed.

(** commands to move and to toggle *)
Lemma report_rows on v tbl : report (combine (map (mkrow on v) tbl) (map (fun row => fst (fst row)) tbl)) = rows_report tbl on v.
Proof.
  unfold report, rows_report. induction tbl as [|row t IH]; [reflexivity|]. cbn [map combine filter fst].
  change (fl_active (mkrow on v row)) with (on (fst (fst row))). destruct (on (fst (fst row))); [|exact IH].
  cbn [map fst snd]. rewrite IH. reflexivity.
Qed.
Lemma move_command val0 junk l d0 d v a b : fits val0 -> Forall legal l -> fits v -> flown_boot val0 junk = Done d0 -> flown_run l d0 = Done d ->
  1 <= a <= 43 -> 1 <= b <= 43 -> a <> b ->
  match dl_execute (v "pan.cycle_no") (mk_ds (reload v (ds_flows d)) (ds_buf d) (ds_size d) a b 0) with
  | Done d' => exchangeable a b = true /\
      report (combine (ds_flows d') (map (fun row => fst (fst row)) (exchanged (Z.min a b) (Z.max a b) flown))) = rows_report (exchanged (Z.min a b) (Z.max a b) flown) (on_after l) v
  | Undef => exchangeable a b = false
  | Abort => False
  end.
Proof.
  intros F L FV E0 E1 HA HB NE. destruct (flight val0 junk l d0 d F L E0 E1) as [[val1 D1] B1].
  destruct (flows_safe (on_after l) v (v "pan.cycle_no") (ds_buf d) FV (fits_cc v FV) B1) as (st & E & LL).
  unfold dl_execute. cbn [ds_flows ds_buf ds_shift1 ds_shift2 ds_toggle]. rewrite D1, reload_flows, E.
  replace ((0 <? a) && (0 <? b)) with true by (symmetry; apply andb_true_iff; split; apply Z.ltb_lt; lia).
  rewrite (shift_flown (on_after l) v a b HA HB NE). destruct (exchangeable a b); cbn [obind]; [|reflexivity].
  change (0 <? 0) with false. cbn [ds_toggle ds_flows]. split; [reflexivity|].
  apply report_rows.
Qed.

Lemma high_ids val0 junk l d0 d v a b t : fits val0 -> Forall legal l -> fits v -> flown_boot val0 junk = Done d0 -> flown_run l d0 = Done d ->
  (0 < a /\ 0 < b /\ (43 < a \/ 43 < b)) \/ (a = 0 /\ b = 0 /\ 43 < t) ->
  dl_execute (v "pan.cycle_no") (mk_ds (reload v (ds_flows d)) (ds_buf d) (ds_size d) a b t) = Abort.
Proof.
  intros F L FV E0 E1 H. destruct (flight val0 junk l d0 d F L E0 E1) as [[val1 D1] B1].
  destruct (flows_safe (on_after l) v (v "pan.cycle_no") (ds_buf d) FV (fits_cc v FV) B1) as (st & E & LL).
  unfold dl_execute. cbn [ds_flows ds_buf ds_shift1 ds_shift2 ds_toggle]. rewrite D1, reload_flows, E.
  destruct H as [(H1 & H2 & H3)|(-> & -> & H3)].
  - replace ((0 <? a) && (0 <? b)) with true by (symmetry; apply andb_true_iff; split; apply Z.ltb_lt; lia).
    unfold shift_flow_priorities. rewrite flows_length. change (Z.of_nat 43) with 43.
    replace ((43 <? a) || (43 <? b)) with true by (symmetry; apply orb_true_iff; destruct H3; [left|right]; apply Z.ltb_lt; lia). reflexivity.
  - change ((0 <? 0) && (0 <? 0)) with false. cbn [obind ds_toggle ds_flows]. replace (0 <? t) with true by (symmetry; apply Z.ltb_lt; lia).
    unfold toggle_flow. rewrite flows_length. change (Z.of_nat 43) with 43. replace (43 <? t) with true by (symmetry; apply Z.ltb_lt; lia). reflexivity.
Qed.

(** every declared field has contents that its serializer can write *)
Definition decl_ok (d : fdecl) : bool :=
  match d with
  | DInt t mn mx None => match iser_make_auto t mn mx with Some _ => true | None => false end
  | DVec mn mx s p => (0 <=? mx) && (mn <? mx) && (0 <? s) && (1 <=? angle_bits mn mx p)%nat && (mx - mn <? 3 * mx)
  | _ => true
  end.
Lemma decls_ok : forallb (fun p => decl_ok (snd p)) registry = true.
Proof. vm_compute. reflexivity. Qed.

From Coq Require Import Reals Lra.
From Verif Require Import FloatSerModel VecSerModel VecSerProofs VecSerMoreProofs QuatSerProofs.
Lemma written_possible n d : lookup registry n = Some d -> exists b, written d b.
Proof.
  intros E. pose proof decls_ok as V. rewrite forallb_forall in V. specialize (V (n, d) (lookup_in _ _ _ E)). cbn [snd] in V.
  destruct d as [|t mn mx [c|]|b|mn mx s p| |]; cbn [decl_ok] in V.
  - exists [true]. constructor.
  - eexists. apply wr_int. apply ir_new.
  - destruct (iser_make_auto t mn mx) eqn:M; [|discriminate]. eexists. eapply wr_auto; [exact M|apply ir_new].
  - eexists. eapply (wr_float b 24 128 prec32 emax32 (b32 0 0) (b32 1 0)). apply fr_new.
  - rewrite !andb_true_iff in V. destruct V as [[[[V1 V2] V3] V4] V5]. apply Z.leb_le in V1. apply Z.ltb_lt in V2, V3, V5. apply Nat.leb_le in V4.
    destruct (general (IZR mn / IZR s) (IZR mx / IZR s) p (SV 1 0 0 false false) (atan (0 / 1))) as (b & EB & _).
    + assert (0 < / IZR s)%R by (apply Rinv_0_lt_compat, IZR_lt; exact V3). apply IZR_lt in V2. unfold Rdiv. apply Rmult_lt_compat_r; lra.
    + assert (0 < / IZR s)%R by (apply Rinv_0_lt_compat, IZR_lt; exact V3). apply IZR_le in V1. unfold Rdiv. apply Rmult_le_pos; lra.
    + rewrite angle_bits_vb2 by assumption. exact V4.
    + unfold vnorm, norm3. cbn [sv_x sv_y sv_z]. replace (1 * 1 + 0 * 0 + 0 * 0)%R with 1%R by ring. rewrite sqrt_1. lra.
    + unfold vphi. cbn [sv_x sv_y]. destruct (Req_EM_T 1 0); [lra|reflexivity].
    + exists b. eapply wr_vec. exact EB.
  - destruct (quat_roundtrip (1, 0, 0, 0)%R) as (b & q & EB & _).
    + unfold norm4r. replace (1 * 1 + 0 * 0 + 0 * 0 + 0 * 0)%R with 1%R by ring. rewrite sqrt_1. lra.
    + exists b. eapply wr_quat. exact EB.
  - destruct gser_make_shape as (s0 & E0 & _). eexists. apply wr_gps. apply pr_new. exact E0.
Qed.

(** the flight build does the same where no assertion fails *)
Lemma flight_same cc d : dl_execute cc d <> Abort -> dl_execute_flight cc d = dl_execute cc d.
Proof.
  unfold dl_execute, dl_execute_flight. cbv zeta. destruct (build_frame _ _ _) as [fs|]; [|reflexivity]. cbn [ds_shift1 ds_shift2 ds_toggle ds_flows ds_buf ds_size].
  assert (S : forall l a b, shift_flow_priorities l a b <> Abort -> shift_flow_flight l a b = shift_flow_priorities l a b).
  { intros l a b. unfold shift_flow_priorities, shift_flow_flight. destruct (_ || _); [congruence|reflexivity]. }
  assert (T : forall l a, toggle_flow l a <> Abort -> toggle_flow_flight l a = toggle_flow l a).
  { intros l a. unfold toggle_flow, toggle_flow_flight. destruct (_ <? a); [congruence|reflexivity]. }
  destruct ((0 <? ds_shift1 d) && (0 <? ds_shift2 d)).
  - intros H. destruct (shift_flow_priorities (ds_flows d) (ds_shift1 d) (ds_shift2 d)) as [l| |] eqn:E.
    + rewrite (S _ _ _ ltac:(rewrite E; discriminate)), E in *. cbn [obind ds_toggle ds_flows] in *.
      destruct (0 <? ds_toggle d); [|reflexivity]. destruct (toggle_flow l (ds_toggle d)) as [l2| |] eqn:E2; [|exfalso; apply H; reflexivity|];
      rewrite (T _ _ ltac:(rewrite E2; discriminate)), E2; reflexivity.
    + exfalso. apply H. reflexivity.
    + rewrite (S _ _ _ ltac:(rewrite E; discriminate)), E. reflexivity.
  - cbn [obind ds_toggle ds_flows]. intros H. destruct (0 <? ds_toggle d); [|reflexivity].
    destruct (toggle_flow (ds_flows d) (ds_toggle d)) as [l2| |] eqn:E2; [|exfalso; apply H; reflexivity|];
    rewrite (T _ _ ltac:(rewrite E2; discriminate)), E2; reflexivity.
Qed.

Lemma sr_of_ids : forallb (fun id => match deserialize (sr_of id) with Some v => v =? id | None => false end) ids = true.
Proof. vm_compute. reflexivity. Qed.
Lemma sr_of_id id : In id ids -> deserialize (sr_of id) = Some id.
Proof.
  intros H. pose proof sr_of_ids as F. rewrite forallb_forall in F. specialize (F id H). destruct (deserialize (sr_of id)); [|discriminate].
  apply Z.eqb_eq in F. congruence.
Qed.
Lemma find_unknown on val id : 43 < id -> find_idx (flows_of on val) id 0 0 = Some 0%nat.
Proof.
  intros H. unfold flows_of. assert (X : forall tbl, (forall row, In row tbl -> In row flown) -> forall i, find_idx (map (mkrow on val) tbl) id i 0 = Some 0%nat).
  { induction tbl as [|row t IH]; intros HI i; [reflexivity|]. cbn [map find_idx].
    assert (R : In (fst (fst row)) ids) by (unfold ids; apply in_map_iff; exists row; split; [reflexivity|apply HI; left; reflexivity]).
    unfold mkrow at 1. cbn [fl_sr]. rewrite sr_of_id by exact R. apply ids_range in R.
    destruct (Z.eqb_spec (fst (fst row)) id); [lia|]. apply IH. intros r Hr. apply HI. right. exact Hr. }
  apply X. auto.
Qed.

Lemma toggle_unknown on val id : 43 < id -> toggle_loop (flows_of on val) id = Some (flows_of on val).
Proof.
  intros H. unfold flows_of. assert (X : forall tbl, (forall row, In row tbl -> In row flown) -> toggle_loop (map (mkrow on val) tbl) id = Some (map (mkrow on val) tbl)).
  { induction tbl as [|row t IH]; intros HI; [reflexivity|]. cbn [map toggle_loop].
    assert (R : In (fst (fst row)) ids) by (unfold ids; apply in_map_iff; exists row; split; [reflexivity|apply HI; left; reflexivity]).
    unfold mkrow at 1. cbn [fl_sr]. rewrite sr_of_id by exact R. apply ids_range in R.
    destruct (Z.eqb_spec (fst (fst row)) id); [lia|]. rewrite IH; [reflexivity|]. intros r Hr. apply HI. right. exact Hr. }
  apply X. auto.
Qed.

Lemma find_named on val a : 0 < a -> find_idx (flows_of on val) a 0 0 = find_idx (flows_of on val) (named a) 0 0.
Proof.
  intros H. unfold named. destruct (Z.ltb_spec 43 a) as [L|L]; [|reflexivity]. rewrite find_unknown by exact L.
  unfold flows_of. assert (X : forall tbl, (forall row, In row tbl -> In row flown) -> (forall row, In row tbl -> fst (fst row) <> 1) -> forall i, find_idx (map (mkrow on val) tbl) 1 i 0 = Some 0%nat).
  { induction tbl as [|row t IH]; intros HI N i; [reflexivity|]. cbn [map find_idx].
    assert (R : In (fst (fst row)) ids) by (unfold ids; apply in_map_iff; exists row; split; [reflexivity|apply HI; left; reflexivity]).
    unfold mkrow at 1. cbn [fl_sr]. rewrite sr_of_id by exact R.
    destruct (Z.eqb_spec (fst (fst row)) 1) as [E|]; [exfalso; exact (N row (or_introl eq_refl) E)|]. apply IH; intros r Hr; [apply HI|apply N]; right; exact Hr. }
  pose proof ids_nodup as ND. unfold ids in ND. rewrite flown_eq in ND |- *.
  assert (HF : forall row, In row (row2 :: others_rows) -> In row flown) by (intros r Hr; rewrite flown_eq; right; exact Hr).
  change (map (mkrow on val) (row1 :: row2 :: others_rows)) with (mkrow on val row1 :: map (mkrow on val) (row2 :: others_rows)).
  cbn [find_idx]. change (fl_sr (mkrow on val row1)) with (sr_of 1). rewrite sr_of_id by (apply ids_range; lia). change (1 =? 1) with true. cbv iota.
  symmetry. apply X; [exact HF|].
  intros row Hr E. inversion ND as [|? ? NI _]; subst. apply NI. rewrite <- E. exact (in_map (fun row : Z * bool * list string => fst (fst row)) (row2 :: others_rows) row Hr).
Qed.

Lemma shift_same on val a : 1 <= a <= 43 -> shift_flow_priorities (flows_of on val) a a = Done (flows_of on val).
Proof.
  intros H. unfold shift_flow_priorities. rewrite flows_length. change (Z.of_nat 43) with 43. replace (43 <? a) with false by (symmetry; apply Z.ltb_ge; lia). cbn [orb].
  assert (X : exists i, find_idx (flows_of on val) a 0 0 = Some i).
  { unfold flows_of. assert (Y : forall tbl, (forall row, In row tbl -> In row flown) -> forall i acc, exists k, find_idx (map (mkrow on val) tbl) a i acc = Some k).
    { induction tbl as [|row t IH]; intros HI i acc; [exists acc; reflexivity|]. cbn [map find_idx].
      assert (R : In (fst (fst row)) ids) by (unfold ids; apply in_map_iff; exists row; split; [reflexivity|apply HI; left; reflexivity]).
      unfold mkrow at 1. cbn [fl_sr]. rewrite sr_of_id by exact R. apply IH. intros r Hr. apply HI. right. exact Hr. }
    apply Y. auto. }
  destruct X as (i & ->). rewrite Nat.ltb_irrefl. reflexivity.
Qed.

Lemma shift_flight_named on val a b : 0 < a -> 0 < b -> shift_flow_flight (flows_of on val) a b = shift_flow_priorities (flows_of on val) (named a) (named b).
Proof.
  intros HA HB. unfold shift_flow_flight, shift_flow_priorities. rewrite <- !find_named by assumption. rewrite flows_length. change (Z.of_nat 43) with 43.
  assert (N : forall c, (43 <? named c) = false) by (intros c; unfold named; destruct (Z.ltb_spec 43 c); apply Z.ltb_ge; lia). rewrite !N. reflexivity.
Qed.

(** in flight: any values of the three fields *)
Lemma flight_command val0 junk l d0 d v a b : fits val0 -> Forall legal l -> fits v -> flown_boot val0 junk = Done d0 -> flown_run l d0 = Done d ->
  0 < a -> 0 < b ->
  match dl_execute_flight (v "pan.cycle_no") (mk_ds (reload v (ds_flows d)) (ds_buf d) (ds_size d) a b 0) with
  | Done d' => (named a = named b \/ exchangeable (named a) (named b) = true) /\
      report (combine (ds_flows d') (map (fun row => fst (fst row)) (moved a b))) = rows_report (moved a b) (on_after l) v
  | Undef => named a <> named b /\ exchangeable (named a) (named b) = false
  | Abort => False
  end.
Proof.
  intros F L FV E0 E1 HA HB. destruct (flight val0 junk l d0 d F L E0 E1) as [[val1 D1] B1].
  destruct (flows_safe (on_after l) v (v "pan.cycle_no") (ds_buf d) FV (fits_cc v FV) B1) as (st & E & LL).
  unfold dl_execute_flight. cbn [ds_flows ds_buf ds_shift1 ds_shift2 ds_toggle]. rewrite D1, reload_flows, E.
  replace ((0 <? a) && (0 <? b)) with true by (symmetry; apply andb_true_iff; split; apply Z.ltb_lt; lia).
  rewrite shift_flight_named by assumption. unfold moved.
  assert (N : forall c, 0 < c -> 1 <= named c <= 43) by (intros c Hc; unfold named; destruct (Z.ltb_spec 43 c); lia).
  destruct (Z.eqb_spec (named a) (named b)) as [EQ|NE].
  - rewrite EQ, shift_same by (apply N; exact HB). cbn [obind]. change (0 <? 0) with false. cbn [ds_toggle ds_flows].
    split; [left; reflexivity|]. apply report_rows.
  - rewrite (shift_flown (on_after l) v (named a) (named b) (N a HA) (N b HB) NE). destruct (exchangeable (named a) (named b)); cbn [obind]; [|split; [exact NE|reflexivity]].
    change (0 <? 0) with false. cbn [ds_toggle ds_flows]. split; [right; reflexivity|]. apply report_rows.
Qed.

Lemma flight_toggle_unknown val0 junk l d0 d v t : fits val0 -> Forall legal l -> fits v -> flown_boot val0 junk = Done d0 -> flown_run l d0 = Done d ->
  43 < t -> dl_execute_flight (v "pan.cycle_no") (mk_ds (reload v (ds_flows d)) (ds_buf d) (ds_size d) 0 0 t) = flown_cycle v 0 d.
Proof.
  intros F L FV E0 E1 H. destruct (flight val0 junk l d0 d F L E0 E1) as [[val1 D1] B1].
  destruct (flows_safe (on_after l) v (v "pan.cycle_no") (ds_buf d) FV (fits_cc v FV) B1) as (st & E & LL).
  unfold flown_cycle, dl_execute_flight, dl_execute. cbn [ds_flows ds_buf ds_shift1 ds_shift2 ds_toggle]. rewrite D1, reload_flows, E.
  change ((0 <? 0) && (0 <? 0)) with false. cbn [obind ds_toggle ds_flows ds_buf ds_size ds_shift1 ds_shift2]. change (0 <? 0) with false.
  replace (0 <? t) with true by (symmetry; apply Z.ltb_lt; lia). unfold toggle_flow_flight. rewrite toggle_unknown by exact H. reflexivity.
Qed.

(** the flight build accepts every table *)
Lemma flight_accepts fds junk : (1 <= length fds <= 255)%nat -> Forall (fun fd => 0 <= fst (fst fd) <= 255) fds ->
  exists st, init_flows_flight fds junk = Done st /\
    map (fun f => deserialize (fl_sr f)) (ds_flows st) = map (fun fd => Some (Z.min (fst (fst fd)) (Z.of_nat (length fds)))) fds /\
    map fl_active (ds_flows st) = map (fun fd => snd (fst fd)) fds /\ map fl_fields (ds_flows st) = map snd fds /\
    length (ds_buf st) = (8 * Z.to_nat (ds_size st))%nat.
Proof.
  intros HN HF. destruct (id_serializer_spec _ HN) as (s0 & E0 & D & A & T & MN & MX & CV & _).
  assert (X : forall l, Forall (fun fd : Z * bool * list (list bool) => 0 <= fst (fst fd) <= 255) l -> exists fl, make_flows_flight (length fds) l = Done fl /\
    map (fun f => deserialize (fl_sr f)) fl = map (fun fd => Some (Z.min (fst (fst fd)) (Z.of_nat (length fds)))) l /\
    map fl_active fl = map (fun fd => snd (fst fd)) l /\ map fl_fields fl = map snd l).
  { clear HF. induction l as [|fd t IH]; intros HL; [exists []; repeat split; reflexivity|]. inversion HL as [|? ? H1 H2]; subst.
    destruct (IH H2) as (fl & E & M1 & M2 & M3). cbn [make_flows_flight]. unfold make_flow_flight at 1. rewrite E0. cbn [bind].
    destruct (roundtrip_exact s0 (fst (fst fd)) D A ltac:(lia)) as (s' & R1 & R2). rewrite R1. cbn [obind]. rewrite E. cbn [obind].
    eexists. split; [reflexivity|]. cbn [map fl_sr fl_active fl_fields]. rewrite M1, M2, M3, R2. split; [|split; reflexivity].
    f_equal. f_equal. unfold clamp. rewrite MN, MX. lia. }
  destruct (X fds HF) as (fl & E & M). unfold init_flows_flight. rewrite E. cbn [obind]. eexists. split; [reflexivity|]. destruct M as (M1 & M2 & M3). split; [exact M1|]. split; [exact M2|]. split; [exact M3|].
  cbn [ds_buf ds_size]. rewrite firstn_length, app_length, repeat_length. lia.
Qed.

Lemma flight_toggle val0 junk l d0 d v t : fits val0 -> Forall legal l -> fits v -> flown_boot val0 junk = Done d0 -> flown_run l d0 = Done d -> 43 < t ->
  dl_execute_flight (v "pan.cycle_no") (mk_ds (reload v (ds_flows d)) (ds_buf d) (ds_size d) 0 0 t) =
  dl_execute_flight (v "pan.cycle_no") (mk_ds (reload v (ds_flows d)) (ds_buf d) (ds_size d) 0 0 0).
Proof.
  intros F L FV E0 E1 H. rewrite (flight_toggle_unknown val0 junk l d0 d v t F L FV E0 E1 H). symmetry. unfold flown_cycle. apply flight_same. fold (flown_cycle v 0 d).
  destruct (flies val0 junk F) as (d1 & E2 & _ & HR). rewrite E0 in E2. apply (f_equal (fun o => match o with Done x => x | _ => d0 end)) in E2. cbv beta iota in E2. subst d1.
  destruct (HR (l ++ [(v, 0)])) as (d2 & R & _).
  - apply Forall_app. split; [exact L|]. constructor; [split; [exact FV|cbn [snd]; lia]|constructor].
  - rewrite run_app, E1 in R. cbn [obind flown_run] in R. destruct (flown_cycle v 0 d); discriminate.
Qed.
