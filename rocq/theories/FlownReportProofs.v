From Coq Require Import String List.
From Verif Require Import Base BitArrayModel BitArrayProofs IntSerModel IntSerSpec IntSerProofs
  DownlinkModel DownlinkSpec DownlinkProofs DownlinkGroundProofs DownlinkTableProofs FlownModel FlownSpec FlownProofs FlownGroundProofs.
Open Scope string_scope.
Open Scope list_scope.
Open Scope Z_scope.
Opaque flown registry.

(** ** clearing a bit of a field *)
Lemma cleared_fits name k val : fits val -> fits (with_cleared name k val).
Proof.
  intros F n d w H1 H2. unfold with_cleared. destruct (String.eqb n name); rewrite ?clear_length; exact (F n d w H1 H2).
Qed.

Lemma cleared_other name k val names : existsb (String.eqb name) names = false -> map (with_cleared name k val) names = map val names.
Proof.
  intros H. apply map_ext_in. intros n Hn. unfold with_cleared. destruct (String.eqb_spec n name) as [->|]; [|reflexivity].
  exfalso. assert (X : existsb (String.eqb name) names = true) by (apply existsb_exists; exists name; split; [exact Hn|apply String.eqb_refl]).
  congruence.
Qed.

Lemma clear_concat name k val a b : fits val -> forallb known (a ++ name :: b) = true -> (k < wid name)%nat ->
  existsb (String.eqb name) a = false -> existsb (String.eqb name) b = false ->
  concat (map (with_cleared name k val) (a ++ name :: b)) = clear (bits_of a + k) (concat (map val (a ++ name :: b))).
Proof.
  intros F K HK HA HB. rewrite forallb_app in K. apply andb_true_iff in K. destruct K as [KA KB].
  cbn [forallb] in KB. apply andb_true_iff in KB. destruct KB as [KN KB].
  rewrite !map_app, !concat_app. cbn [map concat]. rewrite (cleared_other _ _ _ _ HA), (cleared_other _ _ _ _ HB).
  rewrite <- (concat_length val a F KA), clear_app_r. f_equal.
  rewrite clear_app_l by (rewrite (fits_wid val name F KN); exact HK).
  unfold with_cleared. rewrite String.eqb_refl. reflexivity.
Qed.

Definition names1a : list string := ["pan.state"; "pan.deployed"; "pan.sat_designation"; "pan.bootcount"; "pan.deployment.elapsed"].
Definition names2a : list string := ["time.valid"; "orbit.valid"; "cursed"].
Definition names2b : list string := ["orbit.pos"; "orbit.vel"; "attitude_estimator.valid"; "attitude_estimator.ignore_sun_vectors";
  "attitude_estimator.q_body_eci"; "attitude_estimator.L_body"; "rel_orbit.state"].
Definition row1 : Z * bool * list string := (1, true, names1a ++ "pan.cycle_no" :: []).
Definition row2 : Z * bool * list string := (2, true, names2a ++ "time.gps" :: names2b).
Definition others_rows : list (Z * bool * list string) := skipn 2 flown.

Lemma flown_eq : flown = row1 :: row2 :: others_rows.
Proof. vm_compute. reflexivity. Qed.
Lemma others_no_cc : forallb (fun row => negb (existsb (String.eqb "pan.cycle_no") (snd row))) others_rows = true.
Proof. vm_compute. reflexivity. Qed.
Lemma others_no_gps : forallb (fun row => negb (existsb (String.eqb "time.gps") (snd row))) others_rows = true.
Proof. vm_compute. reflexivity. Qed.

Definition tail_of on val : list bool := telemetry (map (mkrow on val) others_rows).
Lemma tail_cleared on val name k : forallb (fun row => negb (existsb (String.eqb name) (snd row))) others_rows = true ->
  tail_of on (with_cleared name k val) = tail_of on val.
Proof.
  intros H. unfold tail_of. f_equal. apply map_ext_in. intros row Hr. unfold mkrow. f_equal. apply cleared_other.
  rewrite forallb_forall in H. specialize (H row Hr). destruct (existsb _ _); [discriminate|reflexivity].
Qed.

Lemma payload_split on val cc : on 1 = true -> on 2 = true ->
  payload cc (flows_of on val) = (cc ++ is_bits (sr_of 1)) ++ concat (map val (snd row1)) ++
    (is_bits (sr_of 2) ++ concat (map val (snd row2)) ++ tail_of on val).
Proof.
  intros H1 H2. unfold payload, flows_of, tail_of, telemetry. rewrite flown_eq. cbn [map flat_map mkrow fl_active]. unfold mkrow at 1 3.
  cbn [fl_active fst snd row1 row2]. rewrite H1, H2. cbn [fl_idbits fl_sr fl_fields]. unfold fl_idbits. cbn [fl_sr]. rewrite <- !app_assoc. reflexivity.
Qed.

Lemma small_facts : forallb known (names1a ++ "pan.cycle_no" :: []) = true /\ forallb known (names2a ++ "time.gps" :: names2b) = true /\
  bits_of names1a = 23%nat /\ bits_of names2a = 3%nat /\ wid "pan.cycle_no" = 32%nat /\ wid "time.gps" = 62%nat /\
  bits_of (snd row1) = 55%nat.
Proof. vm_compute. auto 10. Qed.

Lemma damage_cc on val cc : fits val -> length cc = 32%nat -> on 1 = true -> on 2 = true ->
  clear 63 (payload cc (flows_of on val)) = payload cc (flows_of on (with_cleared "pan.cycle_no" 2 val)).
Proof.
  intros F HC H1 H2. rewrite !payload_split by assumption. destruct small_facts as (K1 & K2 & B1 & B2 & W1 & W2 & B3).
  rewrite (tail_cleared _ _ _ _ others_no_cc).
  replace (map (with_cleared "pan.cycle_no" 2 val) (snd row2)) with (map val (snd row2)) by (symmetry; apply cleared_other; reflexivity).
  cbn [snd row1]. rewrite (clear_concat "pan.cycle_no" 2 val names1a []) by (try assumption; try reflexivity; rewrite W1; lia).
  assert (L : length (cc ++ is_bits (sr_of 1)) = 38%nat).
  { rewrite app_length, HC. rewrite (proj2 (sr_ok 1 ltac:(apply ids_range; lia))). reflexivity. }
  replace 63%nat with (length (cc ++ is_bits (sr_of 1)) + 25)%nat by lia. rewrite clear_app_r. f_equal.
  rewrite B1. apply clear_app_l. rewrite (concat_length val _ F K1). change (bits_of (names1a ++ "pan.cycle_no" :: [])) with (bits_of (snd row1)).
  rewrite B3. lia.
Qed.

Lemma damage_gps on val cc : fits val -> length cc = 32%nat -> on 1 = true -> on 2 = true ->
  clear 127 (payload cc (flows_of on val)) = payload cc (flows_of on (with_cleared "time.gps" 25 val)).
Proof.
  intros F HC H1 H2. rewrite !payload_split by assumption. destruct small_facts as (K1 & K2 & B1 & B2 & W1 & W2 & B3).
  rewrite (tail_cleared _ _ _ _ others_no_gps).
  replace (map (with_cleared "time.gps" 25 val) (snd row1)) with (map val (snd row1)) by (symmetry; apply cleared_other; reflexivity).
  cbn [snd row2]. rewrite (clear_concat "time.gps" 25 val names2a names2b) by (try assumption; try reflexivity; rewrite W2; lia).
  assert (L : length ((cc ++ is_bits (sr_of 1)) ++ concat (map val (snd row1)) ++ is_bits (sr_of 2)) = 99%nat).
  { rewrite !app_length, HC, (concat_length val (snd row1) F K1), (proj2 (sr_ok 1 ltac:(apply ids_range; lia))), (proj2 (sr_ok 2 ltac:(apply ids_range; lia))).
    rewrite B3. reflexivity. }
  set (X := concat (map val (names2a ++ "time.gps" :: names2b))) in *.
  assert (LX : (28 < length X)%nat).
  { unfold X. rewrite (concat_length val _ F K2). apply Nat.ltb_lt. vm_compute. reflexivity. }
  replace ((cc ++ is_bits (sr_of 1)) ++ concat (map val (snd row1)) ++ is_bits (sr_of 2) ++ X ++ tail_of on val)
    with (((cc ++ is_bits (sr_of 1)) ++ concat (map val (snd row1)) ++ is_bits (sr_of 2)) ++ X ++ tail_of on val)
    by (rewrite <- !app_assoc; reflexivity).
  replace 127%nat with (length ((cc ++ is_bits (sr_of 1)) ++ concat (map val (snd row1)) ++ is_bits (sr_of 2)) + 28)%nat by lia.
  rewrite clear_app_r, B2, clear_app_l by exact LX. rewrite <- !app_assoc. reflexivity.
Qed.

(** the contents that arrive *)
Definition arriving (n : Z) (val : string -> list bool) : string -> list bool :=
  let v1 := if 559 <? n then with_cleared "pan.cycle_no" 2 val else val in
  if 1118 <? n then with_cleared "time.gps" 25 v1 else v1.

Lemma arriving_fits n val : fits val -> fits (arriving n val).
Proof. intros F. unfold arriving. cbv zeta. destruct (559 <? n), (1118 <? n); repeat apply cleared_fits; exact F. Qed.

Lemma damaged_payload on val cc n : fits val -> length cc = 32%nat -> on 1 = true -> on 2 = true ->
  damaged n (payload cc (flows_of on val)) = payload cc (flows_of on (arriving n val)).
Proof.
  intros F HC H1 H2. unfold damaged, arriving. cbv zeta.
  destruct (559 <? n), (1118 <? n); rewrite ?damage_cc, ?damage_gps by (try assumption; apply cleared_fits; assumption); reflexivity.
Qed.

(** ** the parser looks only at ids and widths *)
Definition same_shape (f g : flow) : Prop := fl_sr f = fl_sr g /\ map (@length bool) (fl_fields f) = map (@length bool) (fl_fields g).

Lemma find_flow_shape t1 t2 id : Forall2 same_shape t1 t2 ->
  match find_flow t1 id, find_flow t2 id with
  | Some (Some f), Some (Some g) => same_shape f g
  | Some None, Some None => True
  | None, None => True
  | _, _ => False
  end.
Proof.
  induction 1 as [|f g t1 t2 H _ IH]; [exact I|]. cbn [find_flow]. destruct H as [H1 H2]. rewrite H1.
  destruct (deserialize (fl_sr g)); [|exact I]. destruct (_ =? _); [split; assumption|exact IH].
Qed.

Lemma parse_loop_shape t1 t2 s0 : Forall2 same_shape t1 t2 -> forall fuel l found,
  parse_loop fuel s0 t1 l found = parse_loop fuel s0 t2 l found.
Proof.
  intros H. induction fuel as [|k IH]; intros l found; [reflexivity|]. destruct l as [|b l]; [reflexivity|].
  rewrite !parse_loop_step by (cbn [length]; lia). destruct (Nat.ltb _ _); [reflexivity|].
  destruct (deserialize _) as [id|]; [|reflexivity]. destruct (id =? 0); [reflexivity|]. destruct (existsb _ _); [reflexivity|].
  pose proof (find_flow_shape t1 t2 id H) as S. destruct (find_flow t1 id) as [[f|]|], (find_flow t2 id) as [[g|]|]; try contradiction; try reflexivity.
  destruct S as [_ ->]. destruct (take_fields _ _) as [p|]; [|reflexivity]. cbn [bind]. apply IH.
Qed.

Lemma parse_frame_shape eoe t1 t2 bits : Forall2 same_shape t1 t2 -> parse_frame eoe t1 bits = parse_frame eoe t2 bits.
Proof.
  intros H. unfold parse_frame. destruct (strip_headers _ _ _); [|reflexivity]. cbn [bind]. destruct (take 32 l) as [p|]; [|reflexivity]. cbn [bind].
  rewrite (Forall2_len _ _ _ H). destruct (id_serializer _); [|reflexivity]. cbn [bind]. rewrite (parse_loop_shape _ _ _ H). reflexivity.
Qed.

Lemma flows_shape on val on' val' : fits val -> fits val' -> Forall2 same_shape (flows_of on val) (flows_of on' val').
Proof.
  intros F F'. unfold flows_of. apply Forall2_map_l. intros row H. split; [reflexivity|]. unfold mkrow. cbn [fl_fields].
  rewrite !map_map. apply map_ext_in. intros n Hn. rewrite !fits_wid by (try assumption; eapply known_in; eauto). reflexivity.
Qed.

Lemma report_flows on val : report (combine (flows_of on val) ids) = should_report on val.
Proof.
  unfold report, should_report, flows_of, ids. generalize flown. intros tbl. induction tbl as [|row l IH]; [reflexivity|].
  cbn [map combine filter fst]. unfold mkrow at 1. cbn [fl_active]. destruct (on (fst (fst row))); cbn [map fst snd]; rewrite IH; reflexivity.
Qed.

Lemma flows_nonempty on val : flows_of on val <> [].
Proof. intros H. apply (f_equal (@length flow)) in H. rewrite flows_length in H. discriminate. Qed.

(** the whole frame, read on the ground *)
Lemma read_frame on on0 val val0 buf st :
  fits val -> fits val0 -> on 1 = true -> on 2 = true ->
  build_frame (val "pan.cycle_no") (flows_of on val) buf = Some st ->
  let n := telemetry_bits on in
  559 < n < 1677 -> n <> 1118 ->
  exists err, parse_frame lenient (flows_of on0 val0) (firstn (8 * Z.to_nat ((n + (n + 559) / 560 + 7) / 8)) (fs_buf st)) =
    Some (mk_pr (val "pan.cycle_no") (should_report on (arriving n val)) err) /\ (err = NoError \/ err = IdIncomplete).
Proof.
  intros F F0 H1 H2 HB n HN HN2.
  assert (EN : Z.of_nat (length (payload (val "pan.cycle_no") (flows_of on val))) = n) by (apply flows_payload_length; [exact F|apply fits_cc; exact F]).
  destruct (frame_received (val "pan.cycle_no") (flows_of on val) buf st (fits_cc val F) (flows_ok on val F) HB) as (pad & ES).
  { rewrite EN. exact HN. } { rewrite EN. exact HN2. }
  rewrite EN in ES. rewrite (damaged_payload on val _ n F (fits_cc val F) H1 H2) in ES.
  set (bits := firstn (8 * Z.to_nat ((n + (n + 559) / 560 + 7) / 8)) (fs_buf st)) in *.
  rewrite (parse_frame_shape lenient _ (flows_of on (arriving n val)) bits) by (apply flows_shape; [exact F0|apply arriving_fits; exact F]).
  destruct (parse_payload lenient (flows_of on (arriving n val)) ids (val "pan.cycle_no") pad bits) as (s0 & _ & P).
  - rewrite flows_length. apply flows_ids.
  - exact ids_nodup.
  - apply flows_nonempty.
  - apply fits_cc. exact F.
  - exact ES.
  - rewrite report_flows in P. eexists. split; [exact P|]. destruct (_ && _); auto.
Qed.

(** ** the first packet alone, default flows *)
Lemma take_fields_short ws : forall l, (length l < fold_right Nat.add O ws)%nat -> take_fields ws l = None.
Proof.
  induction ws as [|w ws IH]; intros l H; cbn [fold_right] in H; [lia|]. cbn [take_fields]. unfold take.
  destruct (Nat.ltb_spec (length l) w); [reflexivity|]. cbn [bind snd]. rewrite IH; [reflexivity|]. rewrite skipn_length. lia.
Qed.

Lemma parse_loop_overrun n table ids0 s0 : (1 <= n <= 255)%nat ->
  Forall2 (has_id n) table ids0 -> NoDup ids0 -> id_serializer n = Some s0 ->
  forall f id short todo found fuel,
  incl (todo ++ [(f, id)]) (combine table ids0) -> NoDup (map snd (todo ++ [(f, id)])) ->
  (forall p, In p (todo ++ [(f, id)]) -> ~ In (snd p) (map fst found)) ->
  (length short < fold_right Nat.add O (map (@length bool) (fl_fields f)))%nat ->
  parse_loop fuel s0 table (telemetry (map fst todo) ++ fl_idbits f ++ short) found = None.
Proof.
  intros HN F2 ND E0 f id short.
  destruct (id_serializer_spec n HN) as (s1 & E1 & D & A & T & MN & MX & CV & CS & _ & LB).
  rewrite E0 in E1. injection E1 as <-.
  assert (HAS : forall f id, In (f, id) (combine table ids0) -> has_id n f id).
  { clear -F2. intros f id HIN. revert ids0 F2 HIN. induction table as [|g l IH]; intros ids F2 HIN; inversion F2; subst; [contradiction|].
    cbn [combine] in HIN. destruct HIN as [HIN|HIN]; [injection HIN as -> ->; assumption|eapply IH; eauto]. }
  (* one flow at the head of what is left *)
  assert (HEAD : forall f id rest found k, In (f, id) (combine table ids0) -> ~ In id (map fst found) ->
     parse_loop (S k) s0 table (fl_idbits f ++ rest) found =
     bind (take_fields (map (@length bool) (fl_fields f)) rest) (fun p => parse_loop k s0 table (snd p) ((id, fst p) :: found))).
  { intros g i rest found k HI HD. pose proof (HAS g i HI) as HG. destruct (has_id_spec n g i s0 HG E0) as (DF & LF & SF).
    rewrite parse_loop_step by (rewrite app_length; lia).
    destruct (Nat.ltb_spec (length (fl_idbits g ++ rest)) (length (is_bits s0))) as [X|X]; [rewrite app_length in X; lia|].
    rewrite <- LF, firstn_app, Nat.sub_diag, firstn_all, firstn_O, app_nil_r, skipn_app, Nat.sub_diag, skipn_all, skipn_O. cbn [app].
    rewrite SF, DF. pose proof HG as (_ & HR & _). destruct (Z.eqb_spec i 0); [lia|].
    replace (existsb (fun pf => fst pf =? i) found) with false.
    2:{ symmetry. apply not_true_is_false. intros Y. apply existsb_exists in Y. destruct Y as (pf & Y1 & Y2).
        apply Z.eqb_eq in Y2. apply HD. rewrite <- Y2. apply in_map. exact Y1. }
    rewrite (find_flow_spec n table ids0 i g) by assumption. reflexivity. }
  assert (NIL : forall g i rest, In (g, i) (combine table ids0) -> (fl_idbits g ++ rest) <> []).
  { intros g i rest HI X. destruct (has_id_spec n g i s0 (HAS g i HI) E0) as (_ & LF & _).
    apply (f_equal (@length bool)) in X. rewrite app_length in X. cbn [length] in X. lia. }
  induction todo as [|[g i] todo IH]; intros found fuel HI NT HD HS.
  - cbn [map telemetry flat_map app] in *.
    assert (HIN : In (f, id) (combine table ids0)) by (apply HI; left; reflexivity).
    destruct fuel as [|k].
    + pose proof (NIL f id short HIN) as X. destruct (fl_idbits f ++ short); [congruence|reflexivity].
    + rewrite (HEAD f id) by (try exact HIN; apply (HD (f, id)); left; reflexivity). rewrite take_fields_short by exact HS. reflexivity.
  - assert (ET : telemetry (map fst ((g, i) :: todo)) = (if fl_active g then fl_idbits g ++ concat (fl_fields g) else []) ++ telemetry (map fst todo)) by reflexivity.
    rewrite ET. cbn [app map] in HI, NT, HD. cbn [snd] in NT. apply NoDup_cons_iff in NT. destruct NT as [NI NT].
    assert (HI' : incl (todo ++ [(f, id)]) (combine table ids0)) by (intros p Hp; apply HI; right; exact Hp).
    destruct (fl_active g).
    + rewrite <- !app_assoc. assert (HIN : In (g, i) (combine table ids0)) by (apply HI; left; reflexivity).
      destruct fuel as [|k].
      * pose proof (NIL g i (concat (fl_fields g) ++ telemetry (map fst todo) ++ fl_idbits f ++ short) HIN) as X.
        destruct (fl_idbits g ++ concat (fl_fields g) ++ telemetry (map fst todo) ++ fl_idbits f ++ short); [congruence|reflexivity].
      * rewrite (HEAD g i) by (try exact HIN; apply (HD (g, i)); left; reflexivity).
        rewrite take_fields_concat. cbn [bind snd fst]. apply IH; try assumption.
        intros p Hp. cbn [map fst]. intros [X|X]; [apply NI; rewrite X; apply in_map; exact Hp|].
        apply (HD p); [right; exact Hp|exact X].
    + cbn [app]. apply IH; try assumption. intros p Hp. apply HD. right. exact Hp.
Qed.

(** the flows of the table before flow 14, and flow 14 *)
Definition before14 : list (Z * bool * list string) := firstn 13 flown.
Definition row14 : Z * bool * list string := nth 13 flown (0, false, []).
Definition after14 : list (Z * bool * list string) := skipn 14 flown.
Lemma flown_14 : flown = before14 ++ row14 :: after14.
Proof. vm_compute. reflexivity. Qed.
Lemma facts_14 : sum_on (default_on flown) before14 = 513 /\ bits_of (snd row14) = 18%nat /\ default_on flown (fst (fst row14)) = true /\
  telemetry_bits (default_on flown) = 1114 /\ default_on flown 1 = true /\ default_on flown 2 = true.
Proof. vm_compute. auto 10. Qed.

Lemma telemetry_length on val l : fits val -> incl l flown -> Z.of_nat (length (telemetry (map (mkrow on val) l))) = sum_on on l.
Proof.
  intros F. induction l as [|row l IH]; intros HI; [reflexivity|]. unfold telemetry, sum_on in *. cbn [map flat_map fold_right].
  rewrite app_length, Nat2Z.inj_add, IH by (intros x Hx; apply HI; right; exact Hx).
  pose proof (row_packet_size on val row F ltac:(apply HI; left; reflexivity)) as P. rewrite packet_size_length in P.
  unfold mkrow at 1. cbn [fl_active]. destruct (on (fst (fst row))); [rewrite P; lia|cbn [length]; lia].
Qed.

Lemma combine_rows on val l : combine (map (mkrow on val) l) (map (fun r => fst (fst r)) l) = map (fun r => (mkrow on val r, fst (fst r))) l.
Proof. induction l as [|r l IH]; [reflexivity|]. cbn [map combine]. rewrite IH. reflexivity. Qed.

Lemma first_packet_lost on on0 val val0 buf st recent :
  fits val -> fits val0 -> (forall id, 1 <= id <= 43 -> on id = default_on flown id) ->
  build_frame (val "pan.cycle_no") (flows_of on val) buf = Some st ->
  process_packet lenient (flows_of on0 val0) recent (firstn 560 (fs_buf st)) = None.
Proof.
  intros F F0 HON HB.
  destruct facts_14 as (S1 & B14 & ON14 & TB & D1 & D2).
  assert (EO : forall v, flows_of on v = flows_of (default_on flown) v).
  { intros v. unfold flows_of. apply map_ext_in. intros row H. unfold mkrow. f_equal. apply HON. apply ids_range. unfold ids.
    apply (in_map (fun r => fst (fst r))). exact H. }
  rewrite EO in HB. clear HON EO. set (on1 := default_on flown) in *.
  pose proof (fits_cc val F) as HC. set (cc := val "pan.cycle_no") in *.
  assert (EN : Z.of_nat (length (payload cc (flows_of on1 val))) = 1114) by (rewrite flows_payload_length by assumption; exact TB).
  pose proof (frame_slots cc (flows_of on1 val) buf st HC (flows_ok on1 val F) HB) as NTH. cbv zeta in NTH. rewrite EN in NTH.
  specialize (NTH ltac:(lia)).
  destruct (build_frame_ok cc (flows_of on1 val) buf st HC (flows_ok on1 val F) HB) as (L & _ & FIT & _). rewrite EN in FIT.
  change (8 * (frame_length 1114 / 8) + 8) with 1120 in *.
  rewrite (damaged_payload on1 val cc 1114 F HC D1 D2) in NTH.
  assert (F' : fits (arriving 1114 val)) by (apply arriving_fits; exact F). set (val' := arriving 1114 val) in *.
  assert (EN' : Z.of_nat (length (payload cc (flows_of on1 val'))) = 1114) by (rewrite flows_payload_length by assumption; exact TB).
  set (P := payload cc (flows_of on1 val')) in *.
  set (w := firstn 560 (fs_buf st)).
  assert (LW : length w = 560%nat) by (unfold w; rewrite firstn_length; lia).
  destruct (strip_lenient w ltac:(lia)) as (D & ES & ND & LD).
  assert (KE : kept w = removelast w) by (unfold kept; rewrite LW; reflexivity).
  rewrite KE, removelast_length, LW in LD. change (Z.of_nat (560 - 1)) with 559 in LD. change (559 - (559 + 559) / 560) with 558 in LD.
  assert (ED : D = firstn 558 P).
  { apply nth_error_ext. intros j. destruct (Nat.ltb_spec j 558) as [J|J].
    - rewrite ND, KE, nth_error_firstn_lt by exact J. rewrite Nat.div_small by lia. rewrite Nat.add_0_r.
      assert (NE : w <> []) by (intros X; rewrite X in LW; discriminate LW).
      transitivity (nth_error w (j + 1)).
      { rewrite (app_removelast_last false NE) at 2. rewrite nth_error_app1; [reflexivity|]. rewrite removelast_length. lia. }
      unfold w. rewrite nth_error_firstn_lt by lia. rewrite (NTH j (j + 1)%nat) by (rewrite ?Nat.div_small by lia; lia).
      destruct (Nat.ltb_spec j (length (payload cc (flows_of on1 val)))); [reflexivity|lia].
    - transitivity (@None bool); [|symmetry]; apply nth_error_None; [lia|]. rewrite firstn_length. lia. }
  assert (EP : exists short, D = cc ++ telemetry (map (mkrow on1 val') before14) ++ fl_idbits (mkrow on1 val' row14) ++ short /\ length short = 7%nat).
  { pose proof (telemetry_length on1 val' before14 F' ltac:(rewrite flown_14; intros x Hx; apply in_or_app; left; exact Hx)) as LT. rewrite S1 in LT.
    assert (L14 : length (fl_idbits (mkrow on1 val' row14)) = 6%nat).
    { unfold fl_idbits, mkrow. cbn [fl_sr]. apply sr_ok. unfold ids. apply (in_map (fun r => fst (fst r))). rewrite flown_14. apply in_or_app. right. left. reflexivity. }
    exists (firstn 7 (concat (map val' (snd row14)) ++ telemetry (map (mkrow on1 val') after14))).
    assert (EPP : P = (cc ++ telemetry (map (mkrow on1 val') before14) ++ fl_idbits (mkrow on1 val' row14)) ++
       concat (map val' (snd row14)) ++ telemetry (map (mkrow on1 val') after14)).
    { unfold P, payload, flows_of. rewrite flown_14, map_app, flat_map_app. cbn [map flat_map].
      replace (fl_active (mkrow on1 val' row14)) with true by (symmetry; exact ON14). unfold telemetry. rewrite <- !app_assoc. reflexivity. }
    assert (LC : length (concat (map val' (snd row14))) = 18%nat).
    { rewrite concat_length; [exact B14|exact F'|]. pose proof all_known as A. rewrite forallb_forall in A. apply A. rewrite flown_14.
      apply in_or_app. right. left. reflexivity. }
    split.
    - rewrite ED, EPP. rewrite firstn_app.
      rewrite (firstn_all2 (cc ++ _ ++ _)) by (rewrite !app_length; lia).
      replace (558 - length (cc ++ telemetry (map (mkrow on1 val') before14) ++ fl_idbits (mkrow on1 val' row14)))%nat with 7%nat
        by (rewrite !app_length; lia). rewrite <- !app_assoc. reflexivity.
    - rewrite firstn_length, app_length, LC. lia. }
  destruct EP as (short & EP & LS).
  enough (PF : parse_frame lenient (flows_of on0 val0) w = None) by (unfold process_packet, is_first_packet; rewrite PF; reflexivity).
  rewrite (parse_frame_shape lenient _ (flows_of on1 val') w) by (apply flows_shape; assumption).
  unfold parse_frame. rewrite ES. cbn [bind]. rewrite EP. unfold take.
  destruct (Nat.ltb_spec (length (cc ++ telemetry (map (mkrow on1 val') before14) ++ fl_idbits (mkrow on1 val' row14) ++ short)) 32) as [X|X];
    [rewrite app_length in X; lia|]. clear X. cbn [bind fst snd].
  assert (SW : forall r, skipn 32 (cc ++ r) = r).
  { intros r. rewrite <- HC, skipn_app, Nat.sub_diag, skipn_all, skipn_O. reflexivity. }
  rewrite SW, flows_length. destruct (id_serializer_spec 43 ltac:(lia)) as (s0 & E0 & _). rewrite E0. cbn [bind].
  assert (EB : map (mkrow on1 val') before14 = map fst (map (fun r => (mkrow on1 val' r, fst (fst r))) before14)).
  { rewrite map_map. reflexivity. }
  rewrite EB. rewrite (parse_loop_overrun 43 (flows_of on1 val') ids s0 ltac:(lia) (flows_ids on1 val') ids_nodup E0 (mkrow on1 val' row14) (fst (fst row14)));
    [reflexivity| | | |].
  - unfold flows_of, ids. rewrite combine_rows. intros p Hp. rewrite flown_14, map_app. cbn [map].
    apply in_app_or in Hp. apply in_or_app. destruct Hp as [Hp|[<-|[]]]; [left; exact Hp|right; left; reflexivity].
  - rewrite map_app, map_map. cbn [map snd]. pose proof ids_nodup as NDI. unfold ids in NDI. rewrite flown_14, map_app in NDI. cbn [map] in NDI.
    clear -NDI. replace (map (fun r => fst (fst r)) before14 ++ fst (fst row14) :: map (fun r => fst (fst r)) after14)
      with ((map (fun r => fst (fst r)) before14 ++ [fst (fst row14)]) ++ map (fun r => fst (fst r)) after14) in NDI by (rewrite <- app_assoc; reflexivity).
    revert NDI. generalize (map (fun r : Z * bool * list string => fst (fst r)) before14 ++ [fst (fst row14)]). intros a NDI. clear -NDI.
    induction a as [|x a IH]; [constructor|]. cbn [app] in NDI. apply NoDup_cons_iff in NDI. destruct NDI as [N1 N2].
    constructor; [intros X; apply N1; apply in_or_app; left; exact X|exact (IH N2)].
  - intros p Hp [].
  - unfold mkrow. cbn [fl_fields]. rewrite map_map.
    assert (EQ : fold_right Nat.add O (map (fun x => length (val' x)) (snd row14)) = length (concat (map val' (snd row14)))).
    { clear. induction (snd row14) as [|n l IH]; [reflexivity|]. cbn [map fold_right concat]. rewrite app_length, IH. reflexivity. }
    rewrite EQ, concat_length; [rewrite B14, LS; lia|exact F'|]. pose proof all_known as A. rewrite forallb_forall in A. apply A. rewrite flown_14.
    apply in_or_app. right. left. reflexivity.
Qed.
